(** C150: the tables of keys and messages, exactly. *)
From Verif Require Import Base Spec Spec_Listing Spec_Tables Model_Unicode Model_Crand Model_Functions Model_Types Model_Cipher Model_Keys
  Model_Messages Model_Listing Proofs_Tables Examples Examples_Persist Examples_Cli Props_Keys.

(** A column is as wide as its title or its widest entry. If there is nothing to
    show, the titles of the table of keys are not separated. *)
Theorem c150_keys : forall dtg gs f ks,
  let shown := filter f ks in
  let w1 := widest 7 (map (fun k => keepers_cell (kkeepers k)) shown) in
  let w6 := widest 0 (map kcomment shown) in
  summary_of_keys dtg gs f ks =
  (match shown with
   | [] => str_id ++ str_keepers ++ str_created ++ str_expires ++ str_used ++ str_compromised ++ str_comment
   | _ => row [gs; w1; 12; 12; 4; 11] [str_id; str_keepers; str_created; str_expires; str_used; str_compromised] ++ str_comment
   end,
   map (fun k => row [gs; w1; 12; 12; 4; 11; w6] [kid k; keepers_cell (kkeepers k); dtg (kcreated k); dtg (kexpires k); yes_no (kused k); yes_no (kcompromised k); kcomment k]) shown).
Proof. exact key_table_lemma. Qed.
Print Assumptions c150_keys.

Theorem c150_messages : forall U dtg digest flt i t,
  (forall m, In m (i_messages i) -> mid m <> []) -> 0 < i_groupsize i -> store_ok (i_groupsize i) (i_keys i) ->
  exists i' sel, Forall2 (tried U (i_groupsize i) (i_keys i)) (filter flt (i_messages i)) sel /\ incl sel (i_messages i') /\
  let w2 := widest 2 (map (fun m => recipients_cell (mrecipients m)) sel) in
  let w3 := widest 2 (map mfrom sel) in
  summary_of_messages U dtg digest flt i t = Ok (i',
    row [4; 12; w2; w3] [str_id; str_dtg; str_to; str_de] ++ str_digest,
    map (fun m => row [4; 12; w2; w3] [mid m; dtg (mdtg m); recipients_cell (mrecipients m); from_cell (mfrom m)] ++
      digest (go_string (mplain m) ++ go_string (mcipher m))) sel).
Proof. exact message_table_lemma. Qed.
Print Assumptions c150_messages.

(** Two keys, one for two stations and one for nobody, with a comment. *)
Definition tx_keys : list key :=
  [mkKey idA (repeat 65 40) [[83; 77]; [83; 65; 54; 77; 87; 65]] 0 9 true false [] ; mkKey idB (repeat 66 40) [] 0 9 false true [79; 75]].
Example c150_keys_applied :
  let '(h, ls) := summary_of_keys ex_dtg 5 (fun _ => true) tx_keys in
  h = row [5; 9; 12; 12; 4; 11] [str_id; str_keepers; str_created; str_expires; str_used; str_compromised] ++ str_comment /\
  ls = [row [5; 9; 12; 12; 4; 11; 2] [idA; [83; 77; 44; 83; 65; 54; 77; 87; 65]; ex_dtg 0; ex_dtg 9; yes_no true; yes_no false; []];
        row [5; 9; 12; 12; 4; 11; 2] [idB; str_anonymous; ex_dtg 0; ex_dtg 9; yes_no false; yes_no true; [79; 75]]].
Proof. rewrite c150_keys. split; reflexivity. Qed.
Example c150_keys_empty : fst (summary_of_keys ex_dtg 5 (fun _ => false) tx_keys) = str_id ++ str_keepers ++ str_created ++ str_expires ++ str_used ++ str_compromised ++ str_comment.
Proof. rewrite c150_keys. reflexivity. Qed.
Example c150_messages_applied : exists i' sel h ls,
  summary_of_messages uni_id cx_ds cx_digest (fun _ => true) ex_store [] = Ok (i', h, ls) /\ length sel = 1%nat /\
  h = row [4; 12; widest 2 (map (fun m => recipients_cell (mrecipients m)) sel); widest 2 (map mfrom sel)] [str_id; str_dtg; str_to; str_de] ++ str_digest.
Proof.
  destruct (c150_messages uni_id cx_ds cx_digest (fun _ => true) ex_store []) as (i' & sel & F & _ & E).
  - intros m H. assert (forallb (fun m => negb (len (mid m) =? 0)) (i_messages ex_store) = true) as Q by (vm_compute; reflexivity).
    rewrite forallb_forall in Q. specialize (Q m H). intros X. rewrite X in Q. discriminate.
  - reflexivity.
  - apply store_okb_ok. vm_compute. reflexivity.
  - exists i', sel. do 2 eexists. split; [exact E|]. split; [|reflexivity]. transitivity (length (filter (fun _ => true) (i_messages ex_store))); [|vm_compute; reflexivity].
    clear - F. induction F; cbn [length]; congruence.
Qed.
