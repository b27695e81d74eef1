(** Properties of the command line program's keys command. *)
From Verif Require Import Base Model_Unicode Model_Functions Model_Crand Model_Types Model_Cipher Model_Keys Model_Import
  Model_Messages Model_Station Model_Persist Model_Listing Model_Cli Spec Spec_Persist Spec_Cli Spec_Listing Spec_CliPfk Spec_Keys
  Spec_CliHist Spec_CliImport Proofs_Cli Proofs_CliRun Proofs_CliCmd Proofs_CliOps Proofs_CliSel Spec_CliSeq Proofs_CliSeq Proofs_CliTop
  Examples Examples_Persist Props_Messages Examples_Cli.

(** ** C45: the filter options mean what the documentation says. *)
(** False of --invalid: a compromised key is not listed. *)
Theorem c45_invalid_refuted : exists r g o f k, store_at ex_lib (r_env r 0) (ko_file o) f ex_path ex_pfk (ex_inst [k]) /\
  ko_list o = true /\ documented_choice uni_id (r_now r) o k /\
  result (cx_keys r g o f) = Ok tt /\ listed (cx_keys r g o f) = [].
Proof.
  set (k := mkKey idA (ex_runes 1 40) [] 0 100 false true []).
  exists cx_plain, cx_g, ck_invalid, (cx_fs (ex_inst [k])), k. split.
  { apply cx_store_at; [reflexivity|]. unfold no_zero_setting, ex_inst. cbn. lia. }
  split; [reflexivity|]. split.
  { right. right. split; [reflexivity|]. split; [reflexivity|]. split; [left; reflexivity|].
    split; [intros _; left; reflexivity|]. split; [discriminate|]. split; [discriminate|]. split; [discriminate|].
    split; discriminate. }
  split; vm_compute; reflexivity.
Qed.
Print Assumptions c45_invalid_refuted.
(** False of --valid n for n > 106751 (292 years): the key listed expires at once. *)
Theorem c45_valid_refuted : exists r g o f k n, store_at ex_lib (r_env r 0) (ko_file o) f ex_path ex_pfk (ex_inst [k]) /\
  ko_list o = true /\ ko_valid o = Some n /\ kexpires k = r_now r + 1 /\ ~ documented_choice uni_id (r_now r) o k /\
  result (cx_keys r g o f) = Ok tt /\ len (listed (cx_keys r g o f)) = 1.
Proof.
  set (k := mkKey idA (ex_runes 1 40) [] 0 8 false false []).
  exists cx_plain, cx_g, (ck_valid 106752), (cx_fs (ex_inst [k])), k, 106752. split.
  { apply cx_store_at; [reflexivity|]. unfold no_zero_setting, ex_inst. cbn. lia. }
  split; [reflexivity|]. split; [reflexivity|]. split; [reflexivity|]. split.
  { intros [H|[(_ & x & [] & _)|(_ & _ & _ & _ & _ & _ & _ & _ & H)]]; [discriminate|].
    destruct (H 106752 eq_refl) as (_ & X). vm_compute in X. discriminate. }
  split; vm_compute; reflexivity.
Qed.
Print Assumptions c45_valid_refuted.
(** Without --invalid, and up to 292 years, it is true. *)
Theorem c45_filter_partial : forall U now o k, ko_invalid o = false ->
  (forall n, ko_valid o = Some n -> -106751 <= n <= 106751) ->
  key_selected U now o k <-> documented_choice U now o k.
Proof. intros U now o k A B. rewrite <- key_selected_spec. exact (c45_filter_lemma U now o k A B). Qed.
Print Assumptions c45_filter_partial.

Example c45_nontrivial :
  let o := mkK ex_path true 0 None false None None [callVQ] false [] false (Some 30) false false false false true false in
  let k := mkKey idA (ex_runes 1 40) [callVQ; callOS] 0 (31 * day + 7) false false [] in
  ko_invalid o = false /\ documented_choice uni_id 7 o k /\
  listed (cx_keys cx_plain cx_g o (cx_fs (ex_inst [k; ex_key idB 1 40 []]))) <> [].
Proof.
  cbv zeta. split; [reflexivity|]. split; [|vm_compute; discriminate].
  apply c45_filter_partial; [reflexivity|intros n H; injection H as <-; lia|]. apply key_selected_spec. vm_compute. reflexivity.
Qed.

(** ** C73: what the filter options select, exactly: every command that takes
    them is stated below in terms of [key_selected]; its --invalid is the opposite
    of the documented one, its --valid counts nanoseconds modulo 2^64. Listing: *)
Theorem c73_list : forall L U dp ds r g o f h p key i chosen, lib_ok L -> store_at L (r_env r 0) (ko_file o) f p key i ->
  (forall k, In k (i_keys i) -> len (kid k) = i_groupsize i) -> (forall x, len (ds x) = 12) ->
  picked (key_selected U (r_now r) o) (i_keys i) chosen ->
  ko_delete o = false -> ko_new o = 0 -> ko_import o = None -> ko_export o = None -> ko_list o = true ->
  let x := cmd_keys L U dp ds r g o f h in
  same_files f (files x) /\ shown x = [] /\
  (result x = Ok tt <-> key_given L (r_env r 0) g key /\ can_read (r_env r 0)) /\
  (result x = Ok tt -> exists w1 w6,
     Forall2 (fun k line => columns [i_groupsize i + 1; w1; 13; 13; 5; 12; w6]
        [kid k; match kkeepers k with [] => str_anonymous | _ => join [44] (map go_string (kkeepers k)) end;
         ds (kcreated k); ds (kexpires k); yes_no (kused k); yes_no (kcompromised k); kcomment k] line)
       chosen (listed x)).
Proof. exact sel_list_lemma. Qed.
Print Assumptions c73_list.

Example c73_nontrivial : (forall k, In k (i_keys cx_inst) -> len (kid k) = i_groupsize cx_inst) /\
  (forall x, len (cx_ds x) = 12) /\ ko_list ck_list = true /\
  picked (key_selected uni_id 7 ck_list) (i_keys cx_inst) ex_keys /\
  result (cx_keys cx_plain cx_g ck_list (cx_fs cx_inst)) = Ok tt /\
  len (listed (cx_keys cx_plain cx_g ck_list (cx_fs cx_inst))) = 4.
Proof.
  split. { intros k [<-|[<-|[<-|[<-|[]]]]]; reflexivity. } split; [intros x; reflexivity|]. split; [reflexivity|]. split.
  { replace ex_keys with (filter (key_filter uni_id 7 ck_list) (i_keys cx_inst)) at 1 by (vm_compute; reflexivity).
    apply picked_filter, key_selected_spec. }
  split; vm_compute; reflexivity.
Qed.

(** ** C75: the keys command changes only keys, only in its file, except for
    the file it exports to. *)
Theorem c75_frame : forall L U dp ds r g o f h p key i, lib_ok L -> no_zero_setting i ->
  path_of L (r_env r 0) (ko_file o) p -> plain_path p -> len key = 32 -> stored L f p key i ->
  disk_ok (r_env r 1) -> disk_ok (r_env r 2) -> disk_ok (r_env r 4) ->
  (forall file, ko_export o = Some file -> ~ path_of L (r_env r 5) file p) ->
  let x := cmd_keys L U dp ds r g o f h in
  (exists ks, stored L (files x) p key (set_keys i ks) /\
     (distinct_ids (to_upper U) (i_keys i) -> distinct_ids (to_upper U) ks)) /\
  (forall q, q <> p -> (forall file, ko_export o = Some file -> ~ path_of L (r_env r 5) file q) -> files x q = f q).
Proof. exact keys_frame_lemma. Qed.
Print Assumptions c75_frame.
(** Exporting to the own file replaces it: keys and messages are lost. *)
Theorem c75_export_own_file_refuted : exists r g o f i i', store_at ex_lib (r_env r 0) (ko_file o) f ex_path ex_pfk i /\
  result (cx_keys r g o f) = Ok tt /\ stored ex_lib (files (cx_keys r g o f)) ex_path ex_pfk i' /\
  len (i_keys i) = 4 /\ len (i_messages i) = 1 /\ i_keys i' = [] /\ i_messages i' = [].
Proof.
  set (o := mkK ex_path false 0 None false None (Some ex_path) [callOS] false [] false None false false false false false true).
  set (r := cx_run (fun _ => cx_typed true) []).
  set (i := ex_store). exists r, cx_g, o, (cx_fs i), i, (mkInst 5 40 110 80 [] [] callOS). split.
  { apply cx_store_at; [reflexivity|]. unfold no_zero_setting, i, ex_store. cbn. lia. }
  split; [vm_compute; reflexivity|]. split; [exists []; vm_compute; reflexivity|].
  split; [reflexivity|]. split; [reflexivity|]. split; reflexivity.
Qed.
Print Assumptions c75_export_own_file_refuted.

Example c75_nontrivial : store_at ex_lib (r_env cx_plain 0) (ko_file (ck_new 2)) (cx_fs cx_inst) ex_path ex_pfk cx_inst /\
  option_map (fun i => len (i_keys i)) (cx_read ex_pfk (files (cx_keys cx_plain cx_g (ck_new 2) (cx_fs cx_inst))) ex_path) = Some 6.
Proof. split; [apply cx_store_at; [reflexivity|apply cx_no_zero]|vm_compute; reflexivity]. Qed.

(** ** C76: keys --new. *)
Theorem c76_new : forall L U dp ds r g o f h p key i, lib_ok L -> store_at L (r_env r 0) (ko_file o) f p key i ->
  0 < i_groupsize i -> 0 <= i_keylength i -> disk_ok (r_env r 2) ->
  ko_delete o = false -> ko_import o = None -> ko_export o = None -> 0 < ko_new o ->
  let x := cmd_keys L U dp ds r g o f h in
  (result x = Ok tt /\ same_other_files p f (files x) /\ exists new,
     stored L (files x) p key (set_keys i (i_keys i ++ new)) /\ len new = ko_new o /\
     (forall k, In k new -> letters (kid k) /\ len (kid k) = i_groupsize i /\ letters (krunes k) /\
       i_keylength i <= len (krunes k) < i_keylength i + i_groupsize i /\
       kused k = false /\ kcompromised k = false /\ kcreated k = r_now r /\ kcomment k = [] /\
       (forall d, ko_expire o = Some d -> dp d = Some (kexpires k)) /\
       (ko_expire o = None -> kexpires k = r_now r + 365 * day) /\
       keepers_named U (ko_keepers o) (i_callsign i) (kkeepers k)) /\
     (forall a k b, new = a ++ k :: b ->
       forall k0, In k0 (i_keys i ++ a) -> ~ same_text (to_upper U) (kid k0) (kid k))) \/
  (result x <> Ok tt /\ same_files f (files x) /\
   (key_given L (r_env r 0) g key -> can_read (r_env r 0) -> can_write (r_env r 2) ->
    (forall d, ko_expire o = Some d -> dp d <> None) -> result x = Panic)).
Proof. exact cli_new_lemma. Qed.
Print Assumptions c76_new.

Example c76_nontrivial : store_at ex_lib (r_env cx_plain 0) (ko_file (ck_new 2)) (cx_fs cx_inst) ex_path ex_pfk cx_inst /\
  result (cx_keys cx_plain cx_g (ck_new 2) (cx_fs cx_inst)) = Ok tt /\
  key_given ex_lib (r_env cx_plain 0) cx_g ex_pfk /\ can_read (r_env cx_plain 0) /\ can_write (r_env cx_plain 2).
Proof.
  split; [apply cx_store_at; [reflexivity|apply cx_no_zero]|]. split; [vm_compute; reflexivity|].
  split; [apply cx_key_given|]. split; repeat split.
Qed.

(** ** C77: keys --delete --yes deletes the keys the options select: false, it
    deletes those given with --id only. Here a used key is to be deleted. *)
Theorem c77_delete_refuted : exists r g o f i k, store_at ex_lib (r_env r 0) (ko_file o) f ex_path ex_pfk i /\
  ko_delete o = true /\ ko_yes o = true /\ In k (i_keys i) /\ documented_choice uni_id (r_now r) o k /\
  result (cx_keys r g o f) = Ok tt /\ stored ex_lib (files (cx_keys r g o f)) ex_path ex_pfk i.
Proof.
  set (k := mkKey idA (ex_runes 1 40) [] 0 100 true false []). set (i := ex_inst [k]).
  exists cx_plain, cx_g, (ck_delete [] true true), (cx_fs i), i, k. split.
  { apply cx_store_at; [reflexivity|]. unfold no_zero_setting, i, ex_inst. cbn. lia. }
  split; [reflexivity|]. split; [reflexivity|]. split; [left; reflexivity|]. split.
  { apply c45_filter_partial; [reflexivity|discriminate|]. apply key_selected_spec. vm_compute. reflexivity. }
  split; [vm_compute; reflexivity|]. exists []. vm_compute. reflexivity.
Qed.
Print Assumptions c77_delete_refuted.
Theorem c77_delete_ids : forall L U dp ds r g o f h p key i, lib_ok L -> store_at L (r_env r 0) (ko_file o) f p key i ->
  distinct_ids (to_upper U) (i_keys i) -> disk_ok (r_env r 1) ->
  ko_delete o = true -> ko_yes o = true -> ko_new o <= 0 -> ko_import o = None -> ko_export o = None ->
  let x := cmd_keys L U dp ds r g o f h in
  (result x = Ok tt /\ same_other_files p f (files x) /\ exists ks, stored L (files x) p key (set_keys i ks) /\
     forall k, In k ks <-> In k (i_keys i) /\
       forall id, In id (vetted_keepers U (ko_ids o)) -> ~ same_text (to_upper U) (kid k) id) \/
  (result x <> Ok tt /\ same_files f (files x) /\
   ~ (key_given L (r_env r 0) g key /\ can_read (r_env r 0) /\ can_write (r_env r 1))).
Proof. exact cli_delete_lemma. Qed.
Print Assumptions c77_delete_ids.

Example c77_nontrivial :
  option_map (fun i => map kid (i_keys i))
    (cx_read ex_pfk (files (cx_keys cx_plain cx_g (ck_delete [idB] true false) (cx_fs cx_inst))) ex_path) = Some [idA; idD; idC].
Proof. vm_compute. reflexivity. Qed.

(** ** C78: keys --delete lists the selected keys and deletes those picked.
    [js]: the positions of the lines picked. *)
Theorem c78_pick : forall L U dp ds r g o f h p key i chosen, lib_ok L -> store_at L (r_env r 0) (ko_file o) f p key i ->
  0 < i_groupsize i -> store_ok (i_groupsize i) (i_keys i) ->
  (forall v, len (ds v) = 12) -> disk_ok (r_env r 1) ->
  ko_delete o = true -> ko_yes o = false -> ko_new o <= 0 -> ko_import o = None -> ko_export o = None ->
  picked (key_selected U (r_now r) o) (i_keys i) chosen ->
  let x := cmd_keys L U dp ds r g o f h in
  exists lines w1 w6,
  Forall2 (fun k line => columns [i_groupsize i + 1; w1; 13; 13; 5; 12; w6]
        [kid k; match kkeepers k with [] => str_anonymous | _ => join [44] (map go_string (kkeepers k)) end;
         ds (kcreated k); ds (kexpires k); yes_no (kused k); yes_no (kcompromised k); kcomment k] line) chosen lines /\
  ((result x = Ok tt /\ same_other_files p f (files x) /\
     ((chosen = [] /\ same_files f (files x)) \/ forall js, r_pick r lines = Some (map (fun j => nth j lines []) js) ->
     exists ks, stored L (files x) p key (set_keys i ks) /\
       forall k, In k ks <-> In k (i_keys i) /\ ~ exists j, In j js /\ nth_error chosen j = Some k)) \/
  (result x <> Ok tt /\ same_files f (files x) /\
   ~ (key_given L (r_env r 0) g key /\ can_read (r_env r 0) /\ can_write (r_env r 1) /\ r_pick r lines <> None))).
Proof. exact sel_pick_lemma. Qed.
Print Assumptions c78_pick.

Example c78_nontrivial : store_ok 5 (i_keys cx_inst) /\ ko_yes (ck_delete [] false false) = false /\
  option_map (fun i => map kid (i_keys i))
    (cx_read ex_pfk (files (cx_keys cx_plain cx_g (ck_delete [] false false) (cx_fs cx_inst))) ex_path) = Some [idD; idB; idC].
Proof. split; [apply store_okb_ok; vm_compute; reflexivity|]. split; [reflexivity|vm_compute; reflexivity]. Qed.

(** ** C80: keys --export. *)
Theorem c80_export : forall L U dp ds r g o f h p key i file q chosen, lib_ok L -> store_at L (r_env r 0) (ko_file o) f p key i ->
  disk_ok (r_env r 5) -> ko_export o = Some file -> path_of L (r_env r 5) file q ->
  ko_delete o = false -> ko_new o <= 0 -> ko_import o = None ->
  picked (key_selected U (r_now r) o) (i_keys i) chosen ->
  let x := cmd_keys L U dp ds r g o f h in
  let agreed := f q = None \/ ko_yes o = true \/ (e_term (r_env r 5) = true /\ e_confirm (r_env r 5) = Some true) in
  same_other_files q f (files x) /\
  ((result x = Ok tt /\ agreed /\
    stored L (files x) q key (mkInst (i_groupsize i) (i_keylength i) (i_columns i) (i_keycolumns i)
      chosen [] (i_callsign i))) \/
   (result x = Ok tt /\ f q <> None /\ ko_yes o = false /\ e_term (r_env r 5) = true /\ e_confirm (r_env r 5) = Some false /\
    files x q = f q) \/
   (result x <> Ok tt /\ files x q = f q /\
    ~ (key_given L (r_env r 0) g key /\ can_read (r_env r 0) /\ can_write (r_env r 5) /\ agreed))).
Proof. exact sel_export_lemma. Qed.
Print Assumptions c80_export.

Definition cx_out : list rune := [47; 116].
Example c80_nontrivial :
  option_map (fun i => (map kid (i_keys i), i_messages i, i_callsign i))
    (cx_read ex_pfk (files (cx_keys cx_plain cx_g (ck_export cx_out false) (cx_fs ex_store))) cx_out)
  = Some ([idA; idB; idC], [], callOS).
Proof. vm_compute. reflexivity. Qed.

(** ** C81: success means that it was done: false of an export the user
    declines. *)
Theorem c81_declined_refuted : exists r g o f file, ko_export o = Some file /\
  store_at ex_lib (r_env r 0) (ko_file o) f ex_path ex_pfk ex_store /\
  result (cx_keys r g o f) = Ok tt /\ files (cx_keys r g o f) file = Some ex_file_old.
Proof.
  exists (cx_run (fun _ => cx_typed false) []), cx_g, (ck_export cx_out false),
    (cx_put ex_path ex_pfk ex_store (fun _ => Some ex_file_old)), cx_out.
  split; [reflexivity|]. split; [apply cx_store_at; [reflexivity|unfold no_zero_setting, ex_store; cbn; lia]|].
  split; vm_compute; reflexivity.
Qed.
Print Assumptions c81_declined_refuted.
Theorem c81_done_partial : forall L U dp ds r g o f h p key i file q chosen, lib_ok L -> store_at L (r_env r 0) (ko_file o) f p key i ->
  disk_ok (r_env r 5) -> ko_export o = Some file -> path_of L (r_env r 5) file q ->
  ko_delete o = false -> ko_new o <= 0 -> ko_import o = None ->
  picked (key_selected U (r_now r) o) (i_keys i) chosen ->
  f q = None \/ ko_yes o = true \/ e_confirm (r_env r 5) <> Some false ->
  result (cmd_keys L U dp ds r g o f h) = Ok tt ->
  stored L (files (cmd_keys L U dp ds r g o f h)) q key
    (mkInst (i_groupsize i) (i_keylength i) (i_columns i) (i_keycolumns i) chosen [] (i_callsign i)).
Proof.
  intros L U dp ds r g o f h p key i file q chosen HL SA D OE PO OD ON OI PK AG R.
  destruct (sel_export_lemma L U dp ds r g o f h p key i file q chosen HL SA D OE PO OD ON OI PK)
    as (_ & [(_ & _ & S)|[(_ & A & B & _ & C & _)|(N & _)]]); [exact S|destruct AG as [?|[?|?]]; congruence|contradiction].
Qed.
Print Assumptions c81_done_partial.

(** ** C82: keys of a file whose key is given by the global options can be
    imported: false, --import asks for a password and uses the default salt. Here
    both files have the same key, given with --salt and --password. *)
Definition cx_word : list rune := [112; 119].
Definition cx_salt : list Z := repeat 34 32.
Definition cx_in : list rune := [47; 117].
Theorem c82_import_refuted : exists r g o f file key, ko_import o = Some file /\ g_password g <> None /\
  key_given ex_lib (r_env r 3) g key /\ e_password (r_env r 3) = g_password g /\
  store_at ex_lib (r_env r 0) (ko_file o) f ex_path key (ex_inst []) /\
  store_at ex_lib (r_env r 3) file f cx_in key cx_inst /\ result (cx_keys r g o f) = Err ErrDecrypt.
Proof.
  set (key := kdf ex_lib cx_word cx_salt).
  exists (cx_run (fun _ => cx_typed true) []), (mkG (Some (hex_encode cx_salt)) None (Some cx_word)), (ck_import cx_in),
    (cx_put cx_in key cx_inst (cx_put ex_path key (ex_inst []) (fun _ => None))), cx_in, key.
  split; [reflexivity|]. split; [discriminate|]. split.
  { exists cx_salt. split; [|reflexivity]. split; [|vm_compute; discriminate]. split; [|vm_compute; reflexivity].
    unfold cx_salt. apply Forall_forall. intros x H. apply repeat_spec in H. subst. unfold byte. lia. }
  split; [reflexivity|]. split.
  { split; [apply cx_path_of|]. split; [apply cx_plain_path|]. split; [vm_compute; reflexivity|].
    split; [unfold no_zero_setting, ex_inst; cbn; lia|]. exists []. vm_compute. reflexivity. }
  split.
  { split; [right; split; [discriminate|split; [intros rest H; discriminate|reflexivity]]|].
    split; [split; [discriminate|intros rest H; discriminate]|]. split; [vm_compute; reflexivity|]. split; [apply cx_no_zero|apply cx_stored]. }
  vm_compute. reflexivity.
Qed.
Print Assumptions c82_import_refuted.
(** What is imported, from which file, and when. [candidates]: the keys of the
    file that are selected and have the right ID length; [asked]: those of them
    whose ID is taken, the user is asked about each. *)
Theorem c82_import : forall L U dp ds r g o f h p key i file q key2 i2 candidates asked, lib_ok L ->
  store_at L (r_env r 0) (ko_file o) f p key i ->
  ko_import o = Some file -> store_at L (r_env r 3) file f q key2 i2 ->
  distinct_ids (to_upper U) (i_keys i) -> distinct_ids (to_upper U) (i_keys i2) -> disk_ok (r_env r 4) ->
  ko_delete o = false -> ko_new o <= 0 -> ko_export o = None ->
  picked (fun k => len (kid k) = i_groupsize i /\ key_selected U (r_now r) o k) (i_keys i2) candidates ->
  picked (fun k => exists k0, In k0 (i_keys i) /\ same_text (to_upper U) (kid k0) (kid k)) candidates asked ->
  let x := cmd_keys L U dp ds r g o f h in
  let password_typed := e_term (r_env r 3) = true /\
    exists w, e_password (r_env r 3) = Some w /\ key2 = kdf L w default_salt in
  same_other_files p f (files x) /\
  ((result x = Ok tt /\ password_typed /\ exists ks added,
    stored L (files x) p key (set_keys i ks) /\ distinct_ids (to_upper U) ks /\
    incl added candidates /\ NoDup added /\
    (forall k', In k' ks ->
       (In k' (i_keys i) /\ forall k, In k added -> ~ same_text (to_upper U) (kid k') (kid k)) \/
       exists k, In k added /\ imported_copy U (i_callsign i) (i_callsign i2) k k') /\
    (forall k', In k' (i_keys i) -> (forall k, In k added -> ~ same_text (to_upper U) (kid k') (kid k)) -> In k' ks) /\
    (forall k, In k added -> exists k', In k' ks /\ imported_copy U (i_callsign i) (i_callsign i2) k k') /\
    (forall k, In k candidates -> ~ In k asked -> In k added) /\
    forall j k, nth_error asked j = Some k ->
      exists b, nth_error (r_answers r) j = Some (Some b) /\ (In k added <-> b = true)) \/
   (result x <> Ok tt /\ files x p = f p /\
    ~ (key_given L (r_env r 0) g key /\ can_read (r_env r 0) /\ password_typed /\ can_read (r_env r 3) /\
       can_write (r_env r 4) /\
       forall j, (j < length asked)%nat -> exists b, nth_error (r_answers r) j = Some (Some b)))).
Proof. exact import_copies_lemma. Qed.
Print Assumptions c82_import.

Definition cx_abc : inst := ex_inst (firstn 3 ex_keys).
Definition cx_pw : list Z := kdf ex_lib cx_word default_salt.
(** The file to import has the keys B and C and a new key D; the user answers
    yes for B and no for C. *)
Example c82_nontrivial :
  let i2 := mkInst 5 40 110 80 [ex_key idB 4 40 [callOS]; ex_key idD 9 40 [callOS]; ex_key idC 5 40 []] [] callVQ in
  let f := cx_put cx_in cx_pw i2 (cx_fs cx_abc) in
  let r := cx_run (fun _ => cx_typed true) [Some true; Some false] in
  distinct_ids (to_upper uni_id) (i_keys i2) /\ stored ex_lib f cx_in cx_pw i2 /\
  option_map (fun i => map (fun k => (kid k, kkeepers k)) (i_keys i))
    (cx_read ex_pfk (files (cx_keys r cx_g (ck_import cx_in) f)) ex_path)
  = Some [(idA, [callVQ]); (idC, [callVQ]); (idB, [callVQ]); (idD, [callVQ])].
Proof.
  cbv zeta. split; [|split; [apply cx_stored|vm_compute; reflexivity]].
  unfold distinct_ids, distinct_texts. cbn. repeat constructor; cbn; intuition discriminate.
Qed.

(** ** C83: keys are handed over from one user to another: one exports keys, the
    other imports the file, typing in the password it was made with. *)
Theorem c83_handover : forall L U dp ds r g o f h p key i file q w
    r2 g2 o2 f2 h2 p2 key2 i2 file2 q2, lib_ok L ->
  store_at L (r_env r 0) (ko_file o) f p key i -> key = kdf L w default_salt ->
  ko_export o = Some file -> path_of L (r_env r 5) file q ->
  ko_delete o = false -> ko_new o <= 0 -> ko_import o = None -> disk_ok (r_env r 5) ->
  let x := cmd_keys L U dp ds r g o f h in
  result x = Ok tt -> (f q = None \/ ko_yes o = true) ->
  distinct_ids (to_upper U) (i_keys i) ->
  f2 q2 = files x q -> path_of L (r_env r2 3) file2 q2 -> plain_path q2 ->
  store_at L (r_env r2 0) (ko_file o2) f2 p2 key2 i2 -> ko_import o2 = Some file2 ->
  ko_delete o2 = false -> ko_new o2 <= 0 -> ko_export o2 = None ->
  key_given L (r_env r2 0) g2 key2 -> can_read (r_env r2 0) -> can_read (r_env r2 3) -> can_write (r_env r2 4) ->
  e_term (r_env r2 3) = true -> e_password (r_env r2 3) = Some w ->
  distinct_ids (to_upper U) (i_keys i2) ->
  (forall k k0, In k (i_keys i) -> In k0 (i_keys i2) -> ~ same_text (to_upper U) (kid k0) (kid k)) ->
  let y := cmd_keys L U dp ds r2 g2 o2 f2 h2 in
  result y = Ok tt /\ exists ks, stored L (files y) p2 key2 (set_keys i2 ks) /\ distinct_ids (to_upper U) ks /\
    let handed k := In k (i_keys i) /\ key_selected U (r_now r) o k /\ len (kid k) = i_groupsize i2 /\
      key_selected U (r_now r2) o2 k in
    incl (i_keys i2) ks /\
    (forall k', In k' ks -> In k' (i_keys i2) \/
       exists k, handed k /\ imported_copy U (i_callsign i2) (i_callsign i) k k') /\
    (forall k, handed k -> exists k', In k' ks /\ imported_copy U (i_callsign i2) (i_callsign i) k k').
Proof. exact cli_handover_lemma. Qed.
Print Assumptions c83_handover.

(** The sender OS has the keys A, B, C (keeper VQ), the receiver VQ the key D. *)
Example c83_nontrivial :
  let r := cx_run (fun _ => cx_typed true) [] in let g := mkG None None (Some cx_word) in
  let f := cx_put ex_path cx_pw cx_abc (fun _ => None) in
  let x := cx_keys r g (ck_export cx_out false) f in
  let f2 := fun q => if list_eq_dec Z.eq_dec q cx_in then files x cx_out
                     else cx_fs (mkInst 5 40 110 80 [ex_key idD 9 40 []] [] callVQ) q in
  result x = Ok tt /\
  option_map (fun i => map (fun k => (kid k, kkeepers k)) (i_keys i))
    (cx_read ex_pfk (files (cx_keys r cx_g (ck_import cx_in) f2)) ex_path)
  = Some [(idD, []); (idA, [callOS]); (idB, [callOS]); (idC, [callOS])].
Proof. cbv zeta. split; vm_compute; reflexivity. Qed.

(** ** C94: operations given together are all done: false of --delete --yes
    with --new, if the store has no key to delete. *)
Theorem c94_delete_new_refuted : exists r g o f i, store_at ex_lib (r_env r 0) (ko_file o) f ex_path ex_pfk i /\
  ko_delete o = true /\ ko_new o = 5 /\ result (cx_keys r g o f) = Ok tt /\
  stored ex_lib (files (cx_keys r g o f)) ex_path ex_pfk i /\ i_keys i = [].
Proof.
  set (o := mkK ex_path false 5 None true None None [] false [idA] false None false false false false false true).
  exists cx_plain, cx_g, o, (cx_fs (ex_inst [])), (ex_inst []). split.
  { apply cx_store_at; [reflexivity|]. unfold no_zero_setting, ex_inst. cbn. lia. }
  split; [reflexivity|]. split; [reflexivity|]. split; [vm_compute; reflexivity|].
  split; [exists []; vm_compute; reflexivity|reflexivity].
Qed.
Print Assumptions c94_delete_new_refuted.

(** If there is a key to delete, the operations of one call do what calls with
    one operation each do: first --delete, then --new, --import, --export and
    --list, up to the first error. *)
Theorem c96_in_turn : forall L U dp ds r g o f p key i, lib_ok L -> store_at L (r_env r 0) (ko_file o) f p key i ->
  key_given L (r_env r 0) g key -> can_read (r_env r 0) ->
  disk_ok (r_env r 1) -> disk_ok (r_env r 2) -> disk_ok (r_env r 4) ->
  (forall file, ko_export o = Some file -> ~ path_of L (r_env r 5) file p) -> deletes U r o i ->
  let x := cmd_keys L U dp ds r g o f [] in
  in_turn (fun o f => cmd_keys L U dp ds r g o f []) f (one_by_one o) (result x) (files x) (listed x).
Proof. exact seq_lemma. Qed.
Print Assumptions c96_in_turn.

(** --delete and --new together: the key is gone, two new ones are there. *)
Example c96_nontrivial :
  let o := mkK ex_path true 2 None true None None [] false [idA] false None false false false false false true in
  deletes uni_id cx_plain o cx_inst /\
  option_map (fun i => (length (i_keys i), map kid (firstn 2 (i_keys i))))
    (cx_read ex_pfk (files (cx_keys cx_plain cx_g o (cx_fs cx_inst))) ex_path) = Some (5%nat, [idD; idB]).
Proof.
  cbv zeta. split; [|vm_compute; reflexivity]. intros _. exists (ex_key idA 3 40 [callVQ]). split; [left; reflexivity|left; reflexivity].
Qed.
