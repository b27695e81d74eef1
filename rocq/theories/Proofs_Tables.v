(** Proofs for C150. *)
From Verif Require Import Base Spec Spec_Listing Spec_Tables Model_Unicode Model_Codec Model_Crand Model_Functions Model_Types Model_Cipher Model_Keys
  Model_Messages Model_Listing Proofs_Functions Proofs_Keys Proofs_KeyOps Proofs_Summary Proofs_Listing.

Lemma widest_max n m l : widest (Z.max n m) l = Z.max n (widest m l).
Proof. unfold widest. induction l as [|x l IH]; [reflexivity|]. cbn [map fold_right]. rewrite IH. lia. Qed.
Lemma widest_cons n x l : widest n (x :: l) = widest (Z.max n (len x)) l.
Proof. rewrite (Z.max_comm n), widest_max. reflexivity. Qed.

Lemma joined_len x l : len (join [44] (map go_string (x :: l))) = fold_left (fun a y => a + (len y + 1)) (x :: l) 0 - 1.
Proof.
  rewrite <- str_join_eq. cbn [map].
  pose proof (str_join_len (go_string x) (map go_string l)) as J. rewrite go_string_len, sum_go_string in J.
  pose proof (fold_sum (x :: l) 0) as F. cbn [fold_right] in F. lia.
Qed.

Lemma predict_step_exact c k : 0 <= fst c -> predict_step c k = (Z.max (fst c) (len (keepers_cell (kkeepers k))), Z.max (snd c) (len (kcomment k))).
Proof.
  destruct c as (c1 & c6). intros H. unfold predict_step, keepers_cell. cbv zeta. cbn [fst snd] in *.
  assert ((if c6 <? len (kcomment k) then len (kcomment k) else c6) = Z.max c6 (len (kcomment k))) as -> by (destruct (c6 <? len (kcomment k)) eqn:B; lia).
  f_equal. destruct (kkeepers k) as [|x l].
  - change (len (@nil (list rune)) =? 0) with true. cbv iota. change (len str_anonymous) with 9. destruct (c1 <? 9) eqn:A; lia.
  - pose proof (len_nonneg _ l). replace (len (x :: l) =? 0) with false by (rewrite len_cons; lia).
    pose proof (joined_len x l) as J. set (kl := fold_left _ (x :: l) 0) in *.
    pose proof (len_nonneg _ (join [44] (map go_string (x :: l)))).
    destruct ((0 <? kl) && (c1 <? kl)) eqn:A; lia.
Qed.
Lemma predict_fold_exact ks : forall c, 0 <= fst c ->
  fold_left predict_step ks c = (widest (fst c) (map (fun k => keepers_cell (kkeepers k)) ks), widest (snd c) (map kcomment ks)).
Proof.
  induction ks as [|k ks IH]; intros c H; [destruct c; reflexivity|]. cbn [fold_left map]. rewrite predict_step_exact by exact H.
  rewrite IH by (cbn [fst]; lia). rewrite !widest_cons. reflexivity.
Qed.
Lemma predict_msg_exact c m : 0 <= fst c -> predict_msg_step c m = (Z.max (fst c) (len (recipients_cell (mrecipients m))), Z.max (snd c) (len (mfrom m))).
Proof.
  destruct c as (c1 & c6). intros H. unfold predict_msg_step, recipients_cell. cbv zeta. cbn [fst snd] in *.
  assert ((if c6 <? len (mfrom m) then len (mfrom m) else c6) = Z.max c6 (len (mfrom m))) as -> by (destruct (c6 <? len (mfrom m)) eqn:B; lia).
  f_equal. destruct (mrecipients m) as [|x l].
  - change (len (@nil (list rune)) =? 0) with true. cbv iota. change (len str_nil_cell) with 3. destruct (c1 <? 3) eqn:A; lia.
  - pose proof (len_nonneg _ l). replace (len (x :: l) =? 0) with false by (rewrite len_cons; lia).
    pose proof (joined_len x l) as J. set (kl := fold_left _ (x :: l) 0) in *.
    pose proof (len_nonneg _ (join [44] (map go_string (x :: l)))).
    destruct ((0 <? kl) && (c1 <? kl)) eqn:A; lia.
Qed.
Lemma predict_msg_fold_exact ms : forall c, 0 <= fst c ->
  fold_left predict_msg_step ms c = (widest (fst c) (map (fun m => recipients_cell (mrecipients m)) ms), widest (snd c) (map mfrom ms)).
Proof.
  induction ms as [|k ms IH]; intros c H; [destruct c; reflexivity|]. cbn [fold_left map]. rewrite predict_msg_exact by exact H.
  rewrite IH by (cbn [fst]; lia). rewrite !widest_cons. reflexivity.
Qed.

Lemma padded w s ws ss : with_padding s (w + 1) ++ row ws ss = row (w :: ws) (s :: ss).
Proof. unfold with_padding, padding. cbn [row]. rewrite <- app_assoc. reflexivity. Qed.
Lemma headed w s rest : s ++ repeat 32 (Z.to_nat (w - len s + 1)) ++ rest = s ++ repeat 32 (Z.to_nat (w + 1 - len s)) ++ rest.
Proof. replace (w - len s + 1) with (w + 1 - len s) by lia. reflexivity. Qed.

Lemma key_table_lemma dtg gs f ks :
  let shown := filter f ks in
  let w1 := widest 7 (map (fun k => keepers_cell (kkeepers k)) shown) in
  let w6 := widest 0 (map kcomment shown) in
  summary_of_keys dtg gs f ks =
  (match shown with
   | [] => str_id ++ str_keepers ++ str_created ++ str_expires ++ str_used ++ str_compromised ++ str_comment
   | _ => row [gs; w1; 12; 12; 4; 11] [str_id; str_keepers; str_created; str_expires; str_used; str_compromised] ++ str_comment
   end,
   map (fun k => row [gs; w1; 12; 12; 4; 11; w6] [kid k; keepers_cell (kkeepers k); dtg (kcreated k); dtg (kexpires k); yes_no (kused k); yes_no (kcompromised k); kcomment k]) shown).
Proof.
  cbv zeta. unfold summary_of_keys. cbv zeta. destruct (filter f ks) as [|k kp]; [reflexivity|].
  rewrite sizes_eq, predict_fold_exact by (cbn; lia). cbn [fst snd].
  set (w1 := widest 7 _). set (w6 := widest 0 _). clearbody w1 w6. f_equal.
  - unfold key_headers. cbn [summary_header row]. rewrite !headed, <- !app_assoc. reflexivity.
  - apply map_ext. intros x. unfold summary_line. cbv zeta. cbn [nth].
    change (if 0 <? len (kkeepers x) then join_runes (kkeepers x) [44] else w_anonymous) with (keeper_text x).
    rewrite keeper_text_spec. change w_anonymous with str_anonymous. fold (keepers_cell (kkeepers x)).
    change (if kused x then w_yes else w_no) with (yes_no (kused x)). change (if kcompromised x then w_yes else w_no) with (yes_no (kcompromised x)).
    rewrite <- (app_nil_r (with_padding (kcomment x) (w6 + 1))). change (@nil rune) with (row [] []).
    change 13 with (12 + 1). change 5 with (4 + 1). rewrite !padded. reflexivity.
Qed.

Section WithUnicode.
Context (U : Uni).
Lemma message_table_lemma dtg digest flt i t :
  (forall m, In m (i_messages i) -> mid m <> []) -> 0 < i_groupsize i -> store_ok (i_groupsize i) (i_keys i) ->
  exists i' sel, Forall2 (tried U (i_groupsize i) (i_keys i)) (filter flt (i_messages i)) sel /\ incl sel (i_messages i') /\
  let w2 := widest 2 (map (fun m => recipients_cell (mrecipients m)) sel) in
  let w3 := widest 2 (map mfrom sel) in
  summary_of_messages U dtg digest flt i t = Ok (i',
    row [4; 12; w2; w3] [str_id; str_dtg; str_to; str_de] ++ str_digest,
    map (fun m => row [4; 12; w2; w3] [mid m; dtg (mdtg m); recipients_cell (mrecipients m); from_cell (mfrom m)] ++
      digest (go_string (mplain m) ++ go_string (mcipher m))) sel).
Proof.
  intros HM Hg Hs. unfold summary_of_messages.
  destruct (list_loop_spec U flt (i_messages i) [] i t eq_refl HM Hg Hs) as (i' & sel & t' & ms' & L & E & M & F & S0 & I0).
  cbn [length] in L. rewrite L. cbn [bind app] in *.
  assert (i_messages i' = ms') as EM by (rewrite E; reflexivity).
  exists i', sel. split; [exact S0|]. split; [rewrite EM; exact I0|]. cbv zeta.
  unfold predict_msg_sizes. cbv zeta. rewrite predict_msg_fold_exact by (cbn; lia). cbn [fst snd].
  set (w2 := widest 2 (map (fun m => recipients_cell (mrecipients m)) sel)). set (w3 := widest 2 (map mfrom sel)). clearbody w2 w3. f_equal. f_equal; [f_equal|].
  - unfold message_headers. cbn [summary_header row]. rewrite !headed, <- !app_assoc. reflexivity.
  - apply map_ext. intros x. unfold message_line. cbv zeta. cbn [nth]. rewrite to_text_eq.
    assert (to_text x = recipients_cell (mrecipients x)) as -> by (unfold to_text, recipients_cell; destruct (mrecipients x); reflexivity).
    assert ((if 0 <? len (mfrom x) then mfrom x else w_nil) = from_cell (mfrom x)) as ->.
    { destruct (mfrom x) as [|y l]; [reflexivity|]. rewrite len_cons. pose proof (len_nonneg _ l). replace (0 <? 1 + len l) with true by lia. reflexivity. }
    unfold with_padding, padding. cbn [row]. rewrite <- !app_assoc. reflexivity.
Qed.
End WithUnicode.
