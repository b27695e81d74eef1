(** Lemmas about SummaryOfMessages and DeleteMessagesBySummaryString. *)
From Verif Require Import Base Spec Spec_Listing Model_Unicode Model_Codec Model_Crand Model_Functions Model_Types Model_Cipher Model_Keys
  Model_Messages Model_Listing Proofs_Functions Proofs_Keys Proofs_KeyOps Proofs_Summary Proofs_Decipher Proofs_Read
  Proofs_Cipher Proofs_Messages Proofs_Radiogram.

Lemma more_used_refl ks : more_used ks ks.
Proof. exists []. intros j. cbn [existsb]. destruct (nth_error ks j); reflexivity. Qed.
Lemma more_used_trans a b c : more_used a b -> more_used b c -> more_used a c.
Proof.
  intros (x & X) (y & Y). exists (x ++ y). intros j. rewrite Y, X, existsb_app.
  destruct (nth_error a j) as [k|]; [|reflexivity]. cbn [option_map]. f_equal.
  destruct (existsb (Nat.eqb j) x), (existsb (Nat.eqb j) y); reflexivity.
Qed.
Lemma more_used_same a b : more_used a b -> same_but_used a b.
Proof.
  intros (js & M). unfold same_but_used. revert b js M. induction a as [|k a IH]; intros b js M.
  - destruct b as [|y b]; [reflexivity|]. specialize (M O). discriminate.
  - destruct b as [|y b]; [specialize (M O); discriminate|]. pose proof (M O) as M0. cbn [nth_error option_map] in M0.
    injection M0 as ->. cbn [map]. f_equal; [match goal with |- context [if ?b then _ else _] => destruct b end; reflexivity|].
    apply (IH b (flat_map (fun j => match j with O => [] | S j => [j] end) js)). intros j. specialize (M (S j)). cbn [nth_error] in M.
    rewrite M. destruct (nth_error a j) as [k0|]; [|reflexivity]. cbn [option_map]. f_equal.
    replace (existsb (Nat.eqb (S j)) js) with (existsb (Nat.eqb j) (flat_map (fun j => match j with O => [] | S j => [j] end) js)); [reflexivity|].
    clear. induction js as [|x js IH]; [reflexivity|]. cbn [flat_map existsb]. rewrite existsb_app, IH.
    destruct x; cbn [existsb Nat.eqb]; [reflexivity|]. rewrite orb_false_r. reflexivity.
Qed.
Lemma more_used_nth a b j k : more_used a b -> nth_error a j = Some k ->
  exists k', nth_error b j = Some k' /\ kid k' = kid k /\ krunes k' = krunes k /\ (kused k = true -> kused k' = true).
Proof.
  intros (js & M) N. specialize (M j). rewrite N in M. cbn [option_map] in M. eexists. split; [exact M|].
  destruct (existsb (Nat.eqb j) js); auto.
Qed.
Lemma more_used_len a b : more_used a b -> length b = length a.
Proof. intros H. apply more_used_same in H. unfold same_but_used in H. apply (f_equal (@length _)) in H. rewrite !map_length in H. auto. Qed.

Section WithUnicode.
Context (U : Uni).

Lemma decipher_more i m t i' m' r t' : mid m <> [] -> decipher U i m t = (i', m', r, t') ->
  i' = set_keys i (i_keys i') /\ more_used (i_keys i) (i_keys i').
Proof.
  intros Hm H. unfold decipher in H. rewrite (ensure_id_has i m t Hm) in H.
  assert (i = set_keys i (i_keys i) /\ more_used (i_keys i) (i_keys i)) as Z0
    by (split; [destruct i; reflexivity|apply more_used_refl]).
  destruct (negb (len (mkeyid m) =? i_groupsize i)); [injection H as <- <- <- <-; exact Z0|].
  destruct (len (mcipher m) <? i_groupsize i); [injection H as <- <- <- <-; exact Z0|].
  destruct (get_key U (mkeyid m) (i_keys i)) as [k0|]; [|injection H as <- <- <- <-; exact Z0].
  destruct (wipe_value (mplain m) t) as [p0 t1].
  destruct (decipher_loop U (i_groupsize i) (i_keys i) (mcipher m) k0 0 new_state [] p0 [k0]) as [[p s] r0].
  destruct r0; injection H as <- <- <- <-; try exact Z0. split; [reflexivity|]. exists s. apply mark_stack_marked.
Qed.

Lemma try_more i m d t i' m' r t' : mid m <> [] -> 0 < i_groupsize i -> store_ok (i_groupsize i) (i_keys i) ->
  try_decipher U i m d t = (i', m', r, t') ->
  (r = Ok tt \/ exists e, r = Err e) /\ i' = set_keys i (i_keys i') /\ more_used (i_keys i) (i_keys i') /\
  tried U (i_groupsize i) (i_keys i) m m' /\ (r <> Ok tt -> i' = i) /\ (d = true -> i' = i /\ m' = m).
Proof.
  intros Hm Hg Hs H.
  destruct (try_decipher_spec U i m d t i' m' r t' Hm (Z.lt_le_incl _ _ Hg) H) as (A & B & C & D).
  destruct (try_frame U _ _ _ _ _ _ _ _ Hm (Z.lt_le_incl _ _ Hg) H) as (_ & F1 & _ & F3 & F4 & F5 & F6 & F7 & F8 & F9).
  split; [exact A|]. split; [exact F1|].
  assert (same_heading m m') as SH by (repeat (split; [assumption|]); assumption).
  destruct (res_cases r) as [->|N].
  - destruct d.
    + destruct (C eq_refl) as (-> & ->). split; [apply more_used_refl|]. split; [split; [exact SH|left; auto]|]. auto.
    + cbv zeta in D. destruct (D eq_refl eq_refl) as (D1 & D2 & D3 & k & D4 & D5 & D6 & D7).
      destruct ((fun M => decipher_more _ _ _ _ _ _ _ M D7) Hm) as (_ & MU). split; [exact MU|].
      split; [|split; [congruence|discriminate]]. split; [exact SH|]. right.
      destruct ((fun M => decipher_total U _ _ _ _ _ _ _ M D7) Hm) as (_ & _ & (pl & Ep)).
      change (map (to_upper U) (filter (fun c => negb (dropped U c)) (mplain m))) with (letters_of U (mplain m)) in *.
      set (ft := letters_of U (mplain m)) in *. set (n := Z.to_nat (i_groupsize i)) in *.
      assert (mcipher m' = skipn n ft) as C2 by (rewrite Ep; reflexivity).
      assert (mkeyid m' = kid k) as K2 by (rewrite Ep; reflexivity).
      assert (letters (firstn n ft)) as LF.
      { apply Forall_forall. intros c Hc. unfold letters in D1. rewrite Forall_forall in D1. apply D1.
        rewrite <- (firstn_skipn n ft). apply in_app_iff. left. exact Hc. }
      assert (kid k = firstn n ft) as Kf.
      { rewrite key_query_letters in D6 by exact LF. rewrite go_string_letters in D6; [exact D6|]. apply (proj2 Hs k D4). }
      split; [exact D3|]. split; [exact D1|]. rewrite K2, C2. split; [rewrite Kf, firstn_skipn; reflexivity|].
      split; [apply (proj2 Hs k D4)|]. exists k. auto.
  - destruct (B N) as (-> & B2 & B3 & _). split; [apply more_used_refl|]. split; [split; [exact SH|left; auto]|].
    split; [auto|]. intros Q. apply C in Q. exact Q.
Qed.

Lemma store_ok_more gs a b : more_used a b -> store_ok gs a -> store_ok gs b.
Proof. intros M. apply same_but_used_store. apply more_used_same, M. Qed.

Lemma tried_refl gs ks m : tried U gs ks m m.
Proof. split; [repeat split|left; auto]. Qed.
Lemma tried_keys gs a b m m' : same_but_used a b -> tried U gs b m m' -> tried U gs a m m'.
Proof.
  intros S (H & [Q|(Q1 & Q2 & Q3 & Q4 & k & Q5 & Q6)]); (split; [exact H|]); [left; exact Q|].
  right. split; [exact Q1|]. split; [exact Q2|]. split; [exact Q3|]. split; [exact Q4|].
  apply In_nth_error in Q5. destruct Q5 as (j & J).
  destruct (same_but_used_nth b a j k (eq_sym S) J) as (k2 & N & E). apply set_used_fields in E.
  exists k2. split; [exact (nth_error_In _ _ N)|]. destruct E as (E & _). congruence.
Qed.

Lemma list_update_app A (a : list A) x y b : list_update (a ++ x :: b) (length a) y = a ++ y :: b.
Proof. induction a as [|z a IH]; [reflexivity|]. cbn [length app list_update]. rewrite IH. reflexivity. Qed.

Lemma list_step_spec i pre m ms t : i_messages i = pre ++ m :: ms -> mid m <> [] -> 0 < i_groupsize i ->
  store_ok (i_groupsize i) (i_keys i) ->
  exists i' m' t', list_step U i (length pre) m t = Ok (i', m', t') /\
    i' = set_messages (set_keys i (i_keys i')) (pre ++ m' :: ms) /\ more_used (i_keys i) (i_keys i') /\
    tried U (i_groupsize i) (i_keys i) m m'.
Proof.
  intros E Hm Hg Hs. unfold list_step.
  assert (forall (i1 : inst) (m1 : msg) (t1 : tape), i1 = set_keys i (i_keys i1) -> more_used (i_keys i) (i_keys i1) -> tried U (i_groupsize i) (i_keys i) m m1 ->
    exists (i' : inst) (m' : msg) (t' : tape), Ok (set_messages i1 (list_update (i_messages i1) (length pre) m1), m1, t1) = Ok (i', m', t') /\
    i' = set_messages (set_keys i (i_keys i')) (pre ++ m' :: ms) /\ more_used (i_keys i) (i_keys i') /\
    tried U (i_groupsize i) (i_keys i) m m') as FIN.
  { intros i1 m1 t1 E1 M1 T1. eexists. exists m1, t1. split; [reflexivity|]. cbn [i_keys set_messages].
    split; [|split; assumption].
    assert (i_messages i1 = pre ++ m :: ms) as E2 by (rewrite E1; exact E). rewrite E2, list_update_app. rewrite E1 at 1. reflexivity. }
  destruct (try_decipher U i m true t) as [[[i1 m1] r1] t1] eqn:T1.
  destruct (try_more _ _ _ _ _ _ _ _ Hm Hg Hs T1) as (A1 & _ & _ & _ & _ & A2). destruct (A2 eq_refl) as (-> & ->).
  assert (i = set_keys i (i_keys i)) as I0 by (destruct i; reflexivity).
  destruct A1 as [->|(e & ->)].
  2:{ apply FIN; [exact I0|apply more_used_refl|apply tried_refl]. }
  destruct (try_decipher U i m false t1) as [[[i2 m2] r2] t2] eqn:T2.
  destruct (try_more _ _ _ _ _ _ _ _ Hm Hg Hs T2) as (B1 & B2 & B3 & B4 & _).
  destruct B1 as [->|(e & ->)]; apply FIN; assumption.
Qed.

Definition tried_if (flt : msg -> bool) gs ks (m m' : msg) : Prop :=
  if flt m then tried U gs ks m m' else m' = m.

Lemma Forall2_imp A B (P Q : A -> B -> Prop) l m : (forall x y, P x y -> Q x y) -> Forall2 P l m -> Forall2 Q l m.
Proof. intros H F. induction F; constructor; auto. Qed.

Lemma list_loop_spec flt ms : forall pre i t, i_messages i = pre ++ ms -> (forall m, In m ms -> mid m <> []) ->
  0 < i_groupsize i -> store_ok (i_groupsize i) (i_keys i) ->
  exists i' sel t' ms', list_loop U flt ms (length pre) i t = Ok (i', sel, t') /\
    i' = set_messages (set_keys i (i_keys i')) (pre ++ ms') /\ more_used (i_keys i) (i_keys i') /\
    Forall2 (tried_if flt (i_groupsize i) (i_keys i)) ms ms' /\
    Forall2 (tried U (i_groupsize i) (i_keys i)) (filter flt ms) sel /\ incl sel ms'.
Proof.
  induction ms as [|m ms IH]; intros pre i t E Hm Hg Hs; cbn [list_loop filter].
  - exists i, [], t, []. split; [reflexivity|]. split; [rewrite <- E; destruct i; reflexivity|].
    split; [apply more_used_refl|]. split; [constructor|]. split; [constructor|]. intros x [].
  - destruct (flt m) eqn:F.
    + destruct (list_step_spec i pre m ms t E (Hm m (or_introl eq_refl)) Hg Hs) as (i1 & m1 & t1 & -> & E1 & M1 & T1).
      cbn [bind].
      assert (i_messages i1 = (pre ++ [m1]) ++ ms) as E2 by (rewrite E1, <- app_assoc; reflexivity).
      assert (i_groupsize i1 = i_groupsize i) as G1 by (rewrite E1; reflexivity).
      destruct (IH (pre ++ [m1]) i1 t1 E2 (fun m' I' => Hm m' (or_intror I')) ltac:(lia) ltac:(rewrite G1; exact (store_ok_more _ _ _ M1 Hs)))
        as (i' & sel & t' & ms' & L & E3 & M3 & F3 & S3 & I3).
      rewrite app_length in L. cbn [length] in L. rewrite Nat.add_1_r in L. rewrite L. cbn [bind].
      exists i', (m1 :: sel), t', (m1 :: ms'). split; [reflexivity|].
      split; [rewrite E3, E1, <- app_assoc; reflexivity|]. split; [exact (more_used_trans _ _ _ M1 M3)|].
      rewrite G1 in *. pose proof (more_used_same _ _ M1) as SB.
      split; [constructor; [unfold tried_if; rewrite F; exact T1|]|].
      * eapply Forall2_imp; [|exact F3]. intros x y. unfold tried_if. destruct (flt x); [|auto]. apply tried_keys, SB.
      * split.
        -- constructor; [exact T1|]. eapply Forall2_imp; [|exact S3]. intros x y. apply tried_keys, SB.
        -- intros x [<-|I']; [left; reflexivity|right; apply I3, I'].
    + destruct (IH (pre ++ [m]) i t) as (i' & sel & t' & ms' & L & E3 & M3 & F3 & S3 & I3).
      { rewrite <- app_assoc. exact E. } { intros m' I'. apply Hm. right. exact I'. } { exact Hg. } { exact Hs. }
      rewrite app_length in L. cbn [length] in L. rewrite Nat.add_1_r in L.
      exists i', sel, t', (m :: ms'). split; [exact L|]. split; [rewrite E3, <- app_assoc; reflexivity|].
      split; [exact M3|]. split; [constructor; [unfold tried_if; rewrite F; reflexivity|exact F3]|].
      split; [exact S3|]. intros x I'. right. apply I3, I'.
Qed.

(** ** Columns *)
Definition to_text (m : msg) : list rune :=
  match mrecipients m with [] => str_nil | l => join [44] (map go_string l) end.
Lemma to_text_eq m : (if 0 <? len (mrecipients m) then join_runes (mrecipients m) [44] else w_nil) = to_text m.
Proof.
  unfold to_text, join_runes, runes_to_strings. destruct (mrecipients m) as [|x l]; [reflexivity|].
  rewrite len_cons. pose proof (len_nonneg _ l). replace (0 <? 1 + len l) with true by lia. apply str_join_eq.
Qed.
Lemma predict_msg_spec c m : 0 <= fst c ->
  fst c <= fst (predict_msg_step c m) /\ snd c <= snd (predict_msg_step c m) /\
  len (to_text m) <= fst (predict_msg_step c m) /\ len (mfrom m) <= snd (predict_msg_step c m).
Proof.
  destruct c as (c2 & c3). intros H. unfold predict_msg_step. cbv zeta. cbn [fst snd] in *. unfold to_text.
  assert (c3 <= (if c3 <? len (mfrom m) then len (mfrom m) else c3) /\
    len (mfrom m) <= (if c3 <? len (mfrom m) then len (mfrom m) else c3)) as (Q1 & Q2)
    by (destruct (c3 <? len (mfrom m)) eqn:B; lia).
  set (v := if c3 <? len (mfrom m) then len (mfrom m) else c3) in *. clearbody v.
  destruct (mrecipients m) as [|x l].
  - change (len (@nil (list rune)) =? 0) with true. cbv iota. change (len str_nil) with 3. destruct (c2 <? 3) eqn:A; lia.
  - pose proof (len_nonneg _ l). replace (len (x :: l) =? 0) with false by (rewrite len_cons; lia).
    rewrite <- str_join_eq. cbn [map].
    pose proof (str_join_len (go_string x) (map go_string l)) as J. rewrite go_string_len, sum_go_string in J.
    pose proof (fold_sum (x :: l) 0) as F. cbn [fold_right] in F. set (kl := fold_left _ (x :: l) 0) in *.
    pose proof (len_nonneg _ (str_join (go_string x :: map go_string l) [44])).
    destruct ((0 <? kl) && (c2 <? kl)) eqn:A; lia.
Qed.
Lemma predict_msg_fold ms : forall c, 0 <= fst c ->
  let r := fold_left predict_msg_step ms c in
  fst c <= fst r /\ snd c <= snd r /\ forall m, In m ms -> len (to_text m) <= fst r /\ len (mfrom m) <= snd r.
Proof.
  induction ms as [|m ms IH]; intros c H; cbv zeta; cbn [fold_left].
  - split; [lia|]. split; [lia|]. intros ? [].
  - destruct (predict_msg_spec c m H) as (A & B & C & D).
    destruct (IH (predict_msg_step c m) ltac:(lia)) as (I1 & I2 & I3). cbv zeta in *.
    split; [lia|]. split; [lia|]. intros m' [<-|Hk]; [lia|apply I3; exact Hk].
Qed.

Lemma summary_messages_lemma dtg digest flt i t : (forall x, len (dtg x) = 12) ->
  (forall m, In m (i_messages i) -> len (mid m) = 4) -> (forall m, In m (i_messages i) -> flt m = true -> mfrom m <> []) ->
  0 < i_groupsize i -> store_ok (i_groupsize i) (i_keys i) ->
  exists i' header lines sel w2 w3, summary_of_messages U dtg digest flt i t = Ok (i', header, lines) /\
    i' = set_messages (set_keys i (i_keys i')) (i_messages i') /\ more_used (i_keys i) (i_keys i') /\
    Forall2 (fun m m' => if flt m then tried U (i_groupsize i) (i_keys i) m m' else m' = m) (i_messages i) (i_messages i') /\
    Forall2 (tried U (i_groupsize i) (i_keys i)) (filter flt (i_messages i)) sel /\ incl sel (i_messages i') /\
    Forall2 (fun m line => exists a, line = a ++ digest (go_string (mplain m) ++ go_string (mcipher m)) /\
      columns [5; 13; w2; w3] [mid m; dtg (mdtg m);
        match mrecipients m with [] => str_nil | l => join [44] (map go_string l) end; mfrom m] a) sel lines /\
    exists h, header = h ++ str_digest /\ columns [5; 13; w2; w3] [str_id; str_dtg; str_to; str_de] h.
Proof.
  intros HD HI HF Hg Hs. unfold summary_of_messages.
  assert (forall m, In m (i_messages i) -> mid m <> []) as HM by (intros m I; specialize (HI m I); intros Q; rewrite Q in HI; discriminate).
  destruct (list_loop_spec flt (i_messages i) [] i t eq_refl HM Hg Hs) as (i' & sel & t' & ms' & L & E & M & F & S0 & I0).
  cbn [length] in L. rewrite L. cbn [bind app] in *.
  assert (i_messages i' = ms') as EM by (rewrite E; reflexivity).
  set (r := fold_left predict_msg_step sel (2, 2)).
  exists i'. do 2 eexists. exists sel, (fst r + 1), (snd r + 1). split; [reflexivity|].
  rewrite EM. split; [exact E|]. split; [exact M|]. split; [exact F|]. split; [exact S0|]. split; [exact I0|].
  destruct (predict_msg_fold sel (2, 2) ltac:(cbn; lia)) as (A & B & C). fold r in A, B, C. cbn [fst snd] in A, B.
  assert (forall m', In m' sel -> len (mid m') = 4 /\ mfrom m' <> []) as HS.
  { clear - S0 HI HF. intros m' I'. remember (filter flt (i_messages i)) as l eqn:EL.
    assert (forall m, In m l -> len (mid m) = 4 /\ mfrom m <> []) as K.
    { intros m J. subst l. apply filter_In in J. destruct J as (J1 & J2). auto. }
    clear EL HI HF. induction S0 as [|x y l sel T S IH]; [destruct I'|]. destruct I' as [<-|I'].
    - destruct T as ((T1 & _ & T2 & _) & _). rewrite T1, T2. apply K. left. reflexivity.
    - apply IH; [exact I'|]. intros m J. apply K. right. exact J. }
  split.
  - assert (forall m, In m sel -> exists a, message_line dtg digest (predict_msg_sizes sel) m =
        a ++ digest (go_string (mplain m) ++ go_string (mcipher m)) /\
        columns [5; 13; fst r + 1; snd r + 1] [mid m; dtg (mdtg m);
        match mrecipients m with [] => str_nil | l => join [44] (map go_string l) end; mfrom m] a) as LN.
    { intros m J. destruct (HS m J) as (K1 & K2). destruct (C m J) as (K3 & K4).
      unfold message_line, predict_msg_sizes. fold r. cbv zeta. cbn [nth]. rewrite to_text_eq.
      pose proof (len_nonneg _ (mfrom m)).
      assert (0 < len (mfrom m)) by (destruct (mfrom m) as [|y fr]; [congruence|rewrite len_cons; pose proof (len_nonneg _ fr); lia]).
      replace (0 <? len (mfrom m)) with true by lia.
      exists (with_padding (mid m) 5 ++ with_padding (dtg (mdtg m)) 13 ++ with_padding (to_text m) (fst r + 1) ++ with_padding (mfrom m) (snd r + 1) ++ []).
      split; [rewrite <- !app_assoc; reflexivity|].
      apply padded_column; [lia|]. apply padded_column; [rewrite HD; lia|]. apply padded_column; [lia|].
      apply padded_column; [lia|]. constructor. }
    revert LN. generalize (message_line dtg digest (predict_msg_sizes sel)). clearbody r. clear. intros g LN.
    induction sel as [|m sel IH]; [constructor|].
    constructor; [apply LN; left; reflexivity|apply IH; intros m' J; apply LN; right; exact J].
  - unfold predict_msg_sizes. fold r. unfold message_headers. cbn [summary_header].
    change (len [73; 68]) with 2. change (len [68; 84; 71]) with 3. change (len [84; 79]) with 2. change (len [68; 69]) with 2.
    exists (str_id ++ repeat 32 3 ++ str_dtg ++ repeat 32 10 ++ str_to ++ repeat 32 (Z.to_nat (fst r - 2 + 1)) ++
      str_de ++ repeat 32 (Z.to_nat (snd r - 2 + 1)) ++ []).
    split; [rewrite <- !app_assoc; reflexivity|].
    constructor; [reflexivity|reflexivity|]. constructor; [reflexivity|reflexivity|].
    constructor; [change (len str_to) with 2; lia|change (len str_to) with 2; lia|].
    constructor; [change (len str_de) with 2; lia|change (len str_de) with 2; lia|constructor].
Qed.

(** ** Deleting by lines *)
Lemma alnum_plain s : Forall alnum s -> forall c, In c s -> is_space U c = false /\ c <> 32 /\ c <> 44.
Proof.
  intros H c I. rewrite Forall_forall in H. specialize (H c I). unfold alnum, is_letter, digit in H.
  unfold is_space, in_latin1. replace ((0 <=? c) && (c <=? 255)) with true by lia. lia.
Qed.
Lemma vetted_id x : x <> [] -> Forall alnum x -> vetted_message_ids U [x] = [x].
Proof.
  intros N A. unfold vetted_message_ids, fields_func. cbn [flat_map].
  rewrite fields_aux_nosep.
  2:{ intros c I. destruct (alnum_plain x A c I) as (_ & P & Q). unfold keeper_sep. lia. }
  cbn [rev app]. destruct x as [|c x]; [congruence|]. cbn [flat_map].
  rewrite trim_none by (intros d D; apply (alnum_plain (c :: x) A d D)).
  rewrite len_cons. pose proof (len_nonneg _ x). replace (0 <? 1 + len x) with true by lia. reflexivity.
Qed.

Lemma delete_lines_lemma lines : forall ms ms' n ids, delete_messages_by_summary U ms lines = (ms', n) -> NoDup (map mid ms) ->
  Forall2 (fun x l => exists y, x <> [] /\ Forall alnum x /\ l = x ++ 32 :: y) ids lines ->
  NoDup (map mid ms') /\ n = len ms - len ms' /\ forall m, In m ms' <-> In m ms /\ ~ In (mid m) ids.
Proof.
  induction lines as [|l lines IH]; intros ms ms' n ids H D F; inversion F as [|x l0 ids0 lines0 (y & X1 & X2 & X3) F0]; subst.
  - cbn [delete_messages_by_summary] in H. injection H as <- <-. split; [exact D|]. split; [lia|]. intros m. cbn [In]. tauto.
  - cbn [delete_messages_by_summary] in H. unfold delete_message_by_string in H.
    assert (cut_space (x ++ 32 :: y) = x) as C.
    { clear - X2. induction x as [|c x IH]; [reflexivity|]. inversion X2; subst. cbn [app cut_space].
      unfold alnum, is_letter, digit in *. replace (c =? 32) with false by lia. rewrite IH by assumption. reflexivity. }
    rewrite C, (vetted_id x X1 X2) in H. destruct (delete_message ms [x]) as [ms1 n1] eqn:E1.
    destruct (delete_msg_lemma _ _ _ _ E1 D) as (D1 & N1 & I1).
    destruct (delete_messages_by_summary U ms1 lines) as [ms2 n2] eqn:E2. injection H as <- <-.
    destruct (IH _ _ _ ids0 E2 D1 F0) as (D2 & N2 & I2). split; [exact D2|]. split; [lia|].
    intros m. rewrite I2, I1. cbn [In]. split; [intros ((A & B) & C0); split; [exact A|]; intros [Q|Q]; [apply B; left; exact Q|exact (C0 Q)]|].
    intros (A & B). split; [split; [exact A|]; intros [Q|[]]; apply B; left; exact Q|]. intros Q. apply B. right. exact Q.
Qed.
End WithUnicode.
