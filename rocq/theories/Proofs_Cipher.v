(** Lemmas behind C08-C17, C24, C25, C54. *)
From Verif Require Import Base Spec Model_Unicode Model_Diana Model_Codec Model_Crand
  Model_Functions Model_Types Model_Cipher Proofs_Diana Proofs_Codec Proofs_Keys Proofs_Encipher
  Proofs_Decipher Proofs_Read.

Section C.
Context (U : Uni).

(** *** Encipher produces messages *)
Lemma message_same : forall gs ks ks' js p c, same_but_used ks ks' ->
  message gs ks js p c -> message gs ks' js p c.
Proof.
  intros gs ks ks' js p c H M. induction M as [j k s p tl Hk Hs L R T|j k s p j' k' js p' c' Hk Hs L Hk' R M IH].
  - destruct (same_but_used_nth _ _ _ _ H Hk) as (k1 & N & Q). apply set_used_fields in Q.
    destruct Q as (Q1 & Q2 & _). rewrite <- Q2.
    apply message_last with (tl := tl); auto. rewrite Q2. exact L.
  - destruct (same_but_used_nth _ _ _ _ H Hk) as (k1 & N & Q). apply set_used_fields in Q.
    destruct Q as (Q1 & Q2 & _). rewrite <- Q2.
    destruct (same_but_used_nth _ _ _ _ H Hk') as (k2 & N' & Q'). apply set_used_fields in Q'.
    destruct Q' as (Q1' & Q2' & _).
    apply message_next with (k' := k2); auto.
    + rewrite Q2. exact L.
    + rewrite Q1'. exact R.
Qed.

Lemma message_facts : forall gs ks js p c, message gs ks js p c -> letters c /\
  forall j, In j js -> nth_error ks j <> None.
Proof.
  intros gs ks js p c M. induction M as [j k s p tl Hk Hs L R T|j k s p j' k' js p' c' Hk Hs L Hk' R M IH].
  - split; [apply diana_text_letters|]. intros j0 [<-|[]]. congruence.
  - split; [apply letters_app; split; [apply diana_text_letters|apply IH]|].
    intros j0 [<-|Hj]; [congruence|]. apply IH. exact Hj.
Qed.

Lemma marked_used_mark : forall j js ks ks', marked_used js (mark ks j true) ks' ->
  marked_used (j :: js) ks ks'.
Proof.
  intros j js ks ks' H x. rewrite H, nth_error_mark. cbn [existsb].
  rewrite (Nat.eqb_sym x j). destruct (Nat.eqb j x); [|reflexivity].
  cbn [orb]. destruct (nth_error ks x) as [k|]; [|reflexivity].
  cbn. destruct (existsb (Nat.eqb x) js); reflexivity.
Qed.

Lemma encipher_message : uni_ok U -> forall i m t i' m' t', 0 < i_groupsize i ->
  store_ok (i_groupsize i) (i_keys i) ->
  mcipher m = [] \/ (mid m <> [] /\ (length (mcipher m) <= length t)%nat) ->
  encipher U i m t = (i', m', Ok tt, t') ->
  exists j js k,
    message (i_groupsize i) (i_keys i) (j :: js) (map canon (mplain m)) (mcipher m') /\
    Forall accepted (mplain m) /\ mplain m <> [] /\
    nth_error (i_keys i) j = Some k /\ mkeyid m' = kid k /\ kused k = false /\
    NoDup js /\
    (forall x, In x js -> exists k, nth_error (i_keys i) x = Some k /\
       eligible (i_groupsize i) (mrecipients m) k) /\
    (mkeyid m = [] /\ mcipher m = [] /\ eligible (i_groupsize i) (mrecipients m) k /\ ~ In j js /\
       marked_used (j :: js) (i_keys i) (i_keys i')
     \/ mkeyid m = kid k /\ kcompromised k = false /\ marked_used js (i_keys i) (i_keys i')) /\
    i' = set_keys i (i_keys i') /\ (len (mcipher m')) mod (i_groupsize i) = 0 /\ mcipher m' <> [] /\
    (mplain m' = mplain m /\ mrecipients m' = mrecipients m /\ mfrom m' = mfrom m /\
     mdtg m' = mdtg m /\ mradiogram m' = mradiogram m /\ (mid m <> [] -> mid m' = mid m)).
Proof.
  intros HU i m t i' m' t' Hg Hs Hc H.
  destruct (encipher_ok U HU i m t i' m' t' Hg Hs H) as
    (k0 & k & ks1 & picked & chunks & last & w & p1 & p2 & st & n & c0 & all &
     E1 & E2 & E3 & E4 & E5 & E6 & E7 & E8 & E9 & E10 & E11 & E12 & E13 & E14 & E15 & E16 & E17 & E18 & E19 & E20 & E21).
  specialize (E20 Hc). subst c0. cbn [app] in E17.
  set (gs := i_groupsize i) in *.
  assert (H1 : ks1 = mark (i_keys i) k0 true \/ ks1 = i_keys i) by tauto.
  assert (SB1 : same_but_used (i_keys i) ks1).
  { destruct H1 as [->| ->]; [apply same_but_used_sym, same_but_used_mark|apply same_but_used_refl]. }
  assert (Hs1 : store_ok gs ks1) by (apply (same_but_used_store _ _ _ SB1 Hs)).
  assert (LEN : forall c, In c all -> exists kc, nth_error ks1 (ch_key c) = Some kc /\
                  (length (ch_text c) <= length (krunes kc))%nat).
  { intros c Hin. destruct (E18 c Hin) as (_ & kc & K1 & K2).
    destruct (same_but_used_nth _ _ _ _ SB1 K1) as (kc' & N & Q). exists kc'. split; [exact N|].
    apply set_used_fields in Q. destruct Q as (_ & Q & _). rewrite Q. exact K2. }
  assert (CI : mcipher m' = flat_map (chunk_cipher ks1) all).
  { rewrite E17. apply flat_map_ext_in. intros c _. apply chunk_cipher_same. exact SB1. }
  assert (CL : len (mcipher m') = total_len all).
  { rewrite CI. apply cipher_length. exact LEN. }
  assert (M : message gs ks1 (map ch_key chunks ++ [last]) (map canon (mplain m)) (mcipher m')).
  { rewrite CI, E14, E16, flat_map_app.
    apply chain_message with (U := U) (k0 := k0); auto.
    - intros kk Hkk. apply (proj2 Hs1 kk Hkk).
    - intros c Hin. apply LEN. rewrite E16. apply in_app_iff. left. exact Hin.
    - cbn [flat_map]. rewrite app_nil_r. unfold chunk_cipher. cbn [ch_key ch_text].
      destruct (LEN (mkChunk (w ++ repeat 90 n) last)) as (kc & L1 & L2).
      { rewrite E16. apply in_app_iff. right. left. reflexivity. }
      cbn [ch_key ch_text] in L1, L2. rewrite L1.
      apply message_last with (tl := None); auto.
      + apply letters_app. split; [exact E13|]. apply Forall_forall. intros x Hx.
        apply repeat_spec in Hx. subst x. unfold is_letter. lia.
      + apply (read_last U w p2 st n); assumption. }
  rewrite E6 in M.
  assert (ELIG : forall x, In x picked -> exists k, nth_error (i_keys i) x = Some k /\
       eligible gs (mrecipients m) k).
  { intros x Hx. destruct (proj2 E7 x Hx) as (kx & K1 & K2).
    destruct E5 as [(_ & _ & _ & ->)|(_ & _ & ->)]; [|eauto].
    rewrite nth_error_mark in K1. destruct (Nat.eqb k0 x) eqn:Ex; [|eauto].
    destruct (nth_error (i_keys i) x); [|discriminate]. injection K1 as <-.
    destruct K2 as (K2 & _). discriminate. }
  exists k0, picked, k. split; [apply (message_same gs ks1); [apply same_but_used_sym; exact SB1|exact M]|].
  split; [exact E15|]. split; [exact E4|]. split; [exact E1|]. split; [exact E3|]. split; [exact E2|].
  split; [apply E7|]. split; [exact ELIG|].
  split.
  { destruct E5 as [(A1 & A2 & A3 & A4)|(A1 & A2 & A3)].
    - left. repeat (split; [assumption|]). split.
      + intros Hin. destruct (proj2 E7 k0 Hin) as (kx & K1 & K2 & _). rewrite A4, nth_error_mark, Nat.eqb_refl, E1 in K1.
        injection K1 as <-. discriminate.
      + apply marked_used_mark. rewrite <- A4. exact E8.
    - right. repeat (split; [assumption|]). rewrite <- A3. exact E8. }
  split; [exact E9|]. split; [rewrite CL; exact E19|]. split; [|exact E21].
  intros Q. rewrite Q in M. 
  assert (P : map canon (mplain m) = []).
  { clear -M. remember (k0 :: picked) as js. remember [] as c eqn:Ec.
    destruct M as [j kk s p tl Hk Hs L R T|j kk s p j' k' js p' c' Hk Hs L Hk' R M].
    - destruct s; [cbn in R; congruence|]. destruct (krunes kk); [cbn in L; lia|discriminate].
    - destruct s; [cbn in R; congruence|]. destruct (krunes kk); [cbn in L; lia|discriminate]. }
  destruct (mplain m); [congruence|discriminate].
Qed.

(** *** Decipher is total *)
Definition tab_ok (st : codec_state) : Prop :=
  (cs_table st = 0 \/ cs_table st = 1) /\ cs_numberOfTables st = 2.

Lemma decode_total : forall st c o, tab_ok st ->
  match decode_character U st c o with
  | Ok (st', _) => tab_ok st'
  | Err _ => True
  | _ => False
  end.
Proof.
  intros [ki tb nt cc g kc sh bi ln] c o (Ht & Hn). cbn in Ht, Hn. subst nt.
  unfold decode_character. destruct ((c <? 65) || (90 <? c)); [exact I|].
  cbn [cs_binary cs_gotChangeKeyChar]. destruct bi; [exact I|].
  assert (T : tab_ok (if g then set_change (mkCS ki tb 2 cc g kc sh false ln) false true
                     else mkCS ki tb 2 cc g kc sh false ln)).
  { destruct g; unfold tab_ok; cbn; auto. }
  set (st1 := if g then _ else _) in *.
  destruct (cs_keyChange st1); [exact T|].
  assert (N : exists tab, nth_error character_tables (Z.to_nat (cs_table st1)) = Some tab).
  { destruct T as ([-> | ->] & _); eexists; reflexivity. }
  destruct N as (tab & ->).
  destruct (nth_error tab (Z.to_nat (c - 65))) as [ch|]; [|exact I].
  destruct T as (T1 & T2).
  assert (NT : tab_ok (fst (next_table st1 None))).
  { unfold next_table. cbn [out_nil]. unfold tab_ok. cbn. rewrite T2.
    split; [|reflexivity]. destruct T1 as [-> | ->]; cbn; auto. }
  destruct (ch =? specialOpChar).
  - destruct (cs_table st1 =? primaryTable).
    + destruct (c =? nextTableChar); [exact NT|exact I].
    + destruct (cs_table st1 =? secondaryTable); [|exact I].
      destruct (c =? binaryToggleChar); [cbn; unfold tab_ok; cbn; auto|].
      destruct (c =? caseToggleChar); [cbn; unfold tab_ok; cbn; auto|].
      destruct (c =? changeKeyChar); [unfold tab_ok; cbn; auto|].
      destruct (c =? nextTableChar); [exact NT|exact I].
  - unfold tab_ok; cbn; auto.
Qed.

Lemma get_key_loop_valid : forall q ks i j, get_key_loop q ks i = Some j ->
  (i <= j < i + length ks)%nat.
Proof.
  intros q ks. induction ks as [|k ks IH]; intros i j H; [discriminate|].
  cbn [get_key_loop length] in *. destruct (runes_eqb q (go_string (kid k))).
  - injection H as <-. lia.
  - apply IH in H. lia.
Qed.

Lemma get_key_valid : forall q ks j, get_key U q ks = Some j -> nth_error ks j <> None.
Proof.
  intros q ks j H. apply get_key_loop_valid in H. apply nth_error_Some. lia.
Qed.

Lemma trigraph_cases : forall x y, (exists r, trigraph x y = Ok r) \/ exists e, trigraph x y = Err e.
Proof.
  intros x y. destruct (is_letter_dec x) as [Hx|Hx]; [destruct (is_letter_dec y) as [Hy|Hy]|].
  - left. rewrite trigraph_ok by assumption. eauto.
  - right. unfold trigraph. rewrite trigraph_rune_err by tauto. eauto.
  - right. unfold trigraph. rewrite trigraph_rune_err by tauto. eauto.
Qed.

Lemma decipher_loop_total : forall gs ks ct kp ki st nk plain stack,
  nth_error ks kp <> None -> tab_ok st ->
  exists p s, decipher_loop U gs ks ct kp ki st nk plain stack = (p, s, Ok tt) \/
    exists e, decipher_loop U gs ks ct kp ki st nk plain stack = (p, s, Err e).
Proof.
  intros gs ks ct. induction ct as [|c ct IH]; intros kp ki st nk plain stack Hk Hst.
  - exists plain, stack. left. reflexivity.
  - cbn [decipher_loop]. destruct (nth_error ks kp) as [k|] eqn:E; [|congruence].
    destruct (nth_error (krunes k) ki) as [kr|]; [|eexists; eexists; right; eexists; reflexivity].
    destruct (trigraph kr c) as [ec|e| |] eqn:T.
    + pose proof (decode_total st ec plain Hst) as D.
      destruct (decode_character U st ec plain) as [[st1 plain1]|e| |]; try contradiction.
      * destruct (cs_keyChange st1).
        -- destruct (gs <=? len (nk ++ [ec])).
           ++ destruct (get_key U (nk ++ [ec]) ks) as [kp1|] eqn:G.
              ** apply IH; [apply (get_key_valid _ _ _ G)|]. unfold tab_ok. cbn. auto.
              ** eexists. eexists. right. eexists. reflexivity.
           ++ apply IH; [congruence|exact D].
        -- apply IH; [congruence|exact D].
      * eexists. eexists. right. eexists. reflexivity.
    + eexists. eexists. right. eexists. reflexivity.
    + exfalso. destruct (trigraph_cases kr c) as [(r & Q)|(e & Q)]; congruence.
    + exfalso. destruct (trigraph_cases kr c) as [(r & Q)|(e & Q)]; congruence.
Qed.

Lemma ensure_id_has : forall i m t, mid m <> [] -> ensure_id i m t = Ok (m, t).
Proof.
  intros i m t H. unfold ensure_id.
  replace (len (mid m) =? 0) with false; [reflexivity|].
  symmetry. apply not_true_is_false. intros Q. apply len_nil in Q. auto.
Qed.

Lemma decipher_total : forall i m t i' m' r t', mid m <> [] ->
  decipher U i m t = (i', m', r, t') ->
  (r = Ok tt \/ exists e, r = Err e) /\ (r <> Ok tt -> i' = i) /\
  (exists p, m' = set_mplain m p).
Proof.
  intros i m t i' m' r t' Hm H. unfold decipher in H. rewrite (ensure_id_has i m t Hm) in H.
  assert (Same : exists p, m = set_mplain m p) by (exists (mplain m); destruct m; reflexivity).
  destruct (negb (len (mkeyid m) =? i_groupsize i)).
  { injection H as <- <- <- <-. split; [right; eauto|auto]. }
  destruct (len (mcipher m) <? i_groupsize i).
  { injection H as <- <- <- <-. split; [right; eauto|auto]. }
  destruct (get_key U (mkeyid m) (i_keys i)) as [k0|] eqn:G.
  2: { injection H as <- <- <- <-. split; [right; eauto|auto]. }
  destruct (wipe_value (mplain m) t) as [p0 t1].
  destruct (decipher_loop_total (i_groupsize i) (i_keys i) (mcipher m) k0 0 new_state [] p0 [k0]
     (get_key_valid _ _ _ G)) as (p & s & [D|(e & D)]).
  { unfold tab_ok. cbn. auto. }
  - rewrite D in H. injection H as <- <- <- <-. split; [left; reflexivity|]. split; [congruence|eauto].
  - rewrite D in H. injection H as <- <- <- <-. split; [right; eauto|]. split; [auto|eauto].
Qed.

(** *** TryDecipherPlainText *)
Definition dropped (c : rune) : bool := is_space U c || (c =? 61).

Lemma filter_letters_spec : forall s, match filter_letters U s with
  | Some r => r = map (to_upper U) (filter (fun c => negb (dropped c)) s) /\ letters r
  | None => ~ letters (map (to_upper U) (filter (fun c => negb (dropped c)) s))
  end.
Proof.
  induction s as [|c s IH]; [cbn; split; [reflexivity|constructor]|].
  cbn [filter_letters filter]. fold (dropped c). destruct (dropped c); cbn [negb]; [exact IH|].
  cbn [map]. destruct (negb ((65 <=? to_upper U c) && (to_upper U c <=? 90))) eqn:E.
  - intros Q. inversion Q as [|? ? Q1 _]; subst. unfold is_letter in Q1. lia.
  - destruct (filter_letters U s) as [r|].
    + destruct IH as (-> & IH). split; [reflexivity|]. constructor; [|exact IH]. unfold is_letter. lia.
    + intros Q. inversion Q as [|? ? _ Q1]; subst. contradiction.
Qed.

Lemma wipe_value_tape : forall s t x t', wipe_value s t = (x, t') ->
  (length t <= length s + length t')%nat.
Proof.
  intros s t x t' H. unfold wipe_value, read_runes in H.
  destruct (Nat.leb (length s) (length t)) eqn:E; injection H as <- <-; [|lia].
  rewrite skipn_length. lia.
Qed.

Lemma decipher_tape : forall i m t i' m' r t', mid m <> [] ->
  decipher U i m t = (i', m', r, t') -> (length t <= length (mplain m) + length t')%nat.
Proof.
  intros i m t i' m' r t' Hm H. unfold decipher in H. rewrite (ensure_id_has i m t Hm) in H.
  destruct (negb (len (mkeyid m) =? i_groupsize i)); [injection H as <- <- <- <-; lia|].
  destruct (len (mcipher m) <? i_groupsize i); [injection H as <- <- <- <-; lia|].
  destruct (get_key U (mkeyid m) (i_keys i)) as [k0|]; [|injection H as <- <- <- <-; lia].
  destruct (wipe_value (mplain m) t) as [p0 t1] eqn:W. apply wipe_value_tape in W.
  destruct (decipher_loop U (i_groupsize i) (i_keys i) (mcipher m) k0 0 new_state [] p0 [k0]) as [[p s] r0].
  destruct r0; injection H as <- <- <- <-; exact W.
Qed.

Lemma try_decipher_spec : forall i m d t i' m' r t', mid m <> [] -> 0 <= i_groupsize i ->
  try_decipher U i m d t = (i', m', r, t') ->
  (r = Ok tt \/ exists e, r = Err e) /\
  (r <> Ok tt -> i' = i /\ mplain m' = mplain m /\ mcipher m' = mcipher m /\ mid m' = mid m /\
     mrecipients m' = mrecipients m /\
     ((forall k, In k (i_keys i) -> length (mplain m) + length (kid k) <= length t)%nat ->
       m' = m)) /\
  (d = true -> i' = i /\ m' = m) /\
  (r = Ok tt -> d = false ->
     let ft := map (to_upper U) (filter (fun c => negb (dropped c)) (mplain m)) in
     letters ft /\ 2 * i_groupsize i <= len ft /\ mkeyid m = [] /\
     exists k, In k (i_keys i) /\
       get_key U (firstn (Z.to_nat (i_groupsize i)) ft) (i_keys i) <> None /\
       go_string (kid k) = key_query U (firstn (Z.to_nat (i_groupsize i)) ft) /\
       decipher U i (set_mcipher (set_mkeyid m (kid k)) (skipn (Z.to_nat (i_groupsize i)) ft)) t
         = (i', m', Ok tt, t')).
Proof.
  intros i m d t i' m' r t' Hm Hg H. unfold try_decipher in H. rewrite (ensure_id_has i m t Hm) in H.
  assert (Fail : forall e, (i, m, Err e, t) = (i', m', r, t') ->
     (r = Ok tt \/ exists e, r = Err e) /\
     (r <> Ok tt -> i' = i /\ mplain m' = mplain m /\ mcipher m' = mcipher m /\ mid m' = mid m /\
     mrecipients m' = mrecipients m /\
       ((forall k, In k (i_keys i) -> length (mplain m) + length (kid k) <= length t)%nat ->
         m' = m)) /\
     (d = true -> i' = i /\ m' = m) /\ r <> Ok tt).
  { intros e Q. injection Q as <- <- <- <-. split; [right; eauto|]. split; [auto 10|]. split; [auto|]. congruence. }
  destruct (0 <? len (mkeyid m)) eqn:E0.
  { destruct (Fail _ H) as (A & B & C & N). split; [exact A|]. split; [exact B|]. split; [exact C|]. tauto. }
  pose proof (filter_letters_spec (mplain m)) as F.
  destruct (filter_letters U (mplain m)) as [ft|].
  2: { destruct (Fail _ H) as (A & B & C & N). split; [exact A|]. split; [exact B|]. split; [exact C|]. tauto. }
  destruct F as (F & FL).
  destruct (len ft <? i_groupsize i * 2) eqn:E1.
  { destruct (Fail _ H) as (A & B & C & N). split; [exact A|]. split; [exact B|]. split; [exact C|]. tauto. }
  replace (i_groupsize i <? 0) with false in H by lia.
  destruct (get_key U (firstn (Z.to_nat (i_groupsize i)) ft) (i_keys i)) as [kp|] eqn:G.
  2: { destruct (Fail _ H) as (A & B & C & N). split; [exact A|]. split; [exact B|]. split; [exact C|]. tauto. }
  destruct (nth_error (i_keys i) kp) as [k|] eqn:K.
  2: { exfalso. apply (get_key_valid _ _ _ G K). }
  assert (MK : mkeyid m = []).
  { apply len_nil. unfold len in *. lia. }
  destruct d.
  { injection H as <- <- <- <-. split; [auto|]. split; [congruence|]. split; [auto|]. discriminate. }
  set (m1 := set_mcipher (set_mkeyid m (kid k)) (skipn (Z.to_nat (i_groupsize i)) ft)) in *.
  assert (Hm1 : mid m1 <> []) by exact Hm.
  destruct (decipher U i m1 t) as [[[i2 m2] r2] t2] eqn:D.
  destruct (decipher_total i m1 t i2 m2 r2 t2 Hm1 D) as (T1 & T2 & (p & T3)).
  destruct T1 as [->|(e & ->)].
  - injection H as <- <- <- <-. split; [auto|]. split; [congruence|]. split; [discriminate|].
    intros _ _. cbv zeta. rewrite <- F. split; [exact FL|]. split; [lia|]. split; [exact MK|].
    exists k. split; [apply (nth_error_In _ _ K)|]. split; [congruence|]. split; [|exact D].
    unfold get_key in G. apply get_key_loop_some in G. destruct G as (_ & k1 & G1 & G2).
    rewrite Nat.sub_0_r, K in G1. injection G1 as <-. congruence.
  - destruct (wipe_value (mkeyid m2) t2) as [kid' t3] eqn:W.
    injection H as <- <- <- <-. split; [right; eauto|]. split; [|split; [discriminate|intros Q; discriminate]].
    intros _. split; [apply T2; discriminate|]. split; [reflexivity|]. split; [reflexivity|].
    split; [rewrite T3; reflexivity|]. split; [rewrite T3; reflexivity|].
    intros HT. specialize (HT k (nth_error_In _ _ K)).
    pose proof (decipher_tape i m1 t i2 m2 _ t2 Hm1 D) as TL. change (mplain m1) with (mplain m) in TL.
    rewrite T3 in W. change (mkeyid (set_mplain m1 p)) with (kid k) in W.
    assert (kid' = []).
    { pose proof (wipe_value_nil (kid k) t2) as X. rewrite W in X. apply X. right. lia. }
    subst kid'. rewrite T3. rewrite <- MK. destruct m; reflexivity.
Qed.

Lemma layout_filter : forall s t, layout s t ->
  map (to_upper U) (filter (fun c => negb (dropped c)) s) = t.
Proof.
  assert (SEP : forall c, In c [9; 10; 11; 12; 13; 32; 133; 160; 61] -> dropped c = true).
  { intros c Hc. unfold dropped, is_space. cbn [In] in Hc.
    repeat destruct Hc as [<-|Hc]; try reflexivity. contradiction. }
  assert (LET : forall u, is_letter u -> forall c, c = u \/ c = u + 32 ->
     dropped c = false /\ to_upper U c = u).
  { intros u Hu c Hc.
    assert (G : forallb (fun u => forallb (fun c => negb (dropped c) && (to_upper U c =? u)) [u; u + 32])
      (map Z.of_nat (seq 65 26)) = true) by (vm_compute; reflexivity).
    rewrite forallb_forall in G. specialize (G u).
    assert (Hin : In u (map Z.of_nat (seq 65 26))).
    { apply in_map_iff. exists (Z.to_nat u). unfold is_letter in Hu. split; [lia|]. apply in_seq. lia. }
    specialize (G Hin). rewrite forallb_forall in G. specialize (G c).
    assert (Hin2 : In c [u; u + 32]) by (cbn; intuition).
    specialize (G Hin2). destruct (dropped c); [discriminate|]. split; [reflexivity|].
    cbn [negb andb] in G. lia. }
  intros s t H. induction H as [|c s t Hc H IH|u c s t Hu Hc H IH]; [reflexivity| |].
  - cbn [filter]. rewrite (SEP c Hc). exact IH.
  - cbn [filter]. destruct (LET u Hu c Hc) as (-> & E). cbn [negb map]. rewrite E, IH. reflexivity.
Qed.

Lemma firstn_app_exact : forall A (a b : list A), firstn (length a) (a ++ b) = a.
Proof. intros. rewrite firstn_app, Nat.sub_diag, firstn_all. cbn. apply app_nil_r. Qed.
Lemma skipn_app_exact : forall A (a b : list A), skipn (length a) (a ++ b) = b.
Proof. intros. rewrite skipn_app, Nat.sub_diag, skipn_all. reflexivity. Qed.

Lemma try_decipher_layout : uni_ok U -> forall si m t si' m' t' ri mr tr,
  0 < i_groupsize si -> i_groupsize ri = i_groupsize si ->
  store_ok (i_groupsize si) (i_keys si) -> store_ok (i_groupsize si) (i_keys ri) ->
  (forall k, In k (i_keys si) -> eligible (i_groupsize si) (mrecipients m) k \/ kid k = mkeyid m' ->
     holds (i_keys ri) k) ->
  mcipher m = [] \/ (mid m <> [] /\ (length (mcipher m) <= length t)%nat) ->
  encipher U si m t = (si', m', Ok tt, t') ->
  layout (mplain mr) (mkeyid m' ++ mcipher m') -> mkeyid mr = [] ->
  mid mr <> [] -> (length (mplain mr) <= length tr)%nat ->
  exists ri' mr' tr', try_decipher U ri mr false tr = (ri', mr', Ok tt, tr') /\
    mplain mr' = map canon (mplain m) /\ mkeyid mr' = mkeyid m' /\ mcipher mr' = mcipher m'.
Proof.
  intros HU si m t si' m' t' ri mr tr Hg Hgr Hs Hr Hhold Hc H Hlay Hk0 Hmid Htr.
  destruct (encipher_message HU si m t si' m' t' Hg Hs Hc H) as
    (j & js & k & M & A1 & A2 & A3 & A4 & A5 & A6 & A7 & A8 & A9 & A10 & A11 & A12).
  destruct (proj2 Hs k (nth_error_In _ _ A3)) as (KL1 & KL2 & _).
  assert (LK : length (mkeyid m') = Z.to_nat (i_groupsize si)).
  { rewrite A4. unfold len in KL2. lia. }
  assert (LC : i_groupsize si <= len (mcipher m')).
  { apply Z.mod_divide in A10; [|lia]. destruct A10 as (q & Q).
    assert (0 < len (mcipher m')). { destruct (mcipher m'); [congruence|]. unfold len. cbn [length]. lia. }
    assert (0 < q) by nia. nia. }
  pose proof (layout_filter _ _ Hlay) as F.
  destruct (Hhold k (nth_error_In _ _ A3) (or_intror (eq_sym A4))) as (rk & R1 & R2 & R3).
  apply In_nth_error in R1. destruct R1 as (kp & R1).
  unfold try_decipher. rewrite (ensure_id_has ri mr tr Hmid), Hk0, Hgr.
  change (0 <? len []) with false. cbn iota.
  pose proof (filter_letters_spec (mplain mr)) as FS.
  destruct (message_facts _ _ _ _ _ M) as (ML & _).
  rewrite F in FS. destruct (filter_letters U (mplain mr)) as [ft|].
  2: { exfalso. apply FS. apply letters_app. split; [rewrite A4; exact KL1|exact ML]. }
  destruct FS as (-> & _).
  replace (len (mkeyid m' ++ mcipher m') <? i_groupsize si * 2) with false.
  2: { unfold len in *. rewrite app_length. lia. }
  replace (i_groupsize si <? 0) with false by lia.
  rewrite <- LK, firstn_app_exact, skipn_app_exact.
  rewrite A4, <- R2, (get_key_found U _ _ _ _ Hr R1), R1.
  set (mr1 := set_mcipher (set_mkeyid mr (kid rk)) (mcipher m')).
  destruct (roundtrip U si m t si' m' t' ri mr1 tr HU Hg Hgr Hs Hr Hhold Hc H) as (ri' & mr' & tr' & D1 & D2); auto.
  { unfold mr1. cbn. congruence. }
  rewrite D1. exists ri', mr', tr'. split; [reflexivity|]. rewrite D2. split; [reflexivity|].
  split; [cbn; congruence|reflexivity].
Qed.

(** *** C25: queries in any case, with surrounding space *)
Lemma drop_while_all : forall (f : rune -> bool) a b, Forall (fun c => f c = true) a ->
  drop_while f (a ++ b) = drop_while f b.
Proof.
  intros f a b H. induction H as [|c a Hc H IH]; [reflexivity|]. cbn [app drop_while].
  rewrite Hc. exact IH.
Qed.

Lemma drop_while_none : forall (f : rune -> bool) s, Forall (fun c => f c = false) s ->
  drop_while f s = s.
Proof. intros f s H. destruct H as [|c s Hc H]; [reflexivity|]. cbn. rewrite Hc. reflexivity. Qed.

Lemma white_space : forall c, white c -> is_space U c = true /\ valid_rune c = true.
Proof.
  intros c H. unfold white in H. cbn [In] in H.
  repeat destruct H as [<-|H]; try (split; reflexivity). contradiction.
Qed.

Lemma case_letter : forall u c, is_letter u -> c = u \/ c = u + 32 ->
  is_space U c = false /\ valid_rune c = true /\ to_upper U c = u.
Proof.
  intros u c Hu Hc.
  assert (G : forallb (fun u => forallb (fun c => negb (is_space U c) && valid_rune c && (to_upper U c =? u)) [u; u + 32])
    (map Z.of_nat (seq 65 26)) = true) by (vm_compute; reflexivity).
  rewrite forallb_forall in G. specialize (G u).
  assert (Hin : In u (map Z.of_nat (seq 65 26))).
  { apply in_map_iff. exists (Z.to_nat u). unfold is_letter in Hu. split; [lia|]. apply in_seq. lia. }
  specialize (G Hin). rewrite forallb_forall in G. specialize (G c).
  assert (Hin2 : In c [u; u + 32]) by (cbn; intuition).
  specialize (G Hin2). destruct (is_space U c), (valid_rune c); try discriminate.
  cbn [negb andb] in G. split; [reflexivity|]. split; [reflexivity|]. lia.
Qed.

Lemma go_string_valid : forall s, Forall (fun c => valid_rune c = true) s -> go_string s = s.
Proof.
  induction 1 as [|c s H _ IH]; [reflexivity|]. cbn [go_string map]. rewrite H. f_equal. exact IH.
Qed.

Lemma query_ok : forall id q, letters id -> query_for id q -> key_query U q = id.
Proof.
  intros id q Hl (a & s & b & -> & Ha & Hb & Hs).
  assert (P : Forall (fun c => is_space U c = false) s /\ Forall (fun c => valid_rune c = true) s /\
    str_upper U s = id).
  { revert Hl. induction Hs as [|c u s id Hc Hs IH]; intros Hl; [repeat split; constructor|].
    inversion Hl as [|? ? Hu Hl']; subst. destruct (IH Hl') as (I1 & I2 & I3).
    destruct (case_letter u c Hu Hc) as (C1 & C2 & C3).
    split; [constructor; assumption|]. split; [constructor; assumption|].
    cbn. rewrite C3. f_equal. exact I3. }
  destruct P as (P1 & P2 & P3).
  assert (Wa : Forall (fun c => is_space U c = true) a).
  { apply (Forall_impl _ (fun c H => proj1 (white_space c H)) Ha). }
  assert (Wb : Forall (fun c => is_space U c = true) b).
  { apply (Forall_impl _ (fun c H => proj1 (white_space c H)) Hb). }
  unfold key_query. rewrite go_string_valid.
  2: { apply Forall_app. split; [apply (Forall_impl _ (fun c H => proj2 (white_space c H)) Ha)|].
       apply Forall_app. split; [exact P2|apply (Forall_impl _ (fun c H => proj2 (white_space c H)) Hb)]. }
  rewrite <- P3. f_equal. unfold trim_space. rewrite drop_while_all by exact Wa.
  destruct s as [|c s].
  - cbn [app]. rewrite <- (app_nil_r b), drop_while_all by exact Wb. reflexivity.
  - replace (drop_while (is_space U) ((c :: s) ++ b)) with ((c :: s) ++ b).
    2: { cbn [app drop_while]. inversion P1 as [|? ? Q _]; subst. rewrite Q. reflexivity. }
    rewrite rev_app_distr, drop_while_all by (apply Forall_rev; exact Wb).
    rewrite drop_while_none by (apply Forall_rev; exact P1). apply rev_involutive.
Qed.

Lemma get_key_query : forall gs ks id q j k, store_ok gs ks -> letters id -> query_for id q ->
  (get_key U q ks = Some j /\ nth_error ks j = Some k -> kid k = id) /\
  (nth_error ks j = Some k -> kid k = id -> get_key U q ks = Some j) /\
  (get_key U q ks = None <-> ~ exists k, In k ks /\ kid k = id).
Proof.
  intros gs ks id q j k Hs Hl Hq.
  assert (E : get_key U q ks = get_key U id ks).
  { unfold get_key. rewrite (query_ok id q Hl Hq), key_query_letters by exact Hl. reflexivity. }
  rewrite E. split; [|split].
  - intros (G & N). destruct (get_key_letters U gs ks id j Hs Hl G) as (k' & N' & Q). congruence.
  - intros N Q. rewrite <- Q. apply (get_key_found U gs ks j k Hs N).
  - split.
    + intros G (k' & I & Q). apply In_nth_error in I. destruct I as (j' & I).
      rewrite <- Q in G. rewrite (get_key_found U gs ks j' k' Hs I) in G. discriminate.
    + intros N. destruct (get_key U id ks) as [j'|] eqn:G; [|reflexivity].
      exfalso. apply N. destruct (get_key_letters U gs ks id j' Hs Hl G) as (k' & N' & Q).
      exists k'. split; [apply (nth_error_In _ _ N')|exact Q].
Qed.

Lemma mark_key_used_query : forall gs ks id q b, store_ok gs ks -> letters id -> query_for id q ->
  forall ks' r, mark_key_used U q b ks = (ks', r) ->
  (r = Ok tt <-> exists k, In k ks /\ kid k = id) /\
  (r <> Ok tt -> ks' = ks) /\
  forall j, nth_error ks' j = option_map (fun k =>
    if runes_eqb (kid k) id then set_used k b else k) (nth_error ks j).
Proof.
  intros gs ks id q b Hs Hl Hq ks' r H.
  assert (M : mark_key_used U q b ks = match get_key U id ks with
     | Some i => (mark ks i b, Ok tt) | None => (ks, Err ErrKeyNotFound) end).
  { unfold mark_key_used, get_key. rewrite (query_ok id q Hl Hq), key_query_letters by exact Hl. reflexivity. }
  rewrite M in H. destruct (get_key U id ks) as [i|] eqn:G.
  - injection H as <- <-. destruct (get_key_letters U gs ks id i Hs Hl G) as (k & N & Q).
    split; [split; [intros _; exists k; split; [apply (nth_error_In _ _ N)|exact Q]|auto]|].
    split; [congruence|]. intros j. rewrite nth_error_mark.
    destruct (Nat.eqb i j) eqn:E.
    + apply Nat.eqb_eq in E. subst j. rewrite N. cbn.
      replace (runes_eqb (kid k) id) with true; [reflexivity|].
      symmetry. apply runes_eqb_spec. exact Q.
    + destruct (nth_error ks j) as [k'|] eqn:N'; [|reflexivity]. cbn.
      destruct (runes_eqb (kid k') id) eqn:R; [|reflexivity].
      apply runes_eqb_spec in R. exfalso.
      assert (i = j) by (apply (store_ok_index gs ks i j k k' Hs N N'); congruence).
      subst j. rewrite Nat.eqb_refl in E. discriminate.
  - injection H as <- <-. split; [split; [discriminate|]|].
    + intros (k & I & Q). apply In_nth_error in I. destruct I as (j' & I). rewrite <- Q in G.
      rewrite (get_key_found U gs ks j' k Hs I) in G. discriminate.
    + split; [reflexivity|]. intros j. destruct (nth_error ks j) as [k'|] eqn:N'; [|reflexivity]. cbn.
      destruct (runes_eqb (kid k') id) eqn:R; [|reflexivity].
      apply runes_eqb_spec in R. rewrite <- R in G.
      rewrite (get_key_found U gs ks j k' Hs N') in G. discriminate.
Qed.

(** *** C54 *)
Lemma decipher_concat : forall i m1 m2 t1 t2 k s p j' k' i2' m2' t2',
  0 < i_groupsize i -> store_ok (i_groupsize i) (i_keys i) ->
  mid m1 <> [] -> mid m2 <> [] ->
  (length (mplain m1) <= length t1)%nat -> (length (mplain m2) <= length t2)%nat ->
  In k (i_keys i) -> letters s -> (length s <= length (krunes k))%nat ->
  nth_error (i_keys i) j' = Some k' -> read_part false false s = Some (p, Some (kid k')) ->
  mkeyid m1 = kid k -> mkeyid m2 = kid k' ->
  mcipher m1 = diana_text (krunes k) s ++ mcipher m2 ->
  decipher U i m2 t2 = (i2', m2', Ok tt, t2') ->
  exists i1' t1', decipher U i m1 t1 = (i1', set_mplain m1 (p ++ mplain m2'), Ok tt, t1').
Proof.
  intros i m1 m2 t1 t2 k s p j' k' i2' m2' t2' Hg Hs Hm1 Hm2 Ht1 Ht2 Hk Hl L Hk' R K1 K2 C D.
  destruct (decipher_refines U i m2 t2 i2' m2' t2' Hg Hs) as (j & js & kk & p2 & A1 & A2 & A3 & A4 & A5 & A6); auto.
  { rewrite K2. apply (proj2 Hs k' (nth_error_In _ _ Hk')). }
  assert (j = j') by (apply (store_ok_index _ _ _ _ _ _ Hs A1 Hk'); congruence). subst j.
  apply In_nth_error in Hk. destruct Hk as (j & Hk).
  assert (M : message (i_groupsize i) (i_keys i) (j :: j' :: js) (p ++ p2) (mcipher m1)).
  { rewrite C. apply message_next with (k' := k'); assumption. }
  destruct (decipher_complete U i m1 t1 j (j' :: js) k (p ++ p2) Hg Hs Hm1 Ht1 Hk (eq_sym K1)) as (i1' & t1' & E & _); auto.
  { rewrite C.
    assert (G : i_groupsize i <= len (mcipher m2)).
    { unfold decipher in D. rewrite (ensure_id_has i m2 t2 Hm2) in D.
      destruct (negb (len (mkeyid m2) =? i_groupsize i)); [discriminate|].
      destruct (len (mcipher m2) <? i_groupsize i) eqn:E; [discriminate|]. lia. }
    unfold len in *. rewrite app_length. lia. }
  exists i1', t1'. rewrite E, A4. reflexivity.
Qed.

Lemma read_pad : forall n s sec sh p, read_part sec sh (s ++ repeat 90 n) = Some (p, None) ->
  read_part sec sh s = Some (p, None).
Proof.
  intros n. induction s as [|c s IH]; intros sec sh p H.
  - cbn [app] in H. rewrite read_zs in H. exact H.
  - cbn [app read_part] in *.
    destruct (c =? 90); [apply IH; exact H|].
    destruct (sec && (c =? 88)); [apply IH; exact H|].
    destruct (sec && (c =? 89)); [discriminate|].
    destruct (sec && (c =? 87)).
    { destruct s; [cbn [app] in H; destruct (repeat 90 n); [exact H|discriminate]|discriminate]. }
    destruct (c <? 65); [discriminate|].
    destruct (nth_error (if sec then secondary_chars else primary_chars) (Z.to_nat (c - 65))); [|discriminate].
    destruct (read_part sec sh (s ++ repeat 90 n)) as [[q tl]|] eqn:E; [|discriminate].
    injection H as <- ->. rewrite (IH sec sh q E). reflexivity.
Qed.

Lemma decipher_padding : forall i m1 m2 t1 t2 k s n p,
  0 < i_groupsize i -> store_ok (i_groupsize i) (i_keys i) ->
  mid m1 <> [] -> mid m2 <> [] ->
  (length (mplain m1) <= length t1)%nat -> (length (mplain m2) <= length t2)%nat ->
  In k (i_keys i) -> letters s -> (length s + n <= length (krunes k))%nat ->
  i_groupsize i <= len s ->
  read_part false false (s ++ repeat 90 n) = Some (p, None) ->
  mkeyid m1 = kid k -> mkeyid m2 = kid k ->
  mcipher m1 = diana_text (krunes k) s ->
  mcipher m2 = diana_text (krunes k) (s ++ repeat 90 n) ->
  exists i1' t1' i2' t2', decipher U i m1 t1 = (i1', set_mplain m1 p, Ok tt, t1') /\
    decipher U i m2 t2 = (i2', set_mplain m2 p, Ok tt, t2').
Proof.
  intros i m1 m2 t1 t2 k s n p Hg Hs Hm1 Hm2 Ht1 Ht2 Hk Hl L Lg R K1 K2 C1 C2.
  apply In_nth_error in Hk. destruct Hk as (j & Hk).
  assert (Lz : letters (repeat 90 n)).
  { apply Forall_forall. intros x Hx. apply repeat_spec in Hx. subst x. unfold is_letter. lia. }
  assert (LD : forall x key, (length x <= length key)%nat -> length (diana_text key x) = length x).
  { induction x as [|a x IH]; intros [|b key] Q; try reflexivity; cbn in *; try lia. f_equal. apply IH. lia. }
  destruct (decipher_complete U i m1 t1 j [] k p Hg Hs Hm1 Ht1 Hk (eq_sym K1)) as (i1' & t1' & E1 & _); auto.
  { rewrite C1. unfold len in *. rewrite LD by lia. exact Lg. }
  { rewrite C1. apply message_last with (tl := None); auto; [lia|]. apply (read_pad n). exact R. }
  destruct (decipher_complete U i m2 t2 j [] k p Hg Hs Hm2 Ht2 Hk (eq_sym K2)) as (i2' & t2' & E2 & _); auto.
  { rewrite C2. unfold len in *. rewrite LD by (rewrite app_length, repeat_length; lia).
    rewrite app_length. lia. }
  { rewrite C2. apply message_last with (tl := None); auto.
    - apply letters_app. auto.
    - rewrite app_length, repeat_length. lia. }
  exists i1', t1', i2', t2'. auto.
Qed.
End C.
