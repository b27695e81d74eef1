(** Lemmas: dates and comments of keys do not matter to the cipher. *)
From Verif Require Import Base Spec Spec_Dates Model_Unicode Model_Diana Model_Codec Model_Crand Model_Functions Model_Types
  Model_Cipher Model_Messages.

Notation R := (Forall2 same_but_dates).
Section U.
Context (U : Uni).

Lemma R_nth : forall ks ks' j, R ks ks' ->
  (nth_error ks j = None /\ nth_error ks' j = None) \/
  exists k k', nth_error ks j = Some k /\ nth_error ks' j = Some k' /\ same_but_dates k k'.
Proof.
  intros ks ks' j H. revert j. induction H as [|k k' ks ks' K H IH]; intros [|j]; cbn [nth_error].
  - auto.
  - auto.
  - right. exists k, k'. auto.
  - apply IH.
Qed.
Lemma R_set : forall k k' b, same_but_dates k k' -> same_but_dates (set_used k b) (set_used k' b).
Proof. intros k k' b (A & B & C & D & E). repeat split; assumption. Qed.
Lemma R_update : forall ks ks' j k k', R ks ks' -> same_but_dates k k' -> R (list_update ks j k) (list_update ks' j k').
Proof.
  intros ks ks' j k k' H K. revert j. induction H as [|x x' ks ks' X H IH]; intros [|j]; cbn [list_update]; constructor; auto.
Qed.
Lemma R_mark : forall ks ks' j b, R ks ks' -> R (mark ks j b) (mark ks' j b).
Proof.
  intros ks ks' j b H. unfold mark. destruct (R_nth ks ks' j H) as [(-> & ->)|(k & k' & -> & -> & K)]; [exact H|].
  apply R_update; [exact H|apply R_set; exact K].
Qed.
Lemma R_find : forall gs rs ks ks' i, R ks ks' -> find_key_loop U gs rs ks' i = find_key_loop U gs rs ks i.
Proof.
  intros gs rs ks ks' i H. revert i. induction H as [|k k' ks ks' (A & B & C & D & E) H IH]; intros i; [reflexivity|].
  cbn [find_key_loop]. rewrite A, C, D. rewrite !IH. reflexivity.
Qed.
Lemma R_get_loop : forall q ks ks' i, R ks ks' -> get_key_loop q ks' i = get_key_loop q ks i.
Proof.
  intros q ks ks' i H. revert i. induction H as [|k k' ks ks' (A & _) H IH]; intros i; [reflexivity|].
  cbn [get_key_loop]. rewrite A, IH. reflexivity.
Qed.
Lemma R_get : forall id ks ks', R ks ks' -> get_key U id ks' = get_key U id ks.
Proof. intros. unfold get_key. apply R_get_loop. assumption. Qed.
Lemma R_check : forall id ks ks', R ks ks' -> check_given_key id ks' = check_given_key id ks.
Proof.
  intros id ks ks' H. induction H as [|k k' ks ks' (A & B & C & D & E) H IH]; [reflexivity|].
  cbn [check_given_key]. rewrite A, D, E, IH. reflexivity.
Qed.
Lemma R_enrich : forall gs ks ks' m, R ks ks' ->
  exists k1 k1' m1 r, enrich_with_key U gs ks m = (k1, m1, r) /\ enrich_with_key U gs ks' m = (k1', m1, r) /\ R k1 k1'.
Proof.
  intros gs ks ks' m H. unfold enrich_with_key, find_key. rewrite (R_check (mkeyid m) ks ks' H), (R_find gs _ ks ks' 0 H).
  destruct (len (mplain m) =? 0); [do 4 eexists; auto|]. destruct (0 <? len (mkeyid m)).
  { destruct (negb _); do 4 eexists; auto. }
  destruct (0 <? len (mcipher m)); [destruct (negb _); do 4 eexists; auto|].
  destruct (find_key_loop U gs (mrecipients m) ks 0) as [j|]; [|do 4 eexists; auto].
  destruct (R_nth ks ks' j H) as [(-> & ->)|(k & k' & -> & -> & K)]; [do 4 eexists; auto|].
  destruct K as (A & _). rewrite A. do 4 eexists. split; [reflexivity|]. split; [reflexivity|]. apply R_mark. exact H.
Qed.

(** States of Encipher that differ so. *)
Definition RE (e e' : enc_state) : Prop := R (es_keys e) (es_keys e') /\
  e' = mkES (es_keys e') (es_st e) (es_chunks e) (es_cur e).
Lemma RE_change : forall gs rs e e', RE e e' ->
  exists x x' r, maybe_change_key U gs rs e = (x, r) /\ maybe_change_key U gs rs e' = (x', r) /\ RE x x'.
Proof.
  intros gs rs [ks st ch cu] [ks' st' ch' cu'] (H & E). cbn [es_keys es_st es_chunks es_cur] in *. injection E as -> -> ->.
  assert (SAME : RE (mkES ks st ch cu) (mkES ks' st ch cu)) by (split; [exact H|reflexivity]).
  unfold maybe_change_key, find_key. cbn [es_keys es_st es_chunks es_cur].
  destruct (R_nth ks ks' (ch_key cu) H) as [(-> & ->)|(k & k' & -> & -> & K)]; [do 3 eexists; auto|].
  destruct K as (_ & B & _). rewrite B.
  destruct (len (krunes k) - gs - ControlCharactersNeededToChangeKey <=? cs_charCounter st); [|do 3 eexists; auto].
  rewrite (R_find gs rs ks ks' 0 H). destruct (find_key_loop U gs rs ks 0) as [j|]; [|do 3 eexists; auto].
  destruct (R_nth ks ks' j H) as [(-> & ->)|(nk & nk' & -> & -> & (A & _))]; [do 3 eexists; auto|]. rewrite A.
  destruct (change_key st (kid nk) (Some (ch_text cu))) as [[st1 o1]|?| |]; try (do 3 eexists; auto; fail).
  do 3 eexists. split; [reflexivity|]. split; [reflexivity|]. split; [apply R_mark; exact H|reflexivity].
Qed.
Lemma RE_loop : forall gs rs text e e', RE e e' ->
  exists x x' r, encode_loop U gs rs text e = (x, r) /\ encode_loop U gs rs text e' = (x', r) /\ RE x x'.
Proof.
  intros gs rs. induction text as [|c text IH]; intros e e' H; cbn [encode_loop]; [do 3 eexists; auto|].
  destruct (RE_change gs rs e e' H) as (x & x' & r & -> & -> & X). destruct r as [[]|?| |]; try (do 3 eexists; auto; fail).
  destruct X as (XK & XE). pose proof XE as XE'. apply (f_equal es_st) in XE'. cbn [es_st] in XE'.
  pose proof (f_equal es_cur XE) as XC. cbn [es_cur] in XC. pose proof (f_equal es_chunks XE) as XH. cbn [es_chunks] in XH.
  rewrite XE', XC, XH. assert (SAME : RE x x') by (split; assumption).
  destruct (encode_character U (es_st x) c (Some (ch_text (es_cur x)))) as [[st1 o1]|?| |]; try (do 3 eexists; auto; fail).
  apply IH. split; [exact XK|reflexivity].
Qed.
Lemma R_chunks : forall ks ks' cs out, R ks ks' -> encipher_chunks ks' cs out = encipher_chunks ks cs out.
Proof.
  intros ks ks' cs out H. revert out. induction cs as [|c cs IH]; intros out; [reflexivity|]. cbn [encipher_chunks].
  destruct (R_nth ks ks' (ch_key c) H) as [(-> & ->)|(k & k' & -> & -> & (_ & B & _))]; [reflexivity|]. rewrite B.
  destruct (len (krunes k) <? len (ch_text c)); [reflexivity|].
  destruct (encipher_runes (krunes k) (ch_text c) out) as [o [[]|?| |]]; try reflexivity. apply IH.
Qed.
Lemma R_body : forall gs rs text ks ks' k0 c0, R ks ks' ->
  let b := encipher_body U gs rs text ks k0 c0 in let b' := encipher_body U gs rs text ks' k0 c0 in
  R (er_keys b) (er_keys b') /\ b' = mkER (er_keys b') (er_chunks b) (er_cur b) (er_cipher b) (er_res b).
Proof.
  intros gs rs text ks ks' k0 c0 H. cbv zeta. unfold encipher_body.
  destruct (RE_loop gs rs text (mkES ks new_state [] (mkChunk [] k0)) (mkES ks' new_state [] (mkChunk [] k0)))
    as (x & x' & r & -> & -> & (XK & XE)); [split; [exact H|reflexivity]|].
  destruct x as [k1 st ch cu], x' as [k1' st' ch' cu']. cbn [es_keys es_st es_chunks es_cur] in *. injection XE as -> -> ->.
  destruct r as [[]|?| |]; try (split; [exact XK|reflexivity]).
  destruct (pad_count gs (len (ch_text cu) + total_len ch)) as [n|?| |]; try (split; [exact XK|reflexivity]).
  destruct (pad st n (Some (ch_text cu))) as [[st1 o1]|?| |]; try (split; [exact XK|reflexivity]). cbv zeta.
  rewrite (R_chunks k1 k1' _ c0 XK).
  destruct (encipher_chunks k1 (ch ++ [mkChunk (unoutput o1) (ch_key cu)]) c0) as [out r]. split; [exact XK|reflexivity].
Qed.
Lemma R_release : forall id cu ch ks ks', R ks ks' -> R (release_keys U id cu ch ks) (release_keys U id cu ch ks').
Proof.
  intros id cu ch ks ks' H. unfold release_keys. cbv zeta.
  assert (X : R (fst (mark_key_used U id false ks)) (fst (mark_key_used U id false ks'))).
  { unfold mark_key_used. rewrite (R_get_loop _ ks ks' 0 H). destruct (get_key_loop (key_query U id) ks 0); [apply R_mark; exact H|exact H]. }
  apply (R_mark _ _ (ch_key cu) false) in X. revert X. generalize (mark (fst (mark_key_used U id false ks)) (ch_key cu) false).
  generalize (mark (fst (mark_key_used U id false ks')) (ch_key cu) false). clear.
  induction ch as [|c ch IH]; intros a b X; [exact X|]. cbn [fold_left]. apply IH. apply R_mark. exact X.
Qed.
Lemma redated_keys : forall i i' ks ks', redated i i' -> R ks ks' -> redated (set_keys i ks) (set_keys i' ks').
Proof. intros i i' ks ks' (_ & ->) H. split; [exact H|reflexivity]. Qed.

Lemma R_encipher : forall i i' m t, redated i i' ->
  exists j j' m1 r t1, encipher U i m t = (j, m1, r, t1) /\ encipher U i' m t = (j', m1, r, t1) /\ redated j j'.
Proof.
  intros i i' m t D. pose proof D as (H & E). unfold encipher, encipher_full.
  replace (ensure_id i' m t) with (ensure_id i m t) by (rewrite E; reflexivity).
  replace (i_groupsize i') with (i_groupsize i) by (rewrite E; reflexivity).
  destruct (ensure_id i m t) as [[m1 t1]|?| |]; try (do 5 eexists; split; [reflexivity|]; split; [reflexivity|]; exact D). cbv zeta.
  destruct (R_enrich (i_groupsize i) _ _ m1 H) as (k1 & k1' & m2 & r & -> & -> & K).
  pose proof (redated_keys i i' k1 k1' D K) as D1.
  destruct r as [[]|?| |]; try (do 5 eexists; split; [reflexivity|]; split; [reflexivity|]; exact D1).
  destruct (wipe_value (mcipher m2) t1) as [c0 t2]. rewrite (R_get (mkeyid m2) k1 k1' K).
  destruct (get_key U (mkeyid m2) k1) as [k0|]; [|do 5 eexists; split; [reflexivity|]; split; [reflexivity|]; exact D1].
  destruct (R_body (i_groupsize i) (mrecipients m2) (mplain m2) k1 k1' k0 c0 K) as (BK & BE).
  destruct (encipher_body U (i_groupsize i) (mrecipients m2) (mplain m2) k1 k0 c0) as [a1 a2 a3 a4 a5].
  destruct (encipher_body U (i_groupsize i) (mrecipients m2) (mplain m2) k1' k0 c0) as [b1 b2 b3 b4 b5].
  cbn [er_keys er_chunks er_cur er_cipher er_res] in *. injection BE as -> -> -> ->.
  destruct (wipe_value (mkeyid m2) t2) as [w t3].
  destruct a5 as [[]|?| |]; do 5 eexists; (split; [reflexivity|]; split; [reflexivity|]);
    (apply redated_keys; [exact D|]); [exact BK|apply R_release; exact BK..].
Qed.

Lemma R_decipher_loop : forall gs ks ks', R ks ks' -> forall ct kp ki st nk p stack,
  decipher_loop U gs ks' ct kp ki st nk p stack = decipher_loop U gs ks ct kp ki st nk p stack.
Proof.
  intros gs ks ks' H. induction ct as [|c ct IH]; intros kp ki st nk p stack; [reflexivity|]. cbn [decipher_loop].
  destruct (R_nth ks ks' kp H) as [(-> & ->)|(k & k' & -> & -> & (_ & B & _))]; [reflexivity|]. rewrite B.
  destruct (nth_error (krunes k) ki) as [kr|]; [|reflexivity]. destruct (trigraph kr c) as [ec|?| |]; try reflexivity.
  destruct (decode_character U st ec p) as [[st1 p1]|?| |]; try reflexivity.
  rewrite (R_get (nk ++ [ec]) ks ks' H). cbv zeta.
  destruct (cs_keyChange st1); [|apply IH]. destruct (gs <=? len (nk ++ [ec])); [|apply IH].
  destruct (get_key U (nk ++ [ec]) ks) as [kp1|]; [|reflexivity]. apply IH.
Qed.
Lemma R_mark_stack : forall stack ks ks', R ks ks' -> R (mark_stack ks stack) (mark_stack ks' stack).
Proof.
  unfold mark_stack. induction stack as [|j stack IH]; intros ks ks' H; [exact H|]. cbn [fold_left]. apply IH, R_mark. exact H.
Qed.
Lemma R_decipher : forall i i' m t, redated i i' ->
  exists j j' m1 r t1, decipher U i m t = (j, m1, r, t1) /\ decipher U i' m t = (j', m1, r, t1) /\ redated j j'.
Proof.
  intros i i' m t D. pose proof D as (H & E). unfold decipher.
  replace (ensure_id i' m t) with (ensure_id i m t) by (rewrite E; reflexivity).
  replace (i_groupsize i') with (i_groupsize i) by (rewrite E; reflexivity).
  destruct (ensure_id i m t) as [[m1 t1]|?| |]; try (do 5 eexists; split; [reflexivity|]; split; [reflexivity|]; exact D). cbv zeta.
  destruct (negb (len (mkeyid m1) =? i_groupsize i)); [do 5 eexists; split; [reflexivity|]; split; [reflexivity|]; exact D|].
  destruct (len (mcipher m1) <? i_groupsize i); [do 5 eexists; split; [reflexivity|]; split; [reflexivity|]; exact D|].
  rewrite (R_get (mkeyid m1) _ _ H). destruct (get_key U (mkeyid m1) (i_keys i)) as [k0|];
    [|do 5 eexists; split; [reflexivity|]; split; [reflexivity|]; exact D].
  destruct (wipe_value (mplain m1) t1) as [p0 t2]. rewrite (R_decipher_loop (i_groupsize i) _ _ H).
  destruct (decipher_loop U (i_groupsize i) (i_keys i) (mcipher m1) k0 0 new_state [] p0 [k0]) as [[p stack] [[]|?| |]];
    do 5 eexists; (split; [reflexivity|]; split; [reflexivity|]); try exact D.
  apply redated_keys; [exact D|]. apply R_mark_stack. exact H.
Qed.
Lemma R_try : forall i i' m d t, redated i i' ->
  exists j j' m1 r t1, try_decipher U i m d t = (j, m1, r, t1) /\ try_decipher U i' m d t = (j', m1, r, t1) /\ redated j j'.
Proof.
  intros i i' m d t D. pose proof D as (H & E). unfold try_decipher.
  replace (ensure_id i' m t) with (ensure_id i m t) by (rewrite E; reflexivity).
  replace (i_groupsize i') with (i_groupsize i) by (rewrite E; reflexivity).
  destruct (ensure_id i m t) as [[m1 t1]|?| |]; try (do 5 eexists; split; [reflexivity|]; split; [reflexivity|]; exact D). cbv zeta.
  destruct (0 <? len (mkeyid m1)); [do 5 eexists; split; [reflexivity|]; split; [reflexivity|]; exact D|].
  destruct (filter_letters U (mplain m1)) as [ft|]; [|do 5 eexists; split; [reflexivity|]; split; [reflexivity|]; exact D].
  destruct (len ft <? i_groupsize i * 2); [do 5 eexists; split; [reflexivity|]; split; [reflexivity|]; exact D|].
  destruct (i_groupsize i <? 0); [do 5 eexists; split; [reflexivity|]; split; [reflexivity|]; exact D|].
  rewrite (R_get (firstn (Z.to_nat (i_groupsize i)) ft) _ _ H).
  destruct (get_key U (firstn (Z.to_nat (i_groupsize i)) ft) (i_keys i)) as [kp|];
    [|do 5 eexists; split; [reflexivity|]; split; [reflexivity|]; exact D].
  destruct (R_nth _ _ kp H) as [(-> & ->)|(k & k' & -> & -> & (A & _))];
    [do 5 eexists; split; [reflexivity|]; split; [reflexivity|]; exact D|]. rewrite A.
  destruct d; [do 5 eexists; split; [reflexivity|]; split; [reflexivity|]; exact D|].
  destruct (R_decipher i i' (set_mcipher (set_mkeyid m1 (kid k)) (skipn (Z.to_nat (i_groupsize i)) ft)) t1 D)
    as (j & j' & m2 & r & t2 & -> & -> & DJ).
  destruct (wipe_value (mkeyid m2) t2) as [w t3].
  destruct r as [[]|?| |]; do 5 eexists; (split; [reflexivity|]; split; [reflexivity|]); exact DJ.
Qed.
Lemma redated_store : forall i i' m, redated i i' -> redated (store_message i m) (store_message i' m).
Proof. intros i i' m (H & ->). split; [exact H|reflexivity]. Qed.
Lemma R_new : forall lb dp i i' args now t, redated i i' ->
  exists j j' r, new_text_message U lb dp i args now t = (j, r) /\ new_text_message U lb dp i' args now t = (j', r) /\
    redated j j'.
Proof.
  intros lb dp i i' args now t D. pose proof D as (H & E). unfold new_text_message.
  destruct args as [|raw rest]; [do 3 eexists; eauto|].
  replace (parse_radiogram U lb dp i' raw now t) with (parse_radiogram U lb dp i raw now t) by (rewrite E; reflexivity).
  destruct (parse_radiogram U lb dp i raw now t) as [[m t1]|?| |]; try (do 3 eexists; eauto; fail).
  replace (is_my_call U i' m) with (is_my_call U i m) by (rewrite E; reflexivity).
  replace (i_groupsize i') with (i_groupsize i) by (rewrite E; reflexivity).
  replace (i_callsign i') with (i_callsign i) by (rewrite E; reflexivity). cbv zeta.
  assert (GO : forall m1, exists j j' r,
    match encipher U i m1 t1 with
    | (i2, m2, Ok _, t2) => (store_message i2 m2, Ok (m2, t2))
    | (i2, _, Err e, _) => (i2, Err e)
    | (i2, _, Panic, _) => (i2, Panic)
    | (i2, _, Diverge, _) => (i2, Diverge)
    end = (j, r) /\
    match encipher U i' m1 t1 with
    | (i2, m2, Ok _, t2) => (store_message i2 m2, Ok (m2, t2))
    | (i2, _, Err e, _) => (i2, Err e)
    | (i2, _, Panic, _) => (i2, Panic)
    | (i2, _, Diverge, _) => (i2, Diverge)
    end = (j', r) /\ redated j j').
  { intros m1. destruct (R_encipher i i' m1 t1 D) as (j & j' & m2 & r & t2 & -> & -> & X).
    destruct r as [?|?| |]; do 3 eexists; (split; [reflexivity|]; split; [reflexivity|]); try exact X.
    apply redated_store. exact X. }
  destruct (is_my_call U i m).
  { destruct rest as [|a [|ka rest]]; [apply GO|do 3 eexists; eauto|].
    destruct (negb _); [do 3 eexists; eauto|apply GO]. }
  destruct (R_try i i' (if len (mrecipients m) =? 0 then set_mrecipients m (add_recipient U (mrecipients m) [i_callsign i]) else m)
    false t1 D) as (j & j' & m2 & r & t2 & -> & -> & X).
  destruct r as [?|?| |]; do 3 eexists; (split; [reflexivity|]; split; [reflexivity|]); try exact X;
    apply redated_store; exact X.
Qed.
End U.
