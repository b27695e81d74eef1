(** Lemmas about message creation and deletion (messages.go). *)
From Coq Require Import Permutation.
From Verif Require Import Base Spec Model_Unicode Model_Crand Model_Functions Model_Types Model_Codec Model_Cipher
  Model_Keys Model_Regex Model_Messages Proofs_Functions Proofs_Crand Proofs_Keys Proofs_Encipher
  Proofs_Decipher Proofs_Read Proofs_Cipher Proofs_Cipher2 Proofs_KeyOps Proofs_Regex Proofs_Radiogram.

(** ** Message IDs *)
Lemma alnum_of_ok : forall v, 0 <= v < 62 -> alnum (alnum_of v).
Proof. intros v H. unfold alnum_of, alnum, is_letter, digit. destruct (v <? 26) eqn:A; [lia|].
  destruct ((26 <=? v) && (v <? 52)) eqn:B; [lia|]. replace (52 <=? v) with true by lia. lia. Qed.

Lemma random_alnum_ok : forall n t s t', random_alnum_runes n t = Ok (s, t') ->
  length s = n /\ Forall alnum s.
Proof.
  induction n as [|n IH]; intros t s t' H; cbn [random_alnum_runes] in H.
  - injection H as <- <-. split; [reflexivity|constructor].
  - destruct (intn (26 + 26 + 10) t) as [[v t1]|e| |] eqn:I; try discriminate. cbn [bind] in H.
    destruct (random_alnum_runes n t1) as [[r t2]|e| |] eqn:R; try discriminate. cbn [bind] in H.
    injection H as <- <-. destruct (IH _ _ _ R) as (L & F). split; [cbn; rewrite L; reflexivity|].
    constructor; [|exact F]. apply alnum_of_ok. apply intn_range in I; [lia|lia].
Qed.

Lemma contains_mid : forall ms id, contains_message_id ms id = false <-> ~ In id (map mid ms).
Proof.
  intros ms id. unfold contains_message_id. induction ms as [|m ms IH]; cbn [existsb map In]; [tauto|].
  rewrite orb_false_iff, IH. pose proof (equal_runes_spec (mid m) id) as E.
  destruct (equal_runes (Some (mid m)) (Some id)).
  - assert (mid m = id) by (apply E; reflexivity). split; [intros (Q & _); discriminate|tauto].
  - split; [|tauto]. intros (_ & N) [Q|Q]; [|tauto]. apply E in Q. discriminate.
Qed.

Lemma new_message_id_ok : forall ms t id t', new_unique_message_id ms t = Ok (id, t') ->
  length id = 4%nat /\ Forall alnum id /\ ~ In id (map mid ms).
Proof.
  intros ms t id t' H. unfold new_unique_message_id in H.
  assert (G : forall f t, new_unique_message_id_loop f ms t = Ok (id, t') ->
    length id = 4%nat /\ Forall alnum id /\ ~ In id (map mid ms)).
  { induction f as [|f IH]; intros t0 E; cbn [new_unique_message_id_loop] in E; [discriminate|].
    destruct (random_alnum_runes 4 t0) as [[s t1]|e| |] eqn:R; try discriminate. cbn [bind] in E.
    destruct (contains_message_id ms s) eqn:C; [apply (IH _ E)|].
    injection E as <- <-. destruct (random_alnum_ok _ _ _ _ R). apply contains_mid in C. auto. }
  exact (G _ _ H).
Qed.

Section WithUnicode.
Context (U : Uni).
Notation up := (to_upper U).

(** ** DeleteMessage *)
Definition midb (id : list rune) (m : msg) : bool := equal_runes (Some (mid m)) (Some id).
Lemma midb_spec : forall id m, midb id m = true <-> mid m = id.
Proof. intros id m. apply equal_runes_spec. Qed.

Lemma delete_msg_is_del : forall ids ms, fst (delete_message ms ids) = fold_left (del1 midb) ids ms.
Proof.
  induction ids as [|id ids IH]; intros ms; [reflexivity|]. cbn [delete_message fold_left].
  assert (E : fst (delete_message1 ms id) = del1 midb ms id).
  { unfold delete_message1, del1, midb. destruct (index_of _ ms 0); reflexivity. }
  destruct (delete_message1 ms id) as [ms1 n1]. cbn [fst] in E. subst ms1. rewrite <- IH.
  destruct (delete_message (del1 midb ms id) ids). reflexivity.
Qed.

Lemma delete_msg_count : forall ids ms, snd (delete_message ms ids) = len ms - len (fst (delete_message ms ids)).
Proof.
  induction ids as [|id ids IH]; intros ms; [cbn; lia|]. cbn [delete_message].
  assert (E : snd (delete_message1 ms id) = len ms - len (fst (delete_message1 ms id))).
  { pose proof (del1_spec midb ms id) as D. unfold del1 in D. unfold delete_message1.
    change (fun m : msg => equal_runes (Some (mid m)) (Some id)) with (midb id).
    destruct (index_of (midb id) ms 0) eqn:X; [|cbn [fst snd]; lia].
    pose proof (index_of_spec msg (midb id) ms 0) as S. rewrite X in S.
    destruct S as (a & x & b & -> & <- & _). pose proof (swap_remove_perm msg a x b) as P.
    apply Permutation_length in P. cbn [Nat.add fst snd]. unfold len.
    rewrite !app_length in *. cbn [length]. lia. }
  destruct (delete_message1 ms id) as [ms1 n1]. cbn [fst snd] in E. specialize (IH ms1).
  destruct (delete_message ms1 ids) as [ms2 n2]. cbn [fst snd] in *. lia.
Qed.

Lemma delete_msg_lemma : forall ms ids ms' n, delete_message ms ids = (ms', n) -> NoDup (map mid ms) ->
  NoDup (map mid ms') /\ n = len ms - len ms' /\
  forall m, In m ms' <-> In m ms /\ ~ In (mid m) ids.
Proof.
  intros ms ids ms' n H Hd. pose proof (delete_msg_is_del ids ms) as E. pose proof (delete_msg_count ids ms) as C.
  rewrite H in E, C. cbn [fst snd] in E, C. subst ms'.
  destruct (fold_del_exact midb (fun l => NoDup (map mid l))) with (xs := ids) (l := ms) as (A & B).
  - intros l m P. apply Permutation_NoDup. apply Permutation_map. exact P.
  - intros y l D. cbn [map] in D. inversion D; subst. split; [assumption|]. intros x z F I.
    apply midb_spec in F. destruct (midb x z) eqn:Q; [|reflexivity]. apply midb_spec in Q.
    exfalso. apply H2. rewrite F, <- Q. apply in_map. exact I.
  - exact Hd.
  - split; [exact A|]. split; [exact C|]. intros m. rewrite B. split; intros (B1 & B2); (split; [exact B1|]).
    + intros Q. specialize (B2 _ Q). assert (midb (mid m) m = true) by (apply midb_spec; reflexivity). congruence.
    + intros x Hx. destruct (midb x m) eqn:Q; [|reflexivity]. apply midb_spec in Q. subst x. contradiction.
Qed.

Lemma delete_msg_nodup : forall ids ms, NoDup (map mid ms) -> NoDup (map mid (fst (delete_message ms ids))).
Proof.
  intros ids ms H. destruct (delete_message ms ids) as [ms' n] eqn:E. apply (delete_msg_lemma _ _ _ _ E H).
Qed.
Lemma delete_summary_nodup : forall lines ms, NoDup (map mid ms) ->
  NoDup (map mid (fst (delete_messages_by_summary U ms lines))).
Proof.
  induction lines as [|l lines IH]; intros ms H; [exact H|]. cbn [delete_messages_by_summary].
  pose proof (delete_msg_nodup (vetted_message_ids U [cut_space l]) ms H) as D.
  unfold delete_message_by_string. destruct (delete_message ms _) as [ms1 n1]. cbn [fst] in D. specialize (IH ms1 D).
  destruct (delete_messages_by_summary U ms1 lines). exact IH.
Qed.

(** ** What enciphering and deciphering leave alone *)
Lemma encipher_frame : forall i m t i' m' r t', mid m <> [] -> encipher U i m t = (i', m', r, t') ->
  i' = set_keys i (i_keys i') /\ exists k c, m' = set_mcipher (set_mkeyid m k) c.
Proof.
  intros i m t i' m' r t' Hm H. unfold encipher, encipher_full in H. rewrite (ensure_id_has i m t Hm) in H.
  assert (Z0 : i = set_keys i (i_keys i)) by (destruct i; reflexivity).
  assert (M0 : exists k c, m = set_mcipher (set_mkeyid m k) c) by (exists (mkeyid m), (mcipher m); destruct m; reflexivity).
  assert (E : forall ks m1 r1, enrich_with_key U (i_groupsize i) (i_keys i) m = (ks, m1, r1) ->
              exists k, m1 = set_mkeyid m k).
  { intros ks m1 r1 E. unfold enrich_with_key in E.
    assert (S : exists k, m = set_mkeyid m k) by (exists (mkeyid m); destruct m; reflexivity).
    repeat match type of E with
    | (if ?b then _ else _) = _ => destruct b
    | match ?b with Some _ => _ | None => _ end = _ => destruct b
    end; injection E as <- <- <-; eauto. }
  destruct (enrich_with_key U (i_groupsize i) (i_keys i) m) as [[ks m1] r1] eqn:En.
  destruct (E _ _ _ eq_refl) as (k & Em). clear E.
  assert (M1 : forall c, exists k0 c0, set_mcipher m1 c = set_mcipher (set_mkeyid m k0) c0).
  { intros c. exists k, c. subst m1. reflexivity. }
  assert (M2 : exists k0 c0, m1 = set_mcipher (set_mkeyid m k0) c0).
  { exists k, (mcipher m). subst m1. destruct m; reflexivity. }
  destruct r1 as [u|e| |].
  - destruct (wipe_value (mcipher m1) t) as [c0 t1]. destruct (get_key U (mkeyid m1) ks) as [k0|].
    + cbv zeta in H. destruct (er_res _) eqn:R.
      * cbn [fst] in H. injection H as <- <- <- <-. split; [reflexivity|apply M1].
      * destruct (wipe_value (mkeyid m1) t1) as [kid' t2]. cbn [fst] in H. injection H as <- <- <- <-.
        split; [reflexivity|]. eexists kid', _. subst m1. reflexivity.
      * destruct (wipe_value (mkeyid m1) t1) as [kid' t2]. cbn [fst] in H. injection H as <- <- <- <-.
        split; [reflexivity|]. eexists kid', _. subst m1. reflexivity.
      * destruct (wipe_value (mkeyid m1) t1) as [kid' t2]. cbn [fst] in H. injection H as <- <- <- <-.
        split; [reflexivity|]. eexists kid', _. subst m1. reflexivity.
    + cbn [fst] in H. injection H as <- <- <- <-. split; [reflexivity|apply M1].
  - cbn [fst] in H. injection H as <- <- <- <-. split; [reflexivity|exact M2].
  - cbn [fst] in H. injection H as <- <- <- <-. split; [reflexivity|exact M2].
  - cbn [fst] in H. injection H as <- <- <- <-. split; [reflexivity|exact M2].
Qed.

Lemma mark_stack_same : forall stack ks, same_but_used ks (mark_stack ks stack).
Proof.
  induction stack as [|j stack IH]; intros ks; [apply same_but_used_refl|].
  cbn [mark_stack fold_left]. apply same_but_used_trans with (mark ks j true).
  - apply same_but_used_sym, same_but_used_mark.
  - apply IH.
Qed.

Lemma decipher_frame : forall i m t i' m' r t', mid m <> [] -> decipher U i m t = (i', m', r, t') ->
  i' = set_keys i (i_keys i') /\ same_but_used (i_keys i) (i_keys i').
Proof.
  intros i m t i' m' r t' Hm H. unfold decipher in H. rewrite (ensure_id_has i m t Hm) in H.
  assert (Z0 : i = set_keys i (i_keys i) /\ same_but_used (i_keys i) (i_keys i))
    by (split; [destruct i; reflexivity|apply same_but_used_refl]).
  destruct (negb (len (mkeyid m) =? i_groupsize i)); [injection H as <- <- <- <-; exact Z0|].
  destruct (len (mcipher m) <? i_groupsize i); [injection H as <- <- <- <-; exact Z0|].
  destruct (get_key U (mkeyid m) (i_keys i)) as [k0|]; [|injection H as <- <- <- <-; exact Z0].
  destruct (wipe_value (mplain m) t) as [p0 t1].
  destruct (decipher_loop U (i_groupsize i) (i_keys i) (mcipher m) k0 0 new_state [] p0 [k0]) as [[p s] r0].
  destruct r0; injection H as <- <- <- <-; try exact Z0. split; [reflexivity|apply mark_stack_same].
Qed.

(** Everything TryDecipherPlainText may do. *)
Lemma try_frame : forall i m d t i' m' r t', mid m <> [] -> 0 <= i_groupsize i ->
  try_decipher U i m d t = (i', m', r, t') ->
  (r = Ok tt \/ exists e, r = Err e) /\ i' = set_keys i (i_keys i') /\ same_but_used (i_keys i) (i_keys i') /\
  mid m' = mid m /\ mrecipients m' = mrecipients m /\ mfrom m' = mfrom m /\ mdtg m' = mdtg m /\
  mradiogram m' = mradiogram m /\ mbinary m' = mbinary m /\
  (r <> Ok tt -> i' = i /\ mplain m' = mplain m /\ mcipher m' = mcipher m).
Proof.
  intros i m d t i' m' r t' Hm Hg H.
  destruct (try_decipher_spec U i m d t i' m' r t' Hm Hg H) as (A & B & C & D).
  split; [exact A|].
  assert (Z0 : i = set_keys i (i_keys i) /\ same_but_used (i_keys i) (i_keys i))
    by (split; [destruct i; reflexivity|apply same_but_used_refl]).
  destruct A as [->|(e & ->)].
  - destruct d.
    + destruct (C eq_refl) as (-> & ->). destruct Z0. repeat (split; [assumption || reflexivity|]). congruence.
    + destruct (D eq_refl eq_refl) as (_ & _ & _ & k & _ & _ & _ & Dk).
      destruct ((fun H => decipher_frame _ _ _ _ _ _ _ H Dk) Hm) as (F1 & F2).
      destruct ((fun H => decipher_total U _ _ _ _ _ _ _ H Dk) Hm) as (_ & _ & (p & ->)).
      split; [exact F1|]. split; [exact F2|]. repeat (split; [reflexivity|]). congruence.
  - destruct (B ltac:(discriminate)) as (-> & B1 & B2 & B3 & B4 & _).
    destruct Z0 as (Z0 & Z1). split; [exact Z0|]. split; [exact Z1|]. split; [exact B3|]. split; [exact B4|].
    unfold try_decipher in H. rewrite (ensure_id_has i m t Hm) in H.
    assert (Fin : mfrom m' = mfrom m /\ mdtg m' = mdtg m /\ mradiogram m' = mradiogram m /\ mbinary m' = mbinary m).
    { destruct (0 <? len (mkeyid m)); [inversion H; subst; auto|].
      destruct (filter_letters U (mplain m)); [|inversion H; subst; auto].
      destruct (len l <? i_groupsize i * 2); [inversion H; subst; auto|].
      destruct (i_groupsize i <? 0); [discriminate|].
      destruct (get_key U _ (i_keys i)) as [kp|]; [|inversion H; subst; auto].
      destruct (nth_error (i_keys i) kp) as [k|]; [|discriminate].
      destruct d; [discriminate|].
      destruct (decipher U i _ t) as [[[i2 m2] r2] t2] eqn:Dk.
      destruct ((fun H => decipher_total U _ _ _ _ _ _ _ H Dk) Hm) as (_ & _ & (p & ->)).
      destruct r2 as [u|e2| |]; try discriminate;
      destruct (wipe_value _ t2) as [kid' t3]; inversion H; subst; auto. }
    destruct Fin as (F1 & F2 & F3 & F4). repeat (split; [assumption|]). auto.
Qed.

Section WithLibraries.
Context (lb : list rune -> list rune) (dp : list rune -> option Z).
Notation parse := (parse_radiogram U lb dp).
Notation ntm := (new_text_message U lb dp).

Lemma parse_ok : forall i raw now t m t', parse i raw now t = Ok (m, t') ->
  exists to from d text, split_radiogram U regexps (lb raw) = Some (to, from, d, text) /\
    new_unique_message_id (i_messages i) t = Ok (mid m, t') /\
    mrecipients m = to /\ mfrom m = from /\ mplain m = text /\ mkeyid m = [] /\ mcipher m = [] /\ mbinary m = [] /\
    mradiogram m = lb raw /\ ((d = [] /\ mdtg m = now) \/ (d <> [] /\ dp d = Some (mdtg m))).
Proof.
  intros i raw now t m t' H. unfold parse_radiogram in H.
  destruct (new_unique_message_id (i_messages i) t) as [[id t1]|e| |] eqn:N; try discriminate. cbn [bind] in H.
  destruct (split_radiogram U regexps (lb raw)) as [[[[to from] d] text]|] eqn:S; [|discriminate].
  destruct (if len d =? 0 then Some now else dp d) as [w|] eqn:W; [|discriminate].
  injection H as <- <-. exists to, from, d, text. cbn. repeat (split; [reflexivity|]).
  destruct (len d =? 0) eqn:L.
  - left. apply len_zero in L. injection W as <-. auto.
  - right. split; [|exact W]. intros ->. discriminate.
Qed.

Lemma parse_id : forall i raw now t m t', parse i raw now t = Ok (m, t') ->
  length (mid m) = 4%nat /\ Forall alnum (mid m) /\ ~ In (mid m) (map mid (i_messages i)).
Proof.
  intros i raw now t m t' H. destruct (parse_ok _ _ _ _ _ _ H) as (? & ? & ? & ? & _ & N & _).
  apply (new_message_id_ok _ _ _ _ N).
Qed.
Lemma parse_mid : forall i raw now t m t', parse i raw now t = Ok (m, t') -> mid m <> [].
Proof. intros i raw now t m t' H. destruct (parse_id _ _ _ _ _ _ H) as (L & _). intros Q. rewrite Q in L. discriminate. Qed.

Lemma my_call_spec : forall i m, is_my_call U i m = true <-> same_text up (mfrom m) (i_callsign i).
Proof. intros i m. unfold is_my_call. apply fold_same. Qed.

Hypothesis HU : uni_ok U.

(** ** NewTextMessage *)
Lemma encipher_ok_same : forall i m t i' m' t', 0 < i_groupsize i -> store_ok (i_groupsize i) (i_keys i) ->
  mcipher m = [] -> encipher U i m t = (i', m', Ok tt, t') -> same_but_used (i_keys i) (i_keys i').
Proof.
  intros i m t i' m' t' Hg Hs Hc H.
  assert (G : exists js, marked_used js (i_keys i) (i_keys i')).
  { destruct (mkeyid m) as [|c k] eqn:K.
    - destruct (c09_lemma U i m t i' m' t' HU Hg Hs K H) as (js & _ & _ & _ & _ & M & _). eauto.
    - destruct (c10_lemma U i m t i' m' t' HU Hg Hs ltac:(congruence) (or_introl Hc) H)
        as (j & js & k0 & _ & _ & _ & _ & _ & _ & _ & _ & M & _). eauto. }
  destruct G as (js & M). unfold same_but_used.
  assert (X : forall l l', (forall j, nth_error (map (fun k => set_used k false) l) j = nth_error (map (fun k => set_used k false) l') j) ->
     map (fun k => set_used k false) l = map (fun k => set_used k false) l').
  { intros l l' Q. revert Q. generalize (map (fun k => set_used k false) l) (map (fun k => set_used k false) l').
    induction l0 as [|x l0 IH]; intros [|y l1] Q.
    - reflexivity.
    - specialize (Q O). discriminate.
    - specialize (Q O). discriminate.
    - assert (Q0 := Q O). cbn in Q0. injection Q0 as ->. f_equal. apply IH. intros j. apply (Q (S j)). }
  apply X. intros j. rewrite !nth_error_map, (M j). destruct (nth_error (i_keys i) j) as [k|]; [|reflexivity].
  cbn. destruct (existsb (Nat.eqb j) js); reflexivity.
Qed.

Lemma res_cases : forall (r : res unit), r = Ok tt \/ r <> Ok tt.
Proof. intros [[]|e| |]; [left; reflexivity|right; discriminate|right; discriminate|right; discriminate]. Qed.

Lemma c42_lemma : forall i args now t i' r, 0 < i_groupsize i -> store_ok (i_groupsize i) (i_keys i) ->
  ntm i args now t = (i', r) ->
  match r with
  | Ok (m, _) => i_messages i' = i_messages i ++ [m] /\
                 i' = set_messages (set_keys i (i_keys i')) (i_messages i') /\
                 same_but_used (i_keys i) (i_keys i')
  | _ => i' = i
  end.
Proof.
  intros i args now t i' r Hg Hs H. unfold new_text_message in H.
  destruct args as [|raw rest]; [injection H as <- <-; reflexivity|].
  destruct (parse i raw now t) as [[p t1]|e| |] eqn:P;
    [|injection H as <- <-; reflexivity|injection H as <- <-; reflexivity|injection H as <- <-; reflexivity].
  pose proof (parse_mid _ _ _ _ _ _ P) as Pm.
  destruct (parse_ok _ _ _ _ _ _ P) as (? & ? & ? & ? & _ & _ & _ & _ & _ & Pk & Pc & _).
  destruct (is_my_call U i p) eqn:My.
  - assert (Go : forall m1, mid m1 <> [] -> mcipher m1 = [] ->
      (match encipher U i m1 t1 with
       | (i2, m2, Ok _, t2) => (store_message i2 m2, Ok (m2, t2))
       | (i2, _, Err e, _) => (i2, Err e)
       | (i2, _, Panic, _) => (i2, Panic)
       | (i2, _, Diverge, _) => (i2, Diverge)
       end) = (i', r) ->
      match r with
      | Ok (m, _) => i_messages i' = i_messages i ++ [m] /\
                     i' = set_messages (set_keys i (i_keys i')) (i_messages i') /\
                     same_but_used (i_keys i) (i_keys i')
      | _ => i' = i
      end).
    { intros m1 Hm Hc E. destruct (encipher U i m1 t1) as [[[i2 m2] r2] t2] eqn:En.
      destruct (encipher_frame _ _ _ _ _ _ _ Hm En) as (F1 & _).
      destruct (res_cases r2) as [->|N].
      - injection E as <- <-. unfold store_message. cbn [set_messages i_messages].
        assert (Mi : i_messages i2 = i_messages i) by (rewrite F1; reflexivity).
        split; [rewrite Mi; reflexivity|]. split; [cbn [i_keys set_messages]; rewrite <- F1; reflexivity|].
        apply (encipher_ok_same i m1 t1 i2 m2 t2 Hg Hs Hc En).
      - pose proof (encipher_fail U HU _ _ _ _ _ _ _ Hg Hs En N). destruct r2 as [[]|e| |]; [congruence| | |];
          injection E as <- <-; assumption. }
    destruct rest as [|a rest]; [apply (Go p Pm Pc H)|].
    destruct rest as [|b rest]; [injection H as <- <-; reflexivity|].
    cbv zeta in H. destruct (negb (len (str_upper U (trim_space U b)) =? i_groupsize i));
      [injection H as <- <-; reflexivity|].
    apply (Go (set_mkeyid p (str_upper U (trim_space U b))) Pm Pc H).
  - cbv zeta in H. set (m1 := if len (mrecipients p) =? 0 then _ else _) in H.
    assert (Hm1 : mid m1 <> []) by (unfold m1; destruct (len (mrecipients p) =? 0); exact Pm).
    destruct (try_decipher U i m1 false t1) as [[[i2 m2] r2] t2] eqn:T.
    destruct (try_frame _ _ _ _ _ _ _ _ Hm1 (Z.lt_le_incl _ _ Hg) T) as (A & F1 & F2 & _).
    assert (R : (store_message i2 m2, Ok (m2, t2)) = (i', r)).
    { destruct A as [->|(e & ->)]; exact H. }
    injection R as <- <-. unfold store_message. cbn [set_messages i_messages].
    assert (Mi : i_messages i2 = i_messages i) by (rewrite F1; reflexivity).
    split; [rewrite Mi; reflexivity|]. split; [cbn [i_keys set_messages]; rewrite <- F1; reflexivity|]. exact F2.
Qed.

(** An incoming message is always stored, deciphered or with its text. *)
Lemma incoming_lemma : forall i raw rest now t p t1, 0 < i_groupsize i -> store_ok (i_groupsize i) (i_keys i) ->
  parse i raw now t = Ok (p, t1) -> ~ same_text up (mfrom p) (i_callsign i) ->
  exists i' m t', ntm i (raw :: rest) now t = (i', Ok (m, t')) /\
    mid m = mid p /\ mfrom m = mfrom p /\ mdtg m = mdtg p /\ mradiogram m = mradiogram p /\
    mrecipients m = match mrecipients p with [] => [i_callsign i] | l => l end /\
    ((mplain m = mplain p /\ mcipher m = [] /\ i_keys i' = i_keys i) \/
     exists d, letters (d ++ mcipher m) /\
       d ++ mcipher m = map up (filter (fun c => negb (is_space U c || (c =? 61))) (mplain p)) /\
       ((length (mplain p) <= length t1)%nat ->
        exists j js k, nth_error (i_keys i) j = Some k /\ kid k = d /\ mkeyid m = d /\
          message (i_groupsize i) (i_keys i) (j :: js) (mplain m) (mcipher m) /\
          marked_used (j :: js) (i_keys i) (i_keys i'))).
Proof.
  intros i raw rest now t p t1 Hg Hs P N. unfold new_text_message. rewrite P.
  pose proof (parse_mid _ _ _ _ _ _ P) as Pm.
  destruct (parse_ok _ _ _ _ _ _ P) as (? & ? & ? & ? & _ & _ & _ & _ & _ & Pk & Pc & _).
  destruct (is_my_call U i p) eqn:My; [exfalso; apply N; apply my_call_spec; exact My|].
  cbv zeta. set (m1 := if len (mrecipients p) =? 0 then _ else _).
  assert (M1 : exists l, m1 = set_mrecipients p l /\ l = match mrecipients p with [] => [i_callsign i] | l => l end).
  { unfold m1. destruct (len (mrecipients p) =? 0) eqn:L.
    - apply len_zero in L. rewrite L. eexists. split; [reflexivity|]. reflexivity.
    - exists (mrecipients p). split; [destruct p; reflexivity|]. destruct (mrecipients p); [discriminate|reflexivity]. }
  destruct M1 as (l & M1 & L). rewrite M1. clear m1 M1. 
  destruct (try_decipher U i (set_mrecipients p l) false t1) as [[[i2 m2] r2] t2] eqn:T.
  assert (Hm : mid (set_mrecipients p l) <> []) by exact Pm.
  destruct (try_frame _ _ _ _ _ _ _ _ Hm (Z.lt_le_incl _ _ Hg) T) as (A & F1 & F2 & F3 & F4 & F5 & F6 & F7 & F8 & F9).
  destruct (try_decipher_spec U i _ _ _ _ _ _ _ Hm (Z.lt_le_incl _ _ Hg) T) as (_ & _ & _ & D).
  exists (store_message i2 m2), m2, t2.
  split. { destruct A as [->|(e & ->)]; reflexivity. }
  split; [exact F3|]. split; [exact F5|]. split; [exact F6|]. split; [exact F7|]. split; [rewrite F4; exact L|].
  destruct A as [->|(e & ->)].
  - right. destruct (D eq_refl eq_refl) as (D1 & D2 & _ & k & D3 & D4 & D5 & D6).
    change (mplain (set_mrecipients p l)) with (mplain p) in *. unfold dropped in *.
    set (ft := map up (filter (fun c => negb (is_space U c || (c =? 61))) (mplain p))) in *.
    set (n := Z.to_nat (i_groupsize i)) in *.
    destruct ((fun H => decipher_total U _ _ _ _ _ _ _ H D6) Hm) as (_ & _ & (pl & Ep)).
    assert (C2 : mcipher m2 = skipn n ft) by (rewrite Ep; reflexivity).
    assert (K2 : mkeyid m2 = kid k) by (rewrite Ep; reflexivity).
    assert (LF : letters (firstn n ft)).
    { apply Forall_forall. intros c Hc. unfold letters in D1. rewrite Forall_forall in D1. apply D1.
      rewrite <- (firstn_skipn n ft). apply in_app_iff. left. exact Hc. }
    assert (Kf : kid k = firstn n ft).
    { rewrite key_query_letters in D5 by exact LF. rewrite go_string_letters in D5; [exact D5|].
      apply (proj2 Hs k D3). }
    exists (firstn n ft). rewrite C2, firstn_skipn. split; [exact D1|]. split; [reflexivity|].
    intros Ht. assert (Kl : letters (mkeyid (set_mcipher (set_mkeyid (set_mrecipients p l) (kid k)) (skipn n ft)))).
    { cbn. rewrite Kf. exact LF. }
    assert (Ht' : (length (mplain (set_mcipher (set_mkeyid (set_mrecipients p l) (kid k)) (skipn n ft))) <= length t1)%nat)
      by exact Ht.
    destruct (decipher_refines U i _ t1 i2 m2 t2 Hg Hs Kl Hm Ht' D6)
      as (j & js & k' & pl' & R1 & R2 & R3 & R4 & R5 & R6).
    exists j, js, k'. split; [exact R1|]. split; [rewrite R2; exact Kf|]. split; [rewrite K2; exact Kf|].
    split; [|exact R6]. rewrite R4. exact R3.
  - left. destruct (F9 ltac:(discriminate)) as (-> & B1 & B2). split; [exact B1|]. split; [rewrite B2; exact Pc|reflexivity].
Qed.

(** A new message has a new ID. *)
Lemma new_text_id : forall i args now t i' m t', 0 < i_groupsize i -> store_ok (i_groupsize i) (i_keys i) ->
  ntm i args now t = (i', Ok (m, t')) ->
  length (mid m) = 4%nat /\ Forall alnum (mid m) /\ ~ In (mid m) (map mid (i_messages i)).
Proof.
  intros i args now t i' m t' Hg Hs H. unfold new_text_message in H.
  destruct args as [|raw rest]; [discriminate|].
  destruct (parse i raw now t) as [[p t1]|e| |] eqn:P; try discriminate.
  assert (Q : mid m = mid p).
  2: { rewrite Q. apply (parse_id _ _ _ _ _ _ P). }
  pose proof (parse_mid _ _ _ _ _ _ P) as Pm.
  destruct (is_my_call U i p) eqn:My.
  - assert (Go : forall m1, mid m1 = mid p ->
      (match encipher U i m1 t1 with
       | (i2, m2, Ok _, t2) => (store_message i2 m2, Ok (m2, t2))
       | (i2, _, Err e, _) => (i2, Err e)
       | (i2, _, Panic, _) => (i2, Panic)
       | (i2, _, Diverge, _) => (i2, Diverge)
       end) = (i', Ok (m, t')) -> mid m = mid p).
    { intros m1 Hm E. destruct (encipher U i m1 t1) as [[[i2 m2] r2] t2] eqn:En.
      destruct (encipher_frame i m1 t1 i2 m2 r2 t2 ltac:(congruence) En) as (_ & (k & c & F)).
      destruct r2; try discriminate. injection E as _ <- _. rewrite F. exact Hm. }
    destruct rest as [|a rest]; [apply (Go p eq_refl H)|].
    destruct rest as [|b rest]; [discriminate|].
    cbv zeta in H. destruct (negb (len (str_upper U (trim_space U b)) =? i_groupsize i)); [discriminate|].
    apply (Go (set_mkeyid p (str_upper U (trim_space U b))) eq_refl H).
  - cbv zeta in H. set (m1 := if len (mrecipients p) =? 0 then _ else _) in H.
    assert (E1 : mid m1 = mid p) by (unfold m1; destruct (len (mrecipients p) =? 0); reflexivity).
    assert (Hm1 : mid m1 <> []) by congruence.
    destruct (try_decipher U i m1 false t1) as [[[i2 m2] r2] t2] eqn:T.
    destruct (try_frame _ _ _ _ _ _ _ _ Hm1 (Z.lt_le_incl _ _ Hg) T) as (A & _ & _ & F3 & _).
    assert (R : (store_message i2 m2, Ok (m2, t2)) = (i', Ok (m, t'))).
    { destruct A as [->|(e & ->)]; exact H. }
    injection R as _ <- _. congruence.
Qed.
End WithLibraries.
End WithUnicode.
