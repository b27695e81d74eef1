(** Enciphering and deciphering on shared memory. *)
From Coq Require Import Permutation.
From Verif Require Import Base Model_Unicode Model_Crand Model_Functions Model_Types
  Model_Codec Model_Cipher Model_Keys Model_Import Model_Messages Model_Heap Spec Spec_Heap Proofs_Keys
  Proofs_KeyOps Proofs_Encipher Proofs_Cipher Proofs_Heap Proofs_Sharing Proofs_Shared
  Proofs_HeapOps.

(** ** Only [Used] marks of keys change *)
Section WithUnicode.
Context (U : Uni).

Lemma maybe_change_key_keys : forall gs rs e,
  same_but_used (es_keys (fst (maybe_change_key U gs rs e))) (es_keys e).
Proof.
  intros gs rs e. unfold maybe_change_key.
  destruct (nth_error (es_keys e) (ch_key (es_cur e))); [|apply same_but_used_refl].
  destruct (_ <=? _); [|apply same_but_used_refl].
  destruct (find_key U gs rs (es_keys e)) as [j|]; [|apply same_but_used_refl].
  destruct (nth_error (es_keys e) j); [|apply same_but_used_refl].
  destruct (change_key _ _ _) as [[st1 o1]| | |]; try apply same_but_used_refl.
  apply same_but_used_mark.
Qed.

Lemma encode_loop_keys : forall gs rs text e,
  same_but_used (es_keys (fst (encode_loop U gs rs text e))) (es_keys e).
Proof.
  intros gs rs text. induction text as [|c text IH]; intros e; [apply same_but_used_refl|].
  cbn [encode_loop]. pose proof (maybe_change_key_keys gs rs e) as H.
  destruct (maybe_change_key U gs rs e) as [e1 r]. cbn [fst] in H.
  destruct r; try exact H.
  destruct (encode_character _ _ _ _) as [[st1 o1]| | |]; try exact H.
  eapply same_but_used_trans; [apply IH|exact H].
Qed.

Lemma encipher_body_keys : forall gs rs text ks k0 c0,
  same_but_used (er_keys (encipher_body U gs rs text ks k0 c0)) ks.
Proof.
  intros. unfold encipher_body.
  pose proof (encode_loop_keys gs rs text (mkES ks new_state [] (mkChunk [] k0))) as H.
  destruct (encode_loop _ _ _ _ _) as [e r]. cbn [fst es_keys] in H.
  destruct r; try exact H.
  destruct (pad_count _ _); try exact H.
  destruct (pad _ _ _) as [[st1 o1]| | |]; try exact H.
  cbv zeta. destruct (encipher_chunks _ _ _). exact H.
Qed.

Lemma mark_key_used_same : forall id b ks, same_but_used (fst (mark_key_used U id b ks)) ks.
Proof.
  intros. unfold mark_key_used. destruct (get_key_loop _ _ _); [apply same_but_used_mark|apply same_but_used_refl].
Qed.

Lemma release_keys_same : forall id cur chunks ks, same_but_used (release_keys U id cur chunks ks) ks.
Proof.
  intros id cur chunks ks. unfold release_keys.
  assert (H : same_but_used (mark (fst (mark_key_used U id false ks)) (ch_key cur) false) ks).
  { eapply same_but_used_trans; [apply same_but_used_mark|apply mark_key_used_same]. }
  revert H. generalize (mark (fst (mark_key_used U id false ks)) (ch_key cur) false).
  induction chunks as [|c chunks IH]; intros a H; [exact H|]. cbn [fold_left]. apply IH.
  eapply same_but_used_trans; [apply same_but_used_mark|exact H].
Qed.

Lemma mark_stack_same : forall js ks, same_but_used (mark_stack ks js) ks.
Proof.
  unfold mark_stack. induction js as [|j js IH]; intros ks; [apply same_but_used_refl|].
  cbn [fold_left]. eapply same_but_used_trans; [apply IH|apply same_but_used_mark].
Qed.

Lemma decipher_keys : forall i m t i' m' r t', decipher U i m t = (i', m', r, t') ->
  same_but_used (i_keys i') (i_keys i) /\ i' = set_keys i (i_keys i').
Proof.
  intros i m t i' m' r t' H. unfold decipher in H.
  assert (T : forall x, x = i -> same_but_used (i_keys x) (i_keys i) /\ x = set_keys i (i_keys x)).
  { intros x ->. split; [apply same_but_used_refl|destruct i; reflexivity]. }
  destruct (ensure_id i m t) as [[m1 t1]| | |];
    try (injection H as <- _ _ _; apply T; reflexivity).
  destruct (negb _); [injection H as <- _ _ _; apply T; reflexivity|].
  destruct (_ <? _); [injection H as <- _ _ _; apply T; reflexivity|].
  destruct (get_key _ _ _); [|injection H as <- _ _ _; apply T; reflexivity].
  destruct (wipe_value _ _) as [p0 t2].
  destruct (decipher_loop _ _ _ _ _ _ _ _ _ _) as [[p st] rr].
  destruct rr; injection H as <- _ _ _; try (apply T; reflexivity).
  split; [apply mark_stack_same|destruct i; reflexivity].
Qed.

Lemma try_decipher_keys : forall i m d t i' m' r t', try_decipher U i m d t = (i', m', r, t') ->
  same_but_used (i_keys i') (i_keys i) /\ i' = set_keys i (i_keys i').
Proof.
  intros i m d t i' m' r t' H. unfold try_decipher in H.
  assert (T : forall x, x = i -> same_but_used (i_keys x) (i_keys i) /\ x = set_keys i (i_keys x)).
  { intros x ->. split; [apply same_but_used_refl|destruct i; reflexivity]. }
  destruct (ensure_id i m t) as [[m1 t1]| | |];
    try (injection H as <- _ _ _; apply T; reflexivity).
  destruct (0 <? _); [injection H as <- _ _ _; apply T; reflexivity|].
  destruct (filter_letters _ _); [|injection H as <- _ _ _; apply T; reflexivity].
  destruct (_ <? _); [injection H as <- _ _ _; apply T; reflexivity|].
  destruct (_ <? _); [injection H as <- _ _ _; apply T; reflexivity|].
  destruct (get_key _ _ _); [|injection H as <- _ _ _; apply T; reflexivity].
  destruct (nth_error _ _); [|injection H as <- _ _ _; apply T; reflexivity].
  destruct d; [injection H as <- _ _ _; apply T; reflexivity|].
  destruct (decipher U _ _ _) as [[[i2 m2] rr] t2] eqn:E. apply decipher_keys in E.
  destruct rr; try (destruct (wipe_value _ _) as [w tw]); injection H as <- _ _ _; exact E.
Qed.

Lemma set_flags_value : forall h hks vs, same_but_used (map (key_of h) hks) vs ->
  map (key_of h) (set_flags hks vs) = vs.
Proof.
  intros h. induction hks as [|hk hks IH]; intros [|v vs] H; unfold same_but_used in H;
    cbn [map] in H; try discriminate; [reflexivity|].
  cbn [set_flags map]. injection H as H1 H2 H3 H4 H5 H6 H7 HR. f_equal.
  - unfold key_of, hset_used, set_used in *.
    cbn [hk_id hk_runes hk_keepers hk_created hk_expires hk_used hk_compromised hk_comment
         kid krunes kkeepers kcreated kexpires kused kcompromised kcomment] in *.
    destruct v as [va vb vc vd ve vf vg vx]. cbn [kid krunes kkeepers kcreated kexpires kused kcompromised kcomment] in *. congruence.
  - apply IH. exact HR.
Qed.

Lemma enrich_keys : forall gs ks m ks' m' r, enrich_with_key U gs ks m = (ks', m', r) ->
  same_but_used ks' ks.
Proof.
  intros gs ks m ks' m' r H. unfold enrich_with_key in H.
  destruct (_ =? 0); [injection H as <- _ _; apply same_but_used_refl|].
  destruct (0 <? _).
  - destruct (negb _); injection H as <- _ _; apply same_but_used_refl.
  - destruct (0 <? _).
    + destruct (negb _); injection H as <- _ _; apply same_but_used_refl.
    + destruct (find_key _ _ _ _) as [j|]; [|injection H as <- _ _; apply same_but_used_refl].
      destruct (nth_error ks j); injection H as <- _ _; [apply same_but_used_mark|apply same_but_used_refl].
Qed.

(** ** Steps on the message under construction *)
Lemma inv_set_msg : forall h h' ks m m' ms ex l1 x x' l2,
  grows h h' -> inv h ks (m :: ms) ex ->
  msg_slots m = l1 ++ x :: l2 -> msg_slots m' = l1 ++ x' :: l2 ->
  slot_ok h' x' -> (forall y, In y (l1 ++ l2 ++ slots h ks ms ex) -> R x' y) ->
  inv h' ks (m' :: ms) ex.
Proof.
  intros h h' ks m m' ms ex l1 x x' l2 G I E E' O HR.
  pose proof (inv_grows _ _ _ _ _ G I) as I1.
  assert (ES : slots h' ks ms ex = slots h ks ms ex).
  { apply slots_outer. destruct I as [_ _ _ D]. revert D. apply Forall_impl.
    intros k0 O0. apply (grows_outer _ _ _ G O0). }
  destruct I1 as [A B C D].
  pose proof (slots_msg_front h' ks m ms ex) as P. pose proof (slots_msg_front h' ks m' ms ex) as P'.
  rewrite E in P. rewrite E' in P'. rewrite <- app_assoc in P, P'. cbn [app] in P, P'.
  constructor; auto.
  - apply (pairwise_perm _ _ R_sym _ _ (Permutation_sym P')).
    apply (pairwise_perm _ _ R_sym _ _ P) in A.
    apply (pairwise_replace _ _ R_sym _ _ _ _ A); rewrite ?ES; rewrite Forall_forall; intros y J; apply HR.
    + apply in_or_app. left. exact J.
    + apply in_or_app. right. exact J.
  - rewrite Forall_forall in *. intros y J. apply (Permutation_in y P') in J. apply in_app_or in J.
    assert (K : In y (l1 ++ l2 ++ slots h' ks ms ex) -> slot_ok h' y).
    { intros Q. apply B. apply (Permutation_in y (Permutation_sym P)).
      apply in_app_or in Q. apply in_or_app. destruct Q as [Q|Q]; [left|right; right]; exact Q. }
    destruct J as [J|[<-|J]]; [apply K|exact O|apply K]; apply in_or_app; [left|right]; exact J.
Qed.

(** A field set to a new array or to nil. *)
Lemma inv_set_new : forall h h' v ks m m' ms ex l1 kd s s' l2,
  new h v = (h', s') -> inv h ks (m :: ms) ex ->
  msg_slots m = l1 ++ (kd, s) :: l2 -> msg_slots m' = l1 ++ (kd, s') :: l2 ->
  inv h' ks (m' :: ms) ex.
Proof.
  intros h h' v ks m m' ms ex l1 kd s s' l2 N I E E'.
  pose proof (grows_new _ _ _ _ N) as G. apply new_spec in N. destruct N as [-> ->].
  apply (inv_set_msg h _ ks m m' ms ex l1 (kd, s) (kd, Some (length (h_runes h))) l2); auto.
  - unfold slot_ok; cbn [snd slice_ok h_runes]. rewrite app_length. cbn [length]. lia.
  - intros y J. apply (fresh_R h); [unfold fresh; cbn; lia|].
    destruct I as [_ B _ _]. rewrite Forall_forall in B. apply B.
    apply (Permutation_in y (Permutation_sym (slots_msg_front h ks m ms ex))). rewrite E.
    apply in_app_or in J. rewrite <- app_assoc. apply in_or_app.
    destruct J as [J|J]; [left|right; right]; exact J.
Qed.
Lemma inv_set_none : forall h ks m m' ms ex l1 kd s l2,
  inv h ks (m :: ms) ex ->
  msg_slots m = l1 ++ (kd, s) :: l2 -> msg_slots m' = l1 ++ (kd, None) :: l2 ->
  inv h ks (m' :: ms) ex.
Proof.
  intros h ks m m' ms ex l1 kd s l2 I E E'.
  apply (inv_set_msg h h ks m m' ms ex l1 (kd, s) (kd, None) l2); auto using grows_refl.
  - exact Logic.I.
  - intros y _. apply R_none.
Qed.

Lemma msg_own : forall h ks m ms ex, inv h ks (m :: ms) ex -> pairwise R (msg_slots m).
Proof.
  intros h ks m ms ex [A _ _ _].
  apply (pairwise_perm _ _ R_sym _ _ (slots_msg_front h ks m ms ex)) in A.
  apply pairwise_app in A. apply A.
Qed.

Lemma rd_new : forall h v h' s, new h v = (h', s) -> rd h' s = v.
Proof.
  intros h v h' s H. apply new_spec in H. destruct H as [-> ->]. unfold rd; cbn [h_runes].
  rewrite app_nth2, Nat.sub_diag by lia. reflexivity.
Qed.

Lemma step_new_cipher : forall h v h' a ks m ms ex, new h v = (h', a) -> inv h ks (m :: ms) ex ->
  inv h' ks (hset_mcipher m a :: ms) ex /\ grows h h' /\
  msg_of h' (hset_mcipher m a) = set_mcipher (msg_of h m) v.
Proof.
  intros h v h' a ks m ms ex N I. pose proof (grows_new _ _ _ _ N) as G. split.
  - apply (inv_set_new h h' v ks m _ ms ex [(KKeyId, hm_keyid m)] KPriv (hm_cipher m) a
      ((KPriv, hm_plain m) :: (KPriv, hm_id m) :: (KPriv, hm_from m) :: (KPriv, hm_radiogram m)
        :: tag KCall (hm_recipients m)) N I); reflexivity.
  - split; [exact G|].
    pose proof (msg_of_grows _ _ _ G (inv_msg_ok _ _ _ _ _ I (or_introl eq_refl))) as Q.
    unfold msg_of, set_mcipher, hset_mcipher in *.
    cbn [hm_id hm_recipients hm_from hm_dtg hm_keyid hm_plain hm_binary hm_cipher hm_radiogram
         mid mrecipients mfrom mdtg mkeyid mplain mbinary mcipher mradiogram] in *.
    injection Q as Q1 Q2 Q3 Q4 Q5 Q6 Q7. rewrite Q1, Q2, Q3, Q4, Q5, Q7, (rd_new _ _ _ _ N). reflexivity.
Qed.

Ltac fields := cbn [hm_id hm_recipients hm_from hm_dtg hm_keyid hm_plain hm_binary hm_cipher hm_radiogram
         mid mrecipients mfrom mdtg mkeyid mplain mbinary mcipher mradiogram] in *.

Lemma step_new_id : forall h v h' a ks m ms ex, new h v = (h', a) -> inv h ks (m :: ms) ex ->
  inv h' ks (hset_mid m a :: ms) ex /\ grows h h' /\
  msg_of h' (hset_mid m a) = set_mid (msg_of h m) v.
Proof.
  intros h v h' a ks m ms ex N I. pose proof (grows_new _ _ _ _ N) as G. split.
  - apply (inv_set_new h h' v ks m _ ms ex
      [(KKeyId, hm_keyid m); (KPriv, hm_cipher m); (KPriv, hm_plain m)] KPriv (hm_id m) a
      ((KPriv, hm_from m) :: (KPriv, hm_radiogram m) :: tag KCall (hm_recipients m)) N I); reflexivity.
  - split; [exact G|].
    pose proof (msg_of_grows _ _ _ G (inv_msg_ok _ _ _ _ _ I (or_introl eq_refl))) as Q.
    unfold msg_of, set_mid, hset_mid in *. fields.
    injection Q as Q1 Q2 Q3 Q4 Q5 Q6 Q7. rewrite Q2, Q3, Q4, Q5, Q6, Q7, (rd_new _ _ _ _ N). reflexivity.
Qed.
Lemma step_new_keyid : forall h v h' a ks m ms ex, new h v = (h', a) -> inv h ks (m :: ms) ex ->
  inv h' ks (hset_mkeyid m a :: ms) ex /\ grows h h' /\
  msg_of h' (hset_mkeyid m a) = set_mkeyid (msg_of h m) v.
Proof.
  intros h v h' a ks m ms ex N I. pose proof (grows_new _ _ _ _ N) as G. split.
  - apply (inv_set_new h h' v ks m _ ms ex [] KKeyId (hm_keyid m) a
      ((KPriv, hm_cipher m) :: (KPriv, hm_plain m) :: (KPriv, hm_id m) :: (KPriv, hm_from m)
       :: (KPriv, hm_radiogram m) :: tag KCall (hm_recipients m)) N I); reflexivity.
  - split; [exact G|].
    pose proof (msg_of_grows _ _ _ G (inv_msg_ok _ _ _ _ _ I (or_introl eq_refl))) as Q.
    unfold msg_of, set_mkeyid, hset_mkeyid in *. fields.
    injection Q as Q1 Q2 Q3 Q4 Q5 Q6 Q7. rewrite Q1, Q2, Q3, Q5, Q6, Q7, (rd_new _ _ _ _ N). reflexivity.
Qed.
Lemma step_new_plain : forall h v h' a ks m ms ex, new h v = (h', a) -> inv h ks (m :: ms) ex ->
  inv h' ks (hset_mplain m a :: ms) ex /\ grows h h' /\
  msg_of h' (hset_mplain m a) = set_mplain (msg_of h m) v.
Proof.
  intros h v h' a ks m ms ex N I. pose proof (grows_new _ _ _ _ N) as G. split.
  - apply (inv_set_new h h' v ks m _ ms ex [(KKeyId, hm_keyid m); (KPriv, hm_cipher m)] KPriv (hm_plain m) a
      ((KPriv, hm_id m) :: (KPriv, hm_from m)
       :: (KPriv, hm_radiogram m) :: tag KCall (hm_recipients m)) N I); reflexivity.
  - split; [exact G|].
    pose proof (msg_of_grows _ _ _ G (inv_msg_ok _ _ _ _ _ I (or_introl eq_refl))) as Q.
    unfold msg_of, set_mplain, hset_mplain in *. fields.
    injection Q as Q1 Q2 Q3 Q4 Q5 Q6 Q7. rewrite Q1, Q2, Q3, Q4, Q6, Q7, (rd_new _ _ _ _ N). reflexivity.
Qed.

(** The key ID becomes the ID slice of a key. *)
Lemma step_share : forall h ks m ms ex k, inv h ks (m :: ms) ex -> In k ks ->
  inv h ks (hset_mkeyid m (hk_id k) :: ms) ex /\
  msg_of h (hset_mkeyid m (hk_id k)) = set_mkeyid (msg_of h m) (kid (key_of h k)).
Proof.
  intros h ks m ms ex k I J. split; [|reflexivity].
  assert (Jk : In (KId, hk_id k) (slots h ks ms ex)).
  { apply (in_slots_key _ _ _ _ k); [exact J|]. left. reflexivity. }
  apply (inv_set_msg h h ks m _ ms ex [] (KKeyId, hm_keyid m) (KKeyId, hk_id k)
    ((KPriv, hm_cipher m) :: (KPriv, hm_plain m) :: (KPriv, hm_id m) :: (KPriv, hm_from m)
       :: (KPriv, hm_radiogram m) :: tag KCall (hm_recipients m))); auto using grows_refl.
  - destruct (inv_key_ok _ _ _ _ _ I J) as [O _]. rewrite Forall_forall in O.
    apply (O (KId, hk_id k)). left. reflexivity.
  - cbn [app]. intros y Jy.
    assert (Q : forall y, R (KId, hk_id k) y -> R (KKeyId, hk_id k) y).
    { intros z Hz a H1 H2. specialize (Hz a H1 H2). cbn [fst] in *. destruct (fst z); try discriminate; reflexivity. }
    assert (A : pairwise R (slots h ks ms ex)) by apply (inv_drop_msg _ _ _ _ _ I).
    assert (T : In y (msg_slots m) -> R (KKeyId, hk_id k) y).
    { intros Iy. apply Q. apply R_sym. exact (inv_cross_msg _ _ _ _ _ _ _ I Iy Jk). }
    cbn [In] in Jy. destruct Jy as [<-|[<-|[<-|[<-|[<-|Jy]]]]]; try (apply T; cbn; tauto).
    apply in_app_or in Jy. destruct Jy as [Jy|Jy].
    + apply T. do 6 right. exact Jy.
    + destruct (pairwise_In _ _ R_sym _ (KId, hk_id k) y A Jk Jy) as [<-|Z]; [|apply Q; exact Z].
      intros a _ _. reflexivity.
Qed.

(** Wiping the ciphertext slice of the message. *)
Lemma wipe1_value : forall h s t h' s' t', wipe1 h s t = (h', s', t') ->
  wipe_value (rd h s) t = (rd h' s', t').
Proof.
  intros h s t h' s' t' H. unfold wipe1 in H. unfold wipe_value.
  destruct (read_runes (length (rd h s)) t) as [[r t1]|]; injection H as <- <- <-; reflexivity.
Qed.

Lemma step_wipe_cipher : forall h t h' c0 t' ks m ms ex,
  wipe1 h (hm_cipher m) t = (h', c0, t') -> inv h ks (m :: ms) ex ->
  inv h' ks (hset_mcipher m c0 :: ms) ex /\
  msg_of h' (hset_mcipher m c0) = set_mcipher (msg_of h m) (rd h' c0) /\
  map (key_of h') ks = map (key_of h) ks /\ map (msg_of h') ms = map (msg_of h) ms /\
  (forall s, In (KCall, s) ex -> rd h' s = rd h s).
Proof.
  intros h t h' c0 t' ks m ms ex E I. destruct (wipe1_frame _ _ _ _ _ _ E) as (Sh & C & F).
  set (W := [(KPriv, hm_cipher m)] : list slot).
  assert (F' : forall a, ~ In (Some a) (map snd W) -> nth a (h_runes h') [] = nth a (h_runes h) []) by exact F.
  assert (X : forall x y, In x W -> In y (slots h ks ms ex) -> R x y).
  { intros x y [<-|[]] J. apply (inv_cross_msg _ _ _ _ _ _ _ I); [|exact J]. cbn. tauto. }
  assert (OU : forall k2, In k2 ks -> rd_outer h' (hk_keepers k2) = rd_outer h (hk_keepers k2)).
  { intros k3 _. unfold rd_outer. rewrite (proj1 Sh). reflexivity. }
  assert (KD : forall x, In x W -> fst x = KPriv) by (intros x [<-|[]]; reflexivity).
  assert (KC : forall x, In x W -> fst x <> KCall) by (intros x [<-|[]]; discriminate).
  split; [|split; [|split; [|split]]].
  - pose proof (inv_shape _ _ _ _ _ Sh I) as I1. destruct C as [->|[-> _]].
    + apply (inv_set_none h' ks m _ ms ex [(KKeyId, hm_keyid m)] KPriv (hm_cipher m)
        ((KPriv, hm_plain m) :: (KPriv, hm_id m) :: (KPriv, hm_from m)
          :: (KPriv, hm_radiogram m) :: tag KCall (hm_recipients m)) I1); reflexivity.
    + destruct m; exact I1.
  - pose proof (msg_own _ _ _ _ _ I) as PW.
    assert (Q : forall kd s, In (kd, s) ((KKeyId, hm_keyid m) :: (KPriv, hm_plain m) :: (KPriv, hm_id m)
       :: (KPriv, hm_from m) :: (KPriv, hm_radiogram m) :: tag KCall (hm_recipients m)) -> rd h' s = rd h s).
    { intros kd s J. apply (untouched W h h' kd s F').
      - intros x [<-|[]]. unfold msg_slots in PW. cbn [pairwise] in PW.
        destruct PW as (P1 & P2 & _). destruct J as [J|J].
        + injection J as <- <-. apply R_sym. rewrite Forall_forall in P1. apply P1. left. reflexivity.
        + rewrite Forall_forall in P2. apply P2. exact J.
      - intros x [<-|[]]. destruct kd; reflexivity. }
    unfold msg_of, set_mcipher, hset_mcipher. fields.
    rewrite (Q KPriv (hm_id m)), (Q KPriv (hm_from m)), (Q KKeyId (hm_keyid m)),
      (Q KPriv (hm_plain m)), (Q KPriv (hm_radiogram m)) by (cbn; tauto).
    f_equal. apply map_ext_in. intros s Js. apply (Q KCall). do 5 right. apply in_map. exact Js.
  - apply map_ext_in. intros k J. exact (wiped_keys_none h h' ks ms ex W F' X OU KD k J).
  - apply map_ext_in. intros m0 J. exact (wiped_msgs_none h h' ks ms ex W F' X KD m0 J).
  - intros s J. exact (wiped_call h h' ks ms ex W F' X KC s J).
Qed.

(** Wiping the key ID of the message: the array may be a key's. *)
Lemma step_wipe_keyid : forall h t h' c0 t' ks m ms ex,
  wipe1 h (hm_keyid m) t = (h', c0, t') -> inv h ks (m :: ms) ex ->
  inv h' ks (hset_mkeyid m c0 :: ms) ex /\
  Forall2 same_but_id (map (key_of h) ks) (map (key_of h') ks) /\
  Forall2 same_but_keyid (map (msg_of h) ms) (map (msg_of h') ms) /\
  (forall s, In (KCall, s) ex -> rd h' s = rd h s).
Proof.
  intros h t h' c0 t' ks m ms ex E I. destruct (wipe1_frame _ _ _ _ _ _ E) as (Sh & C & F).
  set (W := [(KKeyId, hm_keyid m)] : list slot).
  assert (F' : forall a, ~ In (Some a) (map snd W) -> nth a (h_runes h') [] = nth a (h_runes h) []) by exact F.
  assert (X : forall x y, In x W -> In y (slots h ks ms ex) -> R x y).
  { intros x y [<-|[]] J. apply (inv_cross_msg _ _ _ _ _ _ _ I); [|exact J]. cbn. tauto. }
  assert (OU : forall k2, In k2 ks -> rd_outer h' (hk_keepers k2) = rd_outer h (hk_keepers k2)).
  { intros k3 _. unfold rd_outer. rewrite (proj1 Sh). reflexivity. }
  assert (KD : forall x, In x W -> fst x = KPriv \/ fst x = KKeyId) by (intros x [<-|[]]; auto).
  assert (KC : forall x, In x W -> fst x <> KCall) by (intros x [<-|[]]; discriminate).
  split; [|split; [|split]].
  - pose proof (inv_shape _ _ _ _ _ Sh I) as I1. destruct C as [->|[-> _]].
    + apply (inv_set_none h' ks m _ ms ex [] KKeyId (hm_keyid m)
        ((KPriv, hm_cipher m) :: (KPriv, hm_plain m) :: (KPriv, hm_id m) :: (KPriv, hm_from m)
          :: (KPriv, hm_radiogram m) :: tag KCall (hm_recipients m)) I1); reflexivity.
    + destruct m; exact I1.
  - apply Forall2_map_in. intros k J. exact (wiped_keys_ids h h' ks ms ex W F' X OU KD k J).
  - apply Forall2_map_in. intros m0 J. exact (wiped_msgs h h' ks ms ex W F' X KC m0 J).
  - intros s J. exact (wiped_call h h' ks ms ex W F' X KC s J).
Qed.
End WithUnicode.
