(** NewTextMessage, NewKey, ImportKeys and whole histories on shared memory. *)
From Coq Require Import Permutation.
From Verif Require Import Base Model_Unicode Model_Crand Model_Functions Model_Types
  Model_Codec Model_Cipher Model_Keys Model_Import Model_Messages Model_Heap Spec Spec_Heap Proofs_Keys
  Proofs_KeyOps Proofs_Encipher Proofs_Cipher Proofs_Heap Proofs_Sharing Proofs_Shared
  Proofs_HeapOps Proofs_HeapText Proofs_HeapRun.

Ltac settings := unfold same_settings; repeat split; reflexivity.

(** ** A message that is wiped and not kept *)
Lemma wipe_front_msg : forall h ks m ms ex t h1 m1 t1, inv h ks (m :: ms) ex ->
  wipe_msg h m t = (h1, m1, t1) ->
  inv h1 ks ms ex /\
  Forall2 same_but_keyid (map (msg_of h) ms) (map (msg_of h1) ms) /\
  Forall2 same_but_id (map (key_of h) ks) (map (key_of h1) ks) /\
  (forall s, In (KCall, s) ex -> rd h1 s = rd h s).
Proof.
  intros h ks m ms ex t h2 m2 t2 I1 E.
  destruct (wipe_msg_frame _ _ _ _ _ _ E) as (Sh & F).
  set (W := [(KPriv, hm_plain m); (KPriv, hm_cipher m); (KKeyId, hm_keyid m)] : list slot).
  assert (F' : forall a0, ~ In (Some a0) (map snd W) -> nth a0 (h_runes h2) [] = nth a0 (h_runes h) [])
    by exact F.
  assert (OU : forall k2, In k2 ks -> rd_outer h2 (hk_keepers k2) = rd_outer h (hk_keepers k2)).
  { intros k3 J. unfold rd_outer. rewrite (proj1 Sh). reflexivity. }
  assert (X : forall x y, In x W -> In y (slots h ks ms ex) -> R x y).
  { intros x y J. apply (inv_cross_msg _ _ _ _ _ _ _ I1). unfold W in J. cbn [In] in J.
    destruct J as [<-|[<-|[<-|[]]]]; cbn; tauto. }
  assert (KD : forall x, In x W -> fst x = KPriv \/ fst x = KKeyId).
  { intros x J. unfold W in J. cbn [In] in J. destruct J as [<-|[<-|[<-|[]]]]; cbn; tauto. }
  assert (KC : forall x, In x W -> fst x <> KCall).
  { intros x J. destruct (KD x J) as [->| ->]; discriminate. }
  split; [exact (inv_shape _ _ _ _ _ Sh (inv_drop_msg _ _ _ _ _ I1))|].
  split; [|split].
  - apply Forall2_map_in. intros m3 J. exact (wiped_msgs h h2 ks ms ex W F' X KC m3 J).
  - apply Forall2_map_in. intros k J. exact (wiped_keys_ids h h2 ks ms ex W F' X OU KD k J).
  - intros s J. exact (wiped_call h h2 ks ms ex W F' X KC s J).
Qed.

Lemma same_but_id_trans : forall a b c, same_but_id a b -> same_but_id b c -> same_but_id a c.
Proof. unfold same_but_id. intros a b c H K. intuition congruence. Qed.
Lemma same_but_keyid_trans : forall a b c, same_but_keyid a b -> same_but_keyid b c -> same_but_keyid a c.
Proof. unfold same_but_keyid. intros a b c H K. intuition congruence. Qed.
Lemma Forall2_trans2 : forall A (P : A -> A -> Prop), (forall a b c, P a b -> P b c -> P a c) ->
  forall l1 l2 l3, Forall2 P l1 l2 -> Forall2 P l2 l3 -> Forall2 P l1 l3.
Proof.
  intros A P T l1 l2 l3 H. revert l3. induction H; intros l3 K; inversion K; subst; constructor; eauto.
Qed.

(** The new message goes to the end. *)
Lemma inv_msg_last : forall h ks m ms ex, inv h ks (m :: ms) ex -> inv h ks (ms ++ [m]) ex.
Proof.
  intros h ks m ms ex I.
  apply (inv_perm _ _ _ _ _ _ _ (Permutation_refl ks) (Permutation_cons_append ms m) (Permutation_refl ex) I).
Qed.
Lemma inv_msg_first : forall h ks m ms ex, inv h ks (ms ++ [m]) ex -> inv h ks (m :: ms) ex.
Proof.
  intros h ks m ms ex I.
  apply (inv_perm _ _ _ _ _ _ _ (Permutation_refl ks) (Permutation_sym (Permutation_cons_append ms m)) (Permutation_refl ex) I).
Qed.

(** Recipients become the station's call-sign. *)
Lemma inv_recipients : forall h ks m ms ex s, inv h ks (m :: ms) ex -> In (KCall, s) ex ->
  hm_recipients m = [] -> inv h ks (hset_mrecipients m [s] :: ms) ex.
Proof.
  intros h ks m ms ex s I J E.
  set (m' := hset_mrecipients m [s]).
  assert (M : msg_slots m' = msg_slots m ++ [(KCall, s)]).
  { unfold msg_slots, m', hset_mrecipients.
    cbn [hm_id hm_recipients hm_from hm_dtg hm_keyid hm_plain hm_binary hm_cipher hm_radiogram].
    rewrite E. reflexivity. }
  pose proof (slots_msg_front h ks m ms ex) as P. pose proof (slots_msg_front h ks m' ms ex) as P'.
  rewrite M in P'. destruct I as [A B C D].
  assert (Jx : In (KCall, s) (slots h ks ms ex)).
  { unfold slots. apply in_or_app. right. apply in_or_app. right. exact J. }
  assert (Q : Permutation (slots h ks (m' :: ms) ex) ((KCall, s) :: slots h ks (m :: ms) ex)).
  { eapply Permutation_trans; [exact P'|]. rewrite <- app_assoc. cbn [app].
    eapply Permutation_trans; [apply Permutation_sym, Permutation_middle|].
    constructor. apply Permutation_sym. exact P. }
  constructor; auto.
  - apply (pairwise_perm _ _ R_sym _ _ (Permutation_sym Q)). cbn [pairwise]. split; [|exact A].
    rewrite Forall_forall. intros y Jy.
    assert (Jc : In (KCall, s) (slots h ks (m :: ms) ex)).
    { apply (Permutation_in _ (Permutation_sym P)). apply in_or_app. right. exact Jx. }
    destruct (pairwise_In _ _ R_sym _ (KCall, s) y A Jc Jy) as [<-|Z]; [|exact Z].
    intros a _ _. reflexivity.
  - rewrite Forall_forall in *. intros y Jy. apply (Permutation_in y Q) in Jy.
    destruct Jy as [<-|Jy]; [|apply B; exact Jy].
    apply B. apply (Permutation_in _ (Permutation_sym P)). apply in_or_app. right. exact Jx.
Qed.

Section WithUnicode.
Context (U : Uni).

Lemma encipher_full_ok : forall i m t iv mv t' rel,
  encipher_full U i m t = (iv, mv, Ok tt, t', rel) -> rel = false.
Proof.
  intros i m t iv mv t' rel H. unfold encipher_full in H.
  destruct (ensure_id i m t) as [[m1 t1]| | |]; try discriminate.
  destruct (enrich_with_key _ _ _ _) as [[ks m2] re]. destruct re; try discriminate.
  destruct (wipe_value _ _) as [c0 t2].
  destruct (get_key _ _ _); [|discriminate].
  destruct (er_res _).
  - injection H as _ _ _ <-. reflexivity.
  - cbv zeta in H. destruct (wipe_value _ _). discriminate.
  - cbv zeta in H. destruct (wipe_value _ _). discriminate.
  - cbv zeta in H. destruct (wipe_value _ _). discriminate.
Qed.

(** What only the four assigned fields of the message change means. *)
Definition same_frame (m m' : msg) : Prop :=
  mrecipients m' = mrecipients m /\ mfrom m' = mfrom m /\ mdtg m' = mdtg m /\
  mbinary m' = mbinary m /\ mradiogram m' = mradiogram m.

Lemma ensure_id_frame : forall i m t m' t', ensure_id i m t = Ok (m', t') -> same_frame m m'.
Proof.
  intros i m t m' t' H. apply ensure_id_value in H. rewrite H.
  destruct (_ =? 0); unfold same_frame; auto.
Qed.
Lemma decipher_frame : forall i m t i' m' r t', decipher U i m t = (i', m', r, t') -> same_frame m m'.
Proof.
  intros i m t i' m' r t' H. unfold decipher in H.
  destruct (ensure_id i m t) as [[m1 t1]| | |] eqn:E;
    try (injection H as _ <- _ _; unfold same_frame; auto; fail).
  apply ensure_id_frame in E.
  destruct (negb _); [injection H as _ <- _ _; exact E|].
  destruct (_ <? _); [injection H as _ <- _ _; exact E|].
  destruct (get_key _ _ _); [|injection H as _ <- _ _; exact E].
  destruct (wipe_value _ _) as [p0 t2].
  destruct (decipher_loop _ _ _ _ _ _ _ _ _ _) as [[p st] rr].
  destruct rr; injection H as _ <- _ _; exact E.
Qed.
Lemma try_decipher_frame : forall i m d t i' m' r t', try_decipher U i m d t = (i', m', r, t') ->
  same_frame m m'.
Proof.
  intros i m d t i' m' r t' H. unfold try_decipher in H.
  destruct (ensure_id i m t) as [[m1 t1]| | |] eqn:E;
    try (injection H as _ <- _ _; unfold same_frame; auto; fail).
  apply ensure_id_frame in E.
  destruct (0 <? _); [injection H as _ <- _ _; exact E|].
  destruct (filter_letters _ _); [|injection H as _ <- _ _; exact E].
  destruct (_ <? _); [injection H as _ <- _ _; exact E|].
  destruct (_ <? _); [injection H as _ <- _ _; exact E|].
  destruct (get_key _ _ _); [|injection H as _ <- _ _; exact E].
  destruct (nth_error _ _); [|injection H as _ <- _ _; exact E].
  destruct d; [injection H as _ <- _ _; exact E|].
  destruct (decipher U _ _ _) as [[[i2 m2] rr] t2] eqn:ED. apply decipher_frame in ED.
  assert (Z : same_frame m m2).
  { unfold same_frame in *. cbn [set_mcipher set_mkeyid mrecipients mfrom mdtg mbinary mradiogram] in ED.
    intuition congruence. }
  destruct rr; try (destruct (wipe_value _ _) as [w tw]); injection H as _ <- _ _; exact Z.
Qed.

Lemma frame_fields : forall m m', same_frame m m' ->
  set_mcipher (set_mplain (set_mkeyid (set_mid m (mid m')) (mkeyid m')) (mplain m')) (mcipher m') = m'.
Proof.
  intros [a b c d e f g x y] [a' b' c' d' e' f' g' x' y'] H. unfold same_frame in H.
  cbn [mid mrecipients mfrom mdtg mkeyid mplain mbinary mcipher mradiogram] in H.
  destruct H as (-> & -> & -> & -> & ->). reflexivity.
Qed.

(** ** NewKey *)
Lemma new_key_value : forall i now expire keepers t i' k t',
  new_key U i now expire keepers t = Ok (i', k, t') -> i' = set_keys i (i_keys i ++ [k]).
Proof.
  intros i now expire keepers t i' k t' H. unfold new_key in H. cbv zeta in H.
  destruct (_ || _); [discriminate|].
  destruct (new_id_loop _ _ _ _ _) as [[id t1]| | |]; cbn [bind] in H; try discriminate.
  destruct (random_letters _ _) as [[rs t2]| | |]; cbn [bind] in H; try discriminate.
  injection H as <- <- _. reflexivity.
Qed.

Lemma hnew_key_spec : forall h i now expire keepers t h' i' t', good h i ->
  hnew_key U h i now expire keepers t = (h', i', t') ->
  good h' i' /\ same_settings i i' /\ grows h h' /\
  match new_key U (inst_of h i) now expire keepers t with
  | Ok (iv, k, t1) => inst_of h' i' = iv /\ t1 = t'
  | _ => h' = h /\ i' = i
  end.
Proof.
  intros h i now expire keepers t h' i' t' G H. unfold hnew_key in H.
  destruct (new_key U (inst_of h i) now expire keepers t) as [[[iv k] t1]| | |] eqn:E.
  2-4: injection H as <- <- _; split; [exact G|]; split; [apply same_settings_refl|];
       split; [apply grows_refl|auto].
  apply new_key_value in E. rewrite new_key_arrays_with in H.
  destruct (key_with h k (kkeepers k) []) as [h1 hk] eqn:EK. injection H as <- <- <-.
  pose proof (key_with_grows _ _ _ _ _ _ EK) as GR. unfold good in *.
  split; [exact (key_with_inv _ _ _ _ _ _ _ _ _ EK G (Forall_nil _))|].
  split; [settings|]. split; [exact GR|]. split; [|reflexivity].
  rewrite E. apply inst_of_eq; [settings| | |].
  - cbn [hset_keys hi_keys]. rewrite map_app. cbn [map].
    rewrite (keys_grow _ _ _ _ _ GR G), (key_with_of _ _ _ _ _ _ EK (Forall_nil _)).
    cbn [map]. rewrite app_nil_r. destruct k; reflexivity.
  - exact (msgs_grow _ _ _ _ _ GR G).
  - apply (grows_rd _ _ _ GR). apply (inv_ex_ok _ _ _ _ (KCall, hi_callsign i) G). left; reflexivity.
Qed.

(** ** NewTextMessage *)
Section WithLibraries.
Context (lb : list rune -> list rune) (dp : list rune -> option Z).

Definition outcome (r : res (msg * tape)) : res unit :=
  match r with Ok _ => Ok tt | Err e => Err e | Panic => Panic | Diverge => Diverge end.

Lemma hnew_text_spec : forall h i args now t h' i' r t', good h i ->
  hnew_text U lb dp h i args now t = (h', i', r, t') ->
  good h' i' /\ same_settings i i' /\ rd h' (hi_callsign i) = rd h (hi_callsign i) /\
  exists iv rv, new_text_message U lb dp (inst_of h i) args now t = (iv, rv) /\
    r = outcome rv /\
    (r = Ok tt -> inst_of h' i' = iv) /\
    Forall2 same_but_id (i_keys iv) (keys_of h' i') /\
    Forall2 same_but_keyid (i_messages iv) (messages_of h' i').
Proof.
  intros h i args now t h' i' r t' G H. unfold hnew_text in H. unfold new_text_message.
  assert (CS : In (KCall, hi_callsign i) (call_slot i)) by (left; reflexivity).
  assert (SAME : forall rr, rr <> Ok tt ->
     good h i /\ same_settings i i /\ rd h (hi_callsign i) = rd h (hi_callsign i) /\
     (rr = Ok tt -> inst_of h i = inst_of h i) /\
     Forall2 same_but_id (i_keys (inst_of h i)) (keys_of h i) /\
     Forall2 same_but_keyid (i_messages (inst_of h i)) (messages_of h i)).
  { intros rr _. split; [exact G|]. split; [apply same_settings_refl|]. split; [reflexivity|].
    split; [reflexivity|]. split; [apply Forall2_eq_id|apply Forall2_refl, same_but_keyid_refl]. }
  destruct args as [|raw rest].
  { injection H as <- <- <- <-. destruct (SAME (Err ErrNoRadiogramProvided)) as (A & B & C & D); [discriminate|].
    split; [exact A|]. split; [exact B|]. split; [exact C|]. eexists _, _. split; [reflexivity|].
    split; [reflexivity|exact D]. }
  destruct (parse_radiogram U lb dp (inst_of h i) raw now t) as [[mv t1]|e| |] eqn:EP.
  2:{ injection H as <- <- <- <-. destruct (SAME (Err e)) as (A & B & C & D); [discriminate|].
    split; [exact A|]. split; [exact B|]. split; [exact C|]. eexists _, _. split; [reflexivity|].
    split; [reflexivity|exact D]. }
  2:{ injection H as <- <- <- <-. destruct (SAME Panic) as (A & B & C & D); [discriminate|].
    split; [exact A|]. split; [exact B|]. split; [exact C|]. eexists _, _. split; [reflexivity|].
    split; [reflexivity|exact D]. }
  2:{ injection H as <- <- <- <-. destruct (SAME Diverge) as (A & B & C & D); [discriminate|].
    split; [exact A|]. split; [exact B|]. split; [exact C|]. eexists _, _. split; [reflexivity|].
    split; [reflexivity|exact D]. }
  clear SAME. rewrite new_msg_arrays_with in H. destruct (msg_with h mv) as [h1 m] eqn:EM.
  pose proof (msg_with_of _ _ _ _ EM) as V1. pose proof (msg_with_grows _ _ _ _ EM) as G1.
  pose proof (inv_msg_first _ _ _ _ _ (msg_with_inv _ _ _ _ _ _ _ EM G)) as I1.
  assert (SAMEINST : forall hx, grows h hx -> inst_of hx i = inst_of h i).
  { intros hx GX. unfold inst_of, keys_of, messages_of.
    rewrite (keys_grow _ _ _ _ _ GX G), (msgs_grow _ _ _ _ _ GX G), (grows_rd _ _ _ GX); [reflexivity|].
    exact (inv_ex_ok _ _ _ _ _ G CS). }
  destruct (is_my_call U (inst_of h i) mv) eqn:EC.
  - (* outgoing *)
    assert (FAIL : forall h2 i2 m2 r2 t2 iv,
      inv h2 (hi_keys i2) (m2 :: hi_messages i2) (call_slot i) -> same_settings i i2 ->
      rd h2 (hi_callsign i) = rd h (hi_callsign i) ->
      Forall2 same_but_id (i_keys iv) (keys_of h2 i2) ->
      Forall2 same_but_keyid (i_messages iv) (messages_of h2 i2) ->
      r2 <> Ok tt ->
      (let '(h3, _, t3) := wipe_msg h2 m2 t2 in (h3, i2, r2, t3)) = (h', i', r, t') ->
      good h' i' /\ same_settings i i' /\ rd h' (hi_callsign i) = rd h (hi_callsign i) /\
      r = r2 /\ (r = Ok tt -> inst_of h' i' = iv) /\
      Forall2 same_but_id (i_keys iv) (keys_of h' i') /\
      Forall2 same_but_keyid (i_messages iv) (messages_of h' i')).
    { intros h2 i2 m2 r2 t2 iv I2 S2 C2 K2 M2 N2 Q.
      destruct (wipe_msg h2 m2 t2) as [[h3 m3] t3] eqn:EW. injection Q as <- <- <- <-.
      destruct (wipe_front_msg _ _ _ _ _ _ _ _ _ I2 EW) as (I3 & M3 & K3 & C3).
      assert (CE : call_slot i2 = call_slot i).
      { unfold call_slot. destruct S2 as (_ & _ & _ & _ & ->). reflexivity. }
      split; [unfold good; rewrite CE; exact I3|]. split; [exact S2|].
      split; [rewrite (C3 _ CS); exact C2|]. split; [reflexivity|]. split; [congruence|].
      split; [eapply Forall2_trans2; [apply same_but_id_trans|exact K2|exact K3]
             |eapply Forall2_trans2; [apply same_but_keyid_trans|exact M2|exact M3]]. }
    assert (GO : forall h2 m2, grows h h2 -> inv h2 (hi_keys i) (m2 :: hi_messages i) (call_slot i) ->
      match hencipher U h2 i m2 t1 with
      | (h3, i3, m3, Ok _, t3) => (h3, hset_messages i3 (hi_messages i3 ++ [m3]), Ok tt, t3)
      | (h3, i3, m3, r, t3) => let '(h4, _, t4) := wipe_msg h3 m3 t3 in (h4, i3, r, t4)
      end = (h', i', r, t') ->
      good h' i' /\ same_settings i i' /\ rd h' (hi_callsign i) = rd h (hi_callsign i) /\
      exists iv rv,
        match encipher U (inst_of h i) (msg_of h2 m2) t1 with
        | (i2, m3, Ok _, t2) => (store_message i2 m3, Ok (m3, t2))
        | (i2, _, Err e, _) => (i2, Err e)
        | (i2, _, Panic, _) => (i2, Panic)
        | (i2, _, Diverge, _) => (i2, Diverge)
        end = (iv, rv) /\ r = outcome rv /\
        (r = Ok tt -> inst_of h' i' = iv) /\
        Forall2 same_but_id (i_keys iv) (keys_of h' i') /\
        Forall2 same_but_keyid (i_messages iv) (messages_of h' i')).
    { intros h2 m2 G2 I2 Q. rewrite <- (SAMEINST _ G2). unfold encipher.
      destruct (hencipher U h2 i m2 t1) as [[[[h3 i3] m3] r3] t3] eqn:EH.
      destruct (hencipher_spec U _ _ _ _ _ _ _ _ _ I2 EH) as (I3 & MS & S3 & C3 & M3 & iv & mv3 & rel & EF & K3 & X3).
      rewrite EF. cbn [fst].
      assert (C3' : rd h3 (hi_callsign i) = rd h (hi_callsign i)).
      { rewrite C3. apply (grows_rd _ _ _ G2). exact (inv_ex_ok _ _ _ _ _ G CS). }
      assert (MI : i_messages iv = messages_of h2 i).
      { assert (Z : i_messages iv = i_messages (inst_of h2 i)).
        { clear -EF. unfold encipher_full in EF.
          destruct (ensure_id _ _ _) as [[m1 t4]| | |]; try (injection EF as <- _ _ _ _; reflexivity).
          destruct (enrich_with_key _ _ _ _) as [[ks m5] re].
          destruct re; try (injection EF as <- _ _ _ _; reflexivity).
          destruct (wipe_value _ _) as [c0 t5].
          destruct (get_key _ _ _); [|injection EF as <- _ _ _ _; reflexivity].
          destruct (er_res _); [injection EF as <- _ _ _ _; reflexivity| | |];
            cbv zeta in EF; destruct (wipe_value _ _); injection EF as <- _ _ _ _; reflexivity. }
        exact Z. }
      assert (BAD : r3 <> Ok tt -> (let '(h4, _, t4) := wipe_msg h3 m3 t3 in (h4, i3, r3, t4)) = (h', i', r, t') ->
        good h' i' /\ same_settings i i' /\ rd h' (hi_callsign i) = rd h (hi_callsign i) /\
        r = r3 /\ (r = Ok tt -> inst_of h' i' = iv) /\
        Forall2 same_but_id (i_keys iv) (keys_of h' i') /\
        Forall2 same_but_keyid (i_messages iv) (messages_of h' i')).
      { intros N. apply FAIL; auto.
        - rewrite MS. exact I3.
        - rewrite MI. exact M3. }
      destruct r3 as [u|e| |].
      - destruct u. clear BAD. injection Q as <- <- <- <-.
        pose proof (encipher_full_ok _ _ _ _ _ _ _ EF) as ->. destruct (X3 eq_refl) as [X4 X5].
        split.
        { unfold good. cbn [hset_messages hi_keys hi_messages]. rewrite MS.
          replace (call_slot (hset_messages i3 (hi_messages i ++ [m3]))) with (call_slot i).
          - apply inv_msg_last. exact I3.
          - unfold call_slot. destruct S3 as (_ & _ & _ & _ & E). cbn [hset_messages hi_callsign]. rewrite E. reflexivity. }
        split; [destruct S3 as (Z1 & Z2 & Z3 & Z4 & Z5); unfold same_settings; cbn [hset_messages hi_groupsize hi_keylength hi_columns hi_keycolumns hi_callsign]; auto|].
        split; [exact C3'|]. eexists _, _. split; [reflexivity|]. split; [reflexivity|].
        assert (EQ : inst_of h3 (hset_messages i3 (hi_messages i3 ++ [m3])) = store_message iv mv3).
        { rewrite <- X4, <- X5. unfold inst_of, store_message, messages_of.
          cbn [hset_messages hi_groupsize hi_keylength hi_columns hi_keycolumns hi_callsign hi_messages
               i_groupsize i_keylength i_columns i_keycolumns i_keys i_messages i_callsign set_messages].
          rewrite map_app. reflexivity. }
        split; [intros _; exact EQ|]. rewrite <- EQ.
        split; [apply Forall2_eq_id|apply Forall2_refl, same_but_keyid_refl].
      - destruct (BAD ltac:(discriminate) Q) as (A & B & C & D). split; [exact A|]. split; [exact B|].
        split; [exact C|]. eexists _, _. split; [reflexivity|]. exact D.
      - destruct (BAD ltac:(discriminate) Q) as (A & B & C & D). split; [exact A|]. split; [exact B|].
        split; [exact C|]. eexists _, _. split; [reflexivity|]. exact D.
      - destruct (BAD ltac:(discriminate) Q) as (A & B & C & D). split; [exact A|]. split; [exact B|].
        split; [exact C|]. eexists _, _. split; [reflexivity|]. exact D. }
    destruct rest as [|x [|keyArg more]].
    + rewrite <- V1. apply GO; auto.
    + destruct (FAIL h1 i m Panic t1 (inst_of h i)) as (A & B & C & D); auto using same_settings_refl.
      * rewrite (grows_rd _ _ _ G1); [reflexivity|exact (inv_ex_ok _ _ _ _ _ G CS)].
      * apply Forall2_of_eq. exact (f_equal i_keys (eq_sym (SAMEINST _ G1))).
      * replace (messages_of h1 i) with (i_messages (inst_of h i)); [apply Forall2_refl, same_but_keyid_refl|].
        exact (f_equal i_messages (eq_sym (SAMEINST _ G1))).
      * discriminate.
      * split; [exact A|]. split; [exact B|]. split; [exact C|]. eexists _, _. split; [reflexivity|exact D].
    + destruct (new h1 (str_upper U (trim_space U keyArg))) as [h2 a] eqn:EN.
      destruct (step_new_keyid _ _ _ _ _ _ _ _ EN I1) as (I2 & G2 & V2).
      pose proof (rd_new _ _ _ _ EN) as RA. rewrite RA in H.
      pose proof (grows_trans _ _ _ G1 G2) as G12.
      cbv zeta. cbn [inst_of i_groupsize].
      destruct (negb (len (str_upper U (trim_space U keyArg)) =? hi_groupsize i)).
      * destruct (FAIL h2 i (hset_mkeyid m a) (Err ErrKeyIdLength) t1 (inst_of h i)) as (A & B & C & D); auto using same_settings_refl.
        -- rewrite (grows_rd _ _ _ G12); [reflexivity|exact (inv_ex_ok _ _ _ _ _ G CS)].
        -- apply Forall2_of_eq. exact (f_equal i_keys (eq_sym (SAMEINST _ G12))).
        -- replace (messages_of h2 i) with (i_messages (inst_of h i)); [apply Forall2_refl, same_but_keyid_refl|].
           exact (f_equal i_messages (eq_sym (SAMEINST _ G12))).
        -- discriminate.
        -- split; [exact A|]. split; [exact B|]. split; [exact C|]. eexists _, _. split; [reflexivity|exact D].
      * rewrite <- V1, <- V2. apply GO; auto.
  - (* incoming *)
    set (m1 := if len (mrecipients mv) =? 0 then hset_mrecipients m [hi_callsign i] else m) in H.
    set (m1v := if len (mrecipients mv) =? 0
                then set_mrecipients mv (add_recipient U (mrecipients mv) [i_callsign (inst_of h i)]) else mv).
    assert (S1 : inv h1 (hi_keys i) (m1 :: hi_messages i) (call_slot i) /\ msg_of h1 m1 = m1v).
    { subst m1 m1v. destruct (len (mrecipients mv) =? 0) eqn:E0; [|auto].
      assert (E1 : mrecipients mv = []) by (destruct (mrecipients mv); [reflexivity|unfold len in E0; cbn [length] in E0; lia]).
      assert (E2 : hm_recipients m = []).
      { rewrite <- V1 in E1. unfold msg_of in E1. cbn [mrecipients] in E1. apply map_eq_nil in E1. exact E1. }
      split; [apply inv_recipients; auto|].
      rewrite E1. unfold set_mrecipients. rewrite <- V1. unfold msg_of, hset_mrecipients.
      cbn [hm_id hm_recipients hm_from hm_dtg hm_keyid hm_plain hm_binary hm_cipher hm_radiogram
           mid mrecipients mfrom mdtg mkeyid mplain mbinary mcipher mradiogram map i_callsign inst_of].
      rewrite (grows_rd _ _ (hi_callsign i) G1) by exact (inv_ex_ok _ _ _ _ _ G CS). reflexivity. }
    destruct S1 as [I2 V2]. rewrite <- V2. rewrite <- (SAMEINST _ G1).
    destruct (htry_decipher U h1 i m1 t1) as [[[[h3 i3] m3] r3] t3] eqn:EH.
    destruct (htry_decipher_spec U _ _ _ _ _ _ _ _ _ I2 EH) as (I3 & MS & S3 & G3 & iv & mv3 & EF & X4 & X5).
    rewrite EF. rewrite (frame_fields _ _ (try_decipher_frame _ _ _ _ _ _ _ _ EF)) in X5.
    pose proof (grows_trans _ _ _ G1 G3) as G13.
    assert (C3' : rd h3 (hi_callsign i) = rd h (hi_callsign i)).
    { apply (grows_rd _ _ _ G13). exact (inv_ex_ok _ _ _ _ _ G CS). }
    assert (GOOD : (h3, hset_messages i3 (hi_messages i3 ++ [m3]), @Ok unit tt, t3) = (h', i', r, t') ->
      good h' i' /\ same_settings i i' /\ rd h' (hi_callsign i) = rd h (hi_callsign i) /\
      r = Ok tt /\ (r = Ok tt -> inst_of h' i' = store_message iv mv3) /\
      Forall2 same_but_id (i_keys (store_message iv mv3)) (keys_of h' i') /\
      Forall2 same_but_keyid (i_messages (store_message iv mv3)) (messages_of h' i')).
    { intros Q. injection Q as <- <- <- <-.
      split.
      { unfold good. cbn [hset_messages hi_keys hi_messages]. rewrite MS.
        replace (call_slot (hset_messages i3 (hi_messages i ++ [m3]))) with (call_slot i).
        - apply inv_msg_last. exact I3.
        - unfold call_slot. destruct S3 as (_ & _ & _ & _ & E). cbn [hset_messages hi_callsign]. rewrite E. reflexivity. }
      split; [destruct S3 as (Z1 & Z2 & Z3 & Z4 & Z5); unfold same_settings; cbn [hset_messages hi_groupsize hi_keylength hi_columns hi_keycolumns hi_callsign]; auto|].
      split; [exact C3'|]. split; [reflexivity|].
      assert (EQ : inst_of h3 (hset_messages i3 (hi_messages i3 ++ [m3])) = store_message iv mv3).
      { rewrite <- X4, <- X5. unfold inst_of, store_message, messages_of.
        cbn [hset_messages hi_groupsize hi_keylength hi_columns hi_keycolumns hi_callsign hi_messages
             i_groupsize i_keylength i_columns i_keycolumns i_keys i_messages i_callsign set_messages].
        rewrite map_app. reflexivity. }
      split; [intros _; exact EQ|]. rewrite <- EQ.
      split; [apply Forall2_eq_id|apply Forall2_refl, same_but_keyid_refl]. }
    assert (BAD : r3 <> Ok tt -> (let '(h4, _, t4) := wipe_msg h3 m3 t3 in (h4, i3, r3, t4)) = (h', i', r, t') ->
      good h' i' /\ same_settings i i' /\ rd h' (hi_callsign i) = rd h (hi_callsign i) /\
      r = r3 /\ (r = Ok tt -> inst_of h' i' = iv) /\
      Forall2 same_but_id (i_keys iv) (keys_of h' i') /\
      Forall2 same_but_keyid (i_messages iv) (messages_of h' i')).
    { intros N Q. destruct (wipe_msg h3 m3 t3) as [[h4 m4] t4] eqn:EW. injection Q as <- <- <- <-.
      destruct (wipe_front_msg _ _ _ _ _ _ _ _ _ I3 EW) as (I4 & M4 & K4 & C4).
      assert (CE : call_slot i3 = call_slot i).
      { unfold call_slot. destruct S3 as (_ & _ & _ & _ & ->). reflexivity. }
      split; [unfold good; rewrite CE, MS; exact I4|]. split; [exact S3|].
      split; [rewrite (C4 _ CS); exact C3'|]. split; [reflexivity|]. split; [congruence|].
      rewrite <- X4. split; [exact K4|]. unfold inst_of, messages_of. cbn [i_messages]. rewrite MS. exact M4. }
    destruct r3 as [u|e| |].
    + destruct (GOOD H) as (A & B & C & D). split; [exact A|]. split; [exact B|].
      split; [exact C|]. eexists _, _. split; [reflexivity|]. exact D.
    + destruct (GOOD H) as (A & B & C & D). split; [exact A|]. split; [exact B|].
      split; [exact C|]. eexists _, _. split; [reflexivity|]. exact D.
    + destruct (BAD ltac:(discriminate) H) as (A & B & C & D). split; [exact A|]. split; [exact B|].
      split; [exact C|]. eexists _, _. split; [reflexivity|]. exact D.
    + destruct (BAD ltac:(discriminate) H) as (A & B & C & D). split; [exact A|]. split; [exact B|].
      split; [exact C|]. eexists _, _. split; [reflexivity|]. exact D.
Qed.
End WithLibraries.
End WithUnicode.
