(** Encipher, NewTextMessage, ImportKeys and whole histories on shared memory. *)
From Coq Require Import Permutation.
From Verif Require Import Base Model_Unicode Model_Crand Model_Functions Model_Types
  Model_Codec Model_Cipher Model_Keys Model_Import Model_Messages Model_Heap Spec Spec_Heap Proofs_Keys
  Proofs_KeyOps Proofs_Encipher Proofs_Cipher Proofs_Heap Proofs_Sharing Proofs_Shared
  Proofs_HeapOps Proofs_HeapText.

Section WithUnicode.
Context (U : Uni).

(** Everything except keys and messages. *)
Definition same_settings (i i' : hinst) : Prop :=
  hi_groupsize i' = hi_groupsize i /\ hi_keylength i' = hi_keylength i /\
  hi_columns i' = hi_columns i /\ hi_keycolumns i' = hi_keycolumns i /\
  hi_callsign i' = hi_callsign i.

Lemma same_settings_refl : forall i, same_settings i i.
Proof. unfold same_settings. auto. Qed.

Ltac settings := unfold same_settings; repeat split; reflexivity.

Lemma inst_of_eq : forall h h' i i' vs, same_settings i i' ->
  map (key_of h') (hi_keys i') = vs -> messages_of h' i' = messages_of h i ->
  rd h' (hi_callsign i) = rd h (hi_callsign i) ->
  inst_of h' i' = set_keys (inst_of h i) vs.
Proof.
  intros h h' i i' vs (A & B & C & D & E) K M X. unfold inst_of, set_keys, keys_of.
  cbn [i_groupsize i_keylength i_columns i_keycolumns i_messages i_callsign].
  rewrite A, B, C, D, E, K, M, X. reflexivity.
Qed.

Lemma chosen_value : forall h i m ks' m' , enrich_with_key U (hi_groupsize i) (keys_of h i) (msg_of h m) = (ks', m', Ok tt) ->
  match chosen_key U h i m with
  | Some k => In k (hi_keys i) /\ m' = set_mkeyid (msg_of h m) (kid (key_of h k))
  | None => m' = msg_of h m
  end.
Proof.
  intros h i m ks' m' H. unfold enrich_with_key in H. unfold chosen_key.
  change (mkeyid (msg_of h m)) with (rd h (hm_keyid m)) in H.
  change (mcipher (msg_of h m)) with (rd h (hm_cipher m)) in H.
  change (mrecipients (msg_of h m)) with (map (rd h) (hm_recipients m)) in H.
  destruct (len (mplain (msg_of h m)) =? 0); [discriminate|].
  destruct (0 <? len (rd h (hm_keyid m))).
  { destruct (negb _); [discriminate|]. injection H as _ <- _. reflexivity. }
  destruct (0 <? len (rd h (hm_cipher m))).
  { destruct (negb _); [discriminate|]. injection H as _ <-. reflexivity. }
  destruct (find_key _ _ _ _) as [j|]; [|discriminate].
  unfold keys_of in H. rewrite nth_error_map in H.
  destruct (nth_error (hi_keys i) j) as [k|] eqn:E; cbn [option_map] in H; [|discriminate].
  injection H as _ <-. split; [exact (nth_error_In _ _ E)|reflexivity].
Qed.

Lemma enrich_failed : forall gs ks m ks' m' r, enrich_with_key U gs ks m = (ks', m', r) ->
  r <> Ok tt -> m' = m.
Proof.
  intros gs ks m ks' m' r H N. unfold enrich_with_key in H.
  destruct (_ =? 0); [injection H as _ <- _; reflexivity|].
  destruct (0 <? _).
  - destruct (negb _); injection H as _ <- _; reflexivity.
  - destruct (0 <? _).
    + destruct (negb _); injection H as _ <- _; reflexivity.
    + destruct (find_key _ _ _ _) as [j|]; [|injection H as _ <- _; reflexivity].
      destruct (nth_error ks j); injection H as _ <- <-; [congruence|reflexivity].
Qed.

Lemma Forall2_eq_id : forall l, Forall2 same_but_id l l.
Proof. intros l. apply Forall2_refl, same_but_id_refl. Qed.

Lemma Forall2_of_eq : forall l l', l = l' -> Forall2 same_but_id l l'.
Proof. intros l l' <-. apply Forall2_eq_id. Qed.

Lemma ensure_id_value : forall i m t mv t1, ensure_id i m t = Ok (mv, t1) ->
  mv = if len (mid m) =? 0 then set_mid m (mid mv) else m.
Proof.
  intros i m t mv t1 H. unfold ensure_id in H. destruct (len (mid m) =? 0).
  - destruct (new_unique_message_id _ _) as [[id t2]| | |]; cbn [bind] in H; try discriminate.
    injection H as <- _. reflexivity.
  - injection H as <- _. reflexivity.
Qed.

Lemma hencipher_spec : forall h i m t h' i' m' r t',
  inv h (hi_keys i) (m :: hi_messages i) (call_slot i) ->
  hencipher U h i m t = (h', i', m', r, t') ->
  inv h' (hi_keys i') (m' :: hi_messages i) (call_slot i) /\
  hi_messages i' = hi_messages i /\ same_settings i i' /\
  rd h' (hi_callsign i) = rd h (hi_callsign i) /\
  Forall2 same_but_keyid (messages_of h i) (messages_of h' i') /\
  exists iv mv rel, encipher_full U (inst_of h i) (msg_of h m) t = (iv, mv, r, t', rel) /\
    Forall2 same_but_id (i_keys iv) (keys_of h' i') /\
    (rel = false -> inst_of h' i' = iv /\ msg_of h' m' = mv).
Proof.
  intros h i m t h' i' m' r t' I H. unfold hencipher in H. unfold encipher_full.
  assert (CS : In (KCall, hi_callsign i) (call_slot i)) by (left; reflexivity).
  assert (REFL : forall iv, iv = inst_of h i ->
    Forall2 same_but_keyid (messages_of h i) (messages_of h i) /\
    Forall2 same_but_id (i_keys iv) (keys_of h i)).
  { intros iv ->. split; [apply Forall2_refl, same_but_keyid_refl|apply Forall2_eq_id]. }
  destruct (ensure_id (inst_of h i) (msg_of h m) t) as [[mv t1]|e| |] eqn:EI.
  2-4: injection H as <- <- <- <- <-; split; [exact I|]; split; [reflexivity|];
    split; [apply same_settings_refl|]; split; [reflexivity|];
    split; [apply (REFL _ eq_refl)|]; eexists _, _, _; split; [reflexivity|];
    split; [apply (REFL _ eq_refl)|]; intros _; split; reflexivity.
  (* the message has an ID *)
  pose proof (ensure_id_value _ _ _ _ _ EI) as EV.
  change (mid (msg_of h m)) with (rd h (hm_id m)) in EV.
  set (p := if len (rd h (hm_id m)) =? 0 then let (h', a) := new h (mid mv) in (h', hset_mid m a) else (h, m)) in H.
  assert (S1 : inv (fst p) (hi_keys i) (snd p :: hi_messages i) (call_slot i) /\ grows h (fst p) /\
               msg_of (fst p) (snd p) = mv).
  { subst p. destruct (len (rd h (hm_id m)) =? 0).
    - destruct (new h (mid mv)) as [h0 a] eqn:E. cbn [fst snd].
      destruct (step_new_id _ _ _ _ _ _ _ _ E I) as (A & B & C). rewrite C. auto.
    - cbn [fst snd]. auto using grows_refl. }
  destruct p as [h1 m1]. cbn [fst snd] in S1. destruct S1 as (I1 & G1 & V1). clear EV.
  assert (K1 : keys_of h1 i = keys_of h i).
  { exact (keys_grow _ _ _ _ _ G1 (inv_drop_msg _ _ _ _ _ I)). }
  assert (M1 : messages_of h1 i = messages_of h i).
  { exact (msgs_grow _ _ _ _ _ G1 (inv_drop_msg _ _ _ _ _ I)). }
  assert (C1 : rd h1 (hi_callsign i) = rd h (hi_callsign i)).
  { apply (grows_rd _ _ _ G1). exact (inv_ex_ok _ _ _ _ _ I CS). }
  cbn [inst_of i_groupsize i_keys] in *. rewrite <- K1, <- V1.
  destruct (enrich_with_key U (hi_groupsize i) (keys_of h1 i) (msg_of h1 m1)) as [[ks m1v] re] eqn:EE.
  pose proof (enrich_keys U _ _ _ _ _ _ EE) as SB.
  assert (SETKEYS : forall hx (vs : list key), map (key_of hx) (hi_keys i) = keys_of h1 i ->
     same_but_used vs (keys_of h1 i) -> map (key_of hx) (set_flags (hi_keys i) vs) = vs).
  { intros hx vs Q SS. apply set_flags_value. rewrite Q. apply same_but_used_sym. exact SS. }
  assert (FAIL : re <> Ok tt -> (h1, hset_keys i (set_flags (hi_keys i) ks), m1, re, t1) = (h', i', m', r, t') ->
    inv h' (hi_keys i') (m' :: hi_messages i) (call_slot i) /\
    hi_messages i' = hi_messages i /\ same_settings i i' /\
    rd h' (hi_callsign i) = rd h (hi_callsign i) /\
    Forall2 same_but_keyid (messages_of h i) (messages_of h' i') /\
    exists iv mv0 rel, (set_keys (inst_of h i) ks, m1v, re, t1, false) = (iv, mv0, r, t', rel) /\
      Forall2 same_but_id (i_keys iv) (keys_of h' i') /\
      (rel = false -> inst_of h' i' = iv /\ msg_of h' m' = mv0)).
  { intros Nr Q. injection Q as <- <- <- <- <-.
    pose proof (SETKEYS h1 ks eq_refl SB) as SK.
    split; [apply inv_flags; exact I1|]. split; [reflexivity|]. split; [settings|].
    split; [exact C1|].
    split; [change (messages_of h1 (hset_keys i (set_flags (hi_keys i) ks))) with (messages_of h1 i);
            rewrite M1; apply Forall2_refl, same_but_keyid_refl|].
    eexists _, _, _. split; [reflexivity|]. split.
    - cbn [set_keys i_keys]. unfold keys_of. cbn [hset_keys hi_keys]. rewrite SK. apply Forall2_eq_id.
    - intros _. split; [|symmetry; exact (enrich_failed _ _ _ _ _ _ EE Nr)].
      apply inst_of_eq; [settings|exact SK|exact M1|exact C1]. }
  destruct re as [u|e| |].
  2-4: apply FAIL; [discriminate|exact H].
  clear FAIL. destruct u.
  (* a key is chosen or kept *)
  pose proof (chosen_value _ _ _ _ _ EE) as CV.
  set (m2 := match chosen_key U h1 i m1 with Some k => hset_mkeyid m1 (hk_id k) | None => m1 end) in H.
  assert (S2 : inv h1 (hi_keys i) (m2 :: hi_messages i) (call_slot i) /\ msg_of h1 m2 = m1v).
  { subst m2. destruct (chosen_key U h1 i m1) as [k|].
    - destruct CV as [J ->]. destruct (step_share _ _ _ _ _ _ I1 J) as [A B]. auto.
    - subst m1v. auto. }
  clearbody m2. destruct S2 as (I2 & V2). clear CV.
  set (i1 := hset_keys i (set_flags (hi_keys i) ks)) in H.
  destruct (wipe1 h1 (hm_cipher m2) t1) as [[h2 c0] t2] eqn:EW.
  pose proof (wipe1_value _ _ _ _ _ _ EW) as WV.
  destruct (step_wipe_cipher _ _ _ _ _ _ _ _ _ EW I2) as (I3 & V3 & K3 & M3 & C3).
  set (m3 := hset_mcipher m2 c0) in *.
  assert (K3' : keys_of h2 i1 = ks).
  { unfold keys_of, i1. cbn [hset_keys hi_keys]. apply SETKEYS; [exact K3|exact SB]. }
  assert (X1 : mcipher m1v = rd h1 (hm_cipher m2)) by (rewrite <- V2; reflexivity).
  rewrite X1, WV.
  assert (X2 : mkeyid m1v = rd h2 (hm_keyid m3)).
  { transitivity (mkeyid (msg_of h2 m3)); [rewrite V3, V2; reflexivity|reflexivity]. }
  assert (X3 : mrecipients m1v = map (rd h2) (hm_recipients m3)).
  { transitivity (mrecipients (msg_of h2 m3)); [rewrite V3, V2; reflexivity|reflexivity]. }
  assert (X4 : mplain m1v = rd h2 (hm_plain m3)).
  { transitivity (mplain (msg_of h2 m3)); [rewrite V3, V2; reflexivity|reflexivity]. }
  rewrite X2, X3, X4. rewrite K3' in H.
  assert (I3f : inv h2 (hi_keys i1) (m3 :: hi_messages i) (call_slot i)) by (apply inv_flags; exact I3).
  assert (M3' : messages_of h2 i1 = messages_of h i).
  { unfold messages_of in *. cbn [i1 hset_keys hi_messages]. rewrite M3. exact M1. }
  assert (C3' : rd h2 (hi_callsign i) = rd h (hi_callsign i)) by (rewrite (C3 _ CS); exact C1).
  destruct (get_key U (rd h2 (hm_keyid m3)) ks) as [k0|].
  2:{ injection H as <- <- <- <- <-. split; [exact I3f|]. split; [reflexivity|].
      split; [settings|]. split; [exact C3'|].
      split; [rewrite M3'; apply Forall2_refl, same_but_keyid_refl|].
      eexists _, _, _. split; [reflexivity|]. split.
      - cbn [set_keys i_keys]. rewrite K3'. apply Forall2_eq_id.
      - intros _. split; [|rewrite V3, V2; reflexivity].
        apply inst_of_eq; [settings|exact K3'|exact M3'|exact C3']. }
  set (b := encipher_body U (hi_groupsize i) (map (rd h2) (hm_recipients m3)) (rd h2 (hm_plain m3)) ks k0 (rd h2 c0)) in *.
  assert (BK : same_but_used (er_keys b) ks) by apply encipher_body_keys.
  destruct (new h2 (er_cipher b)) as [h3 a] eqn:EN.
  destruct (step_new_cipher _ _ _ _ _ _ _ _ EN I3f) as (I4 & G4 & V4).
  set (m4 := hset_mcipher m3 a) in *.
  assert (K4 : map (key_of h3) (hi_keys i1) = ks).
  { rewrite <- K3'. unfold keys_of. exact (keys_grow _ _ _ _ _ G4 (inv_drop_msg _ _ _ _ _ I3f)). }
  assert (M4 : map (msg_of h3) (hi_messages i) = messages_of h i).
  { rewrite <- M3'. exact (msgs_grow _ _ _ _ _ G4 (inv_drop_msg _ _ _ _ _ I3f)). }
  assert (C4 : rd h3 (hi_callsign i) = rd h (hi_callsign i)).
  { rewrite <- C3'. apply (grows_rd _ _ _ G4). exact (inv_ex_ok _ _ _ _ _ I3f CS). }
  assert (OK : er_res b = Ok tt ->
    (h3, hset_keys i1 (set_flags (hi_keys i1) (er_keys b)), m4, @Ok unit tt, t2) = (h', i', m', r, t') ->
    inv h' (hi_keys i') (m' :: hi_messages i) (call_slot i) /\
    hi_messages i' = hi_messages i /\ same_settings i i' /\
    rd h' (hi_callsign i) = rd h (hi_callsign i) /\
    Forall2 same_but_keyid (messages_of h i) (messages_of h' i') /\
    exists iv mv0 rel, (set_keys (inst_of h i) (er_keys b), set_mcipher m1v (er_cipher b), @Ok unit tt, t2, false)
       = (iv, mv0, r, t', rel) /\
      Forall2 same_but_id (i_keys iv) (keys_of h' i') /\
      (rel = false -> inst_of h' i' = iv /\ msg_of h' m' = mv0)).
  { intros _ Q. injection Q as <- <- <- <- <-.
    assert (SK : map (key_of h3) (set_flags (hi_keys i1) (er_keys b)) = er_keys b).
    { apply set_flags_value. rewrite K4. apply same_but_used_sym. exact BK. }
    split; [apply inv_flags; exact I4|]. split; [reflexivity|]. split; [settings|].
    split; [exact C4|].
    split; [unfold messages_of at 2; cbn [hset_keys hi_messages i1]; rewrite M4;
            apply Forall2_refl, same_but_keyid_refl|].
    eexists _, _, _. split; [reflexivity|]. split.
    - apply Forall2_of_eq. symmetry. exact SK.
    - intros _. split; [|rewrite V4, V3, V2; reflexivity].
      apply inst_of_eq; [settings|exact SK|exact M4|exact C4]. }
  assert (BAD : forall rb, er_res b = rb ->
    (let ks' := release_keys U (rd h3 (hm_keyid m4)) (er_cur b) (er_chunks b) (er_keys b) in
     let '(h4, kid', t3) := wipe1 h3 (hm_keyid m4) t2 in
     (h4, hset_keys i1 (set_flags (hi_keys i1) ks'), hset_mkeyid m4 kid', rb, t3)) = (h', i', m', r, t') ->
    inv h' (hi_keys i') (m' :: hi_messages i) (call_slot i) /\
    hi_messages i' = hi_messages i /\ same_settings i i' /\
    rd h' (hi_callsign i) = rd h (hi_callsign i) /\
    Forall2 same_but_keyid (messages_of h i) (messages_of h' i') /\
    exists iv mv0 rel,
      (let ks' := release_keys U (rd h2 (hm_keyid m3)) (er_cur b) (er_chunks b) (er_keys b) in
       let '(kid', t2') := wipe_value (rd h2 (hm_keyid m3)) t2 in
       (set_keys (inst_of h i) ks', set_mkeyid (set_mcipher m1v (er_cipher b)) kid', rb, t2', true))
       = (iv, mv0, r, t', rel) /\
      Forall2 same_but_id (i_keys iv) (keys_of h' i') /\
      (rel = false -> inst_of h' i' = iv /\ msg_of h' m' = mv0)).
  { intros rb _ Q. cbv zeta in Q |- *.
    assert (EK : rd h3 (hm_keyid m4) = rd h2 (hm_keyid m3)).
    { transitivity (mkeyid (msg_of h3 m4)); [reflexivity|]. rewrite V4. reflexivity. }
    rewrite EK in Q.
    set (ks' := release_keys U (rd h2 (hm_keyid m3)) (er_cur b) (er_chunks b) (er_keys b)) in *.
    assert (SK : map (key_of h3) (set_flags (hi_keys i1) ks') = ks').
    { apply set_flags_value. rewrite K4. apply same_but_used_sym.
      eapply same_but_used_trans; [apply release_keys_same|exact BK]. }
    destruct (wipe1 h3 (hm_keyid m4) t2) as [[h4 kid'] t3] eqn:E4.
    pose proof (wipe1_value _ _ _ _ _ _ E4) as WV4. rewrite EK in WV4. rewrite WV4.
    injection Q as <- <- <- <- <-.
    pose proof (inv_flags _ _ ks' _ _ I4) as I4f.
    destruct (step_wipe_keyid _ _ _ _ _ _ _ _ _ E4 I4f) as (I5 & K5 & M5 & C5).
    split; [exact I5|]. split; [reflexivity|]. split; [settings|].
    split; [rewrite (C5 _ CS); exact C4|].
    split; [rewrite <- M4; exact M5|].
    eexists _, _, _. split; [reflexivity|]. split; [|discriminate].
    cbn [set_keys i_keys]. rewrite <- SK at 1. exact K5. }
  destruct (er_res b) as [u|e| |] eqn:ER.
  - destruct u. apply OK; auto.
  - apply BAD; auto.
  - apply BAD; auto.
  - apply BAD; auto.
Qed.

Lemma htry_decipher_spec : forall h i m t h' i' m' r t',
  inv h (hi_keys i) (m :: hi_messages i) (call_slot i) ->
  htry_decipher U h i m t = (h', i', m', r, t') ->
  inv h' (hi_keys i') (m' :: hi_messages i) (call_slot i) /\
  hi_messages i' = hi_messages i /\ same_settings i i' /\ grows h h' /\
  exists iv mv, try_decipher U (inst_of h i) (msg_of h m) false t = (iv, mv, r, t') /\
    inst_of h' i' = iv /\
    (msg_of h' m' = set_mcipher (set_mplain (set_mkeyid (set_mid (msg_of h m) (mid mv)) (mkeyid mv)) (mplain mv)) (mcipher mv)).
Proof.
  intros h i m t h' i' m' r t' I H. unfold htry_decipher in H.
  destruct (try_decipher U (inst_of h i) (msg_of h m) false t) as [[[iv mv] rr] t1] eqn:E.
  destruct (try_decipher_keys U _ _ _ _ _ _ _ _ E) as [SB EI].
  destruct (new h (mid mv)) as [h1 a1] eqn:E1.
  destruct (new h1 (mkeyid mv)) as [h2 a2] eqn:E2.
  destruct (new h2 (mplain mv)) as [h3 a3] eqn:E3.
  destruct (new h3 (mcipher mv)) as [h4 a4] eqn:E4.
  injection H as <- <- <- <- <-.
  destruct (step_new_id _ _ _ _ _ _ _ _ E1 I) as (I1 & G1 & V1).
  destruct (step_new_keyid _ _ _ _ _ _ _ _ E2 I1) as (I2 & G2 & V2).
  destruct (step_new_plain _ _ _ _ _ _ _ _ E3 I2) as (I3 & G3 & V3).
  destruct (step_new_cipher _ _ _ _ _ _ _ _ E4 I3) as (I4 & G4 & V4).
  pose proof (grows_trans _ _ _ (grows_trans _ _ _ G1 G2) (grows_trans _ _ _ G3 G4)) as G.
  split; [apply inv_flags; exact I4|]. split; [reflexivity|]. split; [settings|].
  split; [exact G|]. exists iv, mv. split; [reflexivity|]. split.
  - rewrite EI. apply inst_of_eq; [settings| | |].
    + cbn [hset_keys hi_keys]. apply set_flags_value.
      rewrite (keys_grow _ _ _ _ _ G (inv_drop_msg _ _ _ _ _ I)). apply same_but_used_sym. exact SB.
    + unfold messages_of. cbn [hset_keys hi_messages].
      exact (msgs_grow _ _ _ _ _ G (inv_drop_msg _ _ _ _ _ I)).
    + apply (grows_rd _ _ _ G). apply (inv_ex_ok _ _ _ _ (KCall, hi_callsign i) I). left; reflexivity.
  - rewrite V4, V3, V2, V1. reflexivity.
Qed.
End WithUnicode.
