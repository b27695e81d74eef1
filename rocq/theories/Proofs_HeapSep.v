(** Stores in which nothing is shared (as after Load): deletion touches nothing
    else. Invariant of whole histories. *)
From Coq Require Import Permutation.
From Verif Require Import Base Model_Unicode Model_Crand Model_Functions Model_Types
  Model_Codec Model_Cipher Model_Keys Model_Import Model_Messages Model_Heap Spec Spec_Heap Proofs_Keys
  Proofs_KeyOps Proofs_Encipher Proofs_Cipher Proofs_Heap Proofs_Sharing Proofs_Shared
  Proofs_HeapOps Proofs_HeapText Proofs_HeapRun Proofs_HeapHist Proofs_HeapImport.

Ltac settings := unfold same_settings; repeat split; reflexivity.

(** ** Histories *)
Section Histories.
Context (U : Uni) (lb : list rune -> list rune) (dp : list rune -> option Z).

Lemma hdelete_key_good : forall h i ids t h1 ks1 t1, good h i ->
  hdelete_key U h (hi_keys i) ids t = (h1, ks1, t1) ->
  good h1 (hset_keys i ks1) /\
  Forall2 same_but_keepers (fst (delete_key U (keys_of h i) ids)) (keys_of h1 (hset_keys i ks1)) /\
  Forall2 same_but_keyid (messages_of h i) (messages_of h1 (hset_keys i ks1)) /\
  rd h1 (hi_callsign i) = rd h (hi_callsign i).
Proof.
  intros h i ids t h1 ks1 t1 G H.
  assert (EX : forall x, In x (call_slot i) -> fst x = KCall \/ fst x = KKeeper).
  { intros x [<-|[]]. auto. }
  destruct (hdelete_key_spec U _ _ _ _ _ _ _ _ _ G EX H) as (A & B & C & D).
  split; [exact A|]. split; [exact B|]. split; [exact C|]. apply D. left; reflexivity.
Qed.

Lemma hdelete_message_good : forall h i ids t h1 ms1 t1, good h i ->
  hdelete_message h (hi_messages i) ids t = (h1, ms1, t1) ->
  good h1 (hset_messages i ms1) /\
  Forall2 same_but_keyid (fst (delete_message (messages_of h i) ids)) (messages_of h1 (hset_messages i ms1)) /\
  Forall2 same_but_id (keys_of h i) (keys_of h1 (hset_messages i ms1)) /\
  rd h1 (hi_callsign i) = rd h (hi_callsign i).
Proof.
  intros h i ids t h1 ms1 t1 G H.
  destruct (hdelete_message_spec _ _ _ _ _ _ _ _ _ G H) as (A & B & C & D).
  split; [exact A|]. split; [exact B|]. split; [exact C|]. apply D. left; reflexivity.
Qed.

Lemma hstep_good : forall op h i t h' i' t', good h i ->
  hstep U lb dp op h i t = (h', i', t') -> good h' i' /\ same_settings i i' /\
  rd h' (hi_callsign i) = rd h (hi_callsign i).
Proof.
  intros op h i t h' i' t' G H. destruct op; cbn [hstep] in H.
  - destruct (hnew_key_spec U _ _ _ _ _ _ _ _ _ G H) as (A & B & C & _). split; [exact A|].
    split; [exact B|]. apply (grows_rd _ _ _ C).
    apply (inv_ex_ok _ _ _ _ (KCall, hi_callsign i) G). left; reflexivity.
  - destruct (hnew_text U lb dp h i args now t) as [[[h1 i1] r] t1] eqn:E. injection H as <- <- <-.
    destruct (hnew_text_spec U _ _ _ _ _ _ _ _ _ _ _ G E) as (A & B & C & _). auto.
  - destruct (hdelete_key U h (hi_keys i) ids t) as [[h1 ks] t1] eqn:E. injection H as <- <- <-.
    destruct (hdelete_key_good _ _ _ _ _ _ _ G E) as (A & _ & _ & D).
    split; [exact A|]. split; [settings|exact D].
  - destruct (hdelete_message h (hi_messages i) ids t) as [[h1 ks] t1] eqn:E. injection H as <- <- <-.
    destruct (hdelete_message_good _ _ _ _ _ _ _ G E) as (A & _ & _ & D).
    split; [exact A|]. split; [settings|exact D].
  - injection H as <- <- <-. split; [apply inv_flags; exact G|]. split; [settings|reflexivity].
  - destruct (himport_spec U _ _ _ _ _ _ _ _ _ _ _ G H) as (A & B & C & _). auto.
Qed.

Lemma hrun_good : forall ops h i t h' i' t', good h i ->
  hrun U lb dp ops h i t = (h', i', t') -> good h' i'.
Proof.
  induction ops as [|op ops IH]; intros h i t h' i' t' G H; cbn [hrun] in H.
  - injection H as <- <- _. exact G.
  - destruct (hstep U lb dp op h i t) as [[h1 i1] t1] eqn:E.
    apply (IH h1 i1 t1 h' i' t'); [|exact H]. exact (proj1 (hstep_good _ _ _ _ _ _ _ G E)).
Qed.

Lemma reach_good : forall i0 ops t h i t', reach U lb dp i0 ops t = (h, i, t') -> good h i.
Proof.
  intros i0 ops t h i t' H. unfold reach in H. destruct (loaded i0) as [h0 hi0] eqn:E.
  apply (hrun_good ops h0 hi0 t h i t'); [|exact H]. apply (loaded_good i0 _ _ E).
Qed.
End Histories.

(** ** Nothing shared *)
Definition addr (x : slot) : list nat := match snd x with Some a => [a] | None => [] end.
Definition addrs (l : list slot) : list nat := flat_map addr l.
Definition sep (h : heap) (ks : list hkey) (ms : list hmsg) (ex : list slot) : Prop :=
  inv h ks ms ex /\ NoDup (addrs (slots h ks ms ex)).
Definition separate (h : heap) (i : hinst) : Prop := sep h (hi_keys i) (hi_messages i) (call_slot i).

Lemma addrs_app : forall a b, addrs (a ++ b) = addrs a ++ addrs b.
Proof. intros. apply flat_map_app. Qed.
Lemma addrs_In : forall l a, In a (addrs l) <-> In (Some a) (map snd l).
Proof.
  intros l a. unfold addrs. rewrite in_flat_map, in_map_iff. split.
  - intros (x & J & K). exists x. unfold addr in K. destruct (snd x) as [b|]; [|destruct K].
    destruct K as [->|[]]. auto.
  - intros (x & E & J). exists x. split; [exact J|]. unfold addr. rewrite E. left; reflexivity.
Qed.
Lemma addrs_perm : forall l l', Permutation l l' -> Permutation (addrs l) (addrs l').
Proof. intros. apply Permutation_flat_map. assumption. Qed.

Definition priv (l : list slot) : list slot := map (fun x => (KPriv, snd x)) l.
Lemma priv_snd : forall l, map snd (priv l) = map snd l.
Proof. intros l. unfold priv. rewrite map_map. reflexivity. Qed.
Lemma priv_kind : forall l x, In x (priv l) -> fst x = KPriv.
Proof. intros l x J. apply in_map_iff in J. destruct J as (y & <- & _). reflexivity. Qed.

Lemma NoDup_app_apart : forall A (a b : list A), NoDup (a ++ b) -> forall x, In x a -> In x b -> False.
Proof.
  intros A a b. induction a as [|y a IH]; intros N x Ja Jb; [destruct Ja|].
  cbn [app] in N. inversion N; subst. destruct Ja as [->|Ja]; [|eauto].
  apply H1. apply in_or_app. right. exact Jb.
Qed.
Lemma NoDup_app_r : forall A (a b : list A), NoDup (a ++ b) -> NoDup b.
Proof. intros A a b. induction a; intros N; [exact N|]. inversion N; auto. Qed.
Lemma NoDup_app_intro : forall A (a b : list A), NoDup a -> NoDup b ->
  (forall x, In x a -> In x b -> False) -> NoDup (a ++ b).
Proof.
  intros A a b Na Nb X. induction a as [|y a IH]; [exact Nb|]. inversion Na; subst. cbn [app].
  constructor.
  - intros J. apply in_app_or in J. destruct J as [J|J]; [auto|]. apply (X y); [left; reflexivity|exact J].
  - apply IH; auto. intros x J K. apply (X x); [right; exact J|exact K].
Qed.

Lemma apart_R : forall a b, NoDup (addrs (a ++ b)) ->
  forall x y, In x (priv a) -> In y b -> R x y.
Proof.
  intros a b N x y J K z Hx Hy. exfalso. rewrite addrs_app in N.
  apply (NoDup_app_apart _ _ _ N z).
  - apply addrs_In. rewrite <- priv_snd, <- Hx. apply in_map. exact J.
  - apply addrs_In. rewrite <- Hy. apply in_map. exact K.
Qed.

Section WithUnicode.
Context (U : Uni).

Lemma sep_delete_key1 : forall h ks ms ex id t h1 ks1 t1, sep h ks ms ex ->
  (forall x, In x ex -> fst x = KCall \/ fst x = KKeeper) ->
  hdelete_key1 U h ks id t = (h1, ks1, t1) ->
  sep h1 ks1 ms ex /\
  map (key_of h1) ks1 = fst (delete_key1 U (map (key_of h) ks) id) /\
  map (msg_of h1) ms = map (msg_of h) ms /\
  (forall s, In (KCall, s) ex -> rd h1 s = rd h s).
Proof.
  intros h ks ms ex id t h1 ks1 t1 [I N] EX H.
  pose proof (proj1 (hdelete_key1_spec U _ _ _ _ _ _ _ _ _ I EX H)) as I'.
  unfold hdelete_key1 in H. unfold delete_key1.
  rewrite index_of_map. cbv beta.
  change (fun x => equal_runes_fold U (Some (kid (key_of h x))) (Some id)) with
    (fun k => equal_runes_fold U (Some (rd h (hk_id k))) (Some id)).
  pose proof (index_of_spec _ (fun k => equal_runes_fold U (Some (rd h (hk_id k))) (Some id)) ks 0) as IX.
  destruct (index_of _ ks 0) as [j|].
  2:{ injection H as <- <- _. repeat split; auto; apply I. }
  destruct IX as (a & k & b & Eks & Ej & _ & _). cbn [Nat.add] in Ej. subst ks j.
  rewrite nth_error_app2, Nat.sub_diag in H by lia. cbn [nth_error] in H.
  destruct (wipe_key h k t) as [[h2 k2] t2] eqn:E. injection H as <- <- _.
  assert (P : Permutation (a ++ k :: b) (k :: swap_remove (a ++ k :: b) (length a))).
  { eapply Permutation_trans; [apply Permutation_sym, Permutation_middle|].
    constructor. apply swap_remove_perm. }
  set (rest := swap_remove (a ++ k :: b) (length a)) in *.
  pose proof (inv_perm _ _ _ _ _ _ _ P (Permutation_refl ms) (Permutation_refl ex) I) as I1.
  assert (N1 : NoDup (addrs (key_slots h k ++ slots h rest ms ex))).
  { rewrite <- slots_key_front.
    refine (Permutation_NoDup (addrs_perm _ _ _) N). unfold slots.
    apply Permutation_app_tail. apply Permutation_flat_map. exact P. }
  destruct (wipe_key_frame _ _ _ _ _ _ E) as (L & LO & F & OF).
  assert (OU : forall k2, In k2 rest -> rd_outer h2 (hk_keepers k2) = rd_outer h (hk_keepers k2)).
  { intros k3 J. apply OF. intros o E3 Ek. destruct I1 as [_ _ C _]. cbn [map pairwise] in C.
    destruct C as [C _]. rewrite Forall_forall in C.
    apply (C (hk_keepers k3) (in_map _ _ _ J) o); assumption. }
  set (W := priv (key_slots h k)).
  assert (F' : forall a0, ~ In (Some a0) (map snd W) -> nth a0 (h_runes h2) [] = nth a0 (h_runes h) []).
  { intros a0 J. apply F. unfold W in J. rewrite priv_snd in J. exact J. }
  pose proof (apart_R _ _ N1) as X.
  assert (KD : forall x, In x W -> fst x = KPriv) by (intros x; apply priv_kind).
  assert (KC : forall x, In x W -> fst x <> KCall) by (intros x J; rewrite (KD x J); discriminate).
  assert (ES : slots h2 rest ms ex = slots h rest ms ex).
  { apply slots_outer. rewrite Forall_forall. exact OU. }
  split; [split; [exact I'|]|split; [|split]].
  - rewrite ES. rewrite addrs_app in N1. exact (NoDup_app_r _ _ _ N1).
  - cbn [fst]. rewrite swap_remove_map. fold rest. apply map_ext_in. intros k3 J.
    exact (wiped_keys_none h h2 rest ms ex W F' X OU KD k3 J).
  - apply map_ext_in. intros m J. exact (wiped_msgs_none h h2 rest ms ex W F' X KD m J).
  - intros s J. exact (wiped_call h h2 rest ms ex W F' X KC s J).
Qed.

Lemma sep_delete_key : forall ids h ks ms ex t h1 ks1 t1, sep h ks ms ex ->
  (forall x, In x ex -> fst x = KCall \/ fst x = KKeeper) ->
  hdelete_key U h ks ids t = (h1, ks1, t1) ->
  sep h1 ks1 ms ex /\
  map (key_of h1) ks1 = fst (delete_key U (map (key_of h) ks) ids) /\
  map (msg_of h1) ms = map (msg_of h) ms /\
  (forall s, In (KCall, s) ex -> rd h1 s = rd h s).
Proof.
  induction ids as [|id ids IH]; intros h ks ms ex t h1 ks1 t1 S EX H; cbn [hdelete_key] in H.
  - injection H as <- <- _. repeat split; auto; apply S.
  - destruct (hdelete_key1 U h ks id t) as [[h2 ks2] t2] eqn:E.
    destruct (sep_delete_key1 _ _ _ _ _ _ _ _ _ S EX E) as (S2 & K2 & M2 & C2).
    destruct (IH _ _ _ _ _ _ _ _ S2 EX H) as (S3 & K3 & M3 & C3).
    split; [exact S3|]. split; [|split].
    + rewrite delete_key_cons, <- K2. exact K3.
    + rewrite M3. exact M2.
    + intros s J. rewrite (C3 s J). apply C2. exact J.
Qed.

Lemma sep_delete_message1 : forall h ks ms ex id t h1 ms1 t1, sep h ks ms ex ->
  hdelete_message1 h ms id t = (h1, ms1, t1) ->
  sep h1 ks ms1 ex /\
  map (msg_of h1) ms1 = fst (delete_message1 (map (msg_of h) ms) id) /\
  map (key_of h1) ks = map (key_of h) ks /\
  (forall s, In (KCall, s) ex -> rd h1 s = rd h s).
Proof.
  intros h ks ms ex id t h1 ms1 t1 [I N] H.
  pose proof (proj1 (hdelete_message1_spec _ _ _ _ _ _ _ _ _ I H)) as I'.
  unfold hdelete_message1 in H. unfold delete_message1.
  rewrite index_of_map. cbv beta.
  change (fun x => equal_runes (Some (mid (msg_of h x))) (Some id)) with
    (fun m => equal_runes (Some (rd h (hm_id m))) (Some id)).
  pose proof (index_of_spec _ (fun m => equal_runes (Some (rd h (hm_id m))) (Some id)) ms 0) as IX.
  destruct (index_of _ ms 0) as [j|].
  2:{ injection H as <- <- _. repeat split; auto; apply I. }
  destruct IX as (a & m & b & Ems & Ej & _ & _). cbn [Nat.add] in Ej. subst ms j.
  rewrite nth_error_app2, Nat.sub_diag in H by lia. cbn [nth_error] in H.
  destruct (wipe_msg h m t) as [[h2 m2] t2] eqn:E. injection H as <- <- _.
  assert (P : Permutation (a ++ m :: b) (m :: swap_remove (a ++ m :: b) (length a))).
  { eapply Permutation_trans; [apply Permutation_sym, Permutation_middle|].
    constructor. apply swap_remove_perm. }
  set (rest := swap_remove (a ++ m :: b) (length a)) in *.
  assert (N1 : NoDup (addrs (msg_slots m ++ slots h ks rest ex))).
  { apply (Permutation_NoDup (addrs_perm _ _ (slots_msg_front h ks m rest ex))).
    refine (Permutation_NoDup (addrs_perm _ _ _) N). unfold slots.
    apply Permutation_app_head, Permutation_app_tail. apply Permutation_flat_map. exact P. }
  destruct (wipe_msg_frame _ _ _ _ _ _ E) as (Sh & F).
  assert (OU : forall k2, In k2 ks -> rd_outer h2 (hk_keepers k2) = rd_outer h (hk_keepers k2)).
  { intros k3 J. unfold rd_outer. rewrite (proj1 Sh). reflexivity. }
  set (W := priv (msg_slots m)).
  assert (F' : forall a0, ~ In (Some a0) (map snd W) -> nth a0 (h_runes h2) [] = nth a0 (h_runes h) []).
  { intros a0 J. apply F. intros Q. apply J. unfold W. rewrite priv_snd. unfold msg_slots.
    cbn [map snd]. cbn [In] in Q |- *. tauto. }
  pose proof (apart_R _ _ N1) as X.
  assert (KD : forall x, In x W -> fst x = KPriv) by (intros x; apply priv_kind).
  assert (KC : forall x, In x W -> fst x <> KCall) by (intros x J; rewrite (KD x J); discriminate).
  assert (ES : slots h2 ks rest ex = slots h ks rest ex).
  { apply slots_outer. rewrite Forall_forall. exact OU. }
  split; [split; [exact I'|]|split; [|split]].
  - rewrite ES. rewrite addrs_app in N1. exact (NoDup_app_r _ _ _ N1).
  - cbn [fst]. rewrite swap_remove_map. fold rest. apply map_ext_in. intros m3 J.
    exact (wiped_msgs_none h h2 ks rest ex W F' X KD m3 J).
  - apply map_ext_in. intros k J. exact (wiped_keys_none h h2 ks rest ex W F' X OU KD k J).
  - intros s J. exact (wiped_call h h2 ks rest ex W F' X KC s J).
Qed.

Lemma sep_delete_message : forall ids h ks ms ex t h1 ms1 t1, sep h ks ms ex ->
  hdelete_message h ms ids t = (h1, ms1, t1) ->
  sep h1 ks ms1 ex /\
  map (msg_of h1) ms1 = fst (delete_message (map (msg_of h) ms) ids) /\
  map (key_of h1) ks = map (key_of h) ks /\
  (forall s, In (KCall, s) ex -> rd h1 s = rd h s).
Proof.
  induction ids as [|id ids IH]; intros h ks ms ex t h1 ms1 t1 S H; cbn [hdelete_message] in H.
  - injection H as <- <- _. repeat split; auto; apply S.
  - destruct (hdelete_message1 h ms id t) as [[h2 ms2] t2] eqn:E.
    destruct (sep_delete_message1 _ _ _ _ _ _ _ _ _ S E) as (S2 & K2 & M2 & C2).
    destruct (IH _ _ _ _ _ _ _ _ S2 H) as (S3 & K3 & M3 & C3).
    split; [exact S3|]. split; [|split].
    + rewrite delete_message_cons, <- K2. exact K3.
    + rewrite M3. exact M2.
    + intros s J. rewrite (C3 s J). apply C2. exact J.
Qed.

(** ** New arrays are not shared *)
Lemma addrs_tag_some : forall kd l, addrs (tag kd (map Some l)) = l.
Proof.
  intros kd l. induction l as [|a l IH]; [reflexivity|]. cbn [map tag]. unfold addrs, tag in *.
  cbn [map flat_map addr snd app]. rewrite IH. reflexivity.
Qed.
Lemma old_addrs : forall h ks ms ex, inv h ks ms ex ->
  forall a, In a (addrs (slots h ks ms ex)) -> (a < length (h_runes h))%nat.
Proof.
  intros h ks ms ex [_ B _ _] a J. apply addrs_In in J. apply in_map_iff in J.
  destruct J as (x & E & J). rewrite Forall_forall in B. specialize (B x J).
  unfold slot_ok in B. rewrite E in B. exact B.
Qed.

Lemma key_with_sep : forall h k kp h' hk ks ms ex,
  key_with h k kp [] = (h', hk) -> sep h ks ms ex -> sep h' (ks ++ [hk]) ms ex.
Proof.
  intros h k kp h' hk ks ms ex H [I N].
  pose proof (key_with_inv _ _ _ _ _ _ _ _ _ H I (Forall_nil _)) as I'. split; [exact I'|].
  pose proof (key_with_slots _ _ _ _ _ _ H) as S. cbv zeta in S. rewrite app_nil_r in S.
  pose proof (key_with_grows _ _ _ _ _ _ H) as G.
  assert (ES : slots h' ks ms ex = slots h ks ms ex).
  { apply slots_outer. destruct I as [_ _ _ D]. revert D. apply Forall_impl.
    intros k0 O0. apply (grows_outer _ _ _ G O0). }
  assert (P : Permutation (slots h' (ks ++ [hk]) ms ex) (key_slots h' hk ++ slots h ks ms ex)).
  { rewrite <- ES. rewrite <- slots_key_front.
    unfold slots. apply Permutation_app_tail. apply Permutation_flat_map.
    apply Permutation_sym, Permutation_cons_append. }
  apply (Permutation_NoDup (addrs_perm _ _ (Permutation_sym P))). rewrite addrs_app.
  assert (SA : addrs (key_slots h' hk) = seq (length (h_runes h)) (3 + length kp)).
  { rewrite S. set (n := length (h_runes h)). set (l := seq (n + 3) (length kp)).
    unfold addrs. cbn [flat_map addr snd app].
    change (flat_map addr (tag KKeeper (map Some l))) with (addrs (tag KKeeper (map Some l))).
    rewrite addrs_tag_some. subst l. cbn [Nat.add seq].
    replace (n + 1)%nat with (Datatypes.S n) by lia. replace (n + 2)%nat with (Datatypes.S (Datatypes.S n)) by lia.
    replace (n + 3)%nat with (Datatypes.S (Datatypes.S (Datatypes.S n))) by lia. reflexivity. }
  rewrite SA. apply NoDup_app_intro; [apply seq_NoDup|exact N|].
  intros a J K. apply in_seq in J. apply (old_addrs _ _ _ _ I) in K. lia.
Qed.

Lemma msg_with_sep : forall h m h' hm ks ms ex,
  msg_with h m = (h', hm) -> sep h ks ms ex -> sep h' ks (ms ++ [hm]) ex.
Proof.
  intros h m h' hm ks ms ex H [I N].
  pose proof (msg_with_inv _ _ _ _ _ _ _ H I) as I'. split; [exact I'|].
  pose proof (msg_with_grows _ _ _ _ H) as G.
  assert (ES : slots h' ks ms ex = slots h ks ms ex).
  { apply slots_outer. destruct I as [_ _ _ D]. revert D. apply Forall_impl.
    intros k0 O0. apply (grows_outer _ _ _ G O0). }
  assert (P : Permutation (slots h' ks (ms ++ [hm]) ex) (msg_slots hm ++ slots h ks ms ex)).
  { rewrite <- ES. eapply Permutation_trans; [|apply slots_msg_front].
    unfold slots. apply Permutation_app_head, Permutation_app_tail. apply Permutation_flat_map.
    apply Permutation_sym, Permutation_cons_append. }
  apply (Permutation_NoDup (addrs_perm _ _ (Permutation_sym P))). rewrite addrs_app.
  set (n := length (h_runes h)) in *.
  assert (S : addrs (msg_slots hm) = (n + 2 :: n + 4 :: n + 3 :: n :: n + 1 :: n + 5 :: seq (n + 6) (length (mrecipients m)))%nat).
  { unfold msg_with in H. injection H as _ <-. unfold msg_slots.
    cbn [hm_id hm_recipients hm_from hm_dtg hm_keyid hm_plain hm_binary hm_cipher hm_radiogram].
    unfold addrs. cbn [flat_map addr snd app]. fold n.
    match goal with |- context [flat_map addr ?l] => change (flat_map addr l) with (addrs l) end.
    rewrite addrs_tag_some. reflexivity. }
  rewrite S. apply NoDup_app_intro; [|exact N|].
  - assert (Q : forall a, In a (seq (n + 6) (length (mrecipients m))) -> (n + 6 <= a)%nat).
    { intros a J. apply in_seq in J. lia. }
    repeat (constructor; [cbn [In]; intros J; decompose [or] J;
      try lia; match goal with H : In _ (seq _ _) |- _ => apply Q in H; lia end|]).
    apply seq_NoDup.
  - intros a J K. apply (old_addrs _ _ _ _ I) in K. fold n in K.
    assert (n <= a)%nat; [|lia]. clear -J. cbn [In] in J. decompose [or] J; try lia.
    match goal with H : In _ (seq _ _) |- _ => apply in_seq in H; lia end.
Qed.

Lemma new_keys_arrays_sep : forall vs h h' hks ks ex,
  new_keys_arrays h vs = (h', hks) -> sep h ks [] ex -> sep h' (ks ++ hks) [] ex.
Proof.
  induction vs as [|v vs IH]; intros h h' hks ks ex H S; cbn [new_keys_arrays] in H.
  - injection H as <- <-. rewrite app_nil_r. exact S.
  - rewrite new_key_arrays_with in H. destruct (key_with h v (kkeepers v) []) as [h1 hk] eqn:E.
    destruct (new_keys_arrays h1 vs) as [h2 hks2] eqn:E2. injection H as <- <-.
    pose proof (IH _ _ _ _ _ E2 (key_with_sep _ _ _ _ _ _ _ _ E S)) as Q.
    rewrite <- app_assoc in Q. exact Q.
Qed.
Lemma new_msgs_arrays_sep : forall vs h h' hms ks ms ex,
  new_msgs_arrays h vs = (h', hms) -> sep h ks ms ex -> sep h' ks (ms ++ hms) ex.
Proof.
  induction vs as [|v vs IH]; intros h h' hms ks ms ex H S; cbn [new_msgs_arrays] in H.
  - injection H as <- <-. rewrite app_nil_r. exact S.
  - rewrite new_msg_arrays_with in H. destruct (msg_with h v) as [h1 hm] eqn:E.
    destruct (new_msgs_arrays h1 vs) as [h2 hms2] eqn:E2. injection H as <- <-.
    pose proof (IH _ _ _ _ _ _ E2 (msg_with_sep _ _ _ _ _ _ _ E S)) as Q.
    rewrite <- app_assoc in Q. exact Q.
Qed.

Lemma loaded_separate : forall i h hi, loaded i = (h, hi) -> separate h hi.
Proof.
  intros i h hi H. unfold loaded in H. unfold new in H. cbn [h_runes h_outer app length] in H.
  destruct (new_keys_arrays _ (i_keys i)) as [h2 ks] eqn:E1.
  destruct (new_msgs_arrays h2 (i_messages i)) as [h3 ms] eqn:E2. injection H as <- <-.
  assert (S0 : sep (mkHeap [i_callsign i] []) [] [] [(KCall, Some 0%nat)]).
  { split; [constructor; cbn; repeat constructor|]. cbn. repeat constructor. intros []. }
  exact (new_msgs_arrays_sep _ _ _ _ _ _ _ E2 (new_keys_arrays_sep _ _ _ _ _ _ E1 S0)).
Qed.
End WithUnicode.

(** ** Keys share nothing with each other unless keys were imported *)
Definition ksep (h : heap) (ks : list hkey) : Prop := NoDup (addrs (flat_map (key_slots h) ks)).

Lemma flags_slots : forall h ks vs, flat_map (key_slots h) (set_flags ks vs) = flat_map (key_slots h) ks.
Proof.
  intros h. induction ks as [|k ks IH]; intros [|v vs]; try reflexivity.
  cbn [set_flags flat_map]. rewrite IH. reflexivity.
Qed.
Lemma same_outer_slots : forall h h' ks, h_outer h' = h_outer h ->
  flat_map (key_slots h') ks = flat_map (key_slots h) ks.
Proof.
  intros h h' ks E. apply flat_map_ext. intros k. unfold key_slots, rd_outer. rewrite E. reflexivity.
Qed.
Lemma wipe1_outer : forall h s t h' s' t', wipe1 h s t = (h', s', t') -> h_outer h' = h_outer h.
Proof. intros h s t h' s' t' H. exact (proj1 (proj1 (wipe1_frame _ _ _ _ _ _ H))). Qed.
Lemma new_all_outer : forall vs h h' ss, new_all h vs = (h', ss) -> h_outer h' = h_outer h.
Proof. intros vs h h' ss H. apply new_all_spec in H. apply H. Qed.
Lemma wipe_msg_outer : forall h m t h' m' t', wipe_msg h m t = (h', m', t') -> h_outer h' = h_outer h.
Proof. intros h m t h' m' t' H. exact (proj1 (proj1 (wipe_msg_frame _ _ _ _ _ _ H))). Qed.

(** The key references are the same apart from [Used] marks. *)
Definition keys_kept (h h' : heap) (i i' : hinst) : Prop :=
  h_outer h' = h_outer h /\ forall x, flat_map (key_slots x) (hi_keys i') = flat_map (key_slots x) (hi_keys i).
Lemma kept_refl : forall h i, keys_kept h h i i.
Proof. unfold keys_kept. auto. Qed.
Lemma kept_trans : forall h h1 h2 i i1 i2, keys_kept h h1 i i1 -> keys_kept h1 h2 i1 i2 -> keys_kept h h2 i i2.
Proof.
  intros h h1 h2 i i1 i2 [A B] [C D]. split; [congruence|]. intros x. rewrite D. apply B.
Qed.

Section Kept.
Context (U : Uni) (lb : list rune -> list rune) (dp : list rune -> option Z).

Lemma hencipher_kept : forall h i m t h' i' m' r t',
  hencipher U h i m t = (h', i', m', r, t') -> keys_kept h h' i i'.
Proof.
  intros h i m t h' i' m' r t' H. unfold hencipher in H.
  destruct (ensure_id _ _ _) as [[mv t1]|e| |]; try (injection H as <- <- _ _ _; apply kept_refl).
  set (p := if len (rd h (hm_id m)) =? 0 then let (h', a) := new h (mid mv) in (h', hset_mid m a) else (h, m)) in H.
  assert (P : h_outer (fst p) = h_outer h) by (subst p; destruct (_ =? 0); reflexivity).
  destruct p as [h1 m1]. cbn [fst] in P.
  destruct (enrich_with_key _ _ _ _) as [[ks m1v] re].
  destruct re as [u|e| |];
    try (injection H as <- <- _ _ _; split; [exact P|intros x; apply flags_slots]).
  destruct (wipe1 h1 _ t1) as [[h2 c0] t2] eqn:EW. apply wipe1_outer in EW.
  destruct (get_key _ _ _) as [k0|];
    [|injection H as <- <- _ _ _; split; [congruence|intros x; apply flags_slots]].
  destruct (new h2 _) as [h3 a] eqn:EN. apply new_spec in EN. destruct EN as [EN _].
  assert (P3 : h_outer h3 = h_outer h) by (rewrite EN; cbn [h_outer]; congruence).
  destruct (er_res _).
  - injection H as <- <- _ _ _. split; [exact P3|]. intros x. cbn [hset_keys hi_keys].
    rewrite !flags_slots. reflexivity.
  - cbv zeta in H. destruct (wipe1 h3 _ t2) as [[h4 kid'] t3] eqn:E4. apply wipe1_outer in E4.
    injection H as <- <- _ _ _. split; [congruence|]. intros x. cbn [hset_keys hi_keys].
    rewrite !flags_slots. reflexivity.
  - cbv zeta in H. destruct (wipe1 h3 _ t2) as [[h4 kid'] t3] eqn:E4. apply wipe1_outer in E4.
    injection H as <- <- _ _ _. split; [congruence|]. intros x. cbn [hset_keys hi_keys].
    rewrite !flags_slots. reflexivity.
  - cbv zeta in H. destruct (wipe1 h3 _ t2) as [[h4 kid'] t3] eqn:E4. apply wipe1_outer in E4.
    injection H as <- <- _ _ _. split; [congruence|]. intros x. cbn [hset_keys hi_keys].
    rewrite !flags_slots. reflexivity.
Qed.

Lemma htry_decipher_kept : forall h i m t h' i' m' r t',
  htry_decipher U h i m t = (h', i', m', r, t') -> keys_kept h h' i i'.
Proof.
  intros h i m t h' i' m' r t' H. unfold htry_decipher in H.
  destruct (try_decipher U _ _ _ _) as [[[iv mv] rr] t1]. unfold new in H. cbn [h_runes h_outer] in H.
  injection H as <- <- _ _ _. split; [reflexivity|]. intros x. apply flags_slots.
Qed.

Lemma hnew_text_kept : forall h i args now t h' i' r t',
  hnew_text U lb dp h i args now t = (h', i', r, t') -> keys_kept h h' i i'.
Proof.
  intros h i args now t h' i' r t' H. unfold hnew_text in H.
  destruct args as [|raw rest]; [injection H as <- <- _ _; apply kept_refl|].
  destruct (parse_radiogram _ _ _ _ _ _ _) as [[mv t1]|e| |]; try (injection H as <- <- _ _; apply kept_refl).
  rewrite new_msg_arrays_with in H. destruct (msg_with h mv) as [h1 m] eqn:EM.
  assert (P1 : h_outer h1 = h_outer h).
  { unfold msg_with in EM. injection EM as <- _. reflexivity. }
  assert (FAIL : forall h2 i2 m2 r2 t2, keys_kept h h2 i i2 ->
    (let '(h3, _, t3) := wipe_msg h2 m2 t2 in (h3, i2, r2, t3)) = (h', i', r, t') -> keys_kept h h' i i').
  { intros h2 i2 m2 r2 t2 [K1 K2] Q. destruct (wipe_msg h2 m2 t2) as [[h3 m3] t3] eqn:EW.
    apply wipe_msg_outer in EW. injection Q as <- <- _ _. split; [congruence|exact K2]. }
  destruct (is_my_call _ _ _).
  - assert (GO : forall h2 m2, h_outer h2 = h_outer h ->
      match hencipher U h2 i m2 t1 with
      | (h3, i3, m3, Ok _, t3) => (h3, hset_messages i3 (hi_messages i3 ++ [m3]), Ok tt, t3)
      | (h3, i3, m3, r, t3) => let '(h4, _, t4) := wipe_msg h3 m3 t3 in (h4, i3, r, t4)
      end = (h', i', r, t') -> keys_kept h h' i i').
    { intros h2 m2 P2 Q. destruct (hencipher U h2 i m2 t1) as [[[[h3 i3] m3] r3] t3] eqn:EH.
      apply hencipher_kept in EH. destruct EH as [E1 E2].
      destruct r3; try (eapply FAIL; [|exact Q]; split; [congruence|exact E2]).
      injection Q as <- <- _ _. split; [congruence|exact E2]. }
    destruct rest as [|x [|keyArg more]].
    + apply (GO h1 m P1 H).
    + eapply FAIL; [|exact H]. split; auto.
    + destruct (new h1 _) as [h2 a] eqn:EN. apply new_spec in EN. destruct EN as [EN _].
      assert (P2 : h_outer h2 = h_outer h) by (rewrite EN; exact P1).
      destruct (negb _); [eapply FAIL; [|exact H]; split; auto|]. apply (GO h2 _ P2 H).
  - destruct (htry_decipher U h1 i _ t1) as [[[[h3 i3] m3] r3] t3] eqn:EH.
    apply htry_decipher_kept in EH. destruct EH as [E1 E2].
    destruct r3; try (eapply FAIL; [|exact H]; split; [congruence|exact E2]);
      injection H as <- <- _ _; (split; [congruence|exact E2]).
Qed.

Lemma kept_ksep : forall h h' i i', keys_kept h h' i i' -> ksep h (hi_keys i) -> ksep h' (hi_keys i').
Proof.
  intros h h' i i' [A B] N. unfold ksep in *. rewrite B, (same_outer_slots _ _ _ A). exact N.
Qed.

(** The inv of keys alone. *)
Lemma ksep_delete_key1 : forall h ks ms ex id t h1 ks1 t1, inv h ks ms ex -> ksep h ks ->
  hdelete_key1 U h ks id t = (h1, ks1, t1) ->
  ksep h1 ks1 /\ map (key_of h1) ks1 = fst (delete_key1 U (map (key_of h) ks) id).
Proof.
  intros h ks ms ex id t h1 ks1 t1 I N H.
  unfold hdelete_key1 in H. unfold delete_key1.
  rewrite index_of_map. cbv beta.
  change (fun x => equal_runes_fold U (Some (kid (key_of h x))) (Some id)) with
    (fun k => equal_runes_fold U (Some (rd h (hk_id k))) (Some id)).
  pose proof (index_of_spec _ (fun k => equal_runes_fold U (Some (rd h (hk_id k))) (Some id)) ks 0) as IX.
  destruct (index_of _ ks 0) as [j|].
  2:{ injection H as <- <- _. auto. }
  destruct IX as (a & k & b & Eks & Ej & _ & _). cbn [Nat.add] in Ej. subst ks j.
  rewrite nth_error_app2, Nat.sub_diag in H by lia. cbn [nth_error] in H.
  destruct (wipe_key h k t) as [[h2 k2] t2] eqn:E. injection H as <- <- _.
  assert (P : Permutation (a ++ k :: b) (k :: swap_remove (a ++ k :: b) (length a))).
  { eapply Permutation_trans; [apply Permutation_sym, Permutation_middle|].
    constructor. apply swap_remove_perm. }
  set (rest := swap_remove (a ++ k :: b) (length a)) in *.
  pose proof (inv_perm _ _ _ _ _ _ _ P (Permutation_refl ms) (Permutation_refl ex) I) as I1.
  assert (N1 : NoDup (addrs (key_slots h k ++ slots h rest [] []))).
  { unfold slots. cbn [flat_map app]. rewrite app_nil_r.
    change (key_slots h k ++ flat_map (key_slots h) rest) with (flat_map (key_slots h) (k :: rest)).
    refine (Permutation_NoDup (addrs_perm _ _ _) N). apply Permutation_flat_map. exact P. }
  destruct (wipe_key_frame _ _ _ _ _ _ E) as (L & LO & F & OF).
  assert (OU : forall k2, In k2 rest -> rd_outer h2 (hk_keepers k2) = rd_outer h (hk_keepers k2)).
  { intros k3 J. apply OF. intros o E3 Ek. destruct I1 as [_ _ C _]. cbn [map pairwise] in C.
    destruct C as [C _]. rewrite Forall_forall in C.
    apply (C (hk_keepers k3) (in_map _ _ _ J) o); assumption. }
  set (W := priv (key_slots h k)).
  assert (F' : forall a0, ~ In (Some a0) (map snd W) -> nth a0 (h_runes h2) [] = nth a0 (h_runes h) []).
  { intros a0 J. apply F. unfold W in J. rewrite priv_snd in J. exact J. }
  pose proof (apart_R _ _ N1) as X.
  assert (KD : forall x, In x W -> fst x = KPriv) by (intros x; apply priv_kind).
  assert (ES : slots h2 rest [] [] = slots h rest [] []).
  { apply slots_outer. rewrite Forall_forall. exact OU. }
  split.
  - rewrite addrs_app, <- ES in N1. apply NoDup_app_r in N1. unfold slots in N1. cbn [flat_map app] in N1.
    rewrite app_nil_r in N1. exact N1.
  - cbn [fst]. rewrite swap_remove_map. fold rest. apply map_ext_in. intros k3 J.
    exact (wiped_keys_none h h2 rest [] [] W F' X OU KD k3 J).
Qed.

Lemma ksep_delete_key : forall ids h ks ms ex t h1 ks1 t1, inv h ks ms ex -> ksep h ks ->
  (forall x, In x ex -> fst x = KCall \/ fst x = KKeeper) ->
  hdelete_key U h ks ids t = (h1, ks1, t1) ->
  ksep h1 ks1 /\ map (key_of h1) ks1 = fst (delete_key U (map (key_of h) ks) ids).
Proof.
  induction ids as [|id ids IH]; intros h ks ms ex t h1 ks1 t1 I S EX H; cbn [hdelete_key] in H.
  - injection H as <- <- _. auto.
  - destruct (hdelete_key1 U h ks id t) as [[h2 ks2] t2] eqn:E.
    destruct (ksep_delete_key1 _ _ _ _ _ _ _ _ _ I S E) as (S2 & K2).
    pose proof (proj1 (hdelete_key1_spec U _ _ _ _ _ _ _ _ _ I EX E)) as I2.
    destruct (IH _ _ _ _ _ _ _ _ I2 S2 EX H) as (S3 & K3).
    split; [exact S3|]. rewrite delete_key_cons, <- K2. exact K3.
Qed.

Lemma hstep_ksep : forall op h i t h' i' t', good h i -> ksep h (hi_keys i) -> no_import op ->
  hstep U lb dp op h i t = (h', i', t') -> ksep h' (hi_keys i').
Proof.
  intros op h i t h' i' t' G S N H. destruct op; cbn [hstep no_import] in *.
  - unfold hnew_key in H. destruct (new_key _ _ _ _ _ _) as [[[iv k] t1]| | |];
      try (injection H as <- <- _; exact S).
    rewrite new_key_arrays_with in H. destruct (key_with h k (kkeepers k) []) as [h1 hk] eqn:E.
    injection H as <- <- _. cbn [hset_keys hi_keys].
    assert (S0 : sep h (hi_keys i) [] []).
    { assert (E0 : slots h (hi_keys i) [] [] = flat_map (key_slots h) (hi_keys i)).
      { unfold slots. cbn [flat_map app]. apply app_nil_r. }
      split; [|rewrite E0; exact S]. destruct G as [A B C D].
      unfold slots in A, B. apply pairwise_app in A. rewrite Forall_app in B.
      constructor; auto; rewrite E0; [apply A|apply B]. }
    pose proof (key_with_sep _ _ _ _ _ _ _ _ E S0) as [_ Q]. unfold slots in Q.
    cbn [flat_map app] in Q. rewrite app_nil_r in Q. exact Q.
  - destruct (hnew_text U lb dp h i args now t) as [[[h1 i1] r] t1] eqn:E. injection H as <- <- <-.
    exact (kept_ksep _ _ _ _ (hnew_text_kept _ _ _ _ _ _ _ _ _ E) S).
  - destruct (hdelete_key U h (hi_keys i) ids t) as [[h1 ks] t1] eqn:E. injection H as <- <- <-.
    assert (EX : forall x, In x (call_slot i) -> fst x = KCall \/ fst x = KKeeper).
    { intros x [<-|[]]. auto. }
    exact (proj1 (ksep_delete_key _ _ _ _ _ _ _ _ _ G S EX E)).
  - destruct (hdelete_message h (hi_messages i) ids t) as [[h1 ms] t1] eqn:E. injection H as <- <- <-.
    cbn [hset_messages hi_keys].
    assert (O : h_outer h1 = h_outer h).
    { clear -E. revert h t E. generalize (hi_messages i). revert h1 ms t1.
      induction ids as [|id ids IH]; intros h1 ms t1 l h t E; cbn [hdelete_message] in E.
      - injection E as <- _ _. reflexivity.
      - destruct (hdelete_message1 h l id t) as [[h2 l2] t2] eqn:E2. rewrite (IH _ _ _ _ _ _ E).
        unfold hdelete_message1 in E2. destruct (index_of _ _ _); [|injection E2 as <- _ _; reflexivity].
        destruct (nth_error _ _); [|injection E2 as <- _ _; reflexivity].
        destruct (wipe_msg h _ t) as [[h3 m3] t3] eqn:EW. apply wipe_msg_outer in EW.
        injection E2 as <- _ _. exact EW. }
    unfold ksep in *. rewrite (same_outer_slots _ _ _ O). exact S.
  - injection H as <- <- <-. unfold ksep in *. cbn [hset_keys hi_keys]. rewrite flags_slots. exact S.
  - destruct N.
Qed.

Lemma hrun_ksep : forall ops h i t h' i' t', good h i -> ksep h (hi_keys i) -> Forall no_import ops ->
  hrun U lb dp ops h i t = (h', i', t') -> ksep h' (hi_keys i').
Proof.
  induction ops as [|op ops IH]; intros h i t h' i' t' G S N H; cbn [hrun] in H.
  - injection H as <- <- _. exact S.
  - inversion N as [|? ? N1 N2]; subst. destruct (hstep U lb dp op h i t) as [[h1 i1] t1] eqn:E.
    apply (IH h1 i1 t1 h' i' t'); auto.
    + exact (proj1 (hstep_good _ _ _ _ _ _ _ _ _ _ G E)).
    + exact (hstep_ksep _ _ _ _ _ _ _ G S N1 E).
Qed.

Lemma reach_ksep : forall i0 ops t h i t', Forall no_import ops ->
  reach U lb dp i0 ops t = (h, i, t') -> ksep h (hi_keys i).
Proof.
  intros i0 ops t h i t' N H. unfold reach in H. destruct (loaded i0) as [h0 hi0] eqn:E.
  apply (hrun_ksep ops h0 hi0 t h i t'); auto; [apply (loaded_good i0 _ _ E)|].
  destruct (loaded_separate i0 _ _ E) as [_ Q]. unfold slots in Q. rewrite addrs_app in Q.
  unfold ksep. revert Q. generalize (addrs (flat_map msg_slots (hi_messages hi0) ++ call_slot hi0)).
  generalize (addrs (flat_map (key_slots h0) (hi_keys hi0))).
  intros a b Q. induction a as [|x a IH]; [constructor|]. inversion Q; subst. constructor; auto.
  intros J. apply H2. apply in_or_app. left. exact J.
Qed.
End Kept.
