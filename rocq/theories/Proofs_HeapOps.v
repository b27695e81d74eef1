(** Every operation keeps the sharing invariant; what it does to the rest of
    the store. *)
From Coq Require Import Permutation.
From Verif Require Import Base Model_Unicode Model_Crand Model_Functions Model_Types
  Model_Cipher Model_Keys Model_Import Model_Messages Model_Heap Spec Spec_Heap Proofs_Keys
  Proofs_KeyOps Proofs_Encipher Proofs_Cipher Proofs_Heap Proofs_Sharing Proofs_Shared.

(** ** Frames *)
Lemma mem_shape_rd_len : forall h h' s, mem_shape h h' -> length (rd h' s) = length (rd h s).
Proof. intros h h' [a|] (_ & _ & L); [apply L|reflexivity]. Qed.

(** An array that no slot of kind [kd] may share with the wiped ones [W]. *)
Lemma untouched : forall (W : list slot) h h' kd s,
  (forall a, ~ In (Some a) (map snd W) -> nth a (h_runes h') [] = nth a (h_runes h) []) ->
  (forall x, In x W -> R x (kd, s)) -> (forall x, In x W -> compat (fst x) kd = false) ->
  rd h' s = rd h s.
Proof.
  intros W h h' kd [a|] F HR C; [|reflexivity]. unfold rd. apply F. intros J.
  apply in_map_iff in J. destruct J as (x & E & J).
  pose proof (HR x J a E eq_refl) as Q. cbn [fst] in Q. rewrite (C x J) in Q. discriminate.
Qed.

Lemma key_slots_snd : forall h k, map snd (key_slots h k) = key_slices h k.
Proof.
  intros h k. unfold key_slots, key_slices, tag. cbn [map snd]. rewrite map_map. cbn [snd].
  rewrite map_id. reflexivity.
Qed.

Lemma wipe_key_frame : forall h k t h' k' t', wipe_key h k t = (h', k', t') ->
  length (h_runes h') = length (h_runes h) /\ length (h_outer h') = length (h_outer h) /\
  (forall a, ~ In (Some a) (map snd (key_slots h k)) -> nth a (h_runes h') [] = nth a (h_runes h) []) /\
  (forall s, (forall a, s = Some a -> hk_keepers k <> Some a) -> rd_outer h' s = rd_outer h s).
Proof.
  intros h k t h' k' t' H. unfold wipe_key in H.
  destruct (scrub h _ t) as [h1 t1] eqn:E. injection H as <- _ _.
  destruct (scrub_shape _ _ _ _ _ E) as [(O & L & _) F].
  assert (HR : h_runes (wr_outer h1 (hk_keepers k) (map (fun _ => None) (rd_outer h (hk_keepers k)))) = h_runes h1)
    by (destruct (hk_keepers k); reflexivity).
  rewrite HR. split; [exact L|]. split; [|split].
  - unfold wr_outer. destruct (hk_keepers k); cbn [h_outer]; rewrite ?list_update_length, O; reflexivity.
  - intros a N. apply F. intros J. apply N. rewrite key_slots_snd. unfold key_slices.
    cbn [In] in *. tauto.
  - intros s N.
    destruct (rd_outer_wr_outer h1 s (hk_keepers k) (map (fun _ => None) (rd_outer h (hk_keepers k))))
      as [->|(X & Y & _)].
    + unfold rd_outer. rewrite O. reflexivity.
    + exfalso. destruct s as [a|]; [|congruence]. exact (N a eq_refl (eq_sym X)).
Qed.

Lemma wipe_msg_frame : forall h m t h' m' t', wipe_msg h m t = (h', m', t') ->
  mem_shape h h' /\
  (forall a, ~ In (Some a) [hm_plain m; hm_cipher m; hm_keyid m] ->
     nth a (h_runes h') [] = nth a (h_runes h) []).
Proof.
  intros h m t h' m' t' H. unfold wipe_msg in H.
  destruct (scrub h _ t) as [h1 t1] eqn:E. injection H as <- _ _.
  exact (scrub_shape _ _ _ _ _ E).
Qed.

Lemma wipe1_frame : forall h s t h' s' t', wipe1 h s t = (h', s', t') ->
  mem_shape h h' /\ (s' = None \/ (s' = s /\ h' = h)) /\
  (forall a, ~ In (Some a) [s] -> nth a (h_runes h') [] = nth a (h_runes h) []).
Proof.
  intros h s t h' s' t' H. unfold wipe1 in H.
  destruct (read_runes (length (rd h s)) t) as [[r t1]|] eqn:E.
  - injection H as <- <- _. pose proof (read_runes_length _ _ _ _ E) as L.
    split; [exact (wr_shape h s r L)|]. split; [auto|]. intros a N.
    pose proof (rd_wr_other h s r (Some a)) as Q. unfold rd at 1 2 in Q. apply Q.
    intros X. exfalso. apply N. left. auto.
  - injection H as <- <- _. split; [apply mem_shape_refl|]. split; [auto|]. reflexivity.
Qed.

(** The slots of a key or message against the rest. *)
Lemma inv_cross_key : forall h k ks ms ex x y, inv h (k :: ks) ms ex ->
  In x (key_slots h k) -> In y (slots h ks ms ex) -> R x y.
Proof.
  intros h k ks ms ex x y [A _ _ _] Ix Iy. rewrite slots_key_front in A.
  apply pairwise_app in A. destruct A as (_ & _ & A). rewrite Forall_forall in A.
  specialize (A x Ix). rewrite Forall_forall in A. apply A. exact Iy.
Qed.
Lemma inv_cross_msg : forall h ks m ms ex x y, inv h ks (m :: ms) ex ->
  In x (msg_slots m) -> In y (slots h ks ms ex) -> R x y.
Proof.
  intros h ks m ms ex x y [A _ _ _] Ix Iy.
  apply (pairwise_perm _ _ R_sym _ _ (slots_msg_front h ks m ms ex)) in A.
  apply pairwise_app in A. destruct A as (_ & _ & A). rewrite Forall_forall in A.
  specialize (A x Ix). rewrite Forall_forall in A. apply A. exact Iy.
Qed.

Lemma in_slots_key : forall h ks ms ex k x, In k ks -> In x (key_slots h k) -> In x (slots h ks ms ex).
Proof.
  intros. unfold slots. apply in_or_app. left. apply in_flat_map. exists k. auto.
Qed.
Lemma in_slots_msg : forall h ks ms ex m x, In m ms -> In x (msg_slots m) -> In x (slots h ks ms ex).
Proof.
  intros. unfold slots. apply in_or_app. right. apply in_or_app. left. apply in_flat_map. exists m. auto.
Qed.
Lemma in_slots_ex : forall h ks ms ex x, In x ex -> In x (slots h ks ms ex).
Proof. intros. unfold slots. apply in_or_app. right. apply in_or_app. right. auto. Qed.

(** ** DeleteKey *)
Section Wiped.
Context (h h' : heap) (ks : list hkey) (ms : list hmsg) (ex : list slot) (W : list slot).
Hypothesis F : forall a, ~ In (Some a) (map snd W) -> nth a (h_runes h') [] = nth a (h_runes h) [].
Hypothesis X : forall x y, In x W -> In y (slots h ks ms ex) -> R x y.
Hypothesis OU : forall k, In k ks -> rd_outer h' (hk_keepers k) = rd_outer h (hk_keepers k).

Lemma keep_slot : forall kd s, In (kd, s) (slots h ks ms ex) ->
  (forall x, In x W -> compat (fst x) kd = false) -> rd h' s = rd h s.
Proof. intros kd s J C. apply (untouched W h h' kd s F); auto. Qed.

Lemma wiped_keys_keepers : (forall x, In x W -> fst x = KId \/ fst x = KPriv \/ fst x = KKeeper) ->
  forall k, In k ks -> same_but_keepers (key_of h k) (key_of h' k).
Proof.
  intros C k J. unfold same_but_keepers, key_of. cbn [kid krunes kcreated kexpires kused kcompromised kcomment].
  assert (Q : forall kd s, In (kd, s) (key_slots h k) -> kd = KId \/ kd = KPriv -> rd h' s = rd h s).
  { intros kd s Js Hk. apply (keep_slot kd s); [exact (in_slots_key _ _ _ _ _ _ J Js)|].
    intros x Jx. destruct (C x Jx) as [->|[->| ->]]; destruct Hk as [->| ->]; reflexivity. }
  repeat split; try (apply (Q KPriv); cbn; tauto). apply (Q KId); cbn; tauto.
Qed.

Lemma wiped_keys_ids : (forall x, In x W -> fst x = KPriv \/ fst x = KKeyId) ->
  forall k, In k ks -> same_but_id (key_of h k) (key_of h' k).
Proof.
  intros C k J. unfold same_but_id, key_of. cbn [kid krunes kkeepers kcreated kexpires kused kcompromised kcomment].
  assert (Q : forall kd s, In (kd, s) (key_slots h k) -> kd = KKeeper \/ kd = KPriv -> rd h' s = rd h s).
  { intros kd s Js Hk. apply (keep_slot kd s); [exact (in_slots_key _ _ _ _ _ _ J Js)|].
    intros x Jx. destruct (C x Jx) as [->| ->]; destruct Hk as [->| ->]; reflexivity. }
  rewrite (OU k J).
  repeat split; try (apply (Q KPriv); cbn; tauto).
  apply map_ext_in. intros s Js. apply (Q KKeeper); [|auto]. do 3 right. apply in_map. exact Js.
Qed.

Lemma wiped_keys_none : (forall x, In x W -> fst x = KPriv) ->
  forall k, In k ks -> key_of h' k = key_of h k.
Proof.
  intros C k J. unfold key_of.
  assert (Q : forall kd s, In (kd, s) (key_slots h k) -> rd h' s = rd h s).
  { intros kd s Js. apply (keep_slot kd s); [exact (in_slots_key _ _ _ _ _ _ J Js)|].
    intros x Jx. rewrite (C x Jx). destruct kd; reflexivity. }
  rewrite (OU k J), (Q KId (hk_id k)), (Q KPriv (hk_runes k)), (Q KPriv (hk_comment k)) by (cbn; tauto).
  f_equal. apply map_ext_in. intros s Js. apply (Q KKeeper). do 3 right. apply in_map. exact Js.
Qed.

Lemma wiped_msgs : (forall x, In x W -> fst x <> KCall) ->
  forall m, In m ms -> same_but_keyid (msg_of h m) (msg_of h' m).
Proof.
  intros C m J. unfold same_but_keyid, msg_of.
  cbn [mid mrecipients mfrom mdtg mkeyid mplain mbinary mcipher mradiogram].
  assert (Q : forall kd s, In (kd, s) (msg_slots m) -> kd = KCall \/ kd = KPriv -> rd h' s = rd h s).
  { intros kd s Js Hk. apply (keep_slot kd s); [exact (in_slots_msg _ _ _ _ _ _ J Js)|].
    intros x Jx. specialize (C x Jx). destruct (fst x), Hk as [->| ->]; try reflexivity; congruence. }
  repeat split; try (apply (Q KPriv); cbn; tauto).
  apply map_ext_in. intros s Js. apply (Q KCall); [|auto]. do 6 right. apply in_map. exact Js.
Qed.

Lemma wiped_msgs_none : (forall x, In x W -> fst x = KPriv) ->
  forall m, In m ms -> msg_of h' m = msg_of h m.
Proof.
  intros C m J. unfold msg_of.
  assert (Q : forall kd s, In (kd, s) (msg_slots m) -> rd h' s = rd h s).
  { intros kd s Js. apply (keep_slot kd s); [exact (in_slots_msg _ _ _ _ _ _ J Js)|].
    intros x Jx. rewrite (C x Jx). destruct kd; reflexivity. }
  rewrite (Q KPriv (hm_id m)), (Q KPriv (hm_from m)), (Q KKeyId (hm_keyid m)),
    (Q KPriv (hm_plain m)), (Q KPriv (hm_cipher m)), (Q KPriv (hm_radiogram m)) by (cbn; tauto).
  f_equal. apply map_ext_in. intros s Js. apply (Q KCall). do 6 right. apply in_map. exact Js.
Qed.

Lemma wiped_call : (forall x, In x W -> fst x <> KCall) ->
  forall s, In (KCall, s) ex -> rd h' s = rd h s.
Proof.
  intros C s J. apply (keep_slot KCall s); [apply in_slots_ex; exact J|].
  intros x Jx. specialize (C x Jx). destruct (fst x); try reflexivity. congruence.
Qed.
End Wiped.

Lemma index_of_map : forall A B (g : A -> B) (f : B -> bool) l n,
  index_of f (map g l) n = index_of (fun x => f (g x)) l n.
Proof.
  intros A B g f. induction l as [|x l IH]; intros n; cbn [map index_of]; [reflexivity|].
  rewrite IH. reflexivity.
Qed.
Lemma list_update_map : forall A B (g : A -> B) l i x,
  list_update (map g l) i (g x) = map g (list_update l i x).
Proof.
  intros A B g. induction l as [|y l IH]; intros [|i] x; cbn [map list_update]; try reflexivity.
  rewrite IH. reflexivity.
Qed.
Lemma swap_remove_map : forall A B (g : A -> B) l i, swap_remove (map g l) i = map g (swap_remove l i).
Proof.
  intros A B g l i. unfold swap_remove. rewrite map_length, nth_error_map.
  destruct (nth_error l (length l - 1)) as [z|]; cbn [option_map]; [|reflexivity].
  rewrite list_update_map, firstn_map. reflexivity.
Qed.

Lemma Forall2_map_in : forall A B (P : B -> B -> Prop) (f g : A -> B) l,
  (forall x, In x l -> P (f x) (g x)) -> Forall2 P (map f l) (map g l).
Proof.
  intros A B P f g l. induction l as [|x l IH]; intros H; cbn [map]; constructor.
  - apply H. left; reflexivity.
  - apply IH. intros y J. apply H. right; exact J.
Qed.

Section WithUnicode.
Context (U : Uni).

Lemma hdelete_key1_spec : forall h ks ms ex id t h1 ks1 t1, inv h ks ms ex ->
  (forall x, In x ex -> fst x = KCall \/ fst x = KKeeper) ->
  hdelete_key1 U h ks id t = (h1, ks1, t1) ->
  inv h1 ks1 ms ex /\
  Forall2 same_but_keepers (fst (delete_key1 U (map (key_of h) ks) id)) (map (key_of h1) ks1) /\
  Forall2 same_but_keyid (map (msg_of h) ms) (map (msg_of h1) ms) /\
  (forall s, In (KCall, s) ex -> rd h1 s = rd h s).
Proof.
  intros h ks ms ex id t h1 ks1 t1 I EX H. unfold hdelete_key1 in H. unfold delete_key1.
  rewrite index_of_map. cbv beta.
  change (fun x => equal_runes_fold U (Some (kid (key_of h x))) (Some id)) with
    (fun k => equal_runes_fold U (Some (rd h (hk_id k))) (Some id)).
  pose proof (index_of_spec _ (fun k => equal_runes_fold U (Some (rd h (hk_id k))) (Some id)) ks 0) as IX.
  destruct (index_of _ ks 0) as [j|].
  2:{ injection H as <- <- _. split; [exact I|]. cbn [fst].
      split; [apply Forall2_map_in; intros; unfold same_but_keepers; tauto|].
      split; [apply Forall2_map_in; intros; unfold same_but_keyid; tauto|auto]. }
  destruct IX as (a & k & b & Eks & Ej & _ & _). cbn [Nat.add] in Ej. subst ks j.
  rewrite nth_error_app2, Nat.sub_diag in H by lia. cbn [nth_error] in H.
  destruct (wipe_key h k t) as [[h2 k2] t2] eqn:E. injection H as <- <- _.
  assert (P : Permutation (a ++ k :: b) (k :: swap_remove (a ++ k :: b) (length a))).
  { eapply Permutation_trans; [apply Permutation_sym, Permutation_middle|].
    constructor. apply swap_remove_perm. }
  set (rest := swap_remove (a ++ k :: b) (length a)) in *.
  pose proof (inv_perm _ _ _ _ _ _ _ P (Permutation_refl ms) (Permutation_refl ex) I) as I1.
  destruct (wipe_key_frame _ _ _ _ _ _ E) as (L & LO & F & OF).
  assert (OU : forall k2, In k2 rest -> rd_outer h2 (hk_keepers k2) = rd_outer h (hk_keepers k2)).
  { intros k3 J. apply OF. intros o E3 Ek. destruct I1 as [_ _ C _]. cbn [map pairwise] in C.
    destruct C as [C _]. rewrite Forall_forall in C.
    apply (C (hk_keepers k3) (in_map _ _ _ J) o); assumption. }
  assert (X : forall x y, In x (key_slots h k) -> In y (slots h rest ms ex) -> R x y).
  { intros x y. apply (inv_cross_key _ _ _ _ _ _ _ I1). }
  assert (KD : forall x, In x (key_slots h k) -> fst x = KId \/ fst x = KPriv \/ fst x = KKeeper).
  { intros x J. unfold key_slots in J. cbn [In] in J.
    destruct J as [<-|[<-|[<-|J]]]; cbn [fst]; auto. unfold tag in J. apply in_map_iff in J.
    destruct J as (s & <- & _). auto. }
  assert (KC : forall x, In x (key_slots h k) -> fst x <> KCall).
  { intros x J. destruct (KD x J) as [->|[->| ->]]; discriminate. }
  split.
  { pose proof (inv_drop_key _ _ _ _ _ I1) as [A B C D].
    assert (ES : slots h2 rest ms ex = slots h rest ms ex).
    { apply slots_outer. rewrite Forall_forall. exact OU. }
    constructor; try rewrite ES; auto.
    - revert B. apply Forall_impl. intros x. unfold slot_ok, slice_ok. destruct (snd x); [|auto]. lia.
    - revert D. apply Forall_impl. intros k3. unfold outer_ok. destruct (hk_keepers k3); [|auto]. lia. }
  split; [|split].
  - cbn [fst]. rewrite swap_remove_map. fold rest. apply Forall2_map_in. intros k3 J.
    exact (wiped_keys_keepers h h2 rest ms ex (key_slots h k) F X KD k3 J).
  - apply Forall2_map_in. intros m J. exact (wiped_msgs h h2 rest ms ex _ F X KC m J).
  - intros s J. exact (wiped_call h h2 rest ms ex _ F X KC s J).
Qed.

Lemma same_but_keepers_trans : forall a b c, same_but_keepers a b -> same_but_keepers b c -> same_but_keepers a c.
Proof. unfold same_but_keepers. intros a b c H H'. intuition congruence. Qed.
Lemma same_but_keyid_trans : forall a b c, same_but_keyid a b -> same_but_keyid b c -> same_but_keyid a c.
Proof. unfold same_but_keyid. intros a b c H H'. intuition congruence. Qed.
Lemma same_but_id_trans : forall a b c, same_but_id a b -> same_but_id b c -> same_but_id a c.
Proof. unfold same_but_id. intros a b c H H'. intuition congruence. Qed.
Lemma same_but_keepers_refl : forall a, same_but_keepers a a.
Proof. unfold same_but_keepers. tauto. Qed.
Lemma same_but_keyid_refl : forall a, same_but_keyid a a.
Proof. unfold same_but_keyid. tauto. Qed.
Lemma same_but_id_refl : forall a, same_but_id a a.
Proof. unfold same_but_id. tauto. Qed.

Lemma Forall2_trans : forall A (P : A -> A -> Prop), (forall a b c, P a b -> P b c -> P a c) ->
  forall l1 l2 l3, Forall2 P l1 l2 -> Forall2 P l2 l3 -> Forall2 P l1 l3.
Proof.
  intros A P T l1 l2 l3 H. revert l3. induction H as [|x y l1 l2 Hxy H IH]; intros l3 H3.
  - inversion H3. constructor.
  - inversion H3 as [|? z ? l4 Hyz H4]; subst. constructor; [eapply T; eassumption|auto].
Qed.
Lemma Forall2_refl : forall A (P : A -> A -> Prop), (forall a, P a a) -> forall l, Forall2 P l l.
Proof. intros A P H l. induction l; constructor; auto. Qed.

Lemma Forall2_same_length : forall A B (P : A -> B -> Prop) l l', Forall2 P l l' -> length l = length l'.
Proof. intros A B P l l' H. induction H; cbn [length]; auto. Qed.
Lemma Forall2_nth_error : forall A B (P : A -> B -> Prop) l l', Forall2 P l l' -> forall i,
  match nth_error l i, nth_error l' i with
  | Some x, Some y => P x y | None, None => True | _, _ => False end.
Proof.
  intros A B P l l' H. induction H; intros [|i]; cbn [nth_error]; auto. apply IHForall2.
Qed.
Lemma Forall2_list_update : forall A B (P : A -> B -> Prop) l l', Forall2 P l l' -> forall i x y,
  P x y -> Forall2 P (list_update l i x) (list_update l' i y).
Proof.
  intros A B P l l' H. induction H; intros [|i] a b Q; cbn [list_update]; constructor; auto.
Qed.
Lemma Forall2_firstn : forall A B (P : A -> B -> Prop) l l', Forall2 P l l' -> forall n,
  Forall2 P (firstn n l) (firstn n l').
Proof. intros A B P l l' H. induction H; intros [|n]; cbn [firstn]; constructor; auto. Qed.
Lemma Forall2_swap_remove : forall A B (P : A -> B -> Prop) l l' i, Forall2 P l l' ->
  Forall2 P (swap_remove l i) (swap_remove l' i).
Proof.
  intros A B P l l' i H. unfold swap_remove. rewrite <- (Forall2_same_length _ _ _ _ _ H).
  pose proof (Forall2_nth_error _ _ _ _ _ H (length l - 1)) as N.
  destruct (nth_error l (length l - 1)), (nth_error l' (length l - 1)); try contradiction; auto.
  apply Forall2_firstn. apply Forall2_list_update; assumption.
Qed.
Lemma Forall2_index_of : forall A B (P : A -> B -> Prop) f g l l',
  (forall x y, P x y -> f x = g y) -> Forall2 P l l' -> forall n,
  index_of f l n = index_of g l' n.
Proof.
  intros A B P f g l l' E H. induction H as [|x y l l' Hxy H IH]; intros n; cbn [index_of]; [reflexivity|].
  rewrite (E x y Hxy), IH. reflexivity.
Qed.

Lemma delete_key1_same : forall ks ks' id, Forall2 same_but_keepers ks ks' ->
  Forall2 same_but_keepers (fst (delete_key1 U ks id)) (fst (delete_key1 U ks' id)).
Proof.
  intros ks ks' id H. unfold delete_key1.
  rewrite (Forall2_index_of _ _ same_but_keepers
    (fun k => equal_runes_fold U (Some (kid k)) (Some id)) (fun k => equal_runes_fold U (Some (kid k)) (Some id)) ks ks'); auto.
  - destruct (index_of _ ks' 0); cbn [fst]; [apply Forall2_swap_remove|]; assumption.
  - intros x y (E & _). rewrite E. reflexivity.
Qed.
Lemma delete_key_same : forall ids ks ks', Forall2 same_but_keepers ks ks' ->
  Forall2 same_but_keepers (fst (delete_key U ks ids)) (fst (delete_key U ks' ids)).
Proof.
  induction ids as [|id ids IH]; intros ks ks' H; [exact H|]. cbn [delete_key].
  pose proof (delete_key1_same _ _ id H) as H1.
  destruct (delete_key1 U ks id) as [k1 n1], (delete_key1 U ks' id) as [k2 n2]. cbn [fst] in H1.
  pose proof (IH _ _ H1) as H2.
  destruct (delete_key U k1 ids), (delete_key U k2 ids). exact H2.
Qed.
Lemma delete_key_cons : forall ks id ids,
  fst (delete_key U ks (id :: ids)) = fst (delete_key U (fst (delete_key1 U ks id)) ids).
Proof.
  intros. cbn [delete_key]. destruct (delete_key1 U ks id) as [k1 n1]. cbn [fst].
  destruct (delete_key U k1 ids). reflexivity.
Qed.

Lemma hdelete_key_spec : forall ids h ks ms ex t h1 ks1 t1, inv h ks ms ex ->
  (forall x, In x ex -> fst x = KCall \/ fst x = KKeeper) ->
  hdelete_key U h ks ids t = (h1, ks1, t1) ->
  inv h1 ks1 ms ex /\
  Forall2 same_but_keepers (fst (delete_key U (map (key_of h) ks) ids)) (map (key_of h1) ks1) /\
  Forall2 same_but_keyid (map (msg_of h) ms) (map (msg_of h1) ms) /\
  (forall s, In (KCall, s) ex -> rd h1 s = rd h s).
Proof.
  induction ids as [|id ids IH]; intros h ks ms ex t h1 ks1 t1 I EX H; cbn [hdelete_key] in H.
  - injection H as <- <- _. split; [exact I|]. cbn [delete_key fst].
    split; [apply Forall2_refl, same_but_keepers_refl|].
    split; [apply Forall2_refl, same_but_keyid_refl|auto].
  - destruct (hdelete_key1 U h ks id t) as [[h2 ks2] t2] eqn:E.
    destruct (hdelete_key1_spec _ _ _ _ _ _ _ _ _ I EX E) as (I2 & K2 & M2 & C2).
    destruct (IH _ _ _ _ _ _ _ _ I2 EX H) as (I3 & K3 & M3 & C3).
    split; [exact I3|]. split; [|split].
    + rewrite delete_key_cons. eapply Forall2_trans; [exact same_but_keepers_trans| |exact K3].
      apply delete_key_same. exact K2.
    + eapply Forall2_trans; [exact same_but_keyid_trans|exact M2|exact M3].
    + intros s J. rewrite (C3 s J). apply C2. exact J.
Qed.

(** ** DeleteMessage *)
Lemma hdelete_message1_spec : forall h ks ms ex id t h1 ms1 t1, inv h ks ms ex ->
  hdelete_message1 h ms id t = (h1, ms1, t1) ->
  inv h1 ks ms1 ex /\
  Forall2 same_but_keyid (fst (delete_message1 (map (msg_of h) ms) id)) (map (msg_of h1) ms1) /\
  Forall2 same_but_id (map (key_of h) ks) (map (key_of h1) ks) /\
  (forall s, In (KCall, s) ex -> rd h1 s = rd h s).
Proof.
  intros h ks ms ex id t h1 ms1 t1 I H. unfold hdelete_message1 in H. unfold delete_message1.
  rewrite index_of_map. cbv beta.
  change (fun x => equal_runes (Some (mid (msg_of h x))) (Some id)) with
    (fun m => equal_runes (Some (rd h (hm_id m))) (Some id)).
  pose proof (index_of_spec _ (fun m => equal_runes (Some (rd h (hm_id m))) (Some id)) ms 0) as IX.
  destruct (index_of _ ms 0) as [j|].
  2:{ injection H as <- <- _. split; [exact I|]. cbn [fst].
      split; [apply Forall2_refl, same_but_keyid_refl|].
      split; [apply Forall2_refl, same_but_id_refl|auto]. }
  destruct IX as (a & m & b & Ems & Ej & _ & _). cbn [Nat.add] in Ej. subst ms j.
  rewrite nth_error_app2, Nat.sub_diag in H by lia. cbn [nth_error] in H.
  destruct (wipe_msg h m t) as [[h2 m2] t2] eqn:E. injection H as <- <- _.
  assert (P : Permutation (a ++ m :: b) (m :: swap_remove (a ++ m :: b) (length a))).
  { eapply Permutation_trans; [apply Permutation_sym, Permutation_middle|].
    constructor. apply swap_remove_perm. }
  set (rest := swap_remove (a ++ m :: b) (length a)) in *.
  pose proof (inv_perm _ _ _ _ _ _ _ (Permutation_refl ks) P (Permutation_refl ex) I) as I1.
  destruct (wipe_msg_frame _ _ _ _ _ _ E) as (Sh & F).
  set (W := [(KPriv, hm_plain m); (KPriv, hm_cipher m); (KKeyId, hm_keyid m)] : list slot).
  assert (F' : forall a0, ~ In (Some a0) (map snd W) -> nth a0 (h_runes h2) [] = nth a0 (h_runes h) [])
    by exact F.
  assert (OU : forall k2, In k2 ks -> rd_outer h2 (hk_keepers k2) = rd_outer h (hk_keepers k2)).
  { intros k3 J. unfold rd_outer. rewrite (proj1 Sh). reflexivity. }
  assert (X : forall x y, In x W -> In y (slots h ks rest ex) -> R x y).
  { intros x y J. apply (inv_cross_msg _ _ _ _ _ _ _ I1). unfold W in J. cbn [In] in J.
    destruct J as [<-|[<-|[<-|[]]]]; cbn; tauto. }
  assert (KD : forall x, In x W -> fst x = KPriv \/ fst x = KKeyId).
  { intros x J. unfold W in J. cbn [In] in J. destruct J as [<-|[<-|[<-|[]]]]; cbn; tauto. }
  assert (KC : forall x, In x W -> fst x <> KCall).
  { intros x J. destruct (KD x J) as [->| ->]; discriminate. }
  split; [exact (inv_shape _ _ _ _ _ Sh (inv_drop_msg _ _ _ _ _ I1))|].
  split; [|split].
  - cbn [fst]. rewrite swap_remove_map. fold rest. apply Forall2_map_in. intros m3 J.
    exact (wiped_msgs h h2 ks rest ex W F' X KC m3 J).
  - apply Forall2_map_in. intros k J. exact (wiped_keys_ids h h2 ks rest ex W F' X OU KD k J).
  - intros s J. exact (wiped_call h h2 ks rest ex W F' X KC s J).
Qed.

Lemma delete_message1_same : forall ms ms' id, Forall2 same_but_keyid ms ms' ->
  Forall2 same_but_keyid (fst (delete_message1 ms id)) (fst (delete_message1 ms' id)).
Proof.
  intros ms ms' id H. unfold delete_message1.
  rewrite (Forall2_index_of _ _ same_but_keyid
    (fun m => equal_runes (Some (mid m)) (Some id)) (fun m => equal_runes (Some (mid m)) (Some id)) ms ms'); auto.
  - destruct (index_of _ ms' 0); cbn [fst]; [apply Forall2_swap_remove|]; assumption.
  - intros x y (E & _). rewrite E. reflexivity.
Qed.
Lemma delete_message_same : forall ids ms ms', Forall2 same_but_keyid ms ms' ->
  Forall2 same_but_keyid (fst (delete_message ms ids)) (fst (delete_message ms' ids)).
Proof.
  induction ids as [|id ids IH]; intros ms ms' H; [exact H|]. cbn [delete_message].
  pose proof (delete_message1_same _ _ id H) as H1.
  destruct (delete_message1 ms id) as [k1 n1], (delete_message1 ms' id) as [k2 n2]. cbn [fst] in H1.
  pose proof (IH _ _ H1) as H2.
  destruct (delete_message k1 ids), (delete_message k2 ids). exact H2.
Qed.
Lemma delete_message_cons : forall ms id ids,
  fst (delete_message ms (id :: ids)) = fst (delete_message (fst (delete_message1 ms id)) ids).
Proof.
  intros. cbn [delete_message]. destruct (delete_message1 ms id) as [k1 n1]. cbn [fst].
  destruct (delete_message k1 ids). reflexivity.
Qed.

Lemma hdelete_message_spec : forall ids h ks ms ex t h1 ms1 t1, inv h ks ms ex ->
  hdelete_message h ms ids t = (h1, ms1, t1) ->
  inv h1 ks ms1 ex /\
  Forall2 same_but_keyid (fst (delete_message (map (msg_of h) ms) ids)) (map (msg_of h1) ms1) /\
  Forall2 same_but_id (map (key_of h) ks) (map (key_of h1) ks) /\
  (forall s, In (KCall, s) ex -> rd h1 s = rd h s).
Proof.
  induction ids as [|id ids IH]; intros h ks ms ex t h1 ms1 t1 I H; cbn [hdelete_message] in H.
  - injection H as <- <- _. split; [exact I|]. cbn [delete_message fst].
    split; [apply Forall2_refl, same_but_keyid_refl|].
    split; [apply Forall2_refl, same_but_id_refl|auto].
  - destruct (hdelete_message1 h ms id t) as [[h2 ms2] t2] eqn:E.
    destruct (hdelete_message1_spec _ _ _ _ _ _ _ _ _ I E) as (I2 & M2 & K2 & C2).
    destruct (IH _ _ _ _ _ _ _ _ I2 H) as (I3 & M3 & K3 & C3).
    split; [exact I3|]. split; [|split].
    + rewrite delete_message_cons. eapply Forall2_trans; [exact same_but_keyid_trans| |exact M3].
      apply delete_message_same. exact M2.
    + eapply Forall2_trans; [exact same_but_id_trans|exact K2|exact K3].
    + intros s J. rewrite (C3 s J). apply C2. exact J.
Qed.
End WithUnicode.
