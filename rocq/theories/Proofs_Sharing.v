(** Which arrays can be shared in a store that was read from a file and then
    used: an invariant of all histories. *)
From Coq Require Import Permutation.
From Verif Require Import Base Model_Unicode Model_Crand Model_Functions Model_Types
  Model_Cipher Model_Keys Model_Import Model_Messages Model_Heap Spec_Heap Proofs_Keys Proofs_KeyOps
  Proofs_Heap.

(** ** Pairwise relations *)
Fixpoint pairwise {A} (R : A -> A -> Prop) (l : list A) : Prop :=
  match l with [] => True | x :: l' => Forall (R x) l' /\ pairwise R l' end.

Lemma pairwise_app : forall A (R : A -> A -> Prop) l1 l2,
  pairwise R (l1 ++ l2) <->
  pairwise R l1 /\ pairwise R l2 /\ Forall (fun x => Forall (R x) l2) l1.
Proof.
  intros A R l1 l2. induction l1 as [|x l1 IH]; cbn [app pairwise].
  - split; [intros H; repeat split; auto|intros (_ & H & _); exact H].
  - rewrite Forall_app, IH, Forall_cons_iff. tauto.
Qed.

Lemma pairwise_perm : forall A (R : A -> A -> Prop), (forall x y, R x y -> R y x) ->
  forall l l', Permutation l l' -> pairwise R l -> pairwise R l'.
Proof.
  intros A R Sy l l' P. induction P; cbn [pairwise]; intros H; auto.
  - destruct H as [H1 H2]. split; [|auto]. rewrite Forall_forall in *. intros z I.
    apply H1. apply (Permutation_in z (Permutation_sym P) I).
  - destruct H as [H1 [H2 H3]]. apply Forall_cons_iff in H1. destruct H1 as [H1 H4].
    repeat split; auto.
Qed.

Lemma pairwise_In : forall A (R : A -> A -> Prop), (forall x y, R x y -> R y x) ->
  forall l x y, pairwise R l -> In x l -> In y l -> x = y \/ R x y.
Proof.
  intros A R Sy l. induction l as [|z l IH]; intros x y H Ix Iy; [destruct Ix|].
  destruct H as [H1 H2]. rewrite Forall_forall in H1.
  destruct Ix as [<-|Ix], Iy as [<-|Iy]; auto.
Qed.

Lemma pairwise_replace : forall A (R : A -> A -> Prop), (forall x y, R x y -> R y x) ->
  forall l1 x x' l2, pairwise R (l1 ++ x :: l2) -> Forall (R x') l1 -> Forall (R x') l2 ->
  pairwise R (l1 ++ x' :: l2).
Proof.
  intros A R Sy l1 x x' l2 H F1 F2. apply pairwise_app in H. destruct H as (H1 & [_ H2] & H3).
  apply pairwise_app. split; [exact H1|]. split; [split; assumption|].
  rewrite Forall_forall in *. intros y I. specialize (H3 y I). apply Forall_cons_iff in H3.
  constructor; [|apply H3]. apply Sy. apply F1. exact I.
Qed.

(** ** Kinds of references *)
Inductive kind := KPriv | KId | KKeyId | KKeeper | KCall.
Definition compat (x y : kind) : bool :=
  match x, y with
  | KId, KKeyId | KKeyId, KId | KKeyId, KKeyId | KKeeper, KKeeper | KCall, KCall => true
  | _, _ => false
  end.
Definition slot : Type := kind * slice.
Definition tag (kd : kind) (ss : list slice) : list slot := map (pair kd) ss.

(** Two references to the same array are of compatible kinds. *)
Definition R (x y : slot) : Prop :=
  forall a, snd x = Some a -> snd y = Some a -> compat (fst x) (fst y) = true.

Lemma compat_sym : forall x y, compat x y = compat y x.
Proof. intros [] []; reflexivity. Qed.
Lemma R_sym : forall x y, R x y -> R y x.
Proof. intros x y H a Hx Hy. rewrite compat_sym. apply (H a); assumption. Qed.
Lemma R_none : forall kd y, R (kd, None) y.
Proof. intros kd y a H. discriminate. Qed.

Definition key_slots (h : heap) (k : hkey) : list slot :=
  (KId, hk_id k) :: (KPriv, hk_runes k) :: (KPriv, hk_comment k)
    :: tag KKeeper (rd_outer h (hk_keepers k)).
Definition msg_slots (m : hmsg) : list slot :=
  (KKeyId, hm_keyid m) :: (KPriv, hm_cipher m) :: (KPriv, hm_plain m) :: (KPriv, hm_id m)
    :: (KPriv, hm_from m) :: (KPriv, hm_radiogram m) :: tag KCall (hm_recipients m).
Definition slots (h : heap) (ks : list hkey) (ms : list hmsg) (ex : list slot) : list slot :=
  flat_map (key_slots h) ks ++ flat_map msg_slots ms ++ ex.

Definition slot_ok (h : heap) (x : slot) : Prop := slice_ok h (snd x).
Definition outer_ok (h : heap) (s : slice) : Prop :=
  match s with Some a => (a < length (h_outer h))%nat | None => True end.
Definition outer_apart (s s' : slice) : Prop := forall a, s = Some a -> s' = Some a -> False.

Record inv (h : heap) (ks : list hkey) (ms : list hmsg) (ex : list slot) : Prop := mkInv {
  inv_R : pairwise R (slots h ks ms ex);
  inv_ok : Forall (slot_ok h) (slots h ks ms ex);
  inv_outer : pairwise outer_apart (map hk_keepers ks);
  inv_outer_ok : Forall (fun k => outer_ok h (hk_keepers k)) ks
}.

Lemma outer_apart_sym : forall x y, outer_apart x y -> outer_apart y x.
Proof. intros x y H a A B. exact (H a B A). Qed.

(** *** Memories that grow *)
Definition grows (h h' : heap) : Prop :=
  exists r o, h_runes h' = h_runes h ++ r /\ h_outer h' = h_outer h ++ o.

Lemma grows_refl : forall h, grows h h.
Proof. intros h. exists [], []. rewrite !app_nil_r. auto. Qed.
Lemma grows_trans : forall a b c, grows a b -> grows b c -> grows a c.
Proof.
  intros a b c (r1 & o1 & A1 & B1) (r2 & o2 & A2 & B2). exists (r1 ++ r2), (o1 ++ o2).
  rewrite A2, A1, B2, B1, !app_assoc. auto.
Qed.
Lemma grows_new : forall h v h' s, new h v = (h', s) -> grows h h'.
Proof. intros h v h' s H. injection H as <- _. exists [v], []. rewrite app_nil_r. auto. Qed.
Lemma grows_new_outer : forall h v h' s, new_outer h v = (h', s) -> grows h h'.
Proof. intros h v h' s H. injection H as <- _. exists [], [v]. rewrite app_nil_r. auto. Qed.

Lemma grows_rd : forall h h' s, grows h h' -> slice_ok h s -> rd h' s = rd h s.
Proof.
  intros h h' [a|] (r & o & A & B) O; [|reflexivity]. unfold rd. rewrite A.
  cbn [slice_ok] in O. apply app_nth1. exact O.
Qed.
Lemma grows_ok : forall h h' s, grows h h' -> slice_ok h s -> slice_ok h' s.
Proof.
  intros h h' [a|] (r & o & A & B) O; [|exact I]. cbn [slice_ok] in *. rewrite A, app_length. lia.
Qed.
Lemma grows_outer : forall h h' s, grows h h' -> outer_ok h s -> rd_outer h' s = rd_outer h s.
Proof.
  intros h h' [a|] (r & o & A & B) O; [|reflexivity]. unfold rd_outer. rewrite B.
  cbn [outer_ok] in O. apply app_nth1. exact O.
Qed.
Lemma grows_outer_ok : forall h h' s, grows h h' -> outer_ok h s -> outer_ok h' s.
Proof.
  intros h h' [a|] (r & o & A & B) O; [|exact I]. cbn [outer_ok] in *. rewrite B, app_length. lia.
Qed.

(** *** Slots under changes of the memory *)
Lemma slots_outer : forall h h' ks ms ex,
  Forall (fun k => rd_outer h' (hk_keepers k) = rd_outer h (hk_keepers k)) ks ->
  slots h' ks ms ex = slots h ks ms ex.
Proof.
  intros h h' ks ms ex F. unfold slots. f_equal.
  induction F as [|k ks E F IH]; [reflexivity|]. cbn [flat_map].
  unfold key_slots at 1 3. rewrite E, IH. reflexivity.
Qed.

Lemma inv_grows : forall h h' ks ms ex, grows h h' -> inv h ks ms ex -> inv h' ks ms ex.
Proof.
  intros h h' ks ms ex G [A B C D].
  assert (E : slots h' ks ms ex = slots h ks ms ex).
  { apply slots_outer. revert D. apply Forall_impl. intros k O. apply (grows_outer _ _ _ G O). }
  constructor; try rewrite E; auto.
  - revert B. apply Forall_impl. intros x. apply (grows_ok _ _ _ G).
  - revert D. apply Forall_impl. intros k. apply (grows_outer_ok _ _ _ G).
Qed.

Lemma inv_shape : forall h h' ks ms ex, mem_shape h h' -> inv h ks ms ex -> inv h' ks ms ex.
Proof.
  intros h h' ks ms ex (O & L & _) [A B C D].
  assert (E : slots h' ks ms ex = slots h ks ms ex).
  { apply slots_outer. rewrite Forall_forall. intros k _. unfold rd_outer. rewrite O. reflexivity. }
  constructor; try rewrite E; auto.
  - revert B. apply Forall_impl. intros x. unfold slot_ok, slice_ok. destruct (snd x); [|auto]. lia.
  - revert D. apply Forall_impl. intros k. unfold outer_ok. rewrite O. auto.
Qed.

(** *** Slots under rearranging keys and messages *)
Lemma flat_map_perm : forall A B (f : A -> list B) l l',
  Permutation l l' -> Permutation (flat_map f l) (flat_map f l').
Proof.
  intros A B f l l' P. induction P; cbn [flat_map]; auto.
  - apply Permutation_app_head. exact IHP.
  - rewrite !app_assoc. apply Permutation_app_tail. apply Permutation_app_comm.
  - eapply Permutation_trans; eassumption.
Qed.

Lemma inv_perm : forall h ks ks' ms ms' ex ex',
  Permutation ks ks' -> Permutation ms ms' -> Permutation ex ex' ->
  inv h ks ms ex -> inv h ks' ms' ex'.
Proof.
  intros h ks ks' ms ms' ex ex' Pk Pm Pe [A B C D].
  assert (P : Permutation (slots h ks ms ex) (slots h ks' ms' ex')).
  { unfold slots. apply Permutation_app; [apply flat_map_perm; exact Pk|].
    apply Permutation_app; [apply flat_map_perm; exact Pm|exact Pe]. }
  constructor.
  - exact (pairwise_perm _ _ R_sym _ _ P A).
  - rewrite Forall_forall in *. intros x I. apply B. apply (Permutation_in x (Permutation_sym P) I).
  - exact (pairwise_perm _ _ outer_apart_sym _ _ (Permutation_map _ Pk) C).
  - rewrite Forall_forall in *. intros x I. apply D. apply (Permutation_in x (Permutation_sym Pk) I).
Qed.

Lemma inv_drop_key : forall h k ks ms ex, inv h (k :: ks) ms ex -> inv h ks ms ex.
Proof.
  intros h k ks ms ex [A B C D]. unfold slots in *. cbn [flat_map map] in *.
  rewrite <- app_assoc in A, B. apply pairwise_app in A. apply Forall_app in B.
  constructor; try tauto; [apply C|apply Forall_inv_tail in D; exact D].
Qed.

Lemma slots_msg_front : forall h ks m ms ex,
  Permutation (slots h ks (m :: ms) ex) (msg_slots m ++ slots h ks ms ex).
Proof.
  intros. unfold slots. cbn [flat_map]. rewrite <- !app_assoc. apply Permutation_app_swap_app.
Qed.
Lemma slots_key_front : forall h ks k ms ex,
  slots h (k :: ks) ms ex = key_slots h k ++ slots h ks ms ex.
Proof. intros. unfold slots. cbn [flat_map]. rewrite <- !app_assoc. reflexivity. Qed.

Lemma inv_drop_msg : forall h ks m ms ex, inv h ks (m :: ms) ex -> inv h ks ms ex.
Proof.
  intros h ks m ms ex [A B C D].
  pose proof (slots_msg_front h ks m ms ex) as P.
  apply (pairwise_perm _ _ R_sym _ _ P) in A. apply pairwise_app in A.
  constructor; auto; [apply A|].
  rewrite Forall_forall in *. intros x I. apply B. apply (Permutation_in x (Permutation_sym P)).
  apply in_or_app. right. exact I.
Qed.

Lemma set_flags_slots : forall h ks vs, flat_map (key_slots h) (set_flags ks vs) = flat_map (key_slots h) ks.
Proof.
  intros h. induction ks as [|k ks IH]; intros [|v vs]; cbn [set_flags flat_map]; try reflexivity.
  rewrite IH. reflexivity.
Qed.
Lemma set_flags_keepers : forall ks vs, map hk_keepers (set_flags ks vs) = map hk_keepers ks.
Proof.
  induction ks as [|k ks IH]; intros [|v vs]; cbn [set_flags map]; try reflexivity.
  rewrite IH. reflexivity.
Qed.
Lemma inv_flags : forall h ks vs ms ex, inv h ks ms ex -> inv h (set_flags ks vs) ms ex.
Proof.
  intros h ks vs ms ex [A B C D]. constructor.
  - unfold slots. rewrite set_flags_slots. exact A.
  - unfold slots. rewrite set_flags_slots. exact B.
  - rewrite set_flags_keepers. exact C.
  - rewrite <- (Forall_map hk_keepers (outer_ok h)) in *. rewrite set_flags_keepers. exact D.
Qed.

(** *** New arrays *)
(** The slot refers to an array made after [h]. *)
Definition fresh (h : heap) (x : slot) : Prop :=
  match snd x with Some a => (length (h_runes h) <= a)%nat | None => True end.

Lemma fresh_R : forall h x y, fresh h x -> slot_ok h y -> R x y.
Proof.
  intros h [kx [a|]] [ky [b|]] F O c; cbn; try discriminate.
  intros H1 H2. injection H1 as ->. injection H2 as ->. cbn in F, O. lia.
Qed.

Lemma new_all_spec : forall vs h h' ss, new_all h vs = (h', ss) ->
  h_runes h' = h_runes h ++ vs /\ h_outer h' = h_outer h /\
  ss = map Some (seq (length (h_runes h)) (length vs)).
Proof.
  induction vs as [|v vs IH]; intros h h' ss H; cbn [new_all] in H.
  - injection H as <- <-. rewrite app_nil_r. auto.
  - unfold new in H. destruct (new_all _ vs) as [h2 ss2] eqn:E. injection H as <- <-.
    apply IH in E. cbn [h_runes h_outer] in E. destruct E as (A & B & C).
    rewrite A, B, C, <- app_assoc, app_length. cbn [length seq map app].
    repeat split. do 2 f_equal. f_equal. lia.
Qed.

Lemma grows_new_all : forall vs h h' ss, new_all h vs = (h', ss) -> grows h h'.
Proof.
  intros vs h h' ss H. apply new_all_spec in H. destruct H as (A & B & _).
  exists vs, []. rewrite app_nil_r. auto.
Qed.

Lemma in_seq_slots : forall s n m, In s (map (@Some nat) (seq n m)) ->
  exists a, s = Some a /\ (n <= a < n + m)%nat.
Proof.
  intros s n m I. apply in_map_iff in I. destruct I as (a & <- & J). apply in_seq in J.
  exists a. auto.
Qed.

Lemma rd_seq : forall vs l o n, n = length l ->
  forall tl, map (rd (mkHeap (l ++ vs ++ tl) o)) (map Some (seq n (length vs))) = vs.
Proof.
  induction vs as [|v vs IH]; intros l o n -> tl; [reflexivity|].
  cbn [length seq map]. f_equal.
  - unfold rd; cbn [h_runes]. rewrite app_nth2, Nat.sub_diag by lia. reflexivity.
  - assert (Q : S (length l) = length (l ++ [v])) by (rewrite app_length; cbn [length]; lia).
    pose proof (IH (l ++ [v]) o (S (length l)) Q tl) as X. rewrite <- app_assoc in X. exact X.
Qed.

Lemma tag_same : forall kd ss, compat kd kd = true -> pairwise R (tag kd ss).
Proof.
  intros kd ss C. induction ss as [|s ss IH]; cbn [tag map pairwise]; [exact I|].
  split; [|exact IH]. rewrite Forall_forall. intros y J. apply in_map_iff in J.
  destruct J as (s' & <- & _). intros a _ _. exact C.
Qed.

Ltac len_norm := cbn [h_runes h_outer fst snd] in *; rewrite ?app_length in *; cbn [length] in *.

(** Appending a key whose slots are new or admissible. *)
Lemma inv_add_key : forall h h' ks ms ex k,
  grows h h' -> inv h ks ms ex ->
  pairwise R (key_slots h' k) -> Forall (slot_ok h') (key_slots h' k) ->
  (forall x, In x (key_slots h' k) -> forall y, In y (slots h ks ms ex) -> R x y) ->
  hk_keepers k = Some (length (h_outer h)) -> outer_ok h' (hk_keepers k) ->
  inv h' (ks ++ [k]) ms ex.
Proof.
  intros h h' ks ms ex k G I0 P O X K KO.
  pose proof (inv_grows _ _ _ _ _ G I0) as I1. destruct I1 as [A B C D].
  apply (inv_perm h' (k :: ks) (ks ++ [k]) ms ms ex ex); auto using Permutation_cons_append.
  assert (E : slots h' ks ms ex = slots h ks ms ex).
  { apply slots_outer. destruct I0 as [_ _ _ D0]. revert D0. apply Forall_impl.
    intros k0 O0. apply (grows_outer _ _ _ G O0). }
  constructor.
  - rewrite slots_key_front. apply pairwise_app. split; [exact P|]. split; [exact A|].
    rewrite Forall_forall. intros x Ix. rewrite Forall_forall. intros y Iy.
    rewrite E in Iy. apply X; assumption.
  - rewrite slots_key_front. apply Forall_app. auto.
  - cbn [map pairwise]. split; [|exact C]. rewrite K. apply Forall_map. destruct I0 as [_ _ _ D0].
    revert D0. apply Forall_impl. intros k0 O0 a H1 H2. injection H1 as <-. rewrite H2 in O0.
    cbn [outer_ok] in O0. lia.
  - constructor; auto.
Qed.

Lemma inv_add_msg : forall h h' ks ms ex m,
  grows h h' -> inv h ks ms ex ->
  pairwise R (msg_slots m) -> Forall (slot_ok h') (msg_slots m) ->
  (forall x, In x (msg_slots m) -> forall y, In y (slots h ks ms ex) -> R x y) ->
  inv h' ks (ms ++ [m]) ex.
Proof.
  intros h h' ks ms ex m G I0 P O X.
  pose proof (inv_grows _ _ _ _ _ G I0) as I1. destruct I1 as [A B C D].
  apply (inv_perm h' ks ks (m :: ms) (ms ++ [m]) ex ex); auto using Permutation_cons_append.
  assert (E : slots h' ks ms ex = slots h ks ms ex).
  { apply slots_outer. destruct I0 as [_ _ _ D0]. revert D0. apply Forall_impl.
    intros k0 O0. apply (grows_outer _ _ _ G O0). }
  pose proof (Permutation_sym (slots_msg_front h' ks m ms ex)) as Q.
  constructor; auto.
  - apply (pairwise_perm _ _ R_sym _ _ Q). apply pairwise_app. split; [exact P|].
    split; [exact A|]. rewrite Forall_forall. intros x Ix. rewrite Forall_forall. intros y Iy.
    rewrite E in Iy. apply X; assumption.
  - rewrite Forall_forall in *. intros x Ix. apply (Permutation_in x (Permutation_sym Q)) in Ix.
    apply in_app_or in Ix. destruct Ix as [Ix|Ix]; [apply O|apply B]; exact Ix.
Qed.
