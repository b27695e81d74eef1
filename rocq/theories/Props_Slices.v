(** C152, C153: lists of call-signs and listings when slices share memory. *)
From Verif Require Import Base Spec Spec_Slices Model_Unicode Model_Crand Model_Functions Model_Types Model_Keys Model_Slices
  Proofs_Slices Examples.

(** ** C152: changing the keepers of a key or the recipients of a message changes
    those of no other key or message. True of slices without common memory, in
    any history of AddKeeper, RemoveKeeper, AddRecipient, RemoveRecipient. *)
Theorem c152_alone : forall U grow m s op m' s', valid m s -> sl_op U grow m s op = (m', s') ->
  elems m' s' = k_value U (elems m s) op /\ valid m' s' /\
  forall s2, valid m s2 -> apart s s2 -> elems m' s2 = elems m s2 /\ valid m' s2 /\ apart s' s2.
Proof. exact op_lemma. Qed.
Print Assumptions c152_alone.
Theorem c152_histories : forall U grow ops m ss m' ss', separate m ss -> sl_run U grow ops (m, ss) = (m', ss') ->
  separate m' ss' /\ length ss' = length ss /\
  forall n s s', nth_error ss n = Some s -> nth_error ss' n = Some s' -> elems m' s' = fold_left (k_value U) (ops_of n ops) (elems m s).
Proof. exact run_lemma. Qed.
Print Assumptions c152_histories.
(** A new key gets memory of its own. *)
Theorem c152_new_key : forall U grow m own keepers m' s, sl_new_key U grow m own keepers = (m', s) ->
  elems m' s = remove_keeper U (vetted_keepers U keepers) [own] /\ valid m' s /\
  forall s2, valid m s2 -> elems m' s2 = elems m s2 /\ valid m' s2 /\ apart s s2.
Proof. exact new_key_slice. Qed.
Print Assumptions c152_new_key.

(** Capacities as in Go: 1, 2, 4. *)
Definition sx_grow (n : nat) : nat := match n with 0 | 1 => 1 | 2 => 2 | 3 => 4 | _ => n end%nat.
Definition sA : list rune := [83; 65].
Definition sB : list rune := [83; 66].
Definition sC : list rune := [83; 67].
Definition sX : list rune := [83; 88].
Definition sY : list rune := [83; 89].

(** False of the key that NewKey returns and the one it puts into the store,
    and of an exported key and the one in the store: they have the same slice.
    Removing a keeper of the one changes the other to something else than
    itself or the result; a keeper added to the one is replaced when another is
    added to the other. *)
Theorem c152_remove_refuted : exists grow m s m' s' x, sl_new_key uni_id grow [] callVQ [sA; sB; sC] = (m, s) /\
  sl_op uni_id grow m s (KRemove [x]) = (m', s') /\
  elems m s = [sA; sB; sC] /\ elems m' s' = [sC; sB] /\ elems m' s = [sC; sB; sC].
Proof.
  exists sx_grow. do 4 eexists. exists sA. split; [vm_compute; reflexivity|]. split; [vm_compute; reflexivity|].
  split; [vm_compute; reflexivity|]. split; vm_compute; reflexivity.
Qed.
Print Assumptions c152_remove_refuted.
Theorem c152_add_refuted : exists grow m s m1 s1 m2 s2, sl_new_key uni_id grow [] callVQ [sA; sB; sC] = (m, s) /\
  sl_op uni_id grow m s (KAdd [sX]) = (m1, s1) /\ sl_op uni_id grow m1 s (KAdd [sY]) = (m2, s2) /\
  elems m1 s1 = [sA; sB; sC; sX] /\ elems m2 s1 = [sA; sB; sC; sY] /\ elems m2 s2 = [sA; sB; sC; sY].
Proof.
  exists sx_grow. do 6 eexists. split; [vm_compute; reflexivity|]. split; [vm_compute; reflexivity|].
  split; [vm_compute; reflexivity|]. split; [vm_compute; reflexivity|]. split; vm_compute; reflexivity.
Qed.
Print Assumptions c152_add_refuted.
(** Exactly: after removing a keeper through one of two equal slices, the other
    has the last keeper in the place of the removed one; one addition leaves the
    other alone. *)
Theorem c152_shared_remove : forall U grow m s x m' s', valid m s -> sl_op U grow m s (KRemove [x]) = (m', s') ->
  elems m' s = match index_of (fun k => equal_runes_fold U (Some x) (Some k)) (elems m s) 0 with
               | Some i => list_update (elems m s) i (last (elems m s) []) | None => elems m s end.
Proof. exact shared_remove. Qed.
Print Assumptions c152_shared_remove.

(** Two new keys, each changed: the values follow their own histories. *)
Example c152_applied : exists m1 s1 m2 s2 m' s1' s2', sl_new_key uni_id sx_grow [] callVQ [sA; sB; sC] = (m1, s1) /\
  sl_new_key uni_id sx_grow m1 callVQ [sB; callVQ] = (m2, s2) /\
  sl_run uni_id sx_grow [(0%nat, KRemove [sA]); (1%nat, KAdd [sX; sY]); (0%nat, KAdd [sY; sY])] (m2, [s1; s2]) = (m', [s1'; s2']) /\
  elems m' s1' = [sC; sB; sY] /\ elems m' s2' = [sB; sX; sY].
Proof.
  destruct (sl_new_key uni_id sx_grow [] callVQ [sA; sB; sC]) as (m1, s1) eqn:E1.
  destruct (sl_new_key uni_id sx_grow m1 callVQ [sB; callVQ]) as (m2, s2) eqn:E2.
  destruct (c152_new_key uni_id sx_grow [] callVQ [sA; sB; sC] m1 s1 E1) as (A1 & V1 & _).
  destruct (c152_new_key uni_id sx_grow m1 callVQ [sB; callVQ] m2 s2 E2) as (A2 & V2 & P). destruct (P s1 V1) as (B1 & B2 & B3).
  assert (separate m2 [s1; s2]) as SP.
  { split; [exact (Forall_cons _ B2 (Forall_cons _ V2 (Forall_nil _)))|]. intros [|[|i]] [|[|j]] x y D Hi Hj; cbn in Hi, Hj; try congruence; try (destruct i; discriminate); try (destruct j; discriminate).
    injection Hi as <-. injection Hj as <-. apply apart_sym, B3. }
  destruct (sl_run uni_id sx_grow [(0%nat, KRemove [sA]); (1%nat, KAdd [sX; sY]); (0%nat, KAdd [sY; sY])] (m2, [s1; s2])) as (m', ss) eqn:E.
  destruct (c152_histories uni_id sx_grow _ m2 [s1; s2] m' ss SP E) as (_ & L & H).
  destruct ss as [|s1' [|s2' [|? ?]]]; try discriminate.
  exists m1, s1, m2, s2, m', s1', s2'. split; [reflexivity|]. split; [exact E2|]. split; [exact E|]. split.
  - rewrite (H 0%nat s1 s1' eq_refl eq_refl), B1, A1. vm_compute. reflexivity.
  - rewrite (H 1%nat s2 s2' eq_refl eq_refl), A2. vm_compute. reflexivity.
Qed.
Example c152_alone_applied : exists m s m' s', sl_new_key uni_id sx_grow [] callVQ [sA; sB; sC] = (m, s) /\
  sl_op uni_id sx_grow m s (KRemove [sA; sB]) = (m', s') /\ elems m' s' = [sC].
Proof.
  destruct (sl_new_key uni_id sx_grow [] callVQ [sA; sB; sC]) as (m, s) eqn:E1.
  destruct (c152_new_key uni_id sx_grow [] callVQ [sA; sB; sC] m s E1) as (A1 & V1 & _).
  destruct (sl_op uni_id sx_grow m s (KRemove [sA; sB])) as (m', s') eqn:E. exists m, s, m', s'. split; [reflexivity|]. split; [exact E|].
  rewrite (proj1 (c152_alone uni_id sx_grow m s _ m' s' V1 E)), A1. vm_compute. reflexivity.
Qed.
Example c152_shared_applied : exists m s m' s', sl_new_key uni_id sx_grow [] callVQ [sA; sB; sC] = (m, s) /\
  sl_op uni_id sx_grow m s (KRemove [sB]) = (m', s') /\ elems m' s = [sA; sC; sC].
Proof.
  destruct (sl_new_key uni_id sx_grow [] callVQ [sA; sB; sC]) as (m, s) eqn:E1.
  destruct (c152_new_key uni_id sx_grow [] callVQ [sA; sB; sC] m s E1) as (A1 & V1 & _).
  destruct (sl_op uni_id sx_grow m s (KRemove [sB])) as (m', s') eqn:E. exists m, s, m', s'. split; [reflexivity|]. split; [exact E|].
  rewrite (c152_shared_remove uni_id sx_grow m s sB m' s' V1 E), A1. vm_compute. reflexivity.
Qed.

(** ** C153: listing keys or messages changes nothing. False: cells are padded in
    the spare capacity of the slices of the store. Two comments cut from one
    buffer: the second is overwritten, and listed as spaces. *)
Definition sx_buffer : list (list rune) := [[65; 66; 67; 68; 69; 70]].
Definition sx_first : gslice := mkSl 0 0 2 6.
Definition sx_second : gslice := mkSl 0 2 2 4.
Theorem c153_listing_refuted : exists grow m s1 s2 m' lines, valid m s1 /\ valid m s2 /\
  elems m s1 = [65; 66] /\ elems m s2 = [67; 68] /\
  sl_rows grow m [[(s1, 4)]; [(s2, 4)]] = (m', lines) /\ lines = [[[65; 66; 32; 32]]; [[32; 32; 32; 32]]] /\ elems m' s2 = [32; 32].
Proof.
  exists sx_grow, sx_buffer, sx_first, sx_second. do 2 eexists.
  split; [split; [cbn; lia|right; cbn; lia]|]. split; [split; [cbn; lia|right; cbn; lia]|].
  split; [reflexivity|]. split; [reflexivity|]. split; [vm_compute; reflexivity|]. split; reflexivity.
Qed.
Print Assumptions c153_listing_refuted.
(** True if no slice has elements in the spare capacity of a slice that is
    listed: the lines are those of C150 and all other slices keep their
    elements. The same slice may be listed several times. *)
Theorem c153_listing_partial : forall grow m rows watched m' lines,
  let listed := map fst (concat rows) in
  (forall s, In s (listed ++ watched) -> valid m s) -> (forall s s', In s listed -> In s' (listed ++ watched) -> clear s s') ->
  sl_rows grow m rows = (m', lines) ->
  (forall s, In s (listed ++ watched) -> elems m' s = elems m s) /\
  lines = map (map (fun c => elems m (fst c) ++ repeat 32 (Z.to_nat (snd c - Z.of_nat (sl_len (fst c)))))) rows.
Proof. exact listing_lemma. Qed.
Print Assumptions c153_listing_partial.
(** A slice with spare capacity listed twice in a row and once more below, as
    the slice of the text NIL, and another one behind it in the same array. *)
Example c153_applied : exists m' lines,
  sl_rows sx_grow sx_buffer [[(mkSl 0 0 3 4, 4); (mkSl 0 0 3 4, 6)]; [(mkSl 0 0 3 4, 4)]] = (m', lines) /\
  elems m' (mkSl 0 4 2 2) = [69; 70] /\ lines = [[[65; 66; 67; 32]; [65; 66; 67; 32; 32; 32]]; [[65; 66; 67; 32]]].
Proof.
  destruct (sl_rows sx_grow sx_buffer [[(mkSl 0 0 3 4, 4); (mkSl 0 0 3 4, 6)]; [(mkSl 0 0 3 4, 4)]]) as (m', lines) eqn:E. exists m', lines. split; [reflexivity|].
  destruct (c153_listing_partial sx_grow sx_buffer [[(mkSl 0 0 3 4, 4); (mkSl 0 0 3 4, 6)]; [(mkSl 0 0 3 4, 4)]] [mkSl 0 4 2 2] m' lines) with (3 := E) as (A & B).
  - intros s I. cbn in I. destruct I as [<-|[<-|[<-|[<-|[]]]]]; split; cbn; lia.
  - intros s s' I I'. cbn in I, I'. assert (s = mkSl 0 0 3 4) as -> by (destruct I as [<-|[<-|[<-|[]]]]; reflexivity).
    intros k K K' _. destruct I' as [<-|[<-|[<-|[<-|[]]]]]; cbn in K, K'; lia.
  - split; [|exact B]. apply (A (mkSl 0 4 2 2)). cbn. auto.
Qed.
