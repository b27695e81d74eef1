(** C154, C155: keys are changed through the pointers GetKey and FindKey return. *)
From Verif Require Import Base Spec Spec_Slices Spec_Pointers Model_Unicode Model_Crand Model_Functions Model_Types Model_Cipher Model_Keys
  Model_Slices Model_Pointers Proofs_Slices Proofs_Pointers Examples.

(** ** C154: the key GetKey returns is the key of the store, for as long as it
    is in the store. False: after another key was deleted, marking the key
    compromised through the pointer does not mark the key in the store; after
    the key itself was deleted, it marks another one; after a key was added to a
    full array it marks none. *)
Definition px_keys : list key := [ex_key idA 3 40 [callVQ]; ex_key idB 5 40 []; ex_key idC 11 40 []].
Definition px_mem (spare : nat) : kmem := [px_keys ++ repeat no_key spare].
Definition px_slice (spare : nat) : gslice := mkSl 0 0 3 (3 + spare).
Theorem c154_other_deleted_refuted : exists m s p m' s', valid m s /\ pt_get uni_id m s idC = Some p /\
  pt_run uni_id (fun n => n) [PDelete [idA]; PAssign p compromise] (m, s) = (m', s') /\
  map (fun k => (kid k, kcompromised k)) (elems m' s') = [(idC, false); (idB, false)].
Proof.
  exists (px_mem 1), (px_slice 1), (0%nat, 2%nat). eexists. eexists. split; [split; cbn; lia|]. split; [vm_compute; reflexivity|].
  split; [vm_compute; reflexivity|]. vm_compute. reflexivity.
Qed.
Print Assumptions c154_other_deleted_refuted.
Theorem c154_deleted_refuted : exists m s p m' s', valid m s /\ pt_get uni_id m s idA = Some p /\
  pt_run uni_id (fun n => n) [PDelete [idA]; PAssign p compromise] (m, s) = (m', s') /\
  map (fun k => (kid k, kcompromised k)) (elems m' s') = [(idC, true); (idB, false)].
Proof.
  exists (px_mem 1), (px_slice 1), (0%nat, 0%nat). eexists. eexists. split; [split; cbn; lia|]. split; [vm_compute; reflexivity|].
  split; [vm_compute; reflexivity|]. vm_compute. reflexivity.
Qed.
Print Assumptions c154_deleted_refuted.
Theorem c154_added_refuted : exists m s p m' s' k, valid m s /\ pt_get uni_id m s idA = Some p /\
  pt_run uni_id (fun n => n) [PNew k; PAssign p compromise] (m, s) = (m', s') /\
  map (fun k => (kid k, kcompromised k)) (elems m' s') = [(idA, false); (idB, false); (idC, false); (kid k, false)].
Proof.
  exists (px_mem 0), (px_slice 0), (0%nat, 0%nat). eexists. eexists. exists (ex_key idD 2 40 []). split; [split; cbn; lia|]. split; [vm_compute; reflexivity|].
  split; [vm_compute; reflexivity|]. vm_compute. reflexivity.
Qed.
Print Assumptions c154_added_refuted.

(** ** C155: what holds. A key just returned is the one in the store, and a
    change made through the pointer is made there and to no other key. *)
Theorem c155_get : forall U m s id p f, valid m s -> pt_get U m s id = Some p ->
  exists j k, get_key U id (elems m s) = Some j /\ nth_error (elems m s) j = Some k /\ deref m p = Some k /\
    elems (pt_assign m p f) s = list_update (elems m s) j (f k).
Proof. exact get_through. Qed.
Print Assumptions c155_get.
Theorem c155_find : forall U m s gs recipients p f, valid m s -> pt_find U m s gs recipients = Some p ->
  exists j k, find_key U gs recipients (elems m s) = Some j /\ nth_error (elems m s) j = Some k /\ deref m p = Some k /\
    elems (pt_assign m p f) s = list_update (elems m s) j (f k).
Proof. exact find_through. Qed.
Print Assumptions c155_find.
(** It remains so in any history of NewKey (or ImportKeys without replacing),
    MarkKeyUsed and changes through pointers, within the capacity of the array. *)
Theorem c155_kept : forall U grow ops m s m' s' id p, valid m s -> Forall mild ops -> (sl_len s + added ops <= sl_cap s)%nat ->
  pt_run U grow ops (m, s) = (m', s') -> pt_get U m s id = Some p -> valid m' s' /\ pt_get U m' s' id = Some p.
Proof. exact kept_lemma. Qed.
Print Assumptions c155_kept.
(** What a deletion does to the pointers, exactly: that of the key deleted then
    is that of the last key (if this one is deleted, of a key without ID, letters,
    names of keepers and comment), that of the last key is outside the store, and
    all others are as before. *)
Theorem c155_deleted : forall U m s id m' s' i d z, valid m s -> pt_delete1 U (m, s) id = (m', s') ->
  index_of (fun k => equal_runes_fold U (Some (kid k)) (Some id)) (elems m s) 0 = Some i ->
  nth_error (elems m s) i = Some d -> nth_error (elems m s) (sl_len s - 1) = Some z ->
  valid m' s' /\ elems m' s' = swap_remove (elems m s) i /\
  forall j k, nth_error (elems m s) j = Some k ->
    deref m' (pointer_to s j) = Some (if Nat.eqb j i then (if Nat.eqb i (sl_len s - 1)
        then mkKey [] [] (map (fun _ => []) (kkeepers d)) (kcreated d) (kexpires d) (kused d) (kcompromised d) [] else z) else k) /\
    forall f, elems (pt_assign m' (pointer_to s j) f) s' =
      if Nat.eqb j (sl_len s - 1) then elems m' s'
      else list_update (elems m' s') j (f (if Nat.eqb j i then z else k)).
Proof. exact delete_lemma. Qed.
Print Assumptions c155_deleted.
(** The list of keys is as without pointers: after any history of new keys,
    MarkKeyUsed and DeleteKey, with whatever capacities the arrays have, it is
    what these functions make of lists. *)
Theorem c155_values : forall U grow ops m s m' s', valid m s -> Forall no_assignment ops -> pt_run U grow ops (m, s) = (m', s') ->
  valid m' s' /\ elems m' s' = fold_left (by_value U) ops (elems m s).
Proof. exact values_lemma. Qed.
Print Assumptions c155_values.

(** When the array is full, adding a key leaves all pointers outside the store. *)
Theorem c155_full : forall grow m s k m' s', valid m s -> pt_new grow m s k = (m', s') -> (sl_cap s <= sl_len s)%nat ->
  elems m' s' = elems m s ++ [k] /\
  forall j k1, nth_error (elems m s) j = Some k1 -> deref m' (pointer_to s j) = Some k1 /\
    forall f, elems (pt_assign m' (pointer_to s j) f) s' = elems m' s'.
Proof. exact grown_lemma. Qed.
Print Assumptions c155_full.

(** Three keys and room for one more. *)
Lemma px_valid n : valid (px_mem n) (px_slice n).
Proof. split; [cbn; lia|right]. cbn [px_slice sl_arr sl_off sl_cap]. split; [cbn; lia|]. unfold px_mem. cbn [nth]. rewrite app_length, repeat_length. cbn [px_keys length]. lia. Qed.
Example c155_get_applied : exists k, deref (px_mem 1) (0%nat, 1%nat) = Some k /\ kid k = idB /\
  map (fun k => (kid k, kcompromised k)) (elems (pt_assign (px_mem 1) (0%nat, 1%nat) compromise) (px_slice 1)) = [(idA, false); (idB, true); (idC, false)].
Proof.
  destruct (c155_get uni_id (px_mem 1) (px_slice 1) idB (0%nat, 1%nat) compromise (px_valid 1)) as (j & k & G & N & D & E); [vm_compute; reflexivity|].
  assert (j = 1%nat) as -> by (vm_compute in G; congruence). assert (nth_error (elems (px_mem 1) (px_slice 1)) 1 = Some (ex_key idB 5 40 [])) as N2 by (vm_compute; reflexivity).
  assert (k = ex_key idB 5 40 []) as -> by congruence. exists (ex_key idB 5 40 []). split; [exact D|]. rewrite E. split; vm_compute; reflexivity.
Qed.
Example c155_find_applied : exists k, deref (px_mem 1) (0%nat, 0%nat) = Some k /\ kid k = idA.
Proof.
  destruct (c155_find uni_id (px_mem 1) (px_slice 1) 5 [callVQ] (0%nat, 0%nat) compromise (px_valid 1)) as (j & k & G & N & D & _); [vm_compute; reflexivity|].
  assert (j = 0%nat) as -> by (vm_compute in G; congruence). assert (nth_error (elems (px_mem 1) (px_slice 1)) 0 = Some (ex_key idA 3 40 [callVQ])) as N2 by (vm_compute; reflexivity).
  assert (k = ex_key idA 3 40 [callVQ]) as -> by congruence. exists (ex_key idA 3 40 [callVQ]). split; [exact D|]. vm_compute. reflexivity.
Qed.
(** Between GetKey and the use of the pointer a key is added, another marked used
    and a third one changed through its pointer. *)
Definition px_ops : list pop := [PNew (ex_key idD 2 40 []); PMark idA true; PAssign (0%nat, 2%nat) compromise].
Example c155_kept_applied : pt_get uni_id (px_mem 1) (px_slice 1) idB = Some (0%nat, 1%nat) /\
  let (m', s') := pt_run uni_id (fun n => n) px_ops (px_mem 1, px_slice 1) in
  pt_get uni_id m' s' idB = Some (0%nat, 1%nat) /\
  map (fun k => (kid k, kused k, kcompromised k)) (elems m' s') = [(idA, true, false); (idB, false, false); (idC, false, true); (idD, false, false)].
Proof.
  assert (pt_get uni_id (px_mem 1) (px_slice 1) idB = Some (0%nat, 1%nat)) as G by (vm_compute; reflexivity). split; [exact G|].
  destruct (pt_run uni_id (fun n => n) px_ops (px_mem 1, px_slice 1)) as (m', s') eqn:R.
  split.
  - refine (proj2 (c155_kept uni_id (fun n => n) px_ops (px_mem 1) (px_slice 1) m' s' idB (0%nat, 1%nat) (px_valid 1) _ _ R G)).
    + constructor; [exact I|]. constructor; [exact I|]. constructor; [intros k; reflexivity|constructor].
    + cbn. lia.
  - assert (elems m' s' = let (a, b) := pt_run uni_id (fun n => n) px_ops (px_mem 1, px_slice 1) in elems a b) as -> by (rewrite R; reflexivity).
    vm_compute. reflexivity.
Qed.
Example c155_deleted_applied : exists m' s', pt_delete1 uni_id (px_mem 1, px_slice 1) idA = (m', s') /\
  map kid (elems m' s') = [idC; idB] /\ option_map kid (deref m' (0%nat, 0%nat)) = Some idC /\
  elems (pt_assign m' (0%nat, 2%nat) compromise) s' = elems m' s'.
Proof.
  destruct (pt_delete1 uni_id (px_mem 1, px_slice 1) idA) as (m', s') eqn:R. exists m', s'. split; [reflexivity|].
  destruct (c155_deleted uni_id (px_mem 1) (px_slice 1) idA m' s' 0%nat (ex_key idA 3 40 [callVQ]) (ex_key idC 11 40 []) (px_valid 1) R) as (_ & E & H);
    [vm_compute; reflexivity..|].
  destruct (H 0%nat (ex_key idA 3 40 [callVQ])) as (D & _); [vm_compute; reflexivity|].
  destruct (H 2%nat (ex_key idC 11 40 [])) as (_ & A); [vm_compute; reflexivity|].
  split; [rewrite E; vm_compute; reflexivity|]. split; [|exact (A compromise)].
  change (0%nat, 0%nat) with (pointer_to (px_slice 1) 0). rewrite D. vm_compute. reflexivity.
Qed.
Example c155_full_applied : exists m' s', pt_new (fun n => (n * 2)%nat) (px_mem 0) (px_slice 0) (ex_key idD 2 40 []) = (m', s') /\
  map kid (elems m' s') = [idA; idB; idC; idD] /\ elems (pt_assign m' (0%nat, 0%nat) compromise) s' = elems m' s'.
Proof.
  destruct (pt_new (fun n => (n * 2)%nat) (px_mem 0) (px_slice 0) (ex_key idD 2 40 [])) as (m', s') eqn:R. exists m', s'. split; [reflexivity|].
  destruct (c155_full (fun n => (n * 2)%nat) (px_mem 0) (px_slice 0) (ex_key idD 2 40 []) m' s' (px_valid 0) R) as (E & H); [cbn; lia|].
  destruct (H 0%nat (ex_key idA 3 40 [callVQ])) as (_ & A); [vm_compute; reflexivity|].
  split; [rewrite E; vm_compute; reflexivity|exact (A compromise)].
Qed.

Definition px_all : list pop := [PMark idB true; PNew (ex_key idD 2 40 []); PDelete [idA]; PNew (ex_key idA 3 40 [])].
Example c155_values_applied : let (m', s') := pt_run uni_id (fun n => n) px_all (px_mem 0, px_slice 0) in
  map (fun k => (kid k, kused k)) (elems m' s') = [(idD, false); (idB, true); (idC, false); (idA, false)].
Proof.
  destruct (pt_run uni_id (fun n => n) px_all (px_mem 0, px_slice 0)) as (m', s') eqn:R.
  destruct (c155_values uni_id (fun n => n) px_all (px_mem 0) (px_slice 0) m' s' (px_valid 0)) as (_ & ->);
    [repeat constructor|exact R|vm_compute; reflexivity].
Qed.
