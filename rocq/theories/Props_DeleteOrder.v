(** C164: the order of keys after deleting. *)
From Verif Require Import Base Spec Model_Unicode Model_Crand Model_Functions Model_Types Model_Cipher Model_Keys
  Proofs_DeleteOrder Examples Props_Cipher.

(** Deleting a used key leaves the order in which the others are used alone:
    false. The last key takes the place of the deleted one, and the next
    message gets that key instead of the one it was due. *)
Theorem c164_order_refuted : exists i m ks' i1 m1 t1 i2 m2 t2, store_ok (i_groupsize i) (i_keys i) /\
  (exists k, nth_error (i_keys i) 0 = Some k /\ kused k = true /\ delete_key uni_id (i_keys i) [kid k] = (ks', 1)) /\
  encipher uni_id i m [] = (i1, m1, Ok tt, t1) /\ In (mkeyid m1) (map kid ks') /\
  encipher uni_id (set_keys i ks') m [] = (i2, m2, Ok tt, t2) /\ mkeyid m2 <> mkeyid m1.
Proof.
  exists (ex_inst (set_used (ex_key idA 3 40 [callVQ]) true :: [ex_key idB 5 40 [callVQ]; ex_key idC 11 40 [callVQ]])), (ex_msg [72; 73] []).
  do 7 eexists. split; [apply store_okb_ok; vm_compute; reflexivity|].
  split; [eexists; split; [reflexivity|]; split; [reflexivity|vm_compute; reflexivity]|].
  split; [vm_compute; reflexivity|]. split; [vm_compute; auto|]. split; [vm_compute; reflexivity|]. vm_compute. discriminate.
Qed.
Print Assumptions c164_order_refuted.

(** What holds: nothing is deleted if no key has the ID; else the last key
    takes the place of the first key that has it, and all others stay where
    they are. *)
Theorem c164_place_partial : forall U ks id ks' n, delete_key U ks [id] = (ks', n) ->
  (n = 0 /\ ks' = ks /\ forall k, In k ks -> ~ same_text (to_upper U) (kid k) id) \/
  (n = 1 /\ exists a k b, ks = a ++ k :: b /\ same_text (to_upper U) (kid k) id /\
     (forall k', In k' a -> ~ same_text (to_upper U) (kid k') id) /\
     ((b = [] /\ ks' = a) \/ exists b' z, b = b' ++ [z] /\ ks' = a ++ z :: b')).
Proof. exact place_lemma. Qed.
Print Assumptions c164_place_partial.
(** Without BRAVO, DELTA stands in its place. *)
Example c164_applied : exists a z b', map kid ex_keys = a ++ idB :: b' ++ [z] /\
  map kid (fst (delete_key uni_id ex_keys [idB])) = a ++ z :: b' /\ z = idD.
Proof.
  destruct (delete_key uni_id ex_keys [idB]) as [ks' n] eqn:D.
  assert (N : n = 1) by (apply (f_equal snd) in D; vm_compute in D; symmetry; exact D).
  destruct (c164_place_partial uni_id ex_keys idB ks' n D) as [(N0 & _)|(_ & a & k & b & E & S & _ & Q)]; [lia|]. clear D N.
  apply (f_equal (map kid)) in E. rewrite map_app in E. cbn [map fst] in E |- *.
  change (map kid ex_keys) with [idA; idB; idC; idD] in *.
  assert (K : kid k = idB).
  { assert (I : In (kid k) [idA; idB; idC; idD]) by (rewrite E; apply in_or_app; right; left; reflexivity).
    clear E. destruct I as [I|[I|[I|[I|[]]]]]; rewrite <- I in S |- *; try reflexivity; vm_compute in S; discriminate S. }
  rewrite K in E. destruct Q as [(-> & ->)|(b' & z & -> & ->)].
  - exfalso. apply (f_equal (fun l => last l [])) in E. cbn [map] in E. rewrite last_last in E. vm_compute in E. discriminate E.
  - rewrite map_app in E. cbn [map] in E. exists (map kid a), (kid z), (map kid b'). split; [exact E|]. split; [rewrite map_app; reflexivity|].
    apply (f_equal (fun l => last l [])) in E.
    replace (map kid a ++ idB :: map kid b' ++ [kid z]) with ((map kid a ++ idB :: map kid b') ++ [kid z]) in E by (rewrite <- app_assoc; reflexivity).
    rewrite last_last in E. symmetry. exact E.
Qed.
