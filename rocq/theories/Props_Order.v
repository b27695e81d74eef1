(** C135: messages can be deciphered again and in any order.
    C136: of the store, Decipher sees the IDs and letters of the keys it needs
    and nothing else. *)
From Coq Require Import Permutation.
From Verif Require Import Base Spec Spec_Order Model_Unicode Model_Crand Model_Types Model_Cipher Proofs_Order Examples Props_Cipher Props_Garble.

(** Whatever was deciphered before, successfully or not, every message comes
    out as if it had been the first. *)
Theorem c135_each : forall U i ms, snd (read_all U i ms) = map (reading U i) ms.
Proof. exact read_all_each. Qed.
Print Assumptions c135_each.
(** The order does not matter to the store either. *)
Theorem c135_any_order : forall U i ms ms', Permutation ms ms' -> fst (read_all U i ms) = fst (read_all U i ms').
Proof. exact read_all_perm. Qed.
Print Assumptions c135_any_order.
(** Deciphering a message that has been deciphered changes nothing. *)
Theorem c135_again : forall U i m t j m1 t1 t', decipher U i m t = (j, m1, Ok tt, t1) -> mid m <> [] ->
  (length (mplain m) <= length t)%nat -> (length (mplain m1) <= length t')%nat ->
  exists t2, decipher U j m1 t' = (j, m1, Ok tt, t2).
Proof. exact decipher_reread. Qed.
Print Assumptions c135_again.

(** Two messages that begin with the same key, in both orders: both are read
    and the stores agree. *)
Definition two_got : list (msg * tape) := [(hello_got, []); (ex_received idA (mcipher ex_long), [])].
Example c135_nontrivial : exists j, fst (read_all uni_id (ex_inst ex_keys) two_got) = j /\
  fst (read_all uni_id (ex_inst ex_keys) (rev two_got)) = j /\ map kused (i_keys j) = [true; true; false; false] /\
  map snd (snd (read_all uni_id (ex_inst ex_keys) two_got)) = [Ok tt; Ok tt] /\
  map (fun x => mplain (fst x)) (snd (read_all uni_id (ex_inst ex_keys) (rev two_got))) = [txt_primary; hello].
Proof.
  eexists. split; [reflexivity|]. split.
  { symmetry. apply (c135_any_order uni_id (ex_inst ex_keys) two_got (rev two_got)). apply Permutation_rev. }
  split; [vm_compute; reflexivity|]. split; vm_compute; reflexivity.
Qed.
Example c135_again_nontrivial : exists j m1 t1 t2, decipher uni_id (ex_inst ex_keys) hello_got [] = (j, m1, Ok tt, t1) /\
  mplain m1 = hello /\ decipher uni_id j m1 [1; 2; 3; 4; 5] = (j, m1, Ok tt, t2).
Proof.
  destruct (decipher uni_id (ex_inst ex_keys) hello_got []) as [[[j m1] r] t1] eqn:D.
  assert (Z : (r, mplain m1) = (Ok tt, hello)).
  { apply (f_equal (fun x => (snd (fst x), mplain (snd (fst (fst x)))))) in D. cbn [fst snd] in D. rewrite <- D. vm_compute. reflexivity. }
  assert (r = Ok tt) by congruence. assert (P : mplain m1 = hello) by congruence. subst r.
  destruct (c135_again uni_id (ex_inst ex_keys) hello_got [] j m1 t1 [1; 2; 3; 4; 5] D) as (t2 & E).
  - vm_compute. discriminate.
  - vm_compute. apply le_n.
  - rewrite P. vm_compute. apply le_n.
  - exists j, m1, t1, t2. auto.
Qed.

(** Keepers, used and compromised flags, dates and comments of the keys do not
    matter, in success and in failure. *)
Theorem c136_flags : forall U i ks' m t j m1 r t1, same_letters (i_keys i) ks' -> decipher U i m t = (j, m1, r, t1) ->
  exists ks1, decipher U (set_keys i ks') m t = (set_keys i ks1, m1, r, t1) /\ same_letters (i_keys j) ks1 /\
    j = set_keys i (i_keys j).
Proof. exact decipher_same_letters. Qed.
Print Assumptions c136_flags.
(** Keys added later do not disturb a message that could be read. *)
Theorem c136_more : forall U i more m t j m1 t1, decipher U i m t = (j, m1, Ok tt, t1) ->
  decipher U (set_keys i (i_keys i ++ more)) m t = (set_keys i (i_keys j ++ more), m1, Ok tt, t1).
Proof. exact decipher_more. Qed.
Print Assumptions c136_more.
(** The order of the keys in the store does not matter. *)
Theorem c136_order : forall U i ks' m t j m1 r t1, store_ok (i_groupsize i) (i_keys i) -> Permutation (i_keys i) ks' ->
  decipher U i m t = (j, m1, r, t1) ->
  exists ks1, decipher U (set_keys i ks') m t = (set_keys i ks1, m1, r, t1) /\ Permutation (i_keys j) ks1.
Proof. exact decipher_perm. Qed.
Print Assumptions c136_order.

(** The message of two keys, read from a store with other flags, from one with
    a key more, also one whose ID is taken, and from one in reverse order. *)
Definition reflag (k : key) : key := mkKey (kid k) (krunes k) [callOS] 7 9 (negb (kused k)) true [88].
Lemma reflag_same : forall ks, same_letters ks (map reflag ks).
Proof. induction ks; constructor; auto. Qed.
Definition long_got : msg := ex_received idA (mcipher ex_long).
Lemma long_reads : exists j m1 t1, decipher uni_id (ex_inst ex_keys) long_got [] = (j, m1, Ok tt, t1) /\ mplain m1 = txt_primary /\
  map kused (i_keys j) = [true; true; false; false].
Proof.
  destruct (decipher uni_id (ex_inst ex_keys) long_got []) as [[[j m1] r] t1] eqn:D. exists j, m1, t1.
  assert (Z : (r, mplain m1, map kused (i_keys j)) = (Ok tt, txt_primary, [true; true; false; false])).
  { apply (f_equal (fun x => (snd (fst x), mplain (snd (fst (fst x))), map kused (i_keys (fst (fst (fst x))))))) in D. cbn [fst snd] in D.
    rewrite <- D. vm_compute. reflexivity. }
  split; [|split]; congruence.
Qed.
Example c136_nontrivial : exists m1 t1, mplain m1 = txt_primary /\
  (exists j, decipher uni_id (set_keys (ex_inst ex_keys) (map reflag ex_keys)) long_got [] = (j, m1, Ok tt, t1)) /\
  (exists j, decipher uni_id (set_keys (ex_inst ex_keys) (ex_keys ++ [ex_key idA 9 40 [callVQ]])) long_got [] = (j, m1, Ok tt, t1)) /\
  (exists j, decipher uni_id (set_keys (ex_inst ex_keys) (rev ex_keys)) long_got [] = (j, m1, Ok tt, t1) /\
     Permutation (map kused (i_keys j)) [true; true; false; false]).
Proof.
  destruct long_reads as (j & m1 & t1 & D & P & Q). exists m1, t1. split; [exact P|]. split; [|split].
  - destruct (c136_flags uni_id (ex_inst ex_keys) (map reflag ex_keys) long_got [] j m1 (Ok tt) t1) as (ks1 & E & _).
    + exact (reflag_same ex_keys).
    + exact D.
    + eexists. exact E.
  - eexists. exact (c136_more uni_id (ex_inst ex_keys) [ex_key idA 9 40 [callVQ]] long_got [] j m1 t1 D).
  - destruct (c136_order uni_id (ex_inst ex_keys) (rev ex_keys) long_got [] j m1 (Ok tt) t1 ex_store (Permutation_rev _) D) as (ks1 & E & X).
    eexists. split; [exact E|]. cbn [i_keys set_keys]. rewrite <- Q. apply Permutation_map, Permutation_sym, X.
Qed.
