(** Properties C120 and C121: expired keys are used like any other; the dates and
    comments of keys do not matter to the cipher. *)
From Verif Require Import Base Spec Spec_Dates Model_Unicode Model_Crand Model_Functions Model_Types Model_Keys Model_Cipher
  Model_Messages Proofs_Dates Examples Props_Messages.

(** C120 is false: the only key has expired, and Encipher selects it. *)
Definition expired_key : key := mkKey idA (ex_runes 3 40) [callVQ] 100 200 false false [].
Theorem c120_refuted : exists i m now t i' m' t',
  (forall k, In k (i_keys i) -> is_expired now k = true /\ is_valid now 0 k = false) /\ mkeyid m = [] /\
  encipher uni_id i m t = (i', m', Ok tt, t') /\
  exists k, In k (i_keys i') /\ kid k = mkeyid m' /\ kused k = true /\ is_expired now k = true.
Proof.
  exists (ex_inst [expired_key]), (ex_msg txt_hello []), 201, ex_tape. do 3 eexists.
  split; [intros k [<-|[]]; split; reflexivity|]. split; [reflexivity|]. split; [vm_compute; reflexivity|].
  eexists. split; [left; reflexivity|]. split; [reflexivity|]. split; reflexivity.
Qed.
Print Assumptions c120_refuted.

Theorem c121_encipher : forall U i i' m t, redated i i' ->
  exists j j' m1 r t1, encipher U i m t = (j, m1, r, t1) /\ encipher U i' m t = (j', m1, r, t1) /\ redated j j'.
Proof. exact R_encipher. Qed.
Print Assumptions c121_encipher.
Theorem c121_decipher : forall U i i' m t, redated i i' ->
  exists j j' m1 r t1, decipher U i m t = (j, m1, r, t1) /\ decipher U i' m t = (j', m1, r, t1) /\ redated j j'.
Proof. exact R_decipher. Qed.
Print Assumptions c121_decipher.
Theorem c121_try_decipher : forall U i i' m d t, redated i i' ->
  exists j j' m1 r t1, try_decipher U i m d t = (j, m1, r, t1) /\ try_decipher U i' m d t = (j', m1, r, t1) /\ redated j j'.
Proof. exact R_try. Qed.
Print Assumptions c121_try_decipher.
Theorem c121_new_text_message : forall U lb dp i i' args now t, redated i i' ->
  exists j j' r, new_text_message U lb dp i args now t = (j, r) /\ new_text_message U lb dp i' args now t = (j', r) /\
    redated j j'.
Proof. exact R_new. Qed.
Print Assumptions c121_new_text_message.

(** The theorem applied: a fresh and an expired copy of the keys; Encipher
    succeeds with both. *)
Definition redate (k : key) : key :=
  mkKey (kid k) (krunes k) (kkeepers k) 7 9 (kused k) (kcompromised k) [88].
Lemma redate_inst : forall i, redated i (set_keys i (map redate (i_keys i))).
Proof.
  intros i. split; [|reflexivity]. cbn [i_keys set_keys]. induction (i_keys i) as [|k ks IH]; constructor; [|exact IH].
  repeat split.
Qed.
Example c121_case : exists j m1 t1 j',
  encipher uni_id (ex_inst ex_keys) (ex_msg txt_long []) ex_tape = (j, m1, Ok tt, t1) /\ mkeyid m1 = idA /\
  encipher uni_id (ex_inst (map redate ex_keys)) (ex_msg txt_long []) ex_tape = (j', m1, Ok tt, t1) /\ redated j j'.
Proof.
  destruct (c121_encipher uni_id _ _ (ex_msg txt_long []) ex_tape (redate_inst (ex_inst ex_keys)))
    as (j & j' & m1 & r & t1 & A & B & C).
  assert (X : exists m t, snd (fst (fst (encipher uni_id (ex_inst ex_keys) (ex_msg txt_long []) ex_tape))) = m /\
    snd (fst (encipher uni_id (ex_inst ex_keys) (ex_msg txt_long []) ex_tape)) = Ok t /\ mkeyid m = idA)
    by (do 2 eexists; split; [reflexivity|]; split; vm_compute; reflexivity).
  destruct X as (m & [] & X1 & X2 & X3). rewrite A in X1, X2. cbn [fst snd] in X1, X2. subst m r.
  exists j, m1, t1, j'. split; [exact A|]. split; [exact X3|]. split; [exact B|exact C].
Qed.
