(** Property C140: random words are used once. *)
From Verif Require Import Base Spec_Fresh Model_Unicode Model_Crand Model_Functions Model_Types Model_Cipher Model_Keys Model_Import
  Model_Messages Model_Heap Proofs_Fresh Examples Props_Messages Props_Heap.

(** The words read in the course of any series of operations are consecutive
    pieces of the source, one for each operation; an operation is decided by its
    own piece and by no other word. *)
Theorem c140_history : forall U lb dp ops h i t h' i' t', hrun U lb dp ops h i t = (h', i', t') ->
  ~ exhausted (hrun U lb dp ops h i) t ->
  exists pieces, t = concat pieces ++ t' /\ read_in_turn U lb dp ops pieces h i h' i'.
Proof. exact hrun_pieces. Qed.
Print Assumptions c140_history.
(** Wiping an instance, likewise; then the next operation, with what is left. *)
Theorem c140_wipe : forall h i t h' i' t', wipe_inst h i t = (h', i', t') -> ~ exhausted (wipe_inst h i) t ->
  exists used, t = used ++ t' /\ reads (wipe_inst h i) used (h', i').
Proof.
  intros h i t h' i' t' H N. destruct (wipe_inst_good h i t) as (u & E & L). rewrite H in *. exists u. split; [exact E|exact (L N)].
Qed.
Print Assumptions c140_wipe.
(** Whatever happens, also when the source is exhausted, no word is read again. *)
Theorem c140_never_back : forall U lb dp ops h i t h' i' t', hrun U lb dp ops h i t = (h', i', t') -> exists used, t = used ++ t'.
Proof. intros U lb dp ops h i t h' i' t' H. destruct (hrun_good U lb dp ops h i t) as (u & E & _). rewrite H in E. eauto. Qed.
Print Assumptions c140_never_back.
(** The source is not exhausted if the words are there. *)
Theorem c140_enough : forall A (f : tape -> A * tape) used rest a, reads f used a -> ~ exhausted f (used ++ rest).
Proof. exact reads_enough. Qed.
Print Assumptions c140_enough.
(** A key or message is overwritten with as many random words as it has letters. *)
Theorem c140_amount : forall h k m t,
  (let n := length (krunes (key_of h k) ++ kcomment (key_of h k) ++ kid (key_of h k) ++ concat (kkeepers (key_of h k))) in
   (n <= length t)%nat -> snd (wipe_key h k t) = skipn n t) /\
  (let n := length (mplain (msg_of h m) ++ mcipher (msg_of h m) ++ mkeyid (msg_of h m)) in
   (n <= length t)%nat -> snd (wipe_msg h m t) = skipn n t).
Proof. exact wipe_amount. Qed.
Print Assumptions c140_amount.
(** A message is sent, a key deleted and a new one made: 96 words are read. *)
Definition fx_ops := [HNewText [rg_out] 7; HDeleteKey [idB]; HNewKey 1 2 []].
Notation fx_run := (hrun uni_id ex_lb ex_dp fx_ops (fst (loaded (ex_inst ex_keys))) (snd (loaded (ex_inst ex_keys)))).
Example c140_nontrivial : reads fx_run (firstn 96 ex_long_tape) (fst (fx_run ex_long_tape)) /\ exists pieces h' i',
  ex_long_tape = concat pieces ++ snd (fx_run ex_long_tape) /\
  read_in_turn uni_id ex_lb ex_dp fx_ops pieces (fst (loaded (ex_inst ex_keys))) (snd (loaded (ex_inst ex_keys))) h' i'.
Proof.
  assert (R : reads fx_run (firstn 96 ex_long_tape) (fst (fx_run ex_long_tape))) by (intros rest; vm_compute; reflexivity).
  split; [exact R|].
  assert (N : ~ exhausted fx_run ex_long_tape).
  { rewrite <- (firstn_skipn 96 ex_long_tape). exact (c140_enough _ fx_run _ _ _ R). }
  destruct (fx_run ex_long_tape) as [[h' i'] t'] eqn:E.
  destruct (c140_history uni_id ex_lb ex_dp fx_ops (fst (loaded (ex_inst ex_keys))) (snd (loaded (ex_inst ex_keys))) ex_long_tape h' i' t' E N) as (ps & P & Q). exists ps, h', i'. split; [exact P|exact Q].
Qed.
