(** Properties C49, C72: which settings are usable. *)
From Verif Require Import Base Spec Model_Unicode Model_Crand Model_Functions Model_Types Model_Cipher
  Model_Keys Model_Station Proofs_Settings Examples.

(** Settings with group size [gs] and key length [kl], everything else valid. *)
Definition ex_settings (gs kl : Z) : station :=
  fst (new_station uni_id [] [WithGroupSize gs; WithKeyLength kl; WithKeyColumns (gs + 30)]).
Definition ex_words : tape := ex_tape ++ ex_tape.

(** C49 is false: Assert accepts a key length of one group. *)
Theorem c49_refuted : exists s i' k t' m i2 m2 e t3, assert_settings s = Ok tt /\
  new_key uni_id (st_inst s) 5 9 [callVQ] ex_words = Ok (i', k, t') /\
  mplain m = [65] /\ mrecipients m = [callVQ] /\ kkeepers k = [callVQ] /\
  encipher uni_id i' m ex_tape = (i2, m2, Err e, t3).
Proof.
  exists (ex_settings 20 20). do 3 eexists. exists (ex_msg [65] []). do 4 eexists.
  split; [vm_compute; reflexivity|]. split; [vm_compute; reflexivity|]. split; [reflexivity|].
  split; [reflexivity|]. split; [vm_compute; reflexivity|]. vm_compute. reflexivity.
Qed.
Print Assumptions c49_refuted.

(** Proved: it holds exactly when the group size is smaller than the key length. *)
Theorem c49_usable_partial : forall U s now e keepers t i' k t' m t2, uni_ok U ->
  assert_settings s = Ok tt -> i_groupsize (st_inst s) < i_keylength (st_inst s) ->
  i_keys (st_inst s) = [] ->
  new_key U (st_inst s) now e keepers t = Ok (i', k, t') ->
  mid m <> [] -> mkeyid m = [] -> mcipher m = [] -> mrecipients m = kkeepers k ->
  (exists c, mplain m = [c] /\ supported c) ->
  exists i2 m2 t3, encipher U i' m t2 = (i2, m2, Ok tt, t3).
Proof. exact fresh_key_usable. Qed.
Print Assumptions c49_usable_partial.
Example c49_usable_nontrivial : exists i' k t', assert_settings (ex_settings 19 20) = Ok tt /\
  new_key uni_id (st_inst (ex_settings 19 20)) 5 9 [callVQ] ex_words = Ok (i', k, t') /\
  kkeepers k = [callVQ] /\ supported 65.
Proof.
  do 3 eexists. split; [vm_compute; reflexivity|]. split; [vm_compute; reflexivity|].
  split; [vm_compute; reflexivity|]. left. left. lia.
Qed.

(** C72: otherwise no number of generated keys lets any message be enciphered,
    and this is due to the keys: no store whose keys are not longer than a
    group can be used. *)
Theorem c72_unusable : forall U s n now expire keepers t i' t' m t2 i2 m2 r t3,
  assert_settings s = Ok tt -> i_keylength (st_inst s) <= i_groupsize (st_inst s) ->
  i_keys (st_inst s) = [] ->
  generate_keys U (st_inst s) n now expire keepers t = Ok (i', t') ->
  encipher U i' m t2 = (i2, m2, r, t3) -> r <> Ok tt.
Proof. exact fresh_keys_unusable. Qed.
Print Assumptions c72_unusable.
Theorem c72_short_keys : forall U i m t i' m' r t', 0 < i_groupsize i ->
  (forall k, In k (i_keys i) -> len (krunes k) <= i_groupsize i) ->
  encipher U i m t = (i', m', r, t') -> r <> Ok tt.
Proof. exact one_group_lemma. Qed.
Print Assumptions c72_short_keys.
(** What Assert checks. *)
Theorem c72_assert : forall s, assert_settings s = Ok tt <->
  st_path s <> [] /\ 1 <= i_groupsize (st_inst s) /\ 20 <= i_keylength (st_inst s) /\
  85 <= i_columns (st_inst s) /\ i_groupsize (st_inst s) <= i_keycolumns (st_inst s).
Proof. exact assert_iff. Qed.
Print Assumptions c72_assert.
Example c72_nontrivial : exists i' t', assert_settings (ex_settings 20 20) = Ok tt /\
  generate_keys uni_id (st_inst (ex_settings 20 20)) 2 5 None [callVQ] ex_words = Ok (i', t') /\
  List.map (fun k => len (krunes k)) (i_keys i') = [20; 20].
Proof. do 2 eexists. split; [vm_compute; reflexivity|]. split; vm_compute; reflexivity. Qed.
