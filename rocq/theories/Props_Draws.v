(** Property C119: random draws are used once, and only those an operation
    uses decide what it makes. A tape is the sequence of draws to come. *)
From Verif Require Import Base Spec Spec_Draws Model_Unicode Model_Crand Model_Functions Model_Types Model_Keys
  Model_Cipher Proofs_Draws Examples.

Theorem c119_new_key : forall U i now e keepers t i' k t', 0 < i_groupsize i ->
  new_key U i now e keepers t = Ok (i', k, t') ->
  exists used, t = used ++ t' /\ len (kid k) + len (krunes k) <= len used /\
    forall s, new_key U i now e keepers (used ++ s) = Ok (i', k, s).
Proof. exact new_key_local. Qed.
Print Assumptions c119_new_key.

(** Every key of GenerateKeys has its own draws. *)
Theorem c119_generate_keys : forall U i n now x keepers t i' t', 0 < i_groupsize i ->
  generate_keys U i n now x keepers t = Ok (i', t') ->
  exists new draws, i' = set_keys i (i_keys i ++ new) /\ len new = Z.max 0 n /\ t = concat draws ++ t' /\
    Forall2 (fun k d => len (kid k) + len (krunes k) <= len d) new draws /\
    forall s, generate_keys U i n now x keepers (concat draws ++ s) = Ok (i', s).
Proof. exact generate_draws. Qed.
Print Assumptions c119_generate_keys.

Theorem c119_message_id : forall ms t id t', new_unique_message_id ms t = Ok (id, t') ->
  exists used, t = used ++ t' /\ (4 <= length used)%nat /\ forall s, new_unique_message_id ms (used ++ s) = Ok (id, s).
Proof. exact msg_id_local. Qed.
Print Assumptions c119_message_id.

(** Encipher and Decipher draw an ID, if the message has none, and then what
    they write over the old text. *)
Theorem c119_encipher : forall U i m t i' m' t', encipher U i m t = (i', m', Ok tt, t') ->
  exists used w, t = used ++ w ++ t' /\ wipe_draws (mcipher m) w t' /\
    (mid m <> [] -> used = [] /\ mid m' = mid m) /\
    (mid m = [] -> (4 <= length used)%nat /\ forall s, new_unique_message_id (i_messages i) (used ++ s) = Ok (mid m', s)).
Proof. exact encipher_draws. Qed.
Print Assumptions c119_encipher.
Theorem c119_decipher : forall U i m t i' m' t', decipher U i m t = (i', m', Ok tt, t') ->
  exists used w, t = used ++ w ++ t' /\ wipe_draws (mplain m) w t' /\
    (mid m <> [] -> used = [] /\ mid m' = mid m) /\
    (mid m = [] -> (4 <= length used)%nat /\ forall s, new_unique_message_id (i_messages i) (used ++ s) = Ok (mid m', s)).
Proof. exact decipher_draws. Qed.
Print Assumptions c119_decipher.

(** The hypotheses are met: two keys, and a message without ID. *)
Example c119_keys_case : exists i' t', generate_keys uni_id (ex_inst []) 2 0 None [] (ex_tape ++ ex_tape) = Ok (i', t') /\
  len (i_keys i') = 2 /\ 0 < i_groupsize (ex_inst []).
Proof. do 2 eexists. split; [vm_compute; reflexivity|]. split; reflexivity. Qed.
Example c119_encipher_case : exists i' m' t',
  encipher uni_id (ex_inst ex_keys) (mkMsg [] [callVQ] callOS 1000 idA txt_hello [] [65; 66] []) ex_tape = (i', m', Ok tt, t') /\
  length (mid m') = 4%nat.
Proof. do 3 eexists. split; [vm_compute; reflexivity|]. reflexivity. Qed.
Example c119_decipher_case : exists i' m' t',
  (let '(i1, m1, _, t1) := encipher uni_id (ex_inst ex_keys) (mkMsg [] [callVQ] callOS 1000 [] txt_hello [] [] []) ex_tape in
   decipher uni_id i1 (mkMsg [] [] [] 0 (mkeyid m1) txt_hello [] (mcipher m1) []) t1) = (i', m', Ok tt, t') /\
  mplain m' = txt_hello /\ length (mid m') = 4%nat.
Proof. do 3 eexists. split; [vm_compute; reflexivity|]. split; vm_compute; reflexivity. Qed.
