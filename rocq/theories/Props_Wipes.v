(** C148, C149: what overwriting old texts and working copies with random data
    does to results. *)
From Verif Require Import Base Spec Model_Unicode Model_Crand Model_Functions Model_Types Model_Cipher Model_Wipes
  Proofs_Wipes Examples Props_Cipher.

(** ** C148: Encipher, Decipher and TryDecipherPlainText overwrite their working
    copies. What they return and leave in store and message is what they return
    without doing so ([encipher], [decipher], [try_decipher], about which the
    other theorems are). *)
Theorem c148_encipher : forall U i m t, fst (encipher_wiping U i m t) = fst (encipher U i m t) /\
  (snd (fst (encipher U i m t)) = Ok tt -> encipher_wiping U i m t = encipher U i m t) /\
  exists words, snd (encipher U i m t) = words ++ snd (encipher_wiping U i m t).
Proof. exact encipher_wiping_lemma. Qed.
Print Assumptions c148_encipher.
Theorem c148_decipher : forall U i m t, mid m <> [] -> (length (mplain m) + length (mcipher m) <= length t)%nat ->
  fst (decipher_wiping U i m t) = fst (decipher U i m t) /\
  exists words, snd (decipher U i m t) = words ++ snd (decipher_wiping U i m t) /\ (length words <= length (mcipher m))%nat.
Proof. exact decipher_enough. Qed.
Print Assumptions c148_decipher.
Theorem c148_try_decipher : forall U i m d t, uni_ok U -> store_ok (i_groupsize i) (i_keys i) -> mid m <> [] ->
  (3 * length (mplain m) <= length t)%nat -> fst (try_decipher_wiping U i m d t) = fst (try_decipher U i m d t).
Proof. exact try_enough. Qed.
Print Assumptions c148_try_decipher.
(** If the random source fails at any point, Decipher returns the same or an
    error, and an error leaves the store alone. *)
Theorem c148_decipher_any : forall U i m t, uni_ok U -> store_ok (i_groupsize i) (i_keys i) -> mid m <> [] ->
  fst (decipher_wiping U i m t) = fst (decipher U i m t) \/
  (snd (fst (decipher_wiping U i m t)) = Err ErrKeyNotFound /\ fst (fst (fst (decipher_wiping U i m t))) = i).
Proof. exact decipher_any. Qed.
Print Assumptions c148_decipher_any.
Theorem c148_try_decipher_any : forall U i m d t, uni_ok U -> store_ok (i_groupsize i) (i_keys i) -> mid m <> [] ->
  (snd (fst (try_decipher_wiping U i m d t)) = Ok tt -> fst (try_decipher_wiping U i m d t) = fst (try_decipher U i m d t)) /\
  (snd (fst (try_decipher_wiping U i m d t)) <> Ok tt -> fst (fst (fst (try_decipher_wiping U i m d t))) = i).
Proof. exact try_any. Qed.
Print Assumptions c148_try_decipher_any.

(** A text that needs three keys, enciphered and received. *)
Definition wx_text : list rune := repeat 65 70.
Definition wx_sent : msg := snd (fst (fst (encipher uni_id (ex_inst ex_keys) (ex_msg wx_text []) []))).
Definition wx_received : msg := ex_received (mkeyid wx_sent) (mcipher wx_sent).
Example c148_nontrivial :
  snd (fst (encipher uni_id (ex_inst ex_keys) (ex_msg wx_text []) [])) = Ok tt /\
  (* with random data: ten words for the two IDs, the text is read *)
  snd (fst (decipher_wiping uni_id (ex_inst ex_keys) wx_received (repeat 0 10))) = Ok tt /\
  snd (decipher_wiping uni_id (ex_inst ex_keys) wx_received (repeat 0 10)) = [] /\
  mplain (snd (fst (fst (decipher_wiping uni_id (ex_inst ex_keys) wx_received (repeat 0 10))))) = wx_text /\
  (* without: an error at the second change of key *)
  snd (fst (decipher_wiping uni_id (ex_inst ex_keys) wx_received [])) = Err ErrKeyNotFound /\
  snd (fst (decipher uni_id (ex_inst ex_keys) wx_received [])) = Ok tt.
Proof. repeat split; vm_compute; reflexivity. Qed.
Example c148_applied : fst (decipher_wiping uni_id (ex_inst ex_keys) wx_received (repeat 0 200)) = fst (decipher uni_id (ex_inst ex_keys) wx_received (repeat 0 200)).
Proof. refine (proj1 (c148_decipher uni_id (ex_inst ex_keys) wx_received (repeat 0 200) _ _)); [discriminate|]. apply Nat.leb_le. vm_compute. reflexivity. Qed.
Example c148_any_applied : fst (decipher_wiping uni_id (ex_inst ex_keys) wx_received []) <> fst (decipher uni_id (ex_inst ex_keys) wx_received []) /\
  fst (fst (fst (decipher_wiping uni_id (ex_inst ex_keys) wx_received []))) = ex_inst ex_keys.
Proof.
  assert (N : fst (decipher_wiping uni_id (ex_inst ex_keys) wx_received []) <> fst (decipher uni_id (ex_inst ex_keys) wx_received [])).
  { intros E. apply (f_equal snd) in E. revert E. vm_compute. discriminate. }
  split; [exact N|].
  destruct (c148_decipher_any uni_id (ex_inst ex_keys) wx_received [] uni_id_ok ex_store ltac:(discriminate)) as [E|(_ & E)]; [contradiction (N E)|exact E].
Qed.
(** As a radiogram: the words read by a trial run are as many as there are letters. *)
Definition wx_gram : msg := ex_msg (mkeyid wx_sent ++ mcipher wx_sent) [].
Example c148_try_applied :
  fst (try_decipher_wiping uni_id (ex_inst ex_keys) wx_gram false (repeat 0 500)) = fst (try_decipher uni_id (ex_inst ex_keys) wx_gram false (repeat 0 500)) /\
  mplain (snd (fst (fst (try_decipher_wiping uni_id (ex_inst ex_keys) wx_gram false (repeat 0 500))))) = wx_text /\
  fst (fst (fst (try_decipher_wiping uni_id (ex_inst ex_keys) wx_gram false []))) = ex_inst ex_keys.
Proof.
  split.
  - apply c148_try_decipher; [exact uni_id_ok|exact ex_store|discriminate|]. apply Nat.leb_le. vm_compute. reflexivity.
  - split; [vm_compute; reflexivity|].
    apply (proj2 (c148_try_decipher_any uni_id (ex_inst ex_keys) wx_gram false [] uni_id_ok ex_store ltac:(discriminate))). vm_compute. discriminate.
Qed.

(** ** C149: Decipher replaces the text of the message and Encipher its
    ciphertext, as the comments say (cipher.go:664-666), also if the random
    source fails: false. The old text stays in front of the new one and the
    functions report success. *)
Theorem c149_decipher_refuted : exists i m i' m' t', store_ok (i_groupsize i) (i_keys i) /\ mid m <> [] /\ mplain m <> [] /\
  decipher uni_id i m [] = (i', m', Ok tt, t') /\ mplain m' = mplain m ++ txt_hello /\
  mplain (snd (fst (fst (decipher uni_id i m ex_tape)))) = txt_hello.
Proof.
  exists (ex_inst ex_keys), (set_mplain (ex_received idA (mcipher (snd (fst (fst (encipher uni_id (ex_inst ex_keys) (ex_msg txt_hello []) [])))))) [88; 89]).
  do 3 eexists. split; [exact ex_store|]. split; [discriminate|]. split; [discriminate|]. split; [vm_compute; reflexivity|]. split; vm_compute; reflexivity.
Qed.
Print Assumptions c149_decipher_refuted.
Theorem c149_encipher_refuted : exists i m i' m' t', store_ok (i_groupsize i) (i_keys i) /\ mid m <> [] /\ mcipher m <> [] /\
  encipher uni_id i m [] = (i', m', Ok tt, t') /\ mcipher m' = mcipher m ++ mcipher (snd (fst (fst (encipher uni_id i m ex_tape)))) /\
  mcipher (snd (fst (fst (encipher uni_id i m ex_tape)))) <> [].
Proof.
  exists (ex_inst ex_keys), (set_mcipher (ex_msg txt_hello idA) [88; 89]).
  do 3 eexists. split; [exact ex_store|]. split; [discriminate|]. split; [discriminate|]. split; [vm_compute; reflexivity|]. split; vm_compute; [reflexivity|discriminate].
Qed.
Print Assumptions c149_encipher_refuted.
(** Exactly: the outcome is that for a message without the old text, with the
    old text in front. *)
Theorem c149_decipher_exact : forall U i m t, mid m <> [] -> (length t < length (mplain m))%nat ->
  decipher U i m t = let '(i', m', r, t') := decipher U i (set_mplain m []) t in (i', set_mplain m' (mplain m ++ mplain m'), r, t').
Proof. exact decipher_unwiped. Qed.
Print Assumptions c149_decipher_exact.
Theorem c149_encipher_exact : forall U i m t, mid m <> [] -> mkeyid m <> [] -> (length t < length (mcipher m))%nat ->
  encipher U i m t = let '(i', m', r, t') := encipher U i (set_mcipher m []) t in (i', set_mcipher m' (mcipher m ++ mcipher m'), r, t').
Proof. exact encipher_unwiped. Qed.
Print Assumptions c149_encipher_exact.
(** With random data the old text makes no difference but for the words read. *)
Theorem c149_replaced_partial : forall U i m t, mid m <> [] ->
  ((length (mplain m) <= length t)%nat -> len (mkeyid m) = i_groupsize i -> i_groupsize i <= len (mcipher m) -> get_key U (mkeyid m) (i_keys i) <> None ->
   fst (decipher U i m t) = fst (decipher U i (set_mplain m []) (skipn (length (mplain m)) t))) /\
  ((length (mcipher m) <= length t)%nat -> mplain m <> [] -> len (mkeyid m) = i_groupsize i -> mkeyid m <> [] -> check_given_key (mkeyid m) (i_keys i) = Ok tt ->
   fst (encipher U i m t) = fst (encipher U i (set_mcipher m []) (skipn (length (mcipher m)) t))).
Proof. exact replaced_lemma. Qed.
Print Assumptions c149_replaced_partial.
Definition wx_old : msg := set_mplain wx_received [88; 89].
Definition wx_named : msg := set_mcipher (ex_msg txt_hello idA) [88; 89].
Example c149_exact_applied :
  decipher uni_id (ex_inst ex_keys) wx_old [7] =
  (let '(i', m', r, t') := decipher uni_id (ex_inst ex_keys) wx_received [7] in (i', set_mplain m' ([88; 89] ++ mplain m'), r, t')) /\
  encipher uni_id (ex_inst ex_keys) wx_named [7] =
  (let '(i', m', r, t') := encipher uni_id (ex_inst ex_keys) (ex_msg txt_hello idA) [7] in (i', set_mcipher m' ([88; 89] ++ mcipher m'), r, t')).
Proof.
  split.
  - refine (c149_decipher_exact uni_id (ex_inst ex_keys) wx_old [7] _ _); [discriminate|]. apply Nat.ltb_lt. vm_compute. reflexivity.
  - refine (c149_encipher_exact uni_id (ex_inst ex_keys) wx_named [7] _ _ _); [discriminate|discriminate|]. apply Nat.ltb_lt. vm_compute. reflexivity.
Qed.
Example c149_replaced_applied :
  fst (decipher uni_id (ex_inst ex_keys) wx_old [7; 8; 9]) = fst (decipher uni_id (ex_inst ex_keys) wx_received [9]) /\
  fst (encipher uni_id (ex_inst ex_keys) wx_named [7; 8; 9]) = fst (encipher uni_id (ex_inst ex_keys) (ex_msg txt_hello idA) [9]).
Proof.
  split.
  - refine (proj1 (c149_replaced_partial uni_id (ex_inst ex_keys) wx_old [7; 8; 9] _) _ _ _ _); [discriminate| | | |].
    + apply Nat.leb_le. vm_compute. reflexivity.
    + vm_compute. reflexivity.
    + apply Z.leb_le. vm_compute. reflexivity.
    + vm_compute. discriminate.
  - refine (proj2 (c149_replaced_partial uni_id (ex_inst ex_keys) wx_named [7; 8; 9] _) _ _ _ _ _); [discriminate| | | | |].
    + apply Nat.leb_le. vm_compute. reflexivity.
    + discriminate.
    + vm_compute. reflexivity.
    + discriminate.
    + vm_compute. reflexivity.
Qed.
