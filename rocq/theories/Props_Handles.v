(** C151: keys and messages returned by NewKey and NewTextMessage. [reach] as in
    Props_Heap. *)
From Verif Require Import Base Spec Spec_Heap Model_Unicode Model_Crand Model_Functions Model_Types Model_Cipher Model_Keys Model_Import
  Model_Messages Model_Heap Model_Handles Proofs_Handles Examples Props_Cipher Props_Messages Props_Heap.

(** ** C151: what is done to the message that NewTextMessage returned, or to the
    key that NewKey returned, is done to the one in the store. False. The
    message returned is a copy of the one in the store with the same arrays. *)
Theorem c151_returned_message : forall U lb dp h i args now t h' i' o r t', hd_new_text U lb dp h i args now t = (h', i', o, r, t') ->
  (r = Ok tt -> exists m, o = Some m /\ hi_messages i' = hi_messages i ++ [m]) /\ (r <> Ok tt -> o = None).
Proof. exact new_text_returned. Qed.
Print Assumptions c151_returned_message.

(** A radiogram that arrives before its key. *)
Definition hx_id : list rune := repeat 69 5.
Definition hx_key : key := ex_key hx_id 3 40 [callOS].
Definition hx_secret : list rune := [77; 79; 86; 69; 32; 65; 84; 32; 68; 65; 87; 78].
Definition hx_cipher : list rune := Eval vm_compute in
  mcipher (snd (fst (fst (encipher uni_id (ex_inst [hx_key]) (mkMsg [65; 66; 67; 68] [callOS] callVQ 0 hx_id hx_secret [] [] []) [])))).
Definition hx_radiogram : list rune := callOS ++ [32; 68; 69; 32] ++ callVQ ++ [32; 61; 32] ++ hx_id ++ [32] ++ hx_cipher ++ [32; 61; 32; 75].
Definition hx_import : hop := HImport false false (fun _ => true) (mkInst 5 40 110 80 [hx_key] [] callVQ) [].

(** The key arrives later, and TryDecipherPlainText on the returned message
    succeeds, as the documentation suggests. The text of the message in the
    store is then random and its key ID empty: the cipher text is lost. *)
Theorem c151_message_refuted : exists h i m t1 h1 i1 t2 h2 i2 m2 t3,
  ex_reach [] = (fst (fst (ex_reach [])), snd (fst (ex_reach [])), snd (ex_reach [])) /\
  hd_new_text uni_id ex_lb ex_dp (fst (fst (ex_reach []))) (snd (fst (ex_reach []))) [hx_radiogram] 7 (snd (ex_reach [])) = (h, i, Some m, Ok tt, t1) /\
  ex_step hx_import h i t1 = (h1, i1, t2) /\ hd_try_decipher uni_id h1 i1 m t2 = (h2, i2, m2, Ok tt, t3) /\
  mplain (msg_of h2 m2) = hx_secret /\ map mkeyid (messages_of h2 i2) = [[]] /\
  map mplain (messages_of h1 i1) = [hx_id ++ [32] ++ hx_cipher] /\
  map mplain (messages_of h2 i2) = [map to_int32 (firstn (length (hx_id ++ [32] ++ hx_cipher)) t2)].
Proof.
  do 11 eexists. split; [destruct (ex_reach []) as [[? ?] ?]; reflexivity|]. split; [vm_compute; reflexivity|]. split; [vm_compute; reflexivity|].
  split; [vm_compute; reflexivity|]. split; [vm_compute; reflexivity|]. split; [vm_compute; reflexivity|]. split; vm_compute; reflexivity.
Qed.
Print Assumptions c151_message_refuted.

(** Exactly, after any history, for a copy of a message of the store: the copy
    gets what TryDecipherPlainText gives; no other message changes; the one in
    the store does not change if TryDecipherPlainText(true) returns an error, and
    otherwise its text is replaced by random words, whether or not the text of
    the copy can be deciphered. *)
Theorem c151_try_decipher : forall U lb dp i0 ops t h i t1 n m h' i' m' r t2,
  reach U lb dp i0 ops t = (h, i, t1) -> store_ok (hi_groupsize i) (keys_of h i) ->
  nth_error (hi_messages i) n = Some m -> hd_try_decipher U h i m t1 = (h', i', m', r, t2) ->
  (exists iv, try_decipher U (inst_of h i) (msg_of h m) false t1 = (iv, msg_of h' m', r, t2) /\ keys_of h' i' = i_keys iv) /\
  (forall n', n' <> n -> nth_error (messages_of h' i') n' = nth_error (messages_of h i) n') /\
  (snd (fst (try_decipher U (inst_of h i) (msg_of h m) true t1)) <> Ok tt -> nth_error (messages_of h' i') n = nth_error (messages_of h i) n) /\
  (mid (msg_of h m) <> [] -> snd (fst (try_decipher U (inst_of h i) (msg_of h m) true t1)) = Ok tt -> (length (mplain (msg_of h m)) <= length t1)%nat ->
     nth_error (messages_of h' i') n = Some (set_mplain (msg_of h m) (map to_int32 (firstn (length (mplain (msg_of h m))) t1)))).
Proof. exact try_reached. Qed.
Print Assumptions c151_try_decipher.
(** Likewise Decipher, for instance to check an outgoing message. *)
Theorem c151_decipher : forall U lb dp i0 ops t h i t1 n m h' i' m' r t2, reach U lb dp i0 ops t = (h, i, t1) ->
  nth_error (hi_messages i) n = Some m -> hd_decipher U h i m t1 = (h', i', m', r, t2) ->
  (exists iv, decipher U (inst_of h i) (msg_of h m) t1 = (iv, msg_of h' m', r, t2) /\ keys_of h' i' = i_keys iv) /\
  (forall n', n' <> n -> nth_error (messages_of h' i') n' = nth_error (messages_of h i) n') /\
  (mid (msg_of h m) <> [] ->
   len (mkeyid (msg_of h m)) = hi_groupsize i -> hi_groupsize i <= len (mcipher (msg_of h m)) -> get_key U (mkeyid (msg_of h m)) (keys_of h i) <> None ->
   (length (mplain (msg_of h m)) <= length t1)%nat ->
     nth_error (messages_of h' i') n = Some (set_mplain (msg_of h m) (map to_int32 (firstn (length (mplain (msg_of h m))) t1)))).
Proof. exact decipher_reached. Qed.
Print Assumptions c151_decipher.

(** The same two histories with the theorems applied: the message in the store
    keeps everything but its text, which is the next random words. *)
Example c151_try_applied : exists h i t1 m h' i' m' r t2, reach uni_id ex_lb ex_dp (ex_inst ex_keys) [HNewText [hx_radiogram] 7; hx_import] ex_long_tape = (h, i, t1) /\
  nth_error (hi_messages i) 0 = Some m /\ hd_try_decipher uni_id h i m t1 = (h', i', m', r, t2) /\
  nth_error (messages_of h' i') 0 = Some (set_mplain (msg_of h m) (map to_int32 (firstn (length (mplain (msg_of h m))) t1))) /\
  mplain (msg_of h m) = hx_id ++ [32] ++ hx_cipher.
Proof.
  destruct (reach uni_id ex_lb ex_dp (ex_inst ex_keys) [HNewText [hx_radiogram] 7; hx_import] ex_long_tape) as [[h i] t1] eqn:E.
  assert (X : (h, i, t1) = reach uni_id ex_lb ex_dp (ex_inst ex_keys) [HNewText [hx_radiogram] 7; hx_import] ex_long_tape) by (symmetry; exact E). vm_compute in X.
  pose proof (f_equal (fun p => fst (fst p)) X) as Xh. pose proof (f_equal (fun p => snd (fst p)) X) as Xi. pose proof (f_equal snd X) as Xt.
  cbn [fst snd] in Xh, Xi, Xt. clear X.
  assert (exists m, nth_error (hi_messages i) 0 = Some m) as (m & NM) by (rewrite Xi; eexists; reflexivity).
  destruct (hd_try_decipher uni_id h i m t1) as [[[[h' i'] m'] r] t2] eqn:HD.
  exists h, i, t1, m, h', i', m', r, t2. split; [reflexivity|]. split; [exact NM|]. split; [exact HD|].
  destruct (c151_try_decipher uni_id ex_lb ex_dp (ex_inst ex_keys) _ ex_long_tape h i t1 0 m h' i' m' r t2 E) as (_ & _ & _ & Q).
  - apply store_okb_ok. rewrite Xh, Xi. vm_compute. reflexivity.
  - exact NM.
  - exact HD.
  - rewrite Xi in NM. injection NM as <-. split.
    + apply Q; rewrite Xh, ?Xi, ?Xt; [vm_compute; discriminate|vm_compute; reflexivity|]. apply Nat.leb_le. vm_compute. reflexivity.
    + rewrite Xh. vm_compute. reflexivity.
Qed.
Example c151_decipher_applied : exists h i t1 m h' i' m' r t2, reach uni_id ex_lb ex_dp (ex_inst ex_keys) [HNewText [rg_out] 7] ex_long_tape = (h, i, t1) /\
  nth_error (hi_messages i) 0 = Some m /\ hd_decipher uni_id h i m t1 = (h', i', m', r, t2) /\ mplain (msg_of h m) = hx_secret /\
  nth_error (messages_of h' i') 0 = Some (set_mplain (msg_of h m) (map to_int32 (firstn 12 t1))).
Proof.
  destruct (reach uni_id ex_lb ex_dp (ex_inst ex_keys) [HNewText [rg_out] 7] ex_long_tape) as [[h i] t1] eqn:E. assert (X : (h, i, t1) = reach uni_id ex_lb ex_dp (ex_inst ex_keys) [HNewText [rg_out] 7] ex_long_tape) by (symmetry; exact E). vm_compute in X.
  pose proof (f_equal (fun p => fst (fst p)) X) as Xh. pose proof (f_equal (fun p => snd (fst p)) X) as Xi. pose proof (f_equal snd X) as Xt.
  cbn [fst snd] in Xh, Xi, Xt. clear X.
  assert (exists m, nth_error (hi_messages i) 0 = Some m) as (m & NM) by (rewrite Xi; eexists; reflexivity).
  destruct (hd_decipher uni_id h i m t1) as [[[[h' i'] m'] r] t2] eqn:HD.
  exists h, i, t1, m, h', i', m', r, t2. split; [reflexivity|]. split; [exact NM|]. split; [exact HD|].
  destruct (c151_decipher uni_id ex_lb ex_dp (ex_inst ex_keys) _ ex_long_tape h i t1 0 m h' i' m' r t2 E NM) as (_ & _ & Q).
  - exact HD.
  - assert (P : mplain (msg_of h m) = hx_secret). { rewrite Xi in NM. injection NM as <-. rewrite Xh. vm_compute. reflexivity. }
    split; [exact P|]. rewrite P in Q. apply Q; rewrite Xi in NM; injection NM as <-.
    + rewrite Xh. vm_compute. discriminate.
    + rewrite Xh, Xi. vm_compute. reflexivity.
    + apply Z.leb_le. rewrite Xh, Xi. vm_compute. reflexivity.
    + rewrite Xh, Xi. vm_compute. discriminate.
    + apply Nat.leb_le. rewrite Xt. vm_compute. reflexivity.
Qed.

(** A key is marked compromised through the pointer that NewKey returned; then
    Encipher, asked for that key, uses the one in the store. *)
Theorem c151_key_refuted : exists h i k t1 i2 m2 t2,
  hd_new_key uni_id (fst (loaded (ex_inst []))) (snd (loaded (ex_inst []))) 1 2 [callVQ] ex_long_tape = (h, i, Some k, t1) /\
  (forall k0 b, key_of h (hd_compromise k0 b) = mkKey (kid (key_of h k0)) (krunes (key_of h k0)) (kkeepers (key_of h k0))
     (kcreated (key_of h k0)) (kexpires (key_of h k0)) (kused (key_of h k0)) b (kcomment (key_of h k0))) /\
  kcompromised (key_of h (hd_compromise k true)) = true /\
  encipher uni_id (inst_of h i) (ex_msg txt_hello (kid (key_of h (hd_compromise k true)))) t1 = (i2, m2, Ok tt, t2) /\
  mkeyid m2 = kid (key_of h (hd_compromise k true)) /\ map kcompromised (i_keys i2) = [false].
Proof.
  do 7 eexists. split; [vm_compute; reflexivity|]. split; [intros [] b; reflexivity|]. split; [vm_compute; reflexivity|].
  split; [vm_compute; reflexivity|]. split; vm_compute; reflexivity.
Qed.
Print Assumptions c151_key_refuted.
