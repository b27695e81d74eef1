(** C143-C147: messages without an ID, EnrichWithKey, and enciphering again. *)
From Verif Require Import Base Spec Spec_Listing Spec_Again Model_Unicode Model_Crand Model_Functions Model_Types Model_Cipher Model_Enrich
  Proofs_Again Examples Props_Cipher.

(** ** C143: a message without an ID gets a new one and is then treated as a
    message with that ID; if the random source ends before an ID is found the
    functions panic and have changed nothing. *)
Theorem c143_new_id : forall ms t,
  (exists id rest, new_unique_message_id ms t = Ok (id, rest) /\ id_ok id /\ ~ In id (map mid ms) /\
     exists used, t = used ++ rest /\ (4 <= length used)%nat) \/
  new_unique_message_id ms t = Panic.
Proof. exact new_id_lemma. Qed.
Print Assumptions c143_new_id.
Theorem c143_encipher : forall U i m t, mid m = [] ->
  encipher U i m t = match new_unique_message_id (i_messages i) t with
                     | Ok (id, rest) => encipher U i (set_mid m id) rest | _ => (i, m, Panic, t) end.
Proof. exact noid_encipher. Qed.
Print Assumptions c143_encipher.
Theorem c143_decipher : forall U i m t, mid m = [] ->
  decipher U i m t = match new_unique_message_id (i_messages i) t with
                     | Ok (id, rest) => decipher U i (set_mid m id) rest | _ => (i, m, Panic, t) end.
Proof. exact noid_decipher. Qed.
Print Assumptions c143_decipher.
Theorem c143_try_decipher : forall U i m d t, mid m = [] ->
  try_decipher U i m d t = match new_unique_message_id (i_messages i) t with
                     | Ok (id, rest) => try_decipher U i (set_mid m id) d rest | _ => (i, m, Panic, t) end.
Proof. exact noid_try. Qed.
Print Assumptions c143_try_decipher.
Theorem c143_enrich : forall U i m t, mid m = [] ->
  enrich U i m t = match new_unique_message_id (i_messages i) t with
                     | Ok (id, rest) => enrich U i (set_mid m id) rest | _ => (i, m, Panic, t) end.
Proof. exact noid_enrich. Qed.
Print Assumptions c143_enrich.

Definition gx_msg : msg := mkMsg [] [callVQ] callOS 0 [] txt_hello [] [] [].
Example c143_nontrivial : mid gx_msg = [] /\
  (exists id rest, new_unique_message_id [] ex_tape = Ok (id, rest) /\ length id = 4%nat) /\
  snd (fst (encipher uni_id (ex_inst ex_keys) gx_msg ex_tape)) = Ok tt /\
  length (mid (snd (fst (fst (encipher uni_id (ex_inst ex_keys) gx_msg ex_tape))))) = 4%nat /\
  encipher uni_id (ex_inst ex_keys) gx_msg [1; 2; 3] = (ex_inst ex_keys, gx_msg, Panic, [1; 2; 3]).
Proof.
  split; [reflexivity|]. split; [do 2 eexists; split; [vm_compute; reflexivity|reflexivity]|]. split; [vm_compute; reflexivity|].
  split; [vm_compute; reflexivity|]. exact (c143_encipher uni_id (ex_inst ex_keys) gx_msg [1; 2; 3] eq_refl).
Qed.

(** ** C144: EnrichWithKey prepares a message for Encipher, and leaves a message
    alone that has a key and ciphertext (its comment, cipher.go:483-489): both
    false. Encipher rejects the key because it is used, and EnrichWithKey
    rejects it in an enciphered message. *)
Theorem c144_prepared_refuted : exists i m i1 m1 t1, store_ok (i_groupsize i) (i_keys i) /\ mid m <> [] /\
  enrich uni_id i m [] = (i1, m1, Ok tt, t1) /\ (exists e, snd (fst (encipher uni_id i1 m1 [])) = Err e) /\
  snd (fst (encipher uni_id i m [])) = Ok tt.
Proof.
  exists (ex_inst ex_keys), (ex_msg txt_hello []). do 3 eexists. split; [exact ex_store|]. split; [discriminate|].
  split; [vm_compute; reflexivity|]. split; [eexists; vm_compute; reflexivity|]. vm_compute. reflexivity.
Qed.
Print Assumptions c144_prepared_refuted.
Theorem c144_left_alone_refuted : exists i m i1 m1 t1, store_ok (i_groupsize i) (i_keys i) /\
  encipher uni_id i m [] = (i1, m1, Ok tt, t1) /\ mkeyid m1 <> [] /\ mcipher m1 <> [] /\
  exists e, snd (fst (enrich uni_id i1 m1 [])) = Err e.
Proof.
  exists (ex_inst ex_keys), (ex_msg txt_hello []). do 3 eexists. split; [exact ex_store|].
  split; [vm_compute; reflexivity|]. split; [discriminate|]. split; [discriminate|]. eexists. vm_compute. reflexivity.
Qed.
Print Assumptions c144_left_alone_refuted.
(** No message for which EnrichWithKey chose the key can be enciphered, whatever
    text is put into it. *)
Theorem c144_stuck : forall U i m t i1 m1 t1, 0 < i_groupsize i -> NoDup (map kid (i_keys i)) -> mid m <> [] -> mkeyid m = [] ->
  enrich U i m t = (i1, m1, Ok tt, t1) ->
  forall p t2, exists e, encipher U i1 (set_mplain m1 p) t2 = (i1, set_mplain m1 p, Err e, t2).
Proof. exact enriched_stuck. Qed.
Print Assumptions c144_stuck.
Example c144_applied : exists i1 m1 t1, enrich uni_id (ex_inst ex_keys) (ex_msg txt_hello []) [] = (i1, m1, Ok tt, t1) /\
  exists e, encipher uni_id i1 (set_mplain m1 txt_other) [] = (i1, set_mplain m1 txt_other, Err e, []).
Proof.
  destruct (enrich uni_id (ex_inst ex_keys) (ex_msg txt_hello []) []) as [[[i1 m1] r] t1] eqn:E.
  assert (r = Ok tt) as -> by (apply (f_equal (fun x => snd (fst x))) in E; cbn [fst snd] in E; rewrite <- E; vm_compute; reflexivity).
  exists i1, m1, t1. split; [reflexivity|].
  exact (c144_stuck uni_id (ex_inst ex_keys) (ex_msg txt_hello []) [] i1 m1 t1 eq_refl (proj1 ex_store) ltac:(discriminate) eq_refl E txt_other []).
Qed.

(** ** C145: what EnrichWithKey does, exactly. *)
Theorem c145_enrich : forall U i m t i' m' r t', 0 < i_groupsize i -> NoDup (map kid (i_keys i)) -> mid m <> [] ->
  enrich U i m t = (i', m', r, t') -> t' = t /\
  ((r = Ok tt /\ mplain m <> [] /\ mkeyid m <> [] /\ i' = i /\ m' = m /\ len (mkeyid m) = i_groupsize i /\ free_named (i_keys i) (mkeyid m)) \/
   (r = Ok tt /\ mplain m <> [] /\ mkeyid m = [] /\ mcipher m = [] /\ exists j k, nth_error (i_keys i) j = Some k /\
      eligible (i_groupsize i) (mrecipients m) k /\
      (forall j' k', (j' < j)%nat -> nth_error (i_keys i) j' = Some k' -> ~ eligible (i_groupsize i) (mrecipients m) k') /\
      m' = set_mkeyid m (kid k) /\ i' = set_keys i (i_keys i') /\ marked_used [j] (i_keys i) (i_keys i')) \/
   ((exists e, r = Err e) /\ i' = i /\ m' = m /\
     (mplain m = [] \/ (mkeyid m <> [] /\ ~ (len (mkeyid m) = i_groupsize i /\ free_named (i_keys i) (mkeyid m))) \/
      (mkeyid m = [] /\ mcipher m <> []) \/
      (mkeyid m = [] /\ forall k, In k (i_keys i) -> ~ eligible (i_groupsize i) (mrecipients m) k)))).
Proof. exact enrich_lemma. Qed.
Print Assumptions c145_enrich.
(** All three cases occur. *)
Notation gx_enrich m := (enrich uni_id (ex_inst ex_keys) m []).
Example c145_nontrivial :
  snd (fst (gx_enrich (ex_msg txt_hello idC))) = Ok tt /\ mkeyid (snd (fst (fst (gx_enrich (ex_msg txt_hello []))))) = idA /\
  map kused (i_keys (fst (fst (fst (gx_enrich (ex_msg txt_hello [])))))) = [true; false; false; false] /\
  (exists e, snd (fst (gx_enrich (ex_msg [] idC))) = Err e) /\ (exists e, snd (fst (gx_enrich (ex_msg txt_hello [65]))) = Err e).
Proof.
  split; [vm_compute; reflexivity|]. split; [vm_compute; reflexivity|]. split; [vm_compute; reflexivity|].
  split; eexists; vm_compute; reflexivity.
Qed.
Example c145_applied : forall i' m' r t', gx_enrich (ex_msg txt_hello []) = (i', m', r, t') ->
  exists j k, nth_error ex_keys j = Some k /\ m' = ex_msg txt_hello (kid k) /\ marked_used [j] ex_keys (i_keys i').
Proof.
  intros i' m' r t' E.
  assert (r = Ok tt) as R by (apply (f_equal (fun x => snd (fst x))) in E; cbn [fst snd] in E; rewrite <- E; vm_compute; reflexivity).
  destruct (c145_enrich uni_id (ex_inst ex_keys) (ex_msg txt_hello []) [] i' m' r t' eq_refl (proj1 ex_store) ltac:(discriminate) E)
    as (_ & [(_ & _ & X & _)|[(_ & _ & _ & _ & j & k & A & _ & _ & B & _ & C)|((e & X) & _)]]); [elim X; reflexivity| |congruence].
  exists j, k. split; [exact A|]. split; [exact B|exact C].
Qed.

(** ** C146: a message is enciphered once: after Encipher succeeded with keys it
    chose itself it cannot be enciphered again, not even with another text. *)
Theorem c146_once : forall U, uni_ok U -> forall i m t i1 m1 t1, 0 < i_groupsize i -> store_ok (i_groupsize i) (i_keys i) -> mkeyid m = [] ->
  encipher U i m t = (i1, m1, Ok tt, t1) ->
  forall p t2, exists e, encipher U i1 (set_mplain m1 p) t2 = (i1, set_mplain m1 p, Err e, t2).
Proof. exact again_lemma. Qed.
Print Assumptions c146_once.
(** With a key named by the user it can, with the same key. *)
Theorem c146_named_refuted : exists i m i1 m1 t1 p i2 m2 t2, store_ok (i_groupsize i) (i_keys i) /\ mkeyid m <> [] /\
  encipher uni_id i m [] = (i1, m1, Ok tt, t1) /\ p <> mplain m /\
  encipher uni_id i1 (set_mplain m1 p) ex_tape = (i2, m2, Ok tt, t2) /\ mkeyid m2 = mkeyid m1 /\ mcipher m2 <> mcipher m1.
Proof.
  exists (ex_inst ex_keys), (ex_msg txt_hello idA). do 3 eexists. exists txt_other. do 3 eexists. split; [exact ex_store|]. split; [discriminate|].
  split; [vm_compute; reflexivity|]. split; [discriminate|]. split; [vm_compute; reflexivity|]. split; [reflexivity|]. vm_compute. discriminate.
Qed.
Print Assumptions c146_named_refuted.
Example c146_applied : exists i1 m1 t1, encipher uni_id (ex_inst ex_keys) (ex_msg txt_hello []) [] = (i1, m1, Ok tt, t1) /\
  exists e, encipher uni_id i1 (set_mplain m1 txt_other) ex_tape = (i1, set_mplain m1 txt_other, Err e, ex_tape).
Proof.
  destruct (encipher uni_id (ex_inst ex_keys) (ex_msg txt_hello []) []) as [[[i1 m1] r] t1] eqn:E.
  assert (r = Ok tt) as -> by (apply (f_equal (fun x => snd (fst x))) in E; cbn [fst snd] in E; rewrite <- E; vm_compute; reflexivity).
  exists i1, m1, t1. split; [reflexivity|].
  exact (c146_once uni_id uni_id_ok (ex_inst ex_keys) (ex_msg txt_hello []) [] i1 m1 t1 eq_refl ex_store eq_refl E txt_other ex_tape).
Qed.

(** ** C147: a message that could not be enciphered can be enciphered once there
    are keys: false. A failure may leave the first parts of the ciphertext in
    the message, and then every later attempt fails, with any keys; the key
    named by the user is forgotten, so a later attempt uses another one. *)
Theorem c147_later_refuted : exists i m i' m' e t', store_ok (i_groupsize i) (i_keys i) /\ mid m <> [] /\ mkeyid m = [] /\ mcipher m = [] /\
  encipher uni_id i m ex_tape = (i', m', Err e, t') /\
  snd (fst (encipher uni_id ex_inst350 m [])) = Ok tt /\
  forall U i2 t2, 0 < i_groupsize i2 -> exists e2, encipher U i2 m' t2 = (i2, m', Err e2, t2).
Proof.
  destruct (encipher uni_id (ex_inst ex_keys) (ex_msg (repeat 65 33 ++ repeat 65 30 ++ [49] ++ repeat 65 20) []) ex_tape) as [[[i' m'] r] t'] eqn:E.
  assert (r = Err ErrChunkKeyTooShort) as -> by (apply (f_equal (fun x => snd (fst x))) in E; cbn [fst snd] in E; rewrite <- E; vm_compute; reflexivity).
  exists (ex_inst ex_keys), (ex_msg (repeat 65 33 ++ repeat 65 30 ++ [49] ++ repeat 65 20) []), i', m', ErrChunkKeyTooShort, t'.
  split; [exact ex_store|]. split; [discriminate|]. split; [reflexivity|]. split; [reflexivity|]. split; [exact E|]. split; [vm_compute; reflexivity|].
  assert (m' = snd (fst (fst (encipher uni_id (ex_inst ex_keys) (ex_msg (repeat 65 33 ++ repeat 65 30 ++ [49] ++ repeat 65 20) []) ex_tape)))) as -> by (rewrite E; reflexivity).
  intros U i2 t2 G. apply stray_cipher; [exact G|vm_compute; discriminate|vm_compute; reflexivity|vm_compute; discriminate].
Qed.
Print Assumptions c147_later_refuted.
Theorem c147_named_refuted : exists i m i' m' e t' i2 i3 m3 t3, store_ok (i_groupsize i) (i_keys i) /\ mkeyid m = idB /\
  encipher uni_id i m ex_tape = (i', m', Err e, t') /\ i2 = set_keys i' (i_keys i' ++ [ex_key [70; 70; 70; 70; 70] 1 400 [callVQ]; ex_key [71; 70; 70; 70; 70] 1 400 [callVQ]]) /\
  encipher uni_id i2 m' ex_tape = (i3, m3, Ok tt, t3) /\ mkeyid m3 = idA.
Proof.
  exists (ex_inst ex_keys), (ex_msg (repeat 65 300) idB). do 3 eexists. exists (skipn 5 ex_tape). do 4 eexists. split; [exact ex_store|]. split; [reflexivity|].
  split; [vm_compute; reflexivity|]. split; [vm_compute; reflexivity|]. split; vm_compute; reflexivity.
Qed.
Print Assumptions c147_named_refuted.
(** The first half in general. *)
Theorem c147_stray_cipher : forall U i m t, 0 < i_groupsize i -> mid m <> [] -> mkeyid m = [] -> mcipher m <> [] ->
  exists e, encipher U i m t = (i, m, Err e, t).
Proof. exact stray_cipher. Qed.
Print Assumptions c147_stray_cipher.
(** What holds: if the key is left to Encipher and no ciphertext is left, store
    and message are as before, so a later attempt is as good as a first one. *)
Theorem c147_later_partial : forall U, uni_ok U -> forall i m t i' m' r t', 0 < i_groupsize i -> store_ok (i_groupsize i) (i_keys i) ->
  mid m <> [] -> mkeyid m = [] -> mcipher m = [] -> (forall k, In k (i_keys i) -> length (kid k) <= length t)%nat ->
  encipher U i m t = (i', m', r, t') -> r <> Ok tt -> i' = i /\ (mcipher m' = [] -> m' = m).
Proof. exact retry_lemma. Qed.
Print Assumptions c147_later_partial.
Example c147_applied : exists r t', encipher uni_id (ex_inst ex_keys) (ex_msg (repeat 65 300) []) ex_tape = (ex_inst ex_keys, ex_msg (repeat 65 300) [], r, t') /\ r <> Ok tt.
Proof.
  destruct (encipher uni_id (ex_inst ex_keys) (ex_msg (repeat 65 300) []) ex_tape) as [[[i' m'] r] t'] eqn:E.
  assert (r = Err ErrOutOfKeys /\ mcipher m' = []) as (-> & C).
  { split; [apply (f_equal (fun x => snd (fst x))) in E|apply (f_equal (fun x => mcipher (snd (fst (fst x))))) in E]; cbn [fst snd] in E; rewrite <- E; vm_compute; reflexivity. }
  destruct (c147_later_partial uni_id uni_id_ok (ex_inst ex_keys) (ex_msg (repeat 65 300) []) ex_tape i' m' (Err ErrOutOfKeys) t' eq_refl ex_store
    ltac:(discriminate) eq_refl eq_refl) as (-> & M); [|exact E|discriminate|].
  - intros k [<-|[<-|[<-|[<-|[]]]]]; vm_compute; repeat constructor.
  - rewrite (M C). do 2 eexists. split; [reflexivity|discriminate].
Qed.
