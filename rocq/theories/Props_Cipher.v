(** Properties C07-C17, C24, C25, C54: enciphering and deciphering messages. *)
From Verif Require Import Base Spec Model_Unicode Model_Diana Model_Codec Model_Crand
  Model_Functions Model_Types Model_Cipher Proofs_Diana Proofs_Codec Proofs_Keys Proofs_Encipher
  Proofs_Decipher Proofs_Read Proofs_Cipher Proofs_Enough Proofs_Cipher2 Examples.

Lemma ex_store : store_ok 5 ex_keys.
Proof. apply store_okb_ok. vm_compute. reflexivity. Qed.

(** The example message: txt_hello enciphered by OS for VQ. *)
Definition ex_result := encipher uni_id (ex_inst ex_keys) (ex_msg txt_hello []) [].
Definition ex_sent : msg := snd (fst (fst ex_result)).
Definition ex_long_result := encipher uni_id (ex_inst ex_keys) (ex_msg txt_primary []) [].
Definition ex_long : msg := snd (fst (fst ex_long_result)).

(** C07. [eligible]/[holds]: the receiver holds every unused key of the sender
    that is kept by all recipients, and the first key. *)
Theorem c07_roundtrip : forall U si m t si' m' t' ri mr tr, uni_ok U ->
  0 < i_groupsize si -> i_groupsize ri = i_groupsize si ->
  store_ok (i_groupsize si) (i_keys si) -> store_ok (i_groupsize si) (i_keys ri) ->
  (forall k, In k (i_keys si) -> eligible (i_groupsize si) (mrecipients m) k \/ kid k = mkeyid m' ->
     holds (i_keys ri) k) ->
  mcipher m = [] \/ (mid m <> [] /\ (length (mcipher m) <= length t)%nat) ->
  Forall supported (mplain m) ->
  encipher U si m t = (si', m', Ok tt, t') ->
  mkeyid mr = mkeyid m' -> mcipher mr = mcipher m' ->
  mid mr <> [] -> (length (mplain mr) <= length tr)%nat ->
  exists ri' mr' tr', decipher U ri mr tr = (ri', mr', Ok tt, tr') /\
    mr' = set_mplain mr (mplain m).
Proof. exact c07_roundtrip_lemma. Qed.
Print Assumptions c07_roundtrip.

(** Without restricting the text: dotless i and long s come back as i and s. *)
Theorem c07_roundtrip_any : forall U si m t si' m' t' ri mr tr, uni_ok U ->
  0 < i_groupsize si -> i_groupsize ri = i_groupsize si ->
  store_ok (i_groupsize si) (i_keys si) -> store_ok (i_groupsize si) (i_keys ri) ->
  (forall k, In k (i_keys si) -> eligible (i_groupsize si) (mrecipients m) k \/ kid k = mkeyid m' ->
     holds (i_keys ri) k) ->
  mcipher m = [] \/ (mid m <> [] /\ (length (mcipher m) <= length t)%nat) ->
  encipher U si m t = (si', m', Ok tt, t') ->
  mkeyid mr = mkeyid m' -> mcipher mr = mcipher m' ->
  mid mr <> [] -> (length (mplain mr) <= length tr)%nat ->
  exists ri' mr' tr', decipher U ri mr tr = (ri', mr', Ok tt, tr') /\
    mr' = set_mplain mr (map canon (mplain m)).
Proof. exact roundtrip. Qed.
Print Assumptions c07_roundtrip_any.

Example c07_nontrivial :
  snd (fst ex_result) = Ok tt /\ len (mcipher ex_sent) = 35 /\
  (exists ri' tr', decipher uni_id (ex_inst ex_keys)
     (ex_received (mkeyid ex_sent) (mcipher ex_sent)) [] =
     (ri', set_mplain (ex_received (mkeyid ex_sent) (mcipher ex_sent)) txt_hello, Ok tt, tr')).
Proof.
  split; [vm_compute; reflexivity|]. split; [vm_compute; reflexivity|].
  eexists. eexists. vm_compute. reflexivity.
Qed.

(** C08. *)
Theorem c08_ciphertext_shape : forall U i m t i' m' t', uni_ok U -> 0 < i_groupsize i ->
  store_ok (i_groupsize i) (i_keys i) ->
  mcipher m = [] \/ (mid m <> [] /\ (length (mcipher m) <= length t)%nat) ->
  encipher U i m t = (i', m', Ok tt, t') ->
  mcipher m' <> [] /\ letters (mcipher m') /\ (len (mcipher m')) mod (i_groupsize i) = 0.
Proof. exact c08_lemma. Qed.
Print Assumptions c08_ciphertext_shape.

Example c08_nontrivial : snd (fst ex_long_result) = Ok tt /\ len (mcipher ex_long) = 55 /\
  len (mplain ex_long) = 46.
Proof. vm_compute. repeat split; reflexivity. Qed.

(** C09. [message]: the parts of the ciphertext, the keys they are enciphered
    with and what they read (Spec.v). *)
Theorem c09_automatic_keys_one_time : forall U i m t i' m' t', uni_ok U -> 0 < i_groupsize i ->
  store_ok (i_groupsize i) (i_keys i) -> mkeyid m = [] ->
  encipher U i m t = (i', m', Ok tt, t') ->
  exists js, message (i_groupsize i) (i_keys i) js (map canon (mplain m)) (mcipher m') /\
    (exists j k, hd_error js = Some j /\ nth_error (i_keys i) j = Some k /\ mkeyid m' = kid k) /\
    NoDup js /\
    (forall j, In j js -> exists k, nth_error (i_keys i) j = Some k /\
       eligible (i_groupsize i) (mrecipients m) k) /\
    marked_used js (i_keys i) (i_keys i') /\ i' = set_keys i (i_keys i').
Proof. exact c09_lemma. Qed.
Print Assumptions c09_automatic_keys_one_time.

Example c09_nontrivial :
  map kused (i_keys (fst (fst (fst ex_long_result)))) = [true; true; false; false].
Proof. vm_compute. reflexivity. Qed.

(** C10 is false: the key named by the sender is not marked used, the next
    message is enciphered with it again; even a second part of the same message
    is (one 40-letter key, 55 letters of ciphertext). *)
Theorem c10_explicit_key_one_time_refuted : exists i m1 m2 i1 m1' t1 i2 m2' t2,
  store_ok (i_groupsize i) (i_keys i) /\ mkeyid m1 <> [] /\ mplain m1 <> mplain m2 /\
  encipher uni_id i m1 [] = (i1, m1', Ok tt, t1) /\
  encipher uni_id i1 m2 [] = (i2, m2', Ok tt, t2) /\
  mkeyid m2 = [] /\ mkeyid m2' = mkeyid m1'.
Proof.
  exists (ex_inst ex_keys), (ex_msg txt_hello idA), (ex_msg txt_other []).
  do 6 eexists. split; [exact ex_store|]. split; [discriminate|]. split; [discriminate|].
  split; [vm_compute; reflexivity|]. split; [vm_compute; reflexivity|].
  split; reflexivity.
Qed.
Print Assumptions c10_explicit_key_one_time_refuted.

Theorem c10_same_message_refuted : exists i k m i' m' t',
  i_keys i = [k] /\ store_ok (i_groupsize i) [k] /\ mkeyid m = kid k /\
  encipher uni_id i m [] = (i', m', Ok tt, t') /\
  len (krunes k) < len (mcipher m').
Proof.
  exists (ex_inst [ex_key idA 3 40 [callVQ]]), (ex_key idA 3 40 [callVQ]), (ex_msg txt_primary idA).
  do 3 eexists. split; [reflexivity|]. split; [apply store_okb_ok; vm_compute; reflexivity|].
  split; [reflexivity|]. split; [vm_compute; reflexivity|]. vm_compute. reflexivity.
Qed.
Print Assumptions c10_same_message_refuted.

(** What holds: the key was unused; all further keys are distinct, were unused
    and are marked used. Missing: the first key is marked used. *)
Theorem c10_explicit_key_partial : forall U i m t i' m' t', uni_ok U -> 0 < i_groupsize i ->
  store_ok (i_groupsize i) (i_keys i) -> mkeyid m <> [] ->
  mcipher m = [] \/ (mid m <> [] /\ (length (mcipher m) <= length t)%nat) ->
  encipher U i m t = (i', m', Ok tt, t') ->
  exists j js k, message (i_groupsize i) (i_keys i) (j :: js) (map canon (mplain m)) (mcipher m') /\
    nth_error (i_keys i) j = Some k /\ kid k = mkeyid m /\ mkeyid m' = mkeyid m /\
    kused k = false /\ kcompromised k = false /\ NoDup js /\
    (forall x, In x js -> exists k, nth_error (i_keys i) x = Some k /\
       eligible (i_groupsize i) (mrecipients m) k) /\
    marked_used js (i_keys i) (i_keys i') /\ i' = set_keys i (i_keys i').
Proof. exact c10_lemma. Qed.
Print Assumptions c10_explicit_key_partial.

Example c10_nontrivial : exists i' m' t',
  encipher uni_id (ex_inst ex_keys) (ex_msg txt_long idB) [] = (i', m', Ok tt, t') /\
  map kused (i_keys i') = [true; false; false; false].
Proof. do 3 eexists. split; [vm_compute; reflexivity|]. reflexivity. Qed.

(** C11 is false: an automatically chosen key may be compromised. *)
Theorem c11_compromised_refuted : exists i k m i' m' t',
  i_keys i = [k] /\ store_ok (i_groupsize i) [k] /\ kcompromised k = true /\
  encipher uni_id i m [] = (i', m', Ok tt, t') /\ mkeyid m' = kid k.
Proof.
  pose (k := mkKey idA (ex_runes 3 40) [callVQ] 0 0 false true []).
  exists (ex_inst [k]), k, (ex_msg txt_other []).
  do 3 eexists. split; [reflexivity|]. split; [apply store_okb_ok; vm_compute; reflexivity|].
  split; [reflexivity|]. split; [vm_compute; reflexivity|]. reflexivity.
Qed.
Print Assumptions c11_compromised_refuted.

(** Only a key named by the sender is checked. Missing: automatically chosen
    and further keys. *)
Theorem c11_compromised_partial : forall U i m t i' m' t', uni_ok U -> 0 < i_groupsize i ->
  store_ok (i_groupsize i) (i_keys i) -> mkeyid m <> [] ->
  encipher U i m t = (i', m', Ok tt, t') ->
  exists k, In k (i_keys i) /\ kid k = mkeyid m /\ mkeyid m' = mkeyid m /\
    kcompromised k = false /\ kused k = false.
Proof. exact c11_lemma. Qed.
Print Assumptions c11_compromised_partial.

(** C12. Whatever the failure (error or panic), the instance is unchanged. *)
Theorem c12_failed_encipher_releases_keys_partial : forall U i m t i' m' r t', uni_ok U ->
  0 < i_groupsize i -> store_ok (i_groupsize i) (i_keys i) ->
  encipher U i m t = (i', m', r, t') -> r <> Ok tt -> i' = i.
Proof. exact (fun U i m t i' m' r t' HU => encipher_fail U HU i m t i' m' r t'). Qed.
Print Assumptions c12_failed_encipher_releases_keys_partial.

(** The rest of C12 is false: the first parts of the ciphertext stay in the
    message although their keys have been released. (The missing part; that the
    ID of the released key may be destroyed is c12_key_id_refuted.) *)
Definition ex_boundary : list rune := repeat 65 30 ++ [49] ++ repeat 65 40.
Theorem c12_partial_ciphertext_refuted : exists i m i' m' e t',
  store_ok (i_groupsize i) (i_keys i) /\ mcipher m = [] /\
  encipher uni_id i m [] = (i', m', Err e, t') /\ i' = i /\ mcipher m' <> [].
Proof.
  exists (ex_inst ex_keys), (ex_msg (repeat 65 33 ++ repeat 65 30 ++ [49] ++ repeat 65 20) []).
  do 4 eexists. split; [exact ex_store|]. split; [reflexivity|]. split; [vm_compute; reflexivity|].
  split; [reflexivity|discriminate].
Qed.
Print Assumptions c12_partial_ciphertext_refuted.

Example c12_nontrivial : exists i' m' t',
  encipher uni_id (ex_inst ex_keys) (ex_msg (repeat 65 300) []) ex_tape
    = (i', m', Err ErrOutOfKeys, t') /\ mkeyid m' = [].
Proof. do 3 eexists. split; [vm_compute; reflexivity|]. reflexivity. Qed.

(** C13 is false, with the default sizes (groups of 5, 350-letter keys) and
    nothing but letters, a space and a digit: a change of table just before the
    key is full leaves no room for the key change. *)
Definition ex_keys350 : list key :=
  [ex_key idA 3 350 [callVQ]; ex_key idB 5 350 [callVQ]; ex_key idC 11 350 [callVQ]].
Definition ex_inst350 : inst := mkInst 5 350 110 80 ex_keys350 [] callOS.
Theorem c13_enough_keys_refuted : exists i m i' m' t',
  store_ok (i_groupsize i) (i_keys i) /\ Forall supported (mplain m) /\
  i_groupsize i = 5 /\ (forall k, In k (i_keys i) -> eligible 5 (mrecipients m) k /\ len (krunes k) = 350) /\
  len (i_keys i) = 3 /\ len (mplain m) = 343 /\
  encipher uni_id i m [] = (i', m', Err ErrChunkKeyTooShort, t').
Proof.
  exists ex_inst350, (ex_msg (repeat 65 340 ++ [49; 65; 65]) []). do 3 eexists.
  split; [apply store_okb_ok; vm_compute; reflexivity|]. split.
  { apply Forall_forall. intros c Hc. cbn [mplain ex_msg] in Hc. apply in_app_iff in Hc.
    left. destruct Hc as [Hc|Hc].
    - apply repeat_spec in Hc. subst c. left. lia.
    - cbn in Hc. destruct Hc as [<-|[<-|[<-|[]]]]; [right; left; lia|left; lia|left; lia]. }
  split; [reflexivity|]. split.
  { intros k [<-|[<-|[<-|[]]]]; (split; [split; [reflexivity|split; [reflexivity|]]|vm_compute; reflexivity]);
    (intros x Hx; exact Hx). }
  split; [reflexivity|]. split; [reflexivity|]. vm_compute. reflexivity.
Qed.
Print Assumptions c13_enough_keys_refuted.

(** Short texts: one character needs at most four code letters, so a text that
    surely fits one key always succeeds (86 characters with the defaults). *)
Theorem c13_one_key_partial : forall U i m t KL, uni_ok U -> 0 < i_groupsize i ->
  store_ok (i_groupsize i) (i_keys i) -> mid m <> [] -> mkeyid m = [] -> mcipher m = [] ->
  mplain m <> [] -> Forall supported (mplain m) ->
  (exists k, In k (i_keys i) /\ eligible (i_groupsize i) (mrecipients m) k) ->
  (forall k, In k (i_keys i) -> eligible (i_groupsize i) (mrecipients m) k -> KL <= len (krunes k)) ->
  4 * (len (mplain m) - 1) < KL - i_groupsize i - 2 ->
  exists i' m' t', encipher U i m t = (i', m', Ok tt, t').
Proof. exact c13_one_key_lemma. Qed.
Print Assumptions c13_one_key_partial.

(** Texts of any length in capitals and spaces (no Q, no Z): as many keys as
    the text fills are enough. Missing: texts that change table or case near the
    end of a key. *)
Theorem c13_primary_text_partial : forall U i m t KL js, uni_ok U ->
  0 < i_groupsize i -> i_groupsize i + 2 < KL ->
  store_ok (i_groupsize i) (i_keys i) -> mid m <> [] -> mkeyid m = [] -> mcipher m = [] ->
  mplain m <> [] -> Forall (fun c => In c primary_chars) (mplain m) ->
  (forall k, In k (i_keys i) -> eligible (i_groupsize i) (mrecipients m) k -> len (krunes k) = KL) ->
  NoDup js ->
  (forall j, In j js -> exists k, nth_error (i_keys i) j = Some k /\ eligible (i_groupsize i) (mrecipients m) k) ->
  len (mplain m) <= len js * (KL - i_groupsize i - 2) ->
  exists i' m' t', encipher U i m t = (i', m', Ok tt, t').
Proof. exact (fun U i m t KL js HU => encipher_primary U HU i m t KL js). Qed.
Print Assumptions c13_primary_text_partial.

(** The only ways an automatic Encipher can fail. *)
Theorem c13_failures : forall U i m t i' m' r t', uni_ok U -> 0 < i_groupsize i ->
  store_ok (i_groupsize i) (i_keys i) -> mid m <> [] -> mkeyid m = [] -> mcipher m = [] ->
  mplain m <> [] -> encipher U i m t = (i', m', r, t') ->
  r = Ok tt /\ Forall accepted (mplain m) \/
  r = Panic /\ (exists c, In c (mplain m) /\ ~ accepted c) \/
  r = Err ErrNoEligibleKey /\ (forall k, In k (i_keys i) -> ~ eligible (i_groupsize i) (mrecipients m) k) \/
  r = Err ErrOutOfKeys \/ r = Err ErrChunkKeyTooShort /\ Forall accepted (mplain m).
Proof. exact (fun U i m t i' m' r t' HU => encipher_failures U HU i m t i' m' r t'). Qed.
Print Assumptions c13_failures.

Example c13_nontrivial :
  Forall (fun c => In c primary_chars) txt_primary /\ len txt_primary = 46 /\
  2 * (40 - 5 - 2) = 66.
Proof.
  split; [|split; reflexivity]. apply Forall_forall.
  assert (G : forallb (fun c => existsb (Z.eqb c) primary_chars) txt_primary = true) by (vm_compute; reflexivity).
  rewrite forallb_forall in G. intros c Hc. specialize (G c Hc). apply existsb_exists in G.
  destruct G as (x & Hx & E). apply Z.eqb_eq in E. subst x. exact Hx.
Qed.

(** C14 is false: it panics. *)
Theorem c14_unsupported_refuted : exists i m i' m' t',
  store_ok (i_groupsize i) (i_keys i) /\ In 33 (mplain m) /\
  encipher uni_id i m [] = (i', m', Panic, t').
Proof.
  exists (ex_inst ex_keys), (ex_msg txt_bad []). do 3 eexists. split; [exact ex_store|].
  split; [cbn; auto 10|]. vm_compute. reflexivity.
Qed.
Print Assumptions c14_unsupported_refuted.

(** What holds: it never succeeds and the keys are as before. Missing: an error
    instead of a panic, the message unchanged. *)
Theorem c14_unsupported_partial : forall U i m t i' m' r t' c, uni_ok U ->
  0 < i_groupsize i -> store_ok (i_groupsize i) (i_keys i) ->
  In c (mplain m) -> ~ accepted c -> encipher U i m t = (i', m', r, t') ->
  r <> Ok tt /\ i' = i.
Proof. exact c14_lemma. Qed.
Print Assumptions c14_unsupported_partial.

Example c14_nontrivial : In 33 txt_bad /\ ~ accepted 33.
Proof.
  split; [cbn; auto 10|]. rewrite <- acceptedb_ok. vm_compute. discriminate.
Qed.

(** C15. Any message that has an ID (otherwise one is drawn first, which needs
    a random source), any store. *)
Theorem c15_decipher_total : forall U i m t i' m' r t', mid m <> [] ->
  decipher U i m t = (i', m', r, t') ->
  (r = Ok tt \/ exists e, r = Err e) /\ (r <> Ok tt -> i' = i) /\
  (exists p, m' = set_mplain m p).
Proof. exact decipher_total. Qed.
Print Assumptions c15_decipher_total.

(** On success the ciphertext is a message for the store, the text is what it
    reads and exactly its keys become used. *)
Theorem c15_decipher_sound : forall U i m t i' m' t', 0 < i_groupsize i ->
  store_ok (i_groupsize i) (i_keys i) -> letters (mkeyid m) -> mid m <> [] ->
  (length (mplain m) <= length t)%nat ->
  decipher U i m t = (i', m', Ok tt, t') ->
  exists j js k p, nth_error (i_keys i) j = Some k /\ kid k = mkeyid m /\
    message (i_groupsize i) (i_keys i) (j :: js) p (mcipher m) /\
    m' = set_mplain m p /\ i' = set_keys i (i_keys i') /\ marked_used (j :: js) (i_keys i) (i_keys i').
Proof. exact decipher_refines. Qed.
Print Assumptions c15_decipher_sound.

(** Every message for the store is deciphered. *)
Theorem c15_decipher_complete : forall U i m t j js k p, 0 < i_groupsize i ->
  store_ok (i_groupsize i) (i_keys i) -> mid m <> [] -> (length (mplain m) <= length t)%nat ->
  nth_error (i_keys i) j = Some k -> kid k = mkeyid m ->
  i_groupsize i <= len (mcipher m) ->
  message (i_groupsize i) (i_keys i) (j :: js) p (mcipher m) ->
  exists i' t', decipher U i m t = (i', set_mplain m p, Ok tt, t') /\
    i' = set_keys i (i_keys i') /\ marked_used (j :: js) (i_keys i) (i_keys i').
Proof. exact decipher_complete. Qed.
Print Assumptions c15_decipher_complete.

Example c15_nontrivial : exists i' m' t',
  decipher uni_id (ex_inst ex_keys) (ex_received idA (mcipher ex_long)) [] = (i', m', Ok tt, t') /\
  map kused (i_keys i') = [true; true; false; false] /\ mplain m' = txt_primary.
Proof. do 3 eexists. split; [vm_compute; reflexivity|]. split; reflexivity. Qed.

Example c15_nontrivial_error : exists m' e t',
  decipher uni_id (ex_inst ex_keys) (ex_received idB (mcipher ex_long)) []
    = (ex_inst ex_keys, m', Err e, t').
Proof. do 3 eexists. vm_compute. reflexivity. Qed.

(** C16. The random source must yield enough for wiping the old text and the
    key ID, see c16_random_source_refuted. *)
Theorem c16_try_decipher_transactional : forall U i m d t i' m' r t',
  mid m <> [] -> 0 <= i_groupsize i ->
  (forall k, In k (i_keys i) -> length (mplain m) + length (kid k) <= length t)%nat ->
  try_decipher U i m d t = (i', m', r, t') ->
  (r = Ok tt \/ exists e, r = Err e) /\
  (r <> Ok tt \/ d = true -> i' = i /\ m' = m) /\
  (r = Ok tt -> d = false ->
     let ft := map (to_upper U) (filter (fun c => negb (is_space U c || (c =? 61))) (mplain m)) in
     letters ft /\ 2 * i_groupsize i <= len ft /\ mkeyid m = [] /\
     exists k, In k (i_keys i) /\
       go_string (kid k) = key_query U (firstn (Z.to_nat (i_groupsize i)) ft) /\
       decipher U i (set_mcipher (set_mkeyid m (kid k)) (skipn (Z.to_nat (i_groupsize i)) ft)) t
         = (i', m', Ok tt, t')).
Proof. exact c16_lemma. Qed.
Print Assumptions c16_try_decipher_transactional.

(** Without any assumption on the random source the texts and keys are still
    restored. *)
Theorem c16_try_decipher_restores : forall U i m d t i' m' r t',
  mid m <> [] -> 0 <= i_groupsize i -> try_decipher U i m d t = (i', m', r, t') -> r <> Ok tt ->
  i' = i /\ mplain m' = mplain m /\ mcipher m' = mcipher m.
Proof. exact c16_restore_lemma. Qed.
Print Assumptions c16_try_decipher_restores.

(** With a failing random source the key ID of a failed attempt stays. *)
Theorem c16_random_source_refuted : exists i m i' m' e t',
  store_ok (i_groupsize i) (i_keys i) /\ mkeyid m = [] /\
  try_decipher uni_id i m false [] = (i', m', Err e, t') /\ mkeyid m' <> [].
Proof.
  exists (ex_inst ex_keys), (mkMsg mid2 [] [] 0 [] (idA ++ repeat 65 60) [] [] []).
  do 4 eexists. split; [exact ex_store|]. split; [reflexivity|].
  split; [vm_compute; reflexivity|]. discriminate.
Qed.
Print Assumptions c16_random_source_refuted.

Example c16_nontrivial : exists m' e t',
  try_decipher uni_id (ex_inst ex_keys) (mkMsg mid2 [] [] 0 [] (idA ++ repeat 65 60) [] [] []) false
    (ex_tape ++ ex_tape) = (ex_inst ex_keys, m', Err e, t') /\ mkeyid m' = [].
Proof. do 3 eexists. split; [vm_compute; reflexivity|]. reflexivity. Qed.

(** C17. *)
Theorem c17_any_layout : forall U si m t si' m' t' ri mr tr, uni_ok U ->
  0 < i_groupsize si -> i_groupsize ri = i_groupsize si ->
  store_ok (i_groupsize si) (i_keys si) -> store_ok (i_groupsize si) (i_keys ri) ->
  (forall k, In k (i_keys si) -> eligible (i_groupsize si) (mrecipients m) k \/ kid k = mkeyid m' ->
     holds (i_keys ri) k) ->
  mcipher m = [] \/ (mid m <> [] /\ (length (mcipher m) <= length t)%nat) ->
  encipher U si m t = (si', m', Ok tt, t') ->
  layout (mplain mr) (mkeyid m' ++ mcipher m') -> mkeyid mr = [] ->
  mid mr <> [] -> (length (mplain mr) <= length tr)%nat ->
  exists ri' mr' tr', try_decipher U ri mr false tr = (ri', mr', Ok tt, tr') /\
    mplain mr' = map canon (mplain m) /\ mkeyid mr' = mkeyid m' /\ mcipher mr' = mcipher m'.
Proof. exact (fun U si m t si' m' t' ri mr tr HU => try_decipher_layout U HU si m t si' m' t' ri mr tr). Qed.
Print Assumptions c17_any_layout.

Example c17_nontrivial : forall a b c, is_letter a -> is_letter b -> is_letter c ->
  layout [32; a + 32; 10; b; 61; c; 61] [a; b; c].
Proof.
  intros a b c Ha Hb Hc.
  apply layout_sep; [cbn; auto 20|]. apply layout_letter; [exact Ha|right; reflexivity|].
  apply layout_sep; [cbn; auto 20|]. apply layout_letter; [exact Hb|left; reflexivity|].
  apply layout_sep; [cbn; auto 20|]. apply layout_letter; [exact Hc|left; reflexivity|].
  apply layout_sep; [cbn; auto 20|]. apply layout_nil.
Qed.

Example c17_nontrivial_run : exists i' m' t',
  try_decipher uni_id (ex_inst ex_keys)
    (mkMsg mid2 [] [] 0 []
       (mkeyid ex_sent ++ [10] ++ flat_map (fun c => [c; 32]) (mcipher ex_sent) ++ [61]) [] [] [])
    false (repeat 7 100) = (i', m', Ok tt, t') /\ mplain m' = txt_hello.
Proof. do 3 eexists. split; [vm_compute; reflexivity|]. reflexivity. Qed.

(** C24. *)
Theorem c24_find_key : forall U gs recips ks,
  match find_key U gs recips ks with
  | Some j => exists k, nth_error ks j = Some k /\ eligible gs recips k /\
      forall j' k', (j' < j)%nat -> nth_error ks j' = Some k' -> ~ eligible gs recips k'
  | None => forall k, In k ks -> ~ eligible gs recips k
  end.
Proof. exact c24_lemma. Qed.
Print Assumptions c24_find_key.

Example c24_nontrivial : find_key uni_id 5 [] ex_keys = Some 3%nat /\
  find_key uni_id 5 [callVQ] ex_keys = Some 0%nat /\ find_key uni_id 5 [callOS] ex_keys = None.
Proof. vm_compute. repeat split; reflexivity. Qed.

(** C25. *)
Theorem c25_get_key : forall U gs ks id q j k, store_ok gs ks -> letters id -> query_for id q ->
  (get_key U q ks = Some j /\ nth_error ks j = Some k -> kid k = id) /\
  (nth_error ks j = Some k -> kid k = id -> get_key U q ks = Some j) /\
  (get_key U q ks = None <-> ~ exists k, In k ks /\ kid k = id).
Proof. exact get_key_query. Qed.
Print Assumptions c25_get_key.

Theorem c25_mark_key_used : forall U gs ks id q b, store_ok gs ks -> letters id -> query_for id q ->
  forall ks' r, mark_key_used U q b ks = (ks', r) ->
  (r = Ok tt <-> exists k, In k ks /\ kid k = id) /\
  (r <> Ok tt -> ks' = ks) /\
  forall j, nth_error ks' j = option_map (fun k =>
    if runes_eqb (kid k) id then set_used k b else k) (nth_error ks j).
Proof. exact mark_key_used_query. Qed.
Print Assumptions c25_mark_key_used.

Example c25_nontrivial : query_for idB ([32; 10] ++ [98; 82; 97; 86; 111] ++ [9]) /\
  get_key uni_id [32; 10; 98; 82; 97; 86; 111; 9] ex_keys = Some 1%nat.
Proof.
  split; [|vm_compute; reflexivity]. exists [32; 10], [98; 82; 97; 86; 111], [9].
  split; [reflexivity|]. split; [repeat (apply Forall_cons; [unfold white; cbn; auto 10|]); apply Forall_nil|].
  split; [repeat (apply Forall_cons; [unfold white; cbn; auto 10|]); apply Forall_nil|].
  repeat (apply Forall2_cons; [lia|]). apply Forall2_nil.
Qed.

(** C54. *)
Theorem c54_parts_independent : forall U i m1 m2 t1 t2 k s p j' k' i2' m2' t2',
  0 < i_groupsize i -> store_ok (i_groupsize i) (i_keys i) ->
  mid m1 <> [] -> mid m2 <> [] ->
  (length (mplain m1) <= length t1)%nat -> (length (mplain m2) <= length t2)%nat ->
  In k (i_keys i) -> letters s -> (length s <= length (krunes k))%nat ->
  nth_error (i_keys i) j' = Some k' -> read_part false false s = Some (p, Some (kid k')) ->
  mkeyid m1 = kid k -> mkeyid m2 = kid k' ->
  mcipher m1 = diana_text (krunes k) s ++ mcipher m2 ->
  decipher U i m2 t2 = (i2', m2', Ok tt, t2') ->
  exists i1' t1', decipher U i m1 t1 = (i1', set_mplain m1 (p ++ mplain m2'), Ok tt, t1').
Proof. exact decipher_concat. Qed.
Print Assumptions c54_parts_independent.

Theorem c54_padding_adds_nothing : forall U i m1 m2 t1 t2 k s n p,
  0 < i_groupsize i -> store_ok (i_groupsize i) (i_keys i) ->
  mid m1 <> [] -> mid m2 <> [] ->
  (length (mplain m1) <= length t1)%nat -> (length (mplain m2) <= length t2)%nat ->
  In k (i_keys i) -> letters s -> (length s + n <= length (krunes k))%nat ->
  i_groupsize i <= len s ->
  read_part false false (s ++ repeat 90 n) = Some (p, None) ->
  mkeyid m1 = kid k -> mkeyid m2 = kid k ->
  mcipher m1 = diana_text (krunes k) s ->
  mcipher m2 = diana_text (krunes k) (s ++ repeat 90 n) ->
  exists i1' t1' i2' t2', decipher U i m1 t1 = (i1', set_mplain m1 p, Ok tt, t1') /\
    decipher U i m2 t2 = (i2', set_mplain m2 p, Ok tt, t2').
Proof. exact decipher_padding. Qed.
Print Assumptions c54_padding_adds_nothing.

(** "hI", lower case left on, then a key change to BRAVO; next part "NO". *)
Example c54_nontrivial :
  read_part false false ([90;88;90;72] ++ [90;88;90;73] ++ [90;88;90;72] ++ [90;89] ++ idB)
    = Some ([104; 73; 104], Some idB).
Proof. vm_compute. reflexivity. Qed.
