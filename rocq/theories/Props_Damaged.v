(** C142: enciphering when key text is damaged. *)
From Verif Require Import Base Spec Spec_Damaged Model_Unicode Model_Crand Model_Functions Model_Types Model_Cipher
  Proofs_Damaged Examples Props_Cipher Props_Garble.

(** Whatever the key text is, Encipher succeeds or returns an error; it panics
    only on a character in no code table; and if it does not succeed the store
    is as before. *)
Theorem c142_outcome : forall U, uni_ok U -> forall i m t i' m' r t', 0 < i_groupsize i ->
  ids_ok (i_groupsize i) (i_keys i) -> mid m <> [] ->
  encipher U i m t = (i', m', r, t') ->
  (r = Ok tt \/ (exists e, r = Err e) \/ r = Panic /\ exists c, In c (mplain m) /\ ~ accepted c) /\ (r <> Ok tt -> i' = i).
Proof. exact outcome_lemma. Qed.
Print Assumptions c142_outcome.
(** If it succeeds the ciphertext is letters, and all the key text that went
    into it is letters. *)
Theorem c142_sound : forall U, uni_ok U -> forall i m t i' m' t', 0 < i_groupsize i ->
  ids_ok (i_groupsize i) (i_keys i) -> mid m <> [] -> mcipher m = [] \/ (length (mcipher m) <= length t)%nat ->
  encipher U i m t = (i', m', Ok tt, t') ->
  letters (mcipher m') /\ mcipher m' <> [] /\
  exists pieces, mcipher m' = concat (map snd pieces) /\ Forall (fun x => made_with (i_keys i) (fst x) (snd x)) pieces.
Proof. exact sound_lemma. Qed.
Print Assumptions c142_sound.
(** It does not pass over a damaged key: while that key is the first that
    serves the recipients every attempt fails, and leaves it the first. *)
Theorem c142_stuck : forall U, uni_ok U -> forall i m t i' m' r t' j k c l, 0 < i_groupsize i ->
  ids_ok (i_groupsize i) (i_keys i) -> mid m <> [] -> mkeyid m = [] ->
  nth_error (i_keys i) j = Some k -> eligible (i_groupsize i) (mrecipients m) k ->
  (forall j' k', (j' < j)%nat -> nth_error (i_keys i) j' = Some k' -> ~ eligible (i_groupsize i) (mrecipients m) k') ->
  krunes k = c :: l -> ~ is_letter c ->
  encipher U i m t = (i', m', r, t') -> r <> Ok tt /\ i' = i.
Proof. exact stuck_lemma. Qed.
Print Assumptions c142_stuck.

(** The keys of the examples, the first with a small letter in front. *)
Definition dx_key : key := let k := ex_key idA 3 40 [callVQ] in
  mkKey (kid k) (97 :: krunes k) (kkeepers k) (kcreated k) (kexpires k) (kused k) (kcompromised k) (kcomment k).
Definition dx_keys : list key := dx_key :: skipn 1 ex_keys.
Lemma dx_ids : ids_ok 5 dx_keys.
Proof.
  destruct ex_store as (A & B). split; [exact A|]. intros k [<-|I]; [destruct (B (ex_key idA 3 40 [callVQ]) (or_introl eq_refl)) as (L & N & _); split; assumption|].
  destruct (B k (or_intror I)) as (L & N & _). split; assumption.
Qed.
Example c142_nontrivial : exists i' m' t', encipher uni_id (ex_inst dx_keys) (ex_msg hello []) ex_tape = (i', m', Err ErrOutOfRange, t') /\
  i' = ex_inst dx_keys /\ mcipher m' = [].
Proof.
  destruct (encipher uni_id (ex_inst dx_keys) (ex_msg hello []) ex_tape) as [[[i' m'] r] t'] eqn:E.
  pose proof (c142_stuck uni_id uni_id_ok (ex_inst dx_keys) (ex_msg hello []) ex_tape i' m' r t' 0%nat dx_key 97 (krunes (ex_key idA 3 40 [callVQ]))
    ltac:(vm_compute; reflexivity) dx_ids ltac:(discriminate) eq_refl eq_refl) as S1.
  assert (EL : eligible 5 [callVQ] dx_key).
  { split; [reflexivity|]. split; [reflexivity|]. intros x H. exact H. }
  destruct (S1 EL ltac:(intros j' k' L; lia) eq_refl ltac:(unfold is_letter; lia) E) as (_ & ->).
  assert (r = Err ErrOutOfRange) as -> by (apply (f_equal (fun x => snd (fst x))) in E; cbn [fst snd] in E; rewrite <- E; vm_compute; reflexivity).
  exists (ex_inst dx_keys), m', t'. split; [reflexivity|]. split; [reflexivity|].
  apply (f_equal (fun x => mcipher (snd (fst (fst x))))) in E. cbn [fst snd] in E. rewrite <- E. vm_compute. reflexivity.
Qed.
(** Another key for the same recipient would have served. *)
Example c142_other : exists i' m' t', encipher uni_id (ex_inst dx_keys) (ex_msg hello idB) ex_tape = (i', m', Ok tt, t') /\ letters (mcipher m') /\
  mcipher m' <> [].
Proof.
  destruct (encipher uni_id (ex_inst dx_keys) (ex_msg hello idB) ex_tape) as [[[i' m'] r] t'] eqn:E.
  assert (r = Ok tt) as -> by (apply (f_equal (fun x => snd (fst x))) in E; cbn [fst snd] in E; rewrite <- E; vm_compute; reflexivity).
  destruct (c142_sound uni_id uni_id_ok (ex_inst dx_keys) (ex_msg hello idB) ex_tape i' m' t'
    ltac:(vm_compute; reflexivity) dx_ids ltac:(discriminate) ltac:(left; reflexivity) E) as (L & N & _).
  exists i', m', t'. split; [reflexivity|]. split; assumption.
Qed.
