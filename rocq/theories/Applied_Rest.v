(** Applications of the theorems on printed messages, on damaged keys and on
    goroutines to concrete messages. *)
From Verif Require Import Base Spec Spec_Body Spec_Damaged Spec_Concurrent Model_Unicode Model_Crand Model_Functions Model_Types Model_Cipher
  Model_Print Model_Body Model_Concurrent Examples Props_Cipher Props_Garble Props_Body Props_Damaged Props_Again Props_Concurrent Props_Messages.

(** C138: the print of an enciphered HELLO has two groups. *)
Example c138_sent_applied : exists i' m' t' groups cipher,
  encipher uni_id (ex_inst ex_keys) (ex_msg hello []) [] = (i', m', Ok tt, t') /\
  broken (mkeyid m' :: groups) cipher /\ concat groups = mcipher m' /\ Forall (fun g => len g = 5) groups /\
  exists before after, message_string uni_id (fun _ => [68]) each_line (fun s => s) [10] hello_head 5 m' = before ++ section [10] CIPHER cipher ++ after.
Proof.
  destruct (encipher uni_id (ex_inst ex_keys) (ex_msg hello []) []) as [[[i' m'] r] t'] eqn:E.
  assert (r = Ok tt) as -> by (apply (f_equal (fun x => snd (fst x))) in E; cbn [fst snd] in E; rewrite <- E; vm_compute; reflexivity).
  destruct c138_conditions as (W & _ & R & F).
  destruct (c138_sent uni_id uni_id_kelvin uni_id_ok (fun _ => [68]) each_line (fun s => s) [10] hello_head (ex_inst ex_keys) (ex_msg hello []) []
    i' m' t' eq_refl ex_store (or_introl eq_refl) E R F W) as (groups & count & cipher & S & B & _ & C & L & _).
  exists i', m', t', groups, cipher. split; [reflexivity|]. split; [exact B|]. split; [exact C|]. split; [exact L|].
  do 2 eexists. rewrite app_assoc in S. exact S.
Qed.
(** The receiver has all the keys and types what stands under =CIPHER=. *)
Example c138_read_applied : exists i' m' t' cipher rest,
  encipher uni_id (ex_inst ex_keys) (ex_msg hello []) [] = (i', m', Ok tt, t') /\
  message_string uni_id (fun _ => [68]) each_line (fun s => s) [10] hello_head 5 m' =
    hello_head m' ++ part [10] TEXT (each_line (go_string hello)) ++ section [10] CIPHER cipher ++ rest /\
  layout cipher (mkeyid m' ++ mcipher m') /\
  exists ri' mr' tr', try_decipher uni_id (ex_inst ex_keys) (set_mplain (ex_received [] []) cipher) false (repeat 7 (length cipher)) =
      (ri', mr', Ok tt, tr') /\ mplain mr' = hello.
Proof.
  destruct (encipher uni_id (ex_inst ex_keys) (ex_msg hello []) []) as [[[i' m'] r] t'] eqn:E.
  assert (r = Ok tt) as -> by (apply (f_equal (fun x => snd (fst x))) in E; cbn [fst snd] in E; rewrite <- E; vm_compute; reflexivity).
  destruct c138_conditions as (W & _ & R & F).
  destruct (c138_read uni_id uni_id_kelvin uni_id_ok (fun _ => [68]) each_line (fun s => s) [10] hello_head (ex_inst ex_keys)
    (ex_msg hello []) [] i' m' t' eq_refl ex_store (or_introl eq_refl) E R F W) as (cipher & rest & S & Y & K).
  exists i', m', t', cipher, rest. split; [reflexivity|]. split; [exact S|]. split; [exact Y|].
  destruct (K (ex_inst ex_keys) (set_mplain (ex_received [] []) cipher) (repeat 7 (length cipher)) eq_refl ex_store) as (ri' & mr' & tr' & A & B & _).
  - intros k I _. exists k. split; [exact I|split; reflexivity].
  - reflexivity.
  - reflexivity.
  - discriminate.
  - rewrite repeat_length. apply le_n.
  - exists ri', mr', tr'. split; [exact A|exact B].
Qed.

(** C142: a character in no code table, and a damaged key. *)
Example c142_outcome_applied : forall i' m' r t', encipher uni_id (ex_inst dx_keys) (ex_msg [72; 1] idB) ex_tape = (i', m', r, t') ->
  r <> Ok tt /\ i' = ex_inst dx_keys.
Proof.
  intros i' m' r t' E.
  assert (r <> Ok tt) as N.
  { apply (f_equal (fun x => snd (fst x))) in E. cbn [fst snd] in E. rewrite <- E. vm_compute. discriminate. }
  split; [exact N|].
  exact (proj2 (c142_outcome uni_id uni_id_ok (ex_inst dx_keys) (ex_msg [72; 1] idB) ex_tape i' m' r t' eq_refl dx_ids ltac:(discriminate) E) N).
Qed.

(** C147: ciphertext without a key. *)
Example c147_stray_cipher_applied : exists e, encipher uni_id (ex_inst ex_keys) (mkMsg mid1 [callVQ] callOS 0 [] hello [] [65] []) ex_tape =
  (ex_inst ex_keys, mkMsg mid1 [callVQ] callOS 0 [] hello [] [65] [], Err e, ex_tape).
Proof. apply c147_stray_cipher; [reflexivity|discriminate|reflexivity|discriminate]. Qed.

(** C97: three goroutines, the first of which fails; the two others use
    different keys. *)
Example c97_different_keys_applied : exists m1 t1 m2 t2 j1 j2 k1 k2,
  let y := co_run [0; 0; 1; 1; 0; 0; 2; 2]%nat [co_bad; co_hi; co_no] in
  returned y 1 m1 (Ok tt) t1 /\ returned y 2 m2 (Ok tt) t2 /\
  nth_error ex_keys j1 = Some k1 /\ mkeyid m1 = kid k1 /\ nth_error ex_keys j2 = Some k2 /\ mkeyid m2 = kid k2 /\ j1 <> j2.
Proof.
  assert (Q : exists m1 t1 m2 t2, co_out (co_run [0; 0; 1; 1; 0; 0; 2; 2]%nat [co_bad; co_hi; co_no]) 1 = Some (m1, Ok tt, t1) /\
    co_out (co_run [0; 0; 1; 1; 0; 0; 2; 2]%nat [co_bad; co_hi; co_no]) 2 = Some (m2, Ok tt, t2)).
  { do 4 eexists. split; vm_compute; reflexivity. }
  destruct Q as (m1 & t1 & m2 & t2 & Q1 & Q2). apply co_returned in Q1. apply co_returned in Q2.
  destruct (c97_different_keys uni_id co_inst [co_bad; co_hi; co_no] [0; 0; 1; 1; 0; 0; 2; 2]%nat uni_id_ok eq_refl ex_store) as (taken & D & T).
  - intros c [<-|[<-|[<-|[]]]]; reflexivity.
  - exact (proj1 c97_nontrivial).
  - destruct (T 1%nat _ _ m1 t1 eq_refl Q1) as (_ & (j1 & k1 & H1 & N1 & I1) & _).
    destruct (T 2%nat _ _ m2 t2 eq_refl Q2) as (_ & (j2 & k2 & H2 & N2 & I2) & _).
    assert (G : forall (l : list nat) j, hd_error l = Some j -> In j l) by (intros [|x l] j X; [discriminate X|injection X as ->; left; reflexivity]).
    exists m1, t1, m2, t2, j1, j2, k1, k2. cbv zeta. split; [exact Q1|]. split; [exact Q2|].
    split; [exact N1|]. split; [exact I1|]. split; [exact N2|]. split; [exact I2|].
    intros X. subst j2. pose proof (D 1%nat 2%nat j1 (G _ _ H1) (G _ _ H2)) as Z. discriminate Z.
Qed.
