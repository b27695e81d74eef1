(** Properties C133, C134: ciphertexts that are cut short, garbled or altered. *)
From Verif Require Import Base Spec Model_Unicode Model_Diana Model_Codec Model_Crand Model_Functions Model_Types Model_Cipher
  Examples Props_Cipher Proofs_Garble.

(** C133. A message cut short is read up to the cut. *)
Theorem c133_cut : forall U i, 0 < i_groupsize i -> store_ok (i_groupsize i) (i_keys i) ->
  forall m t a b i1 m1 t1, letters (mkeyid m) -> mid m <> [] -> (length (mplain m) <= length t)%nat -> i_groupsize i <= len a ->
  decipher U i (set_mcipher m (a ++ b)) t = (i1, m1, Ok tt, t1) ->
  exists i2 p q, decipher U i (set_mcipher m a) t = (i2, set_mplain (set_mcipher m a) p, Ok tt, t1) /\ mplain m1 = p ++ q.
Proof. exact cut_lemma. Qed.
Print Assumptions c133_cut.
(** A letter received as another garbles one character, if each of the two
    letters stands for a character and not for a change of table, case or key:
    [message] (Spec) says what a ciphertext reads. Nothing else is different, not
    even the outcome or the keys marked. *)
Theorem c133_garble : forall U i, 0 < i_groupsize i -> store_ok (i_groupsize i) (i_keys i) ->
  forall m t j js k a b c c' p x x' i1 m1 r t1, mid m <> [] -> (length (mplain m) <= length t)%nat ->
  nth_error (i_keys i) j = Some k -> kid k = mkeyid m ->
  message (i_groupsize i) (i_keys i) (j :: js) p a ->
  message (i_groupsize i) (i_keys i) (j :: js) (p ++ [x]) (a ++ [c]) ->
  message (i_groupsize i) (i_keys i) (j :: js) (p ++ [x']) (a ++ [c']) ->
  i_groupsize i <= len (a ++ c :: b) ->
  decipher U i (set_mcipher m (a ++ c :: b)) t = (i1, m1, r, t1) ->
  exists q, m1 = set_mplain (set_mcipher m (a ++ c :: b)) (p ++ x :: q) /\
    decipher U i (set_mcipher m (a ++ c' :: b)) t = (i1, set_mplain (set_mcipher m (a ++ c' :: b)) (p ++ x' :: q), r, t1).
Proof. exact garble_lemma. Qed.
Print Assumptions c133_garble.

(** HELLO, enciphered by the sender and as received. *)
Definition hello : list rune := [72; 69; 76; 76; 79].
Definition hello_sent : msg := snd (fst (fst (encipher uni_id (ex_inst ex_keys) (ex_msg hello []) []))).
Definition hello_got : msg := ex_received (mkeyid hello_sent) (mcipher hello_sent).
Lemma hello_cipher : mcipher hello_sent = [80; 73; 68; 82; 79].
Proof. vm_compute. reflexivity. Qed.
Lemma hello_reads : forall s p c, letters s -> (length s <= 5)%nat -> read_part false false s = Some (p, None) ->
  c = diana_text (ex_runes 3 40) s -> message 5 ex_keys [0%nat] p c.
Proof.
  intros s p c Ls Len R ->. apply (message_last 5 ex_keys 0 (ex_key idA 3 40 [callVQ]) s p None); [reflexivity|exact Ls| |exact R|exact Logic.I].
  apply (Nat.le_trans _ _ _ Len). vm_compute. repeat constructor.
Qed.
(** Cut after 20 letters, "Hello 73, QTH 58.6/12?" is read "Hello 73, QT". S for
    R as fourth letter makes HELLO read HELKO. *)
Example c133_nontrivial :
  (exists i2 q, decipher uni_id (ex_inst ex_keys) (set_mcipher ex_sent (firstn 20 (mcipher ex_sent))) (repeat 0 22) =
     (i2, set_mplain (set_mcipher ex_sent (firstn 20 (mcipher ex_sent))) (firstn 12 txt_hello), Ok tt, []) /\ txt_hello = firstn 12 txt_hello ++ q) /\
  exists i1 t1, decipher uni_id (ex_inst ex_keys) (set_mcipher hello_got [80; 73; 68; 83; 79]) [] =
     (i1, set_mplain (set_mcipher hello_got [80; 73; 68; 83; 79]) [72; 69; 76; 75; 79], Ok tt, t1).
Proof.
  split.
  - destruct (decipher uni_id (ex_inst ex_keys) (set_mcipher ex_sent (firstn 20 (mcipher ex_sent) ++ skipn 20 (mcipher ex_sent))) (repeat 0 22)) as [[[i1 m1] r] t1] eqn:D.
    assert (E : r = Ok tt /\ t1 = [] /\ mplain m1 = txt_hello).
    { assert (X : (let '(_, m, r, t) := decipher uni_id (ex_inst ex_keys) (set_mcipher ex_sent (firstn 20 (mcipher ex_sent) ++ skipn 20 (mcipher ex_sent))) (repeat 0 22) in (r, t, mplain m)) = (Ok tt, [], txt_hello))
        by (vm_compute; reflexivity). rewrite D in X. split; [congruence|]. split; congruence. }
    destruct E as (-> & -> & E).
    destruct (c133_cut uni_id (ex_inst ex_keys) eq_refl ex_store ex_sent (repeat 0 22) (firstn 20 (mcipher ex_sent)) (skipn 20 (mcipher ex_sent)) i1 m1 [])
      as (i2 & p & q & X & Y); [apply lettersb_ok; vm_compute; reflexivity|vm_compute; discriminate|vm_compute; repeat constructor|vm_compute; discriminate|exact D|].
    assert (P : p = firstn 12 txt_hello).
    { assert (Z : mplain (snd (fst (fst (decipher uni_id (ex_inst ex_keys) (set_mcipher ex_sent (firstn 20 (mcipher ex_sent))) (repeat 0 22))))) = firstn 12 txt_hello)
        by (vm_compute; reflexivity). rewrite X in Z. exact Z. }
    subst p. exists i2, q. split; [exact X|congruence].
  - destruct (decipher uni_id (ex_inst ex_keys) (set_mcipher hello_got ([80; 73; 68] ++ 82 :: [79])) []) as [[[i1 m1] r] t1] eqn:D.
    destruct (c133_garble uni_id (ex_inst ex_keys) eq_refl ex_store hello_got [] 0%nat [] (ex_key idA 3 40 [callVQ]) [80; 73; 68] [79] 82 83 [72; 69; 76] 76 75 i1 m1 r t1)
      as (q & X & Y); [vm_compute; discriminate|apply Nat.le_refl|reflexivity|vm_compute; reflexivity|..|vm_compute; discriminate|exact D|].
    { apply (hello_reads [72; 69; 76]); [apply lettersb_ok; reflexivity|repeat constructor|reflexivity|vm_compute; reflexivity]. }
    { apply (hello_reads [72; 69; 76; 76]); [apply lettersb_ok; reflexivity|repeat constructor|reflexivity|vm_compute; reflexivity]. }
    { apply (hello_reads [72; 69; 76; 75]); [apply lettersb_ok; reflexivity|repeat constructor|reflexivity|vm_compute; reflexivity]. }
    assert (E : r = Ok tt /\ mplain m1 = hello).
    { assert (Z : (let '(_, m, r, _) := decipher uni_id (ex_inst ex_keys) (set_mcipher hello_got ([80; 73; 68] ++ 82 :: [79])) [] in (r, mplain m)) = (Ok tt, hello))
        by (vm_compute; reflexivity). rewrite D in Z. split; congruence. }
    destruct E as (-> & E). rewrite X in E. cbn [mplain set_mplain app] in E. assert (Q : q = [79]) by (unfold hello in E; congruence).
    subst q. exists i1, t1. exact Y.
Qed.

(** C134. Nothing protects a message against alterations: the receiver reads
    another text than was sent, without an error. *)
Theorem c134_noticed_refuted : exists U i m t a c c' b i1 m1 t1 i2 m2 t2,
  uni_ok U /\ 0 < i_groupsize i /\ store_ok (i_groupsize i) (i_keys i) /\ letters [c; c'] /\ c <> c' /\
  decipher U i (set_mcipher m (a ++ c :: b)) t = (i1, m1, Ok tt, t1) /\
  decipher U i (set_mcipher m (a ++ c' :: b)) t = (i2, m2, Ok tt, t2) /\ mplain m1 <> mplain m2.
Proof.
  exists uni_id, (ex_inst ex_keys), hello_got, [], [80; 73; 68], 82, 83, [79]. do 6 eexists.
  split; [exact uni_id_ok|]. split; [reflexivity|]. split; [exact ex_store|]. split; [apply lettersb_ok; reflexivity|]. split; [discriminate|].
  split; [vm_compute; reflexivity|]. split; [vm_compute; reflexivity|]. vm_compute. discriminate.
Qed.
Print Assumptions c134_noticed_refuted.
(** Who knows which character of the text a letter of the ciphertext stands for
    can make it any other, without the key: for capital letters (but Q and Z)
    and space, which is coded Q, the new letter is given by the DIANA table. The
    result is a message again, so that this can be repeated. *)
Theorem c134_alter : forall U i, 0 < i_groupsize i -> store_ok (i_groupsize i) (i_keys i) ->
  forall m t j js k a b c p x y i1 m1 r t1, mid m <> [] -> (length (mplain m) <= length t)%nat ->
  nth_error (i_keys i) j = Some k -> kid k = mkeyid m ->
  message (i_groupsize i) (i_keys i) (j :: js) p a ->
  message (i_groupsize i) (i_keys i) (j :: js) (p ++ [x]) (a ++ [c]) ->
  is_letter x /\ x <> 81 /\ x <> 90 -> (is_letter y /\ y <> 81 /\ y <> 90) \/ y = 32 ->
  i_groupsize i <= len (a ++ c :: b) ->
  decipher U i (set_mcipher m (a ++ c :: b)) t = (i1, m1, r, t1) ->
  let c' := diana_letter (diana_letter x c) (if y =? 32 then 81 else y) in
  message (i_groupsize i) (i_keys i) (j :: js) (p ++ [y]) (a ++ [c']) /\
  exists q, m1 = set_mplain (set_mcipher m (a ++ c :: b)) (p ++ x :: q) /\
    decipher U i (set_mcipher m (a ++ c' :: b)) t = (i1, set_mplain (set_mcipher m (a ++ c' :: b)) (p ++ y :: q), r, t1).
Proof. exact forge_lemma. Qed.
Print Assumptions c134_alter.
(** HELLO becomes HELPO. *)
Example c134_nontrivial : exists i1 t1,
  decipher uni_id (ex_inst ex_keys) (set_mcipher hello_got [80; 73; 68; 78; 79]) [] =
     (i1, set_mplain (set_mcipher hello_got [80; 73; 68; 78; 79]) [72; 69; 76; 80; 79], Ok tt, t1).
Proof.
  destruct (decipher uni_id (ex_inst ex_keys) (set_mcipher hello_got ([80; 73; 68] ++ 82 :: [79])) []) as [[[i1 m1] r] t1] eqn:D.
  destruct (c134_alter uni_id (ex_inst ex_keys) eq_refl ex_store hello_got [] 0%nat [] (ex_key idA 3 40 [callVQ]) [80; 73; 68] [79] 82 [72; 69; 76] 76 80 i1 m1 r t1)
    as (_ & q & X & Y); [vm_compute; discriminate|apply Nat.le_refl|reflexivity|vm_compute; reflexivity|..|vm_compute; discriminate|exact D|].
  { apply (hello_reads [72; 69; 76]); [apply lettersb_ok; reflexivity|repeat constructor|reflexivity|vm_compute; reflexivity]. }
  { apply (hello_reads [72; 69; 76; 76]); [apply lettersb_ok; reflexivity|repeat constructor|reflexivity|vm_compute; reflexivity]. }
  { unfold is_letter. lia. }
  { left. unfold is_letter. lia. }
  assert (E : r = Ok tt /\ mplain m1 = hello).
  { assert (Z : (let '(_, m, r, _) := decipher uni_id (ex_inst ex_keys) (set_mcipher hello_got ([80; 73; 68] ++ 82 :: [79])) [] in (r, mplain m)) = (Ok tt, hello))
      by (vm_compute; reflexivity). rewrite D in Z. split; congruence. }
  destruct E as (-> & E). rewrite X in E. cbn [mplain set_mplain app] in E. assert (Q : q = [79]) by (unfold hello in E; congruence).
  subst q. exists i1, t1. exact Y.
Qed.
