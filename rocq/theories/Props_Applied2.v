(** The theorems about enciphering and deciphering applied to concrete
    messages, with all their hypotheses discharged. *)
From Verif Require Import Base Spec Model_Unicode Model_Crand Model_Functions Model_Types Model_Cipher Proofs_Codec Proofs_Cipher2
  Examples Props_Cipher.

(** A message in one part, and one that needs a second key. *)
Lemma ay_surj {A B D} (x : A * B * res unit * D) : snd (fst x) = Ok tt -> exists i m t, x = (i, m, Ok tt, t).
Proof. destruct x as [[[i m] r] t]. cbn [fst snd]. intros ->. exists i, m, t. reflexivity. Qed.
Lemma ay_sent : exists i' m' t', encipher uni_id (ex_inst ex_keys) (ex_msg txt_hello []) [] = (i', m', Ok tt, t').
Proof. apply ay_surj. vm_compute. reflexivity. Qed.
Lemma ay_long : exists i' m' t', encipher uni_id (ex_inst ex_keys) (ex_msg txt_primary []) [] = (i', m', Ok tt, t').
Proof. apply ay_surj. vm_compute. reflexivity. Qed.
Lemma ay_supported text : forallb (fun c => acceptedb c && negb (c =? 305) && negb (c =? 383)) text = true -> Forall supported text.
Proof.
  intros H. rewrite forallb_forall in H. apply Forall_forall. intros c I. specialize (H c I).
  rewrite !andb_true_iff in H. destruct H as ((A & B) & C). apply acceptedb_ok in A. destruct A as [A|[A|A]]; [exact A|lia..].
Qed.

Example c07_applied : exists i' m' t', encipher uni_id (ex_inst ex_keys) (ex_msg txt_hello []) [] = (i', m', Ok tt, t') /\
  exists ri' tr', decipher uni_id (ex_inst (rev ex_keys)) (ex_received (mkeyid m') (mcipher m')) [] =
    (ri', set_mplain (ex_received (mkeyid m') (mcipher m')) txt_hello, Ok tt, tr').
Proof.
  destruct ay_sent as (i' & m' & t' & E). exists i', m', t'. split; [exact E|].
  destruct (c07_roundtrip uni_id (ex_inst ex_keys) (ex_msg txt_hello []) [] i' m' t' (ex_inst (rev ex_keys))
    (ex_received (mkeyid m') (mcipher m')) [] uni_id_ok eq_refl eq_refl ex_store) as (ri & mr & tr & D & M).
  - apply store_okb_ok. vm_compute. reflexivity.
  - intros k I _. exists k. split; [apply -> in_rev; exact I|]. split; reflexivity.
  - left. reflexivity.
  - apply ay_supported. vm_compute. reflexivity.
  - exact E.
  - reflexivity.
  - reflexivity.
  - discriminate.
  - apply le_n.
  - exists ri, tr. rewrite D, M. reflexivity.
Qed.

Example c08_applied : exists i' m' t', encipher uni_id (ex_inst ex_keys) (ex_msg txt_primary []) [] = (i', m', Ok tt, t') /\
  mcipher m' <> [] /\ letters (mcipher m') /\ (len (mcipher m')) mod 5 = 0.
Proof.
  destruct ay_long as (i' & m' & t' & E). exists i', m', t'. split; [exact E|].
  exact (c08_ciphertext_shape uni_id (ex_inst ex_keys) (ex_msg txt_primary []) [] i' m' t' uni_id_ok eq_refl ex_store (or_introl eq_refl) E).
Qed.

Example c09_applied : exists js i' m' t', encipher uni_id (ex_inst ex_keys) (ex_msg txt_primary []) [] = (i', m', Ok tt, t') /\
  message 5 ex_keys js (map canon txt_primary) (mcipher m') /\ NoDup js /\ marked_used js ex_keys (i_keys i').
Proof.
  destruct ay_long as (i' & m' & t' & E).
  destruct (c09_automatic_keys_one_time uni_id (ex_inst ex_keys) (ex_msg txt_primary []) [] i' m' t' uni_id_ok eq_refl ex_store eq_refl E)
    as (js & A & _ & B & _ & C & _).
  exists js, i', m', t'. split; [exact E|]. split; [exact A|]. split; [exact B|exact C].
Qed.

Example c12_applied : exists m' t', encipher uni_id (ex_inst ex_keys) (ex_msg (repeat 65 300) []) ex_tape = (ex_inst ex_keys, m', Err ErrOutOfKeys, t').
Proof.
  destruct (encipher uni_id (ex_inst ex_keys) (ex_msg (repeat 65 300) []) ex_tape) as [[[i' m'] r] t'] eqn:E.
  assert (r = Err ErrOutOfKeys) as R by (apply (f_equal (fun x => snd (fst x))) in E; cbn [fst snd] in E; rewrite <- E; vm_compute; reflexivity).
  assert (i' = ex_inst ex_keys) as ->.
  { apply (c12_failed_encipher_releases_keys_partial uni_id (ex_inst ex_keys) (ex_msg (repeat 65 300) []) ex_tape i' m' r t' uni_id_ok eq_refl ex_store E).
    rewrite R. discriminate. }
  rewrite R. exists m', t'. reflexivity.
Qed.

Lemma ay_eligible k : In k (firstn 3 ex_keys) -> eligible 5 [callVQ] k.
Proof.
  intros [<-|[<-|[<-|[]]]]; (split; [reflexivity|split; [reflexivity|]]); intros x Hx; exact Hx.
Qed.
Lemma ay_not_eligible k : In k ex_keys -> eligible 5 [callVQ] k -> len (krunes k) = 40.
Proof. intros [<-|[<-|[<-|[<-|[]]]]] _; vm_compute; reflexivity. Qed.
Example c13_applied : exists i' m' t', encipher uni_id (ex_inst ex_keys) (ex_msg txt_primary []) ex_tape = (i', m', Ok tt, t').
Proof.
  apply (c13_primary_text_partial uni_id (ex_inst ex_keys) (ex_msg txt_primary []) ex_tape 40 [2; 0]%nat uni_id_ok); try reflexivity; try discriminate.
  - exact ex_store.
  - exact (proj1 c13_nontrivial).
  - exact ay_not_eligible.
  - repeat constructor; cbn; intuition discriminate.
  - intros j [<-|[<-|[]]]; (eexists; split; [reflexivity|]; apply ay_eligible; cbn; auto).
Qed.
Example c13_one_applied : exists i' m' t', encipher uni_id (ex_inst ex_keys) (ex_msg (firstn 9 txt_hello) []) [] = (i', m', Ok tt, t').
Proof.
  apply (c13_one_key_partial uni_id (ex_inst ex_keys) (ex_msg (firstn 9 txt_hello) []) [] 40 uni_id_ok); try reflexivity; try discriminate.
  - exact ex_store.
  - apply ay_supported. vm_compute. reflexivity.
  - eexists. split; [left; reflexivity|]. apply ay_eligible. left. reflexivity.
  - intros k I H. rewrite (ay_not_eligible k I H). lia.
Qed.
Example c13_failures_applied : forall i' m' r t', encipher uni_id (ex_inst ex_keys) (ex_msg txt_bad []) [] = (i', m', r, t') ->
  r = Panic /\ (exists c, In c txt_bad /\ ~ accepted c).
Proof.
  intros i' m' r t' E.
  assert (r = Panic) as R by (apply (f_equal (fun x => snd (fst x))) in E; cbn [fst snd] in E; rewrite <- E; vm_compute; reflexivity).
  destruct (c13_failures uni_id (ex_inst ex_keys) (ex_msg txt_bad []) [] i' m' r t' uni_id_ok) as [(X & _)|[X|[(X & _)|[X|(X & _)]]]];
    try reflexivity; try discriminate; try (rewrite R in X; discriminate); [exact ex_store|exact E|exact X].
Qed.
Example c14_applied : forall i' m' r t', encipher uni_id (ex_inst ex_keys) (ex_msg txt_bad []) [] = (i', m', r, t') -> r <> Ok tt /\ i' = ex_inst ex_keys.
Proof.
  intros i' m' r t' E.
  exact (c14_unsupported_partial uni_id (ex_inst ex_keys) (ex_msg txt_bad []) [] i' m' r t' 33 uni_id_ok eq_refl ex_store
    (proj1 c14_nontrivial) (proj2 c14_nontrivial) E).
Qed.

(** The message received: its parts, and the keys marked. *)
Definition ay_cipher : list rune := Eval vm_compute in mcipher ex_long.
Lemma ay_letters s : forallb (fun c => (65 <=? c) && (c <=? 90)) s = true -> letters s.
Proof. unfold letters. intros H. rewrite forallb_forall in H. apply Forall_forall. intros c I. specialize (H c I). unfold is_letter. lia. Qed.
Example c15_applied : exists i' m' t' j js k p, decipher uni_id (ex_inst ex_keys) (ex_received idA ay_cipher) [] = (i', m', Ok tt, t') /\
  nth_error ex_keys j = Some k /\ kid k = idA /\ message 5 ex_keys (j :: js) p ay_cipher /\ mplain m' = p /\
  marked_used (j :: js) ex_keys (i_keys i').
Proof.
  assert (exists i' m' t', decipher uni_id (ex_inst ex_keys) (ex_received idA ay_cipher) [] = (i', m', Ok tt, t')) as (i' & m' & t' & E)
    by (apply ay_surj; vm_compute; reflexivity).
  destruct (c15_decipher_sound uni_id (ex_inst ex_keys) (ex_received idA ay_cipher) [] i' m' t' eq_refl ex_store) as (j & js & k & p & A & B & C & D & _ & F).
  - apply ay_letters. vm_compute. reflexivity.
  - discriminate.
  - apply le_n.
  - exact E.
  - exists i', m', t', j, js, k, p. split; [exact E|]. split; [exact A|]. split; [exact B|]. split; [exact C|]. split; [rewrite D; reflexivity|exact F].
Qed.
(** Conversely, from the parts that Encipher made to what Decipher does. *)
Example c15_complete_applied : exists m0 i' t', letters (mcipher m0) /\
  decipher uni_id (ex_inst ex_keys) (ex_received (mkeyid m0) (mcipher m0)) [] =
    (i', set_mplain (ex_received (mkeyid m0) (mcipher m0)) (map canon txt_primary), Ok tt, t').
Proof.
  destruct ay_long as (i' & m' & t' & E).
  destruct (c09_automatic_keys_one_time uni_id (ex_inst ex_keys) (ex_msg txt_primary []) [] i' m' t' uni_id_ok eq_refl ex_store eq_refl E)
    as (js & A & (j & k & H & N & K) & _). destruct js as [|j0 js]; [discriminate|]. injection H as ->.
  destruct (c08_ciphertext_shape uni_id (ex_inst ex_keys) (ex_msg txt_primary []) [] i' m' t' uni_id_ok eq_refl ex_store (or_introl eq_refl) E) as (C1 & C2 & C3).
  assert (5 <= len (mcipher m')) as L.
  { assert (0 < len (mcipher m')) by (destruct (mcipher m'); [congruence|unfold len; cbn [length]; lia]).
    change (i_groupsize (ex_inst ex_keys)) with 5 in C3. apply Z.mod_divide in C3; [|lia]. destruct C3 as [q ?]. lia. }
  destruct (c15_decipher_complete uni_id (ex_inst ex_keys) (ex_received (mkeyid m') (mcipher m')) [] j js k (map canon txt_primary) eq_refl ex_store)
    as (i2 & t2 & D & _); [discriminate|apply le_n|exact N|symmetry; exact K|exact L|exact A|].
  exists m', i2, t2. split; [exact C2|exact D].
Qed.
Example c16_applied : forall i' m' r t', try_decipher uni_id (ex_inst ex_keys) (mkMsg mid2 [] [] 0 [] (idA ++ repeat 65 60) [] [] []) false (ex_tape ++ ex_tape) = (i', m', r, t') ->
  (exists e, r = Err e) /\ i' = ex_inst ex_keys /\ m' = mkMsg mid2 [] [] 0 [] (idA ++ repeat 65 60) [] [] [].
Proof.
  intros i' m' r t' E.
  assert (match r with Ok _ => False | _ => True end) as R.
  { apply (f_equal (fun x => snd (fst x))) in E. cbn [fst snd] in E. rewrite <- E. vm_compute. exact I. }
  assert (r <> Ok tt) as R' by (intros X; rewrite X in R; exact R).
  destruct (c16_try_decipher_transactional uni_id (ex_inst ex_keys) (mkMsg mid2 [] [] 0 [] (idA ++ repeat 65 60) [] [] []) false (ex_tape ++ ex_tape) i' m' r t')
    as (A & B & _); [discriminate|discriminate| |exact E|].
  - intros k [<-|[<-|[<-|[<-|[]]]]]; vm_compute; repeat constructor.
  - split; [|exact (B (or_introl R'))]. destruct A as [A|A]; [contradiction|exact A].
Qed.
(** Spaces after every letter and a line break after the key ID. *)
Lemma ay_layout : forall s, letters s -> layout (flat_map (fun c => [c; 32]) s ++ [61]) s.
Proof.
  intros s H. induction H as [|c s Hc H IH].
  - apply layout_sep; [cbn; auto 20|]. apply layout_nil.
  - cbn [flat_map app]. apply layout_letter; [exact Hc|left; reflexivity|]. apply layout_sep; [cbn; auto 20|]. exact IH.
Qed.
Example c17_applied : exists i' m' t', encipher uni_id (ex_inst ex_keys) (ex_msg txt_hello []) [] = (i', m', Ok tt, t') /\
  let mr := mkMsg mid2 [] [] 0 [] (flat_map (fun c => [c; 32]) (mkeyid m' ++ mcipher m') ++ [61]) [] [] [] in
  exists ri' mr' tr', try_decipher uni_id (ex_inst ex_keys) mr false (repeat 7 100) = (ri', mr', Ok tt, tr') /\
  mplain mr' = map canon txt_hello /\ mkeyid mr' = mkeyid m' /\ mcipher mr' = mcipher m'.
Proof.
  destruct (encipher uni_id (ex_inst ex_keys) (ex_msg txt_hello []) []) as [[[i' m'] r] t'] eqn:E.
  assert (r = Ok tt) as -> by (apply (f_equal (fun x => snd (fst x))) in E; cbn [fst snd] in E; rewrite <- E; vm_compute; reflexivity).
  assert (letters (mkeyid m' ++ mcipher m')) as LT.
  { apply ay_letters. apply (f_equal (fun x => let m := snd (fst (fst x)) in mkeyid m ++ mcipher m)) in E. cbn [fst snd] in E. rewrite <- E.
    vm_compute. reflexivity. }
  assert (length (mkeyid m' ++ mcipher m') = 40%nat) as LN.
  { apply (f_equal (fun x => let m := snd (fst (fst x)) in length (mkeyid m ++ mcipher m))) in E. cbn [fst snd] in E. rewrite <- E.
    vm_compute. reflexivity. }
  exists i', m', t'. split; [reflexivity|]. cbv zeta.
  apply (c17_any_layout uni_id (ex_inst ex_keys) (ex_msg txt_hello []) [] i' m' t' (ex_inst ex_keys)
    (mkMsg mid2 [] [] 0 [] (flat_map (fun c => [c; 32]) (mkeyid m' ++ mcipher m') ++ [61]) [] [] []) (repeat 7 100) uni_id_ok eq_refl eq_refl ex_store ex_store).
  - intros k I _. exists k. split; [exact I|]. split; reflexivity.
  - left. reflexivity.
  - exact E.
  - exact (ay_layout _ LT).
  - reflexivity.
  - discriminate.
  - cbn [mplain]. rewrite app_length, repeat_length. replace (length (flat_map (fun c => [c; 32]) (mkeyid m' ++ mcipher m'))) with 80%nat; [cbn [length]; lia|].
    assert (forall s : list Z, length (flat_map (fun c => [c; 32]) s) = (2 * length s)%nat) as G
      by (induction s as [|c s IH]; [reflexivity|cbn [flat_map app length]; rewrite IH; lia]).
    rewrite G, LN. reflexivity.
Qed.
