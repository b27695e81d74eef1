(** Properties C127 and C128: the random functions of package crand are fair. *)
From Coq Require Import Permutation.
From Verif Require Import Base Spec_Crand Model_Crand Model_Crand2 Proofs_Crand Proofs_Crand2 Proofs_Perm.

(** ** C127 Numbers *)
Theorem c127_intn : forall n, 0 < n < 2 ^ 63 -> fair (intn_any n) (fun v => 0 <= v < n).
Proof. intros n H. destruct (intn_any_drawn n H) as (acc & D). exact (drawn_fair _ acc _ D). Qed.
Print Assumptions c127_intn.
Theorem c127_int63n : forall n, 0 < n < 2 ^ 63 -> fair (int63n n) (fun v => 0 <= v < n).
Proof. intros n H. exact (drawn_fair _ _ _ (int63n_drawn n H)). Qed.
Print Assumptions c127_int63n.
Theorem c127_int31n : forall n, 0 < n < 2 ^ 31 -> fair (int31n n) (fun v => 0 <= v < n).
Proof.
  intros n H. replace (int31n n) with (intn n); [exact (drawn_fair _ _ _ (intn_drawn n H))|].
  unfold intn. replace (n <=? 0) with false by lia. replace (n <=? 2 ^ 31 - 1) with true by lia. reflexivity.
Qed.
Print Assumptions c127_int31n.
Theorem c127_uint32 : fair uint32 (fun v => 0 <= v < 2 ^ 32).
Proof. exact (drawn_fair _ _ _ uint32_drawn). Qed.
Print Assumptions c127_uint32.
(** Intn of the rest of the model is this one. *)
Theorem c127_same : forall n t, n < 2 ^ 31 -> intn_any n t = intn n t.
Proof.
  intros n t H. unfold intn_any, intn. destruct (n <=? 0); [reflexivity|]. replace (n <=? 2 ^ 31 - 1) with true by lia. reflexivity.
Qed.
Print Assumptions c127_same.
(** A bound that is not positive, and only that or a failing source, panics. *)
Theorem c127_panic : forall n t, (n <= 0 -> intn_any n t = Panic /\ int63n n t = Panic /\ int31n n t = Panic) /\
  (0 < n < 2 ^ 63 -> forall w, 0 <= w < 2 ^ 63 - 2 ^ 62 -> exists v, intn_any n (w :: t) = Ok (v, t)).
Proof.
  intros n t. split.
  - intros H. unfold intn_any, int63n, int31n. replace (n <=? 0) with true by lia. auto.
  - intros H w W. assert (Ww : word w) by (unfold word; lia). destruct (Z_lt_le_dec n (2 ^ 31)) as [L|L].
    + rewrite c127_same, intn_word by (try exact Ww; lia). destruct (accepted_word n w) eqn:A; [eauto|exfalso].
      assert (X := reject_half n w ltac:(lia) Ww A).
      unfold accepted_word in A. apply orb_false_iff in A. destruct A as (_ & A). rewrite int31_of_word_eq in A by exact Ww.
      assert (D1 : w / 2 ^ 32 < 2 ^ 30) by (apply Z.div_lt_upper_bound; lia). assert (D0 : 0 <= w / 2 ^ 32) by (apply Z.div_pos; lia).
      rewrite Z.mod_small in A by lia. unfold int31n_max in A.
      assert (M := Z.mod_pos_bound (2 ^ 31) n ltac:(lia)). assert (DM := Z.div_mod (2 ^ 31) n ltac:(lia)).
      assert (Q : 0 < 2 ^ 31 / n) by (apply Z.div_str_pos; lia). nia.
    + unfold intn_any. replace (n <=? 0) with false by lia. replace (n <=? 2 ^ 31 - 1) with false by lia.
      destruct (int63n_drawn n ltac:(lia)) as (E & _). rewrite E. cbn [Proofs_Fair.draw]. rewrite (Z.mod_small w) by exact Ww.
      unfold acc63. cbv zeta. rewrite Z.mod_small by lia.
      assert (LE : w <= int63n_max n); [|replace (w <=? int63n_max n) with true by lia; eauto].
      unfold int63n_max. assert (M := Z.mod_pos_bound (2 ^ 63) n ltac:(lia)). assert (DM := Z.div_mod (2 ^ 63) n ltac:(lia)).
      assert (Q : 0 < 2 ^ 63 / n) by (apply Z.div_str_pos; lia). nia.
Qed.
Print Assumptions c127_panic.
(** A large bound, a source whose first word is rejected, and the counts for two results. *)
Example c127_nontrivial :
  intn_any 6148914691236517205 [2 ^ 63 - 1; 5; 7] = Ok (5, [7]) /\
  exists l l', sources_of 3 (intn_any 26) 0 l /\ sources_of 3 (intn_any 26) 25 l' /\ length l = length l'.
Proof.
  split; [vm_compute; reflexivity|]. destruct (c127_intn 26 ltac:(lia)) as (_ & F & _). destruct (F 3%nat) as (c & G).
  destruct (G 0 ltac:(lia)) as (l & A & B), (G 25 ltac:(lia)) as (l' & A' & B'). exists l, l'. split; [exact A|]. split; [exact A'|congruence].
Qed.

(** ** C128 Rearrangements *)
Theorem c128_perm : forall n, 0 <= n < 2 ^ 63 -> fair (perm n) (fun p => Permutation p (map Z.of_nat (seq 0 (Z.to_nat n)))).
Proof. exact perm_fair_lemma. Qed.
Print Assumptions c128_perm.
(** The function given to Shuffle is called with two indices within the list. *)
Theorem c128_calls : forall n t swaps t', shuffle n t = Ok (swaps, t') -> n < 2 ^ 63 ->
  forall i j, In (i, j) swaps -> (j <= i /\ 1 <= i)%nat /\ Z.of_nat i < n.
Proof. exact shuffle_calls_lemma. Qed.
Print Assumptions c128_calls.
Theorem c128_permutes : forall A (xs : list A) t swaps t', len xs < 2 ^ 63 ->
  shuffle (len xs) t = Ok (swaps, t') -> Permutation (fold_left swap swaps xs) xs.
Proof. exact shuffle_permutes_lemma. Qed.
Print Assumptions c128_permutes.
Theorem c128_shuffle : forall xs : list Z, NoDup xs -> len xs < 2 ^ 63 ->
  fair (fun t => let* (swaps, t') := shuffle (len xs) t in Ok (fold_left swap swaps xs, t')) (fun ys => Permutation ys xs).
Proof. exact shuffle_fair_lemma. Qed.
Print Assumptions c128_shuffle.
(** What is in the list does not matter: a list of anything is rearranged as the
    list of its indices would be. *)
Theorem c128_natural : forall A B (f : A -> B) swaps xs, fold_left swap swaps (map f xs) = map f (fold_left swap swaps xs).
Proof. exact swaps_map. Qed.
Print Assumptions c128_natural.
Theorem c128_panic : forall n t, n < 0 -> perm n t = Panic /\ shuffle n t = Panic.
Proof. intros n t H. unfold perm, shuffle. replace (n <? 0) with true by lia. auto. Qed.
Print Assumptions c128_panic.
Example c128_nontrivial :
  let words := map (fun k => k * 2 ^ 61 + 5 * 2 ^ 33) [3; 1; 2; 3; 1] in
  (exists t', perm 4 words = Ok ([1; 0; 3; 2], t')) /\ (exists sw t', shuffle 4 words = Ok (sw, t') /\ fold_left swap sw [10; 20; 30; 40] = [30; 20; 10; 40]) /\
  exists N l l', sources_of N (perm 4) [1; 0; 3; 2] l /\ sources_of N (perm 4) [3; 2; 1; 0] l' /\ length l = length l' /\ l <> [].
Proof.
  cbv zeta. split; [eexists; vm_compute; reflexivity|]. split; [do 2 eexists; split; vm_compute; reflexivity|].
  destruct (c128_perm 4 ltac:(lia)) as (_ & F & N & G). destruct (F N) as (c & H). exists N.
  assert (P1 : Permutation [1; 0; 3; 2] (map Z.of_nat (seq 0 (Z.to_nat 4)))).
  { cbn. transitivity [0; 1; 3; 2]; [apply perm_swap|]. do 2 apply perm_skip. apply perm_swap. }
  assert (P2 : Permutation [3; 2; 1; 0] (map Z.of_nat (seq 0 (Z.to_nat 4)))).
  { cbn. apply Permutation_sym. apply (Permutation_rev [0; 1; 2; 3]). }
  destruct (H _ P1) as (l & A & B), (H _ P2) as (l' & A' & B'). exists l, l'. split; [exact A|]. split; [exact A'|]. split; [congruence|].
  destruct (G _ P1) as (l2 & C & D). intros ->. destruct l2 as [|x l2]; [contradiction|].
  apply (proj2 A x). apply (proj2 C x). left. reflexivity.
Qed.
