(** Proofs about the floating point numbers of package crand (C139). *)
From Verif Require Import Base Model_Crand Model_Float Spec_Float Proofs_Crand.

Lemma pow_split : forall a b, 0 <= a -> 0 <= b -> 2 ^ (a + b) = 2 ^ a * 2 ^ b.
Proof. intros. apply Z.pow_add_r; lia. Qed.

(** Numbers with p bits above 2^(p-1+e) are multiples of 2^e. *)
Lemma with_bits_multiple : forall p e m, 0 < p -> 0 <= e -> with_bits p m -> 2 ^ (p - 1 + e) <= m -> exists c, m = c * 2 ^ e.
Proof.
  intros p e m Hp He (q & f & Hf & Hq & ->) L.
  destruct (Z_lt_le_dec f e) as [G|G].
  - exfalso. assert (2 ^ (p - 1 + e) = 2 ^ p * 2 ^ (e - 1)) as X by (rewrite <- pow_split by lia; f_equal; lia).
    assert (2 ^ f <= 2 ^ (e - 1)) by (apply Z.pow_le_mono_r; lia). assert (0 < 2 ^ f) by (apply Z.pow_pos_nonneg; lia).
    assert (0 < 2 ^ p) by (apply Z.pow_pos_nonneg; lia). nia.
  - exists (q * 2 ^ (f - e)). rewrite <- Z.mul_assoc, <- pow_split by lia. f_equal. f_equal. lia.
Qed.

Lemma with_bits_small : forall p v, 0 <= v < 2 ^ p -> with_bits p v.
Proof. intros p v H. exists v, 0. split; [lia|]. split; [exact H|]. lia. Qed.
Lemma with_bits_power : forall p k, 0 < p -> 0 <= k -> with_bits p (2 ^ k).
Proof. intros p k P K. exists 1, k. split; [exact K|]. split; [|lia]. split; [lia|]. apply Z.pow_gt_1; lia. Qed.

Lemma round_nearest : forall p v, 1 < p -> 0 <= v -> nearest p v (round_bits p v).
Proof.
  intros p v P V. unfold round_bits. cbv zeta. destruct (Z.log2 v - (p - 1) <=? 0) eqn:E.
  - split.
    + apply with_bits_small. split; [exact V|]. destruct (Z.eq_dec v 0) as [->|N]; [apply Z.pow_pos_nonneg; lia|].
      apply Z.log2_lt_pow2; lia.
    + intros m' _. lia.
  - assert (N : 0 < v) by (destruct (Z.eq_dec v 0) as [->|]; [cbn in E; lia|lia]).
    set (e := Z.log2 v - (p - 1)) in *. assert (Ee : 0 < e) by lia.
    assert (L := Z.log2_spec v N). replace (Z.log2 v) with (p - 1 + e) in L by lia.
    replace (Z.succ (p - 1 + e)) with (p + e) in L by lia.
    assert (D := Z.div_mod v (2 ^ e)). set (q := v / 2 ^ e) in *. assert (B := Z.mod_pos_bound v (2 ^ e)). set (r := v mod 2 ^ e) in *.
    assert (Pe : 0 < 2 ^ e) by (apply Z.pow_pos_nonneg; lia). specialize (D ltac:(lia)). specialize (B Pe).
    assert (H : 2 ^ e = 2 * 2 ^ (e - 1)) by (rewrite <- Z.pow_succ_r by lia; f_equal; lia).
    assert (P1 : 2 ^ (p - 1 + e) = 2 ^ (p - 1) * 2 ^ e) by (apply pow_split; lia).
    assert (P2 : 2 ^ (p + e) = 2 ^ p * 2 ^ e) by (apply pow_split; lia).
    assert (Q1 : 2 ^ (p - 1) <= q) by nia. assert (Q2 : q < 2 ^ p) by nia.
    assert (Pp : 0 < 2 ^ (p - 1)) by (apply Z.pow_pos_nonneg; lia).
    set (up := (2 ^ (e - 1) <? r) || ((r =? 2 ^ (e - 1)) && Z.odd q)).
    assert (U : (up = true -> 2 ^ (e - 1) <= r) /\ (up = false -> r <= 2 ^ (e - 1))).
    { unfold up. split; intros X.
      - apply orb_true_iff in X. destruct X as [X|X]; [lia|]. apply andb_true_iff in X. lia.
      - apply orb_false_iff in X. lia. }
    split.
    + destruct up.
      * destruct (Z.eq_dec (q + 1) (2 ^ p)) as [T|T].
        -- rewrite T, <- pow_split by lia. apply with_bits_power; lia.
        -- exists (q + 1), e. split; [lia|]. split; [lia|reflexivity].
      * exists q, e. split; [lia|]. split; [lia|reflexivity].
    + intros m' W.
      assert (C : m' <= q * 2 ^ e \/ (q + 1) * 2 ^ e <= m').
      { destruct (Z_lt_le_dec m' (2 ^ (p - 1 + e))) as [G|G]; [left; nia|].
        destruct (with_bits_multiple p e m' ltac:(lia) ltac:(lia) W G) as (c & ->).
        destruct (Z_lt_le_dec q c) as [G'|G']; [right; nia|left; nia]. }
      destruct U as (U1 & U2). destruct up; [specialize (U1 eq_refl)|specialize (U2 eq_refl)]; destruct C as [C|C]; nia.
Qed.

Lemma round_exact : forall p v, 1 < p -> 0 <= v -> with_bits p v -> round_bits p v = v.
Proof. intros p v P V W. destruct (round_nearest p v P V) as (_ & N). specialize (N v W). lia. Qed.

(** The distance is at most half a unit in the last place of numbers below 2^k. *)
Lemma round_close : forall p k v, 1 < p -> p < k -> 0 <= v <= 2 ^ k -> Z.abs (v - round_bits p v) <= 2 ^ (k - p - 1).
Proof.
  intros p k v P K V.
  assert (X : 0 < 2 ^ (k - p - 1)) by (apply Z.pow_pos_nonneg; lia).
  destruct (Z.eq_dec v (2 ^ k)) as [->|NE].
  { rewrite round_exact; try lia. apply with_bits_power; lia. }
  destruct (round_nearest p v P ltac:(lia)) as (_ & N).
  pose (e := k - p). assert (Pe : 0 < 2 ^ e) by (apply Z.pow_pos_nonneg; lia).
  assert (H : 2 ^ e = 2 * 2 ^ (k - p - 1)) by (rewrite <- Z.pow_succ_r by lia; f_equal; lia).
  assert (D := Z.div_mod v (2 ^ e) ltac:(lia)). assert (B := Z.mod_pos_bound v (2 ^ e) Pe).
  set (q := v / 2 ^ e) in *. set (r := v mod 2 ^ e) in *.
  assert (P2 : 2 ^ k = 2 ^ p * 2 ^ e) by (rewrite <- pow_split by lia; f_equal; lia).
  assert (Q0 : 0 <= q) by nia. assert (Q2 : q < 2 ^ p) by nia.
  assert (W1 : with_bits p (q * 2 ^ e)) by (exists q, e; split; [lia|]; split; [lia|reflexivity]).
  assert (W2 : with_bits p ((q + 1) * 2 ^ e)).
  { destruct (Z.eq_dec (q + 1) (2 ^ p)) as [T|T]; [rewrite T, <- pow_split by lia; apply with_bits_power; lia|].
    exists (q + 1), e. split; [lia|]. split; [lia|reflexivity]. }
  apply N in W1, W2. rewrite Z.mul_add_distr_r, Z.mul_1_l in W2. rewrite (Z.mul_comm (2 ^ e) q) in D.
  destruct (Z_lt_le_dec (2 ^ (k - p - 1)) r) as [G|G]; lia.
Qed.

Lemma round_le_pow : forall p k v, 1 < p -> 0 <= k -> 0 <= v <= 2 ^ k -> 0 <= round_bits p v <= 2 ^ k.
Proof.
  intros p k v P K V. destruct (round_nearest p v P ltac:(lia)) as (_ & N).
  assert (A := N _ (with_bits_power p k ltac:(lia) K)). assert (Z0 := N 0 (with_bits_small p 0 ltac:(split; [lia|apply Z.pow_pos_nonneg; lia]))).
  split; [|lia].
  destruct (Z_lt_le_dec (round_bits p v) 0) as [G|G]; [|exact G]. lia.
Qed.

Lemma int63_lt : forall w, 0 <= int63_of_word (w mod 2 ^ 64) < 2 ^ 63.
Proof. intros w. rewrite int63_of_word_mod by (apply Z.mod_pos_bound; lia). apply Z.mod_pos_bound. lia. Qed.
Lemma int63_eq : forall w, int63_of_word (w mod 2 ^ 64) = w mod 2 ^ 63.
Proof.
  intros w. rewrite int63_of_word_mod by (apply Z.mod_pos_bound; lia).
  replace (2 ^ 64) with (2 ^ 63 * 2) by reflexivity. rewrite Z.rem_mul_r by lia.
  rewrite Z.mul_comm, Z.mod_add by lia. apply Z.mod_mod. lia.
Qed.

Lemma float64_lemma : forall t m t', float64 t = Ok (m, t') ->
  0 <= m < 2 ^ 63 /\ exists skipped w, t = skipped ++ w :: t' /\ nearest 53 (w mod 2 ^ 63) m /\
    forall u, In u skipped -> 2 ^ 63 - 2 ^ 9 <= u mod 2 ^ 63.
Proof.
  induction t as [|w t IH]; intros m t' H; [discriminate|]. cbn [float64] in H. cbv zeta in H. rewrite int63_eq in H.
  assert (V := Z.mod_pos_bound w (2 ^ 63) ltac:(lia)).
  destruct (round_bits 53 (w mod 2 ^ 63) =? 2 ^ 63) eqn:E.
  - destruct (IH _ _ H) as (R & s & w0 & -> & N & A). split; [exact R|]. exists (w :: s), w0. split; [reflexivity|]. split; [exact N|].
    intros u [->|I]; [|exact (A u I)]. assert (C := round_close 53 63 (u mod 2 ^ 63) ltac:(lia) ltac:(lia) ltac:(lia)).
    change (63 - 53 - 1) with 9 in C. lia.
  - assert (X : round_bits 53 (w mod 2 ^ 63) = m /\ t = t') by (split; congruence). destruct X as (<- & <-). assert (B := round_le_pow 53 63 (w mod 2 ^ 63) ltac:(lia) ltac:(lia) ltac:(lia)).
    split; [lia|]. exists [], w. split; [reflexivity|]. split; [apply round_nearest; lia|]. intros u [].
Qed.

Lemma float32_lemma : forall t m t', float32 t = Ok (m, t') ->
  0 <= m < 2 ^ 63 /\ exists skipped w m64, t = skipped ++ w :: t' /\ nearest 53 (w mod 2 ^ 63) m64 /\ nearest 24 m64 m /\
    forall u, In u skipped -> 2 ^ 63 - 2 ^ 38 - 2 ^ 9 <= u mod 2 ^ 63.
Proof.
  induction t as [|w t IH]; intros m t' H; [discriminate|]. cbn [float32] in H. cbv zeta in H. rewrite int63_eq in H.
  assert (V := Z.mod_pos_bound w (2 ^ 63) ltac:(lia)).
  assert (C := round_close 53 63 (w mod 2 ^ 63) ltac:(lia) ltac:(lia) ltac:(lia)). change (63 - 53 - 1) with 9 in C.
  assert (B := round_le_pow 53 63 (w mod 2 ^ 63) ltac:(lia) ltac:(lia) ltac:(lia)).
  assert (C2 := round_close 24 63 (round_bits 53 (w mod 2 ^ 63)) ltac:(lia) ltac:(lia) ltac:(lia)). change (63 - 24 - 1) with 38 in C2.
  assert (B2 := round_le_pow 24 63 (round_bits 53 (w mod 2 ^ 63)) ltac:(lia) ltac:(lia) ltac:(lia)).
  destruct (round_bits 53 (w mod 2 ^ 63) =? 2 ^ 63) eqn:E; [|destruct (round_bits 24 (round_bits 53 (w mod 2 ^ 63)) =? 2 ^ 63) eqn:E2].
  - destruct (IH _ _ H) as (R & s & w0 & m64 & -> & N & N2 & A). split; [exact R|]. exists (w :: s), w0, m64.
    split; [reflexivity|]. split; [exact N|]. split; [exact N2|]. intros u [->|I]; [|exact (A u I)]. lia.
  - destruct (IH _ _ H) as (R & s & w0 & m64 & -> & N & N2 & A). split; [exact R|]. exists (w :: s), w0, m64.
    split; [reflexivity|]. split; [exact N|]. split; [exact N2|]. intros u [->|I]; [|exact (A u I)]. lia.
  - assert (X : round_bits 24 (round_bits 53 (w mod 2 ^ 63)) = m /\ t = t') by (split; congruence). destruct X as (<- & <-).
    split; [lia|]. exists [], w, (round_bits 53 (w mod 2 ^ 63)). split; [reflexivity|]. split; [apply round_nearest; lia|].
    split; [apply round_nearest; lia|]. intros u [].
Qed.

Lemma nearest_close : forall p v m, 1 < p < 63 -> 0 <= v < 2 ^ 63 -> nearest p v m -> Z.abs (m - v) <= 2 ^ (62 - p).
Proof.
  intros p v m P V (W & N). destruct (round_nearest p v ltac:(lia) ltac:(lia)) as (W' & _).
  assert (C := round_close p 63 v ltac:(lia) ltac:(lia) ltac:(lia)). replace (63 - p - 1) with (62 - p) in C by lia. specialize (N _ W'). lia.
Qed.

Lemma float64_possible : forall m t, with_bits 53 m -> 0 <= m < 2 ^ 63 -> float64 (m :: t) = Ok (m, t).
Proof.
  intros m t W B. cbn [float64]. cbv zeta. rewrite int63_eq, Z.mod_small by lia. rewrite round_exact; [|lia|lia|exact W].
  replace (m =? 2 ^ 63) with false by lia. reflexivity.
Qed.
Lemma with_bits_more : forall p q m, p <= q -> with_bits p m -> with_bits q m.
Proof.
  intros p q m L (a & e & E & A & ->). exists a, e. split; [exact E|]. split; [|reflexivity].
  assert (2 ^ p <= 2 ^ q) by (apply Z.pow_le_mono_r; lia). lia.
Qed.
Lemma float32_possible : forall m t, with_bits 24 m -> 0 <= m < 2 ^ 63 -> float32 (m :: t) = Ok (m, t).
Proof.
  intros m t W B. cbn [float32]. cbv zeta. rewrite int63_eq, Z.mod_small by lia.
  rewrite round_exact; [|lia|lia|exact (with_bits_more 24 53 m ltac:(lia) W)].
  replace (m =? 2 ^ 63) with false by lia. rewrite round_exact; [|lia|lia|exact W]. replace (m =? 2 ^ 63) with false by lia. reflexivity.
Qed.
Lemma float_word : forall w t, w mod 2 ^ 63 < 2 ^ 63 - 2 ^ 38 - 2 ^ 9 ->
  (exists m, float64 (w :: t) = Ok (m, t)) /\ exists m, float32 (w :: t) = Ok (m, t).
Proof.
  intros w t H. cbn [float64 float32]. cbv zeta. rewrite int63_eq.
  assert (V := Z.mod_pos_bound w (2 ^ 63) ltac:(lia)).
  assert (C := round_close 53 63 (w mod 2 ^ 63) ltac:(lia) ltac:(lia) ltac:(lia)). change (63 - 53 - 1) with 9 in C.
  assert (B := round_le_pow 53 63 (w mod 2 ^ 63) ltac:(lia) ltac:(lia) ltac:(lia)).
  assert (C2 := round_close 24 63 (round_bits 53 (w mod 2 ^ 63)) ltac:(lia) ltac:(lia) ltac:(lia)). change (63 - 24 - 1) with 38 in C2.
  replace (round_bits 53 (w mod 2 ^ 63) =? 2 ^ 63) with false by lia.
  replace (round_bits 24 (round_bits 53 (w mod 2 ^ 63)) =? 2 ^ 63) with false by lia. eauto.
Qed.
