(** Lemmas about crand: ranges and uniformity. *)
From Verif Require Import Base Spec Model_Crand Model_Functions Model_Keys.

Definition word (w : Z) : Prop := 0 <= w < 2 ^ 64.

Lemma int63_of_word_mod : forall v, 0 <= v < 2 ^ 64 -> int63_of_word v = v mod 2 ^ 63.
Proof.
  intros v H. unfold int63_of_word.
  replace (Z.ldiff (2 ^ 64 - 1) (2 ^ 63)) with (Z.ones 63) by reflexivity.
  apply Z.land_ones. lia.
Qed.
Lemma int31_of_word_eq : forall v, 0 <= v < 2 ^ 64 -> int31_of_word v = (v / 2 ^ 32) mod 2 ^ 31.
Proof.
  intros v H. unfold int31_of_word. rewrite int63_of_word_mod by exact H.
  rewrite Z.shiftr_div_pow2 by lia.
  replace (2 ^ 63) with (2 ^ 32 * 2 ^ 31) by reflexivity.
  rewrite Z.rem_mul_r by lia.
  replace (v mod 2 ^ 32 + 2 ^ 32 * ((v / 2 ^ 32) mod 2 ^ 31))
    with ((v / 2 ^ 32) mod 2 ^ 31 * 2 ^ 32 + v mod 2 ^ 32) by lia.
  rewrite Z.div_add_l by lia.
  rewrite (Z.div_small (v mod 2 ^ 32)); [lia|]. apply Z.mod_pos_bound. lia.
Qed.
Lemma int31_range : forall v, 0 <= v < 2 ^ 64 -> 0 <= int31_of_word v < 2 ^ 31.
Proof. intros v H. rewrite int31_of_word_eq by exact H. apply Z.mod_pos_bound. lia. Qed.

(** Adding [d] times 2^32 moves the 31-bit result by [d] as long as it stays in
    range. *)
Lemma int31_shift : forall v d, 0 <= v < 2 ^ 64 -> 0 <= int31_of_word v + d < 2 ^ 31 ->
  0 <= v + d * 2 ^ 32 < 2 ^ 64 /\ int31_of_word (v + d * 2 ^ 32) = int31_of_word v + d.
Proof.
  intros v d H Hd. rewrite int31_of_word_eq in Hd by exact H.
  assert (Hq : 0 <= v / 2 ^ 32 < 2 ^ 32).
  { split; [apply Z.div_pos; lia|]. apply Z.div_lt_upper_bound; lia. }
  set (q := v / 2 ^ 32) in *.
  assert (Hv : v = 2 ^ 32 * q + v mod 2 ^ 32) by (apply Z.div_mod; lia).
  assert (Hm : 0 <= v mod 2 ^ 32 < 2 ^ 32) by (apply Z.mod_pos_bound; lia).
  assert (Hqd : q = 2 ^ 31 * (q / 2 ^ 31) + q mod 2 ^ 31) by (apply Z.div_mod; lia).
  assert (Hb : 0 <= q / 2 ^ 31 < 2).
  { split; [apply Z.div_pos; lia|]. apply Z.div_lt_upper_bound; lia. }
  assert (R : 0 <= v + d * 2 ^ 32 < 2 ^ 64).
  { change (2 ^ 64) with (2 ^ 32 * 2 ^ 32). change (2 ^ 31) with 2147483648 in *.
    change (2 ^ 32) with 4294967296 in *. nia. }
  split; [exact R|]. rewrite (int31_of_word_eq _ R), (int31_of_word_eq _ H).
  rewrite Z.div_add by lia. fold q.
  replace (q + d) with (q mod 2 ^ 31 + d + (q / 2 ^ 31) * 2 ^ 31) by lia.
  rewrite Z.mod_add by lia. rewrite Z.mod_small by lia. reflexivity.
Qed.

(** A positive number without a common bit with its predecessor is a power of
    two. *)
Lemma pow2_of_land : forall n, 0 < n -> Z.land n (n - 1) = 0 -> exists k, 0 <= k /\ n = 2 ^ k.
Proof.
  intros n Hn H. exists (Z.log2 n). split; [apply Z.log2_nonneg|].
  destruct (Z.log2_spec n Hn) as (L1 & L2).
  destruct (Z.eq_dec n (2 ^ Z.log2 n)) as [E|E]; [exact E|exfalso].
  assert (Hp : 2 ^ Z.log2 n <= n - 1) by lia.
  assert (P0 : 0 < 2 ^ Z.log2 n) by (apply Z.pow_pos_nonneg; [lia|apply Z.log2_nonneg]).
  assert (L3 : Z.log2 (n - 1) = Z.log2 n).
  { apply Z.log2_unique; [apply Z.log2_nonneg|]. lia. }
  assert (B1 : Z.testbit n (Z.log2 n) = true) by (apply Z.bit_log2; lia).
  assert (B2 : Z.testbit (n - 1) (Z.log2 n) = true) by (rewrite <- L3; apply Z.bit_log2; lia).
  assert (B : Z.testbit (Z.land n (n - 1)) (Z.log2 n) = true) by (rewrite Z.land_spec, B1, B2; reflexivity).
  rewrite H, Z.bits_0 in B. discriminate.
Qed.

(** What a single word yields. *)
Definition accepted_word (n w : Z) : bool :=
  (Z.land n (n - 1) =? 0) || (int31_of_word w <=? int31n_max n).

Lemma max_eq : forall n, 0 < n < 2 ^ 31 -> int31n_max n + 1 = n * (2 ^ 31 / n) /\ 0 < 2 ^ 31 / n.
Proof.
  intros n H. unfold int31n_max. pose proof (Z.div_mod (2 ^ 31) n ltac:(lia)).
  split; [lia|]. apply Z.div_str_pos. lia.
Qed.

Lemma intn_word : forall n w t, 0 < n < 2 ^ 31 -> word w ->
  intn n (w :: t) = if accepted_word n w then Ok (int31_of_word w mod n, t) else intn n t.
Proof.
  intros n w t Hn Hw. unfold word in Hw. unfold intn.
  replace (n <=? 0) with false by lia. replace (n <=? 2 ^ 31 - 1) with true by lia.
  unfold int31n. replace (n <=? 0) with false by lia. unfold accepted_word.
  destruct (Z.land n (n - 1) =? 0) eqn:E; cbn [orb].
  - unfold int31, int63, uint64. cbn [bind]. rewrite Z.mod_small by lia.
    destruct (pow2_of_land n ltac:(lia) ltac:(lia)) as (k & Hk & En).
    assert (Ho : n - 1 = Z.ones k) by (rewrite Z.ones_equiv; lia).
    rewrite Ho, Z.land_ones, <- En by lia. unfold int31_of_word. reflexivity.
  - cbn [int31n_loop]. rewrite Z.mod_small by lia. unfold word in Hw.
    destruct (int31n_max n <? int31_of_word w) eqn:E2;
      replace (int31_of_word w <=? int31n_max n) with (negb (int31n_max n <? int31_of_word w)) by lia;
      rewrite E2; reflexivity.
Qed.

Lemma intn_nil : forall n, intn n [] = Panic.
Proof.
  intros n. unfold intn, int31n. destruct (n <=? 0); [reflexivity|].
  destruct (n <=? 2 ^ 31 - 1); [|reflexivity]. destruct (Z.land n (n - 1) =? 0); reflexivity.
Qed.

Lemma intn_word_mod : forall n w t, intn n (w :: t) = intn n (w mod 2 ^ 64 :: t).
Proof.
  intros. unfold intn, int31n, int31, int63, uint64, int31n_loop.
  rewrite Z.mod_mod by lia. reflexivity.
Qed.

Lemma word_mod : forall w, word (w mod 2 ^ 64).
Proof. intros w. apply Z.mod_pos_bound. lia. Qed.

Lemma intn_range : forall n t v t', 0 < n < 2 ^ 31 -> intn n t = Ok (v, t') ->
  0 <= v < n /\ (length t' < length t)%nat /\ exists p, t = p ++ t'.
Proof.
  intros n t v t' Hn. revert v t'. induction t as [|w t IH]; intros v t' H; [rewrite intn_nil in H; discriminate|].
  rewrite intn_word_mod, intn_word in H by (auto using word_mod).
  destruct (accepted_word n (w mod 2 ^ 64)).
  - injection H as <- <-. split; [apply Z.mod_pos_bound; lia|]. split; [cbn; lia|]. exists [w]. reflexivity.
  - destruct (IH _ _ H) as (A & B & p & ->). split; [exact A|]. split; [cbn; lia|]. exists (w :: p). reflexivity.
Qed.

Lemma intn_no_err : forall n t e, intn n t <> Err e.
Proof.
  intros n t e. unfold intn. destruct (n <=? 0); [discriminate|]. destruct (n <=? 2 ^ 31 - 1); [|discriminate].
  unfold int31n. destruct (n <=? 0); [discriminate|]. destruct (Z.land n (n - 1) =? 0).
  - destruct t; discriminate.
  - induction t as [|w t IH]; [discriminate|]. cbn [int31n_loop]. cbv zeta. destruct (int31n_max n <? _); [exact IH|discriminate].
Qed.
Lemma intn_no_diverge : forall n t, intn n t <> Diverge.
Proof.
  intros n t. unfold intn. destruct (n <=? 0); [discriminate|]. destruct (n <=? 2 ^ 31 - 1); [|discriminate].
  unfold int31n. destruct (n <=? 0); [discriminate|]. destruct (Z.land n (n - 1) =? 0).
  - destruct t; discriminate.
  - induction t as [|w t IH]; [discriminate|]. cbn [int31n_loop]. cbv zeta. destruct (int31n_max n <? _); [exact IH|discriminate].
Qed.

(** Words giving [v] and words giving [v'] correspond one to one. *)
Lemma accept_shift : forall n v v' w, 0 < n < 2 ^ 31 -> 0 <= v < n -> 0 <= v' < n -> word w ->
  accepted_word n w = true -> int31_of_word w mod n = v ->
  word (w + (v' - v) * 2 ^ 32) /\ accepted_word n (w + (v' - v) * 2 ^ 32) = true /\
  int31_of_word (w + (v' - v) * 2 ^ 32) mod n = v'.
Proof.
  intros n v v' w Hn Hv Hv' Hw Ha Hm. unfold word in *.
  pose proof (int31_range w Hw) as Hr. set (x := int31_of_word w) in *.
  pose proof (Z.div_mod x n ltac:(lia)) as Hx. rewrite Hm in Hx.
  assert (Hq0 : 0 <= x / n) by (apply Z.div_pos; lia).
  unfold accepted_word in Ha.
  assert (B : 0 <= x + (v' - v) < 2 ^ 31 /\ (Z.land n (n - 1) =? 0) || (x + (v' - v) <=? int31n_max n) = true).
  { destruct (max_eq n Hn) as (M1 & M2).
    destruct (Z.land n (n - 1) =? 0) eqn:E; cbn [orb] in *.
    - destruct (pow2_of_land n ltac:(lia) ltac:(lia)) as (k & Hk & En).
      assert (Hk31 : k < 31) by (apply (Z.pow_lt_mono_r_iff 2); lia).
      assert (D : 2 ^ 31 = n * 2 ^ (31 - k)) by (rewrite En, <- Z.pow_add_r by lia; f_equal; lia).
      assert (x / n < 2 ^ (31 - k)) by (apply Z.div_lt_upper_bound; lia).
      split; [|reflexivity]. nia.
    - assert (x / n < 2 ^ 31 / n) by (apply Z.div_lt_upper_bound; lia).
      assert (int31n_max n < 2 ^ 31) by (unfold int31n_max; pose proof (Z.mod_pos_bound (2 ^ 31) n ltac:(lia)); lia).
      assert (n * (x / n) + n <= n * (2 ^ 31 / n)) by nia. lia. }
  destruct B as (B1 & B2). destruct (int31_shift w (v' - v) Hw B1) as (S1 & S2).
  split; [exact S1|]. unfold accepted_word. rewrite S2. split; [exact B2|].
  fold x. rewrite Hx. replace (n * (x / n) + v + (v' - v)) with (v' + (x / n) * n) by lia.
  rewrite Z.mod_add by lia. apply Z.mod_small. lia.
Qed.

(** Rejected words are fewer than accepted ones. *)
Lemma reject_half : forall n w, 0 < n < 2 ^ 31 -> word w -> accepted_word n w = false ->
  word (w - 2 ^ 62) /\ accepted_word n (w - 2 ^ 62) = true.
Proof.
  intros n w Hn Hw Ha. unfold word in *. pose proof (int31_range w Hw) as Hr.
  unfold accepted_word in *. apply orb_false_iff in Ha. destruct Ha as (A1 & A2). rewrite A1. cbn [orb].
  assert (Hmod : 2 * ((2 ^ 31) mod n) <= 2 ^ 31).
  { pose proof (Z.div_mod (2 ^ 31) n ltac:(lia)). destruct (max_eq n Hn) as (M1 & M2).
    pose proof (Z.mod_pos_bound (2 ^ 31) n ltac:(lia)). nia. }
  unfold int31n_max in *. change (2 ^ 31) with 2147483648 in *.
  destruct (int31_shift w (- 2 ^ 30) Hw) as (S1 & S2).
  { change (2 ^ 31) with 2147483648. change (2 ^ 30) with 1073741824. lia. }
  change (- 2 ^ 30 * 2 ^ 32) with (- 2 ^ 62) in *. replace (w - 2 ^ 62) with (w + - 2 ^ 62) by lia.
  split; [exact S1|]. rewrite S2. change (2 ^ 30) with 1073741824. lia.
Qed.

Lemma ok_cons_inv : forall (x y : Z) l m (t t' : tape), Ok (x :: l, t) = Ok (y :: m, t') -> x = y /\ l = m /\ t = t'.
Proof. intros x y l m t t' H. injection H. auto. Qed.

(** ** Sequences of letters *)
Fixpoint shift_tape (a b : list rune) (t : tape) : tape :=
  match t with
  | [] => []
  | w :: t' =>
      match a, b with
      | x :: a', y :: b' =>
          if accepted_word 26 w then (w + (y - x) * 2 ^ 32) :: shift_tape a' b' t'
          else w :: shift_tape a b t'
      | _, _ => w :: t'
      end
  end.

Lemma letters_range : forall n t s t', random_letters n t = Ok (s, t') ->
  letters s /\ length s = n /\ (length t' + n <= length t)%nat.
Proof.
  induction n as [|n IH]; intros t s t' H; cbn [random_letters] in H.
  - injection H as <- <-. split; [constructor|]. cbn. split; [reflexivity|lia].
  - destruct (intn 26 t) as [[v t1]|e| |] eqn:E; try discriminate. cbn [bind] in H.
    destruct (random_letters n t1) as [[r t2]|e| |] eqn:E2; try discriminate. cbn [bind] in H.
    injection H as <- <-. destruct (intn_range 26 t v t1 ltac:(lia) E) as (A & B & _).
    destruct (IH _ _ _ E2) as (C & D & F). split; [constructor; [unfold is_letter; lia|exact C]|].
    cbn. split; [lia|lia].
Qed.

Lemma shift_tape_yields : forall t a b t0, Forall word t -> letters a -> letters b ->
  length a = length b ->
  random_letters (length a) t = Ok (a, t0) ->
  random_letters (length b) (shift_tape a b t) = Ok (b, t0) /\
  Forall word (shift_tape a b t) /\ length (shift_tape a b t) = length t /\
  shift_tape b a (shift_tape a b t) = t.
Proof.
  induction t as [|w t IH]; intros a b t0 Ht Ha Hb Hl H.
  - destruct a as [|x a]; cbn [random_letters length] in H.
    + destruct b; [|discriminate]. cbn. injection H as <-. auto.
    + rewrite intn_nil in H. discriminate.
  - inversion Ht as [|? ? Hw Ht']; subst. destruct a as [|x a]; destruct b as [|y b]; try discriminate.
    + cbn in *. injection H as <-. auto.
    + cbn [length random_letters] in H. rewrite intn_word in H by (auto; lia).
      inversion Ha as [|? ? Hx Ha']; subst. inversion Hb as [|? ? Hy Hb']; subst. unfold is_letter in Hx, Hy.
      injection Hl as Hl. cbn [shift_tape].
      destruct (accepted_word 26 w) eqn:E.
      * cbn [bind] in H. destruct (random_letters (length a) t) as [[r t2]|e| |] eqn:E2; try discriminate.
        cbn [bind] in H. apply ok_cons_inv in H. destruct H as (Hv & Hr & Ht2). subst r t2.
        destruct (accept_shift 26 (x - 65) (y - 65) w ltac:(lia) ltac:(lia) ltac:(lia) Hw E ltac:(lia)) as (S1 & S2 & S3).
        replace (y - 65 - (x - 65)) with (y - x) in * by lia.
        destruct (IH a b t0 Ht' Ha' Hb' Hl E2) as (I1 & I2 & I3 & I4).
        cbn [length random_letters shift_tape]. rewrite intn_word by (auto; lia). rewrite S2, S3. cbn [bind].
        rewrite I1. cbn [bind]. rewrite I3, I4.
        split; [f_equal; f_equal; f_equal; lia|]. split; [constructor; assumption|]. split; [reflexivity|].
        f_equal. lia.
      * destruct (IH (x :: a) (y :: b) t0 Ht' Ha Hb ltac:(cbn; congruence) H) as (I1 & I2 & I3 & I4).
        cbn [length random_letters shift_tape] in *. rewrite intn_word by (auto; lia). rewrite E, I1, I3, I4.
        split; [reflexivity|]. split; [constructor; assumption|]. split; reflexivity.
Qed.

Lemma c19_int63_lemma : forall v, 0 <= v < 2 ^ 63 ->
  forall w, word w -> (int63 [w] = Ok (v, []) <-> w = v \/ w = v + 2 ^ 63).
Proof.
  intros v Hv w Hw. unfold word in Hw. unfold int63, uint64. cbn [bind].
  rewrite Z.mod_small, int63_of_word_mod by lia. change (2 ^ 63) with 9223372036854775808 in *.
  change (2 ^ 64) with 18446744073709551616 in *.
  pose proof (Z.div_mod w 9223372036854775808 ltac:(lia)) as D.
  pose proof (Z.mod_pos_bound w 9223372036854775808 ltac:(lia)) as B.
  assert (Q : 0 <= w / 9223372036854775808 < 2).
  { split; [apply Z.div_pos; lia|apply Z.div_lt_upper_bound; lia]. }
  split.
  - intros H. injection H as H. lia.
  - intros [->| ->]; f_equal; f_equal.
    + apply Z.mod_small. lia.
    + rewrite <- (Z.mul_1_l 9223372036854775808) at 1. rewrite Z.mod_add by lia. apply Z.mod_small. lia.
Qed.

Lemma c19_intn_lemma : forall n, 0 < n < 2 ^ 31 ->
  (forall t v t', intn n t = Ok (v, t') -> 0 <= v < n) /\
  (forall w, word w -> (forall t, intn n (w :: t) = intn n t) \/
     exists v, forall t, intn n (w :: t) = Ok (v, t)) /\
  (forall v v', 0 <= v < n -> 0 <= v' < n -> exists f g,
     (forall w, word w -> intn n [w] = Ok (v, []) ->
        word (f w) /\ intn n [f w] = Ok (v', []) /\ g (f w) = w) /\
     (forall w, word w -> intn n [w] = Ok (v', []) ->
        word (g w) /\ intn n [g w] = Ok (v, []) /\ f (g w) = w)) /\
  (exists f, (forall w, word w -> intn n [w] = Panic -> word (f w) /\ exists v, intn n [f w] = Ok (v, [])) /\
     forall w w', f w = f w' -> w = w').
Proof.
  intros n Hn. split; [intros t v t' H; apply (intn_range n t v t' Hn H)|]. split.
  { intros w Hw. destruct (accepted_word n w) eqn:E.
    - right. exists (int31_of_word w mod n). intros t. rewrite intn_word by auto. rewrite E. reflexivity.
    - left. intros t. rewrite intn_word by auto. rewrite E. reflexivity. }
  split.
  { assert (Q : forall v v' w, 0 <= v < n -> 0 <= v' < n -> word w -> intn n [w] = Ok (v, []) ->
      word (w + (v' - v) * 2 ^ 32) /\ intn n [w + (v' - v) * 2 ^ 32] = Ok (v', [])).
    { intros v v' w Hv Hv' Hw H. rewrite intn_word in H by auto.
      destruct (accepted_word n w) eqn:E; [|rewrite intn_nil in H; discriminate]. injection H as H.
      destruct (accept_shift n v v' w Hn Hv Hv' Hw E H) as (S1 & S2 & S3).
      split; [exact S1|]. rewrite intn_word by auto. rewrite S2, S3. reflexivity. }
    intros v v' Hv Hv'. exists (fun w => w + (v' - v) * 2 ^ 32), (fun w => w + (v - v') * 2 ^ 32).
    split; intros w Hw H.
    - destruct (Q v v' w Hv Hv' Hw H). split; [assumption|]. split; [assumption|]. lia.
    - destruct (Q v' v w Hv' Hv Hw H). split; [assumption|]. split; [assumption|]. lia. }
  exists (fun w => w - 2 ^ 62). split.
  - intros w Hw H. rewrite intn_word in H by auto. destruct (accepted_word n w) eqn:E; [discriminate|].
    destruct (reject_half n w Hn Hw E) as (S1 & S2). split; [exact S1|].
    eexists. rewrite intn_word by auto. rewrite S2. reflexivity.
  - intros w w' H. lia.
Qed.
