(** Lemmas: the frontends of package crand are fair. *)
From Verif Require Import Base Spec_Crand Model_Crand Model_Crand2 Proofs_Crand Proofs_Fair.

(** A random function that draws words until one is accepted. *)
Definition drawn (f : sampler) (acc : Z -> option Z) (P : Z -> Prop) : Prop :=
  (forall t, f t = draw acc t) /\ (forall w v, word w -> acc w = Some v -> P v) /\ word_moves acc P /\
  exists w v, word w /\ acc w = Some v.

Lemma drawn_range : forall f acc P t v t', drawn f acc P -> f t = Ok (v, t') -> P v.
Proof.
  intros f acc P t v t' (E & R & _) H. rewrite E in H. induction t as [|w t IH]; cbn [draw] in H; [discriminate|].
  destruct (acc (w mod 2 ^ 64)) as [u|] eqn:A; [|auto]. injection H as -> _. apply (R (w mod 2 ^ 64)); [apply word_mod|exact A].
Qed.
Lemma drawn_local : forall f acc P, drawn f acc P -> local f.
Proof.
  intros f acc P (E & _) t a t' H. rewrite E in H. destruct (draw_local acc t a t' H) as (p & -> & G).
  exists p. split; [reflexivity|]. intros s. rewrite E. apply G.
Qed.
Lemma drawn_moves : forall f acc P, drawn f acc P -> moves f P.
Proof.
  intros f acc P (E & _ & M & _) a b Pa Pb. destruct (draw_moves acc P M a b Pa Pb) as (h & H & J). exists h. split.
  - intros t t' W T. rewrite E in T |- *. apply H; assumption.
  - intros t s t' s' W1 W2 T S0. rewrite E in T, S0. apply (J t s t' s'); assumption.
Qed.
Lemma drawn_some : forall f acc P s, drawn f acc P -> exists w v, word w /\ f (w :: s) = Ok (v, s).
Proof.
  intros f acc P s (E & _ & _ & w & v & W & A). exists w, v. split; [exact W|]. rewrite E. cbn [draw].
  rewrite Z.mod_small by exact W. rewrite A. reflexivity.
Qed.
Lemma drawn_fair : forall f acc P, drawn f acc P -> fair f P.
Proof.
  intros f acc P D. destruct (drawn_some f acc P [] D) as (w & v & W & H).
  apply (fair_of_moves Z.eq_dec f P v [w] []); [intros t a t' X; exact (drawn_range f acc P t a t' D X)|exact (drawn_moves f acc P D)| |exact H].
  constructor; [exact W|constructor].
Qed.
Lemma drawn_not_err : forall f acc P t, drawn f acc P -> f t = Panic \/ exists v t', f t = Ok (v, t').
Proof.
  intros f acc P t (E & _). rewrite E. induction t as [|w t IH]; cbn [draw]; [auto|]. destruct (acc (w mod 2 ^ 64)); eauto.
Qed.

(** ** Int31n *)
Definition acc31 (n w : Z) : option Z := if accepted_word n w then Some (int31_of_word w mod n) else None.
Lemma intn_drawn : forall n, 0 < n < 2 ^ 31 -> drawn (intn n) (acc31 n) (fun v => 0 <= v < n).
Proof.
  intros n Hn. split; [|split; [|split]].
  - induction t as [|w t IH]; [apply intn_nil|]. rewrite intn_word_mod, intn_word by (try exact Hn; apply word_mod). cbn [draw]. unfold acc31.
    destruct (accepted_word n (w mod 2 ^ 64)); [reflexivity|exact IH].
  - intros w v _ A. unfold acc31 in A. destruct (accepted_word n w); [|discriminate]. injection A as <-. apply Z.mod_pos_bound. lia.
  - intros a b Pa Pb. exists (fun w => w + (b - a) * 2 ^ 32). split; [|intros; lia].
    intros w W A. unfold acc31 in A. destruct (accepted_word n w) eqn:E; [|discriminate]. injection A as A.
    destruct (accept_shift n a b w Hn Pa Pb W E A) as (X & Y & Z). split; [exact X|]. unfold acc31. rewrite Y, Z. reflexivity.
  - exists 0, 0. split; [unfold word; lia|]. unfold acc31, accepted_word. change (int31_of_word 0) with 0.
    destruct (max_eq n Hn) as (X & Y). replace (0 <=? int31n_max n) with true by nia. rewrite orb_true_r. f_equal. 
Qed.

(** ** Int63n *)
Definition acc63 (n w : Z) : option Z := let v := w mod 2 ^ 63 in if v <=? int63n_max n then Some (v mod n) else None.
Lemma max63_eq : forall n, 0 < n < 2 ^ 63 -> int63n_max n + 1 = n * (2 ^ 63 / n) /\ 0 < 2 ^ 63 / n.
Proof.
  intros n H. unfold int63n_max. pose proof (Z.div_mod (2 ^ 63) n ltac:(lia)). split; [lia|]. apply Z.div_str_pos. lia.
Qed.
Lemma int63n_drawn : forall n, 0 < n < 2 ^ 63 -> drawn (int63n n) (acc63 n) (fun v => 0 <= v < n).
Proof.
  intros n Hn. destruct (max63_eq n Hn) as (Mx & Q). split; [|split; [|split]].
  - assert (N : (n <=? 0) = false) by lia. unfold int63n. rewrite N. destruct (Z.land n (n - 1) =? 0) eqn:E.
    + destruct (pow2_of_land n ltac:(lia) ltac:(lia)) as (k & Hk & En).
      assert (K : k < 63) by (apply (Z.pow_lt_mono_r_iff 2); lia).
      assert (M0 : 2 ^ 63 mod n = 0).
      { rewrite En. replace 63 with ((63 - k) + k) by lia. rewrite Z.pow_add_r by lia. apply Z.mod_mul. lia. }
      intros [|w t]; [reflexivity|]. unfold int63, uint64. cbn [bind draw]. unfold acc63.
      assert (W := word_mod w). unfold word in W. rewrite int63_of_word_mod by exact W.
      assert (R := Z.mod_pos_bound (w mod 2 ^ 64) (2 ^ 63) ltac:(lia)).
      replace ((w mod 2 ^ 64) mod 2 ^ 63 <=? int63n_max n) with true by (unfold int63n_max; lia).
      f_equal. f_equal. rewrite En. replace (2 ^ k - 1) with (Z.ones k) by (rewrite Z.ones_equiv; lia). apply Z.land_ones. exact Hk.
    + induction t as [|w t IH]; [reflexivity|]. cbn [int63n_loop draw]. cbv zeta. unfold acc63 at 1. cbv zeta.
      rewrite int63_of_word_mod by apply word_mod.
      destruct (int63n_max n <? (w mod 2 ^ 64) mod 2 ^ 63) eqn:F.
      * replace ((w mod 2 ^ 64) mod 2 ^ 63 <=? int63n_max n) with false by lia. exact IH.
      * replace ((w mod 2 ^ 64) mod 2 ^ 63 <=? int63n_max n) with true by lia. reflexivity.
  - intros w v _ A. unfold acc63 in A. cbv zeta in A. destruct (w mod 2 ^ 63 <=? int63n_max n); [|discriminate].
    injection A as <-. apply Z.mod_pos_bound. lia.
  - intros a b Pa Pb. exists (fun w => w + (b - a)). split; [|intros; lia].
    intros w W A. unfold acc63 in A |- *. cbv zeta in A |- *. destruct (w mod 2 ^ 63 <=? int63n_max n) eqn:E; [|discriminate].
    assert (A' : (w mod 2 ^ 63) mod n = a) by (injection A as A; exact A). clear A. rename A' into A.
    unfold word in *. assert (R := Z.mod_pos_bound w (2 ^ 63) ltac:(lia)). assert (D := Z.div_mod w (2 ^ 63) ltac:(lia)).
    set (v := w mod 2 ^ 63) in *. set (hb := w / 2 ^ 63) in *.
    assert (Dv := Z.div_mod v n ltac:(lia)). rewrite A in Dv. set (q := v / n) in *.
    assert (q + 1 <= 2 ^ 63 / n) by nia. assert (0 <= q) by (apply Z.div_pos; lia).
    assert (V : v + (b - a) < 2 ^ 63 /\ 0 <= v + (b - a) /\ v + (b - a) <= int63n_max n).
    { assert (v + (b - a) <= int63n_max n) by nia. assert (0 <= 2 ^ 63 mod n) by (apply Z.mod_pos_bound; lia). unfold int63n_max in *. split; [lia|]. split; [nia|lia]. }
    assert (EQ : (w + (b - a)) mod 2 ^ 63 = v + (b - a)).
    { symmetry. apply (Z.mod_unique _ _ hb); [left; lia|]. lia. }
    split; [lia|]. rewrite EQ. replace (v + (b - a) <=? int63n_max n) with true by lia. f_equal.
    symmetry. apply (Z.mod_unique _ _ q); [left; lia|]. lia.
  - exists 0, 0. split; [unfold word; lia|]. unfold acc63. cbv zeta. change (0 mod 2 ^ 63) with 0.
    replace (0 <=? int63n_max n) with true by nia. reflexivity.
Qed.
Lemma intn_any_drawn : forall n, 0 < n < 2 ^ 63 -> exists acc, drawn (intn_any n) acc (fun v => 0 <= v < n).
Proof.
  intros n Hn. assert (N : (n <=? 0) = false) by lia. destruct (Z_lt_le_dec n (2 ^ 31)) as [L|L].
  - exists (acc31 n). destruct (intn_drawn n ltac:(lia)) as (E & R). split; [|exact R]. intros t. rewrite <- E.
    unfold intn_any, intn. rewrite N. replace (n <=? 2 ^ 31 - 1) with true by lia. reflexivity.
  - exists (acc63 n). destruct (int63n_drawn n Hn) as (E & R). split; [|exact R]. intros t. rewrite <- E.
    unfold intn_any. rewrite N. replace (n <=? 2 ^ 31 - 1) with false by lia. reflexivity.
Qed.

(** ** Uint32 *)
Lemma uint32_of_word_eq : forall w, word w -> uint32_of_word w = (w / 2 ^ 31) mod 2 ^ 32.
Proof.
  intros w W. unfold uint32_of_word. rewrite int63_of_word_mod by exact W. rewrite Z.shiftr_div_pow2 by lia. unfold word in W.
  assert (D := Z.div_mod w (2 ^ 63) ltac:(lia)). assert (R := Z.mod_pos_bound w (2 ^ 63) ltac:(lia)).
  assert (D2 := Z.div_mod (w mod 2 ^ 63) (2 ^ 31) ltac:(lia)). assert (R2 := Z.mod_pos_bound (w mod 2 ^ 63) (2 ^ 31) ltac:(lia)).
  set (v := w mod 2 ^ 63) in *. set (u := v / 2 ^ 31) in *. set (hb := w / 2 ^ 63) in *. set (r := v mod 2 ^ 31) in *.
  replace (w / 2 ^ 31) with (hb * 2 ^ 32 + u).
  2: { apply (Z.div_unique _ _ _ r); [left; lia|]. lia. }
  rewrite Z.add_comm, Z.mod_add by lia. symmetry. apply Z.mod_small. lia.
Qed.
Lemma uint32_shift : forall w d, word w -> 0 <= uint32_of_word w + d < 2 ^ 32 ->
  word (w + d * 2 ^ 31) /\ uint32_of_word (w + d * 2 ^ 31) = uint32_of_word w + d.
Proof.
  intros w d W H. rewrite (uint32_of_word_eq w W) in H |- *.
  assert (D := Z.div_mod w (2 ^ 31) ltac:(lia)). assert (R := Z.mod_pos_bound w (2 ^ 31) ltac:(lia)).
  assert (D2 := Z.div_mod (w / 2 ^ 31) (2 ^ 32) ltac:(lia)). assert (R2 := Z.mod_pos_bound (w / 2 ^ 31) (2 ^ 32) ltac:(lia)).
  set (q := w / 2 ^ 31) in *. set (r := w mod 2 ^ 31) in *. set (u := q mod 2 ^ 32) in *. set (hb := q / 2 ^ 32) in *.
  assert (W' : word (w + d * 2 ^ 31)) by (unfold word in *; lia). split; [exact W'|].
  rewrite (uint32_of_word_eq _ W').
  replace ((w + d * 2 ^ 31) / 2 ^ 31) with (q + d) by (apply (Z.div_unique _ _ _ r); [left; lia|lia]).
  symmetry. apply (Z.mod_unique _ _ hb); [left; lia|]. lia.
Qed.
Lemma uint32_range : forall w, word w -> 0 <= uint32_of_word w < 2 ^ 32.
Proof. intros w W. rewrite (uint32_of_word_eq w W). apply Z.mod_pos_bound. lia. Qed.
Lemma uint32_drawn : drawn uint32 (fun w => Some (uint32_of_word w)) (fun v => 0 <= v < 2 ^ 32).
Proof.
  split; [|split; [|split]].
  - intros [|w t]; reflexivity.
  - intros w v W A. injection A as <-. apply uint32_range. exact W.
  - intros a b Pa Pb. exists (fun w => w + (b - a) * 2 ^ 31). split; [|intros; lia].
    intros w W A. injection A as A. destruct (uint32_shift w (b - a) W ltac:(lia)) as (X & Y). split; [exact X|]. f_equal. lia.
  - exists 0, 0. split; [unfold word; lia|]. reflexivity.
Qed.

(** ** int31n *)
Definition accmul (n w : Z) : option Z :=
  let p := uint32_of_word w * n in if p mod 2 ^ 32 <? 2 ^ 32 mod n then None else Some (p / 2 ^ 32).
Lemma neg_mod : forall n, 0 < n < 2 ^ 31 -> ((- n) mod 2 ^ 32) mod n = 2 ^ 32 mod n.
Proof.
  intros n H. replace ((- n) mod 2 ^ 32) with (2 ^ 32 - n).
  2: { apply (Z.mod_unique _ _ (-1)); [left; lia|lia]. }
  replace (2 ^ 32 - n) with (2 ^ 32 + (-1) * n) by lia. apply Z.mod_add. lia.
Qed.
Lemma accmul_iff : forall n w a, 0 < n < 2 ^ 31 -> word w ->
  (accmul n w = Some a <-> a * 2 ^ 32 + 2 ^ 32 mod n <= uint32_of_word w * n < (a + 1) * 2 ^ 32).
Proof.
  intros n w a Hn W. unfold accmul. cbv zeta. set (u := uint32_of_word w). set (T := 2 ^ 32 mod n).
  assert (TR : 0 <= T < n) by (apply Z.mod_pos_bound; lia).
  assert (D := Z.div_mod (u * n) (2 ^ 32) ltac:(lia)). assert (R := Z.mod_pos_bound (u * n) (2 ^ 32) ltac:(lia)).
  set (k := u * n / 2 ^ 32) in *. set (r := (u * n) mod 2 ^ 32) in *. split.
  - destruct (r <? T) eqn:E; intros X; [discriminate|]. injection X as <-. lia.
  - intros X. assert (k = a) by nia. subst a. replace (r <? T) with false by lia. reflexivity.
Qed.
Lemma accmul_moves : forall n a b u, 0 < n < 2 ^ 31 -> 0 <= a < n -> 0 <= b < n ->
  let T := 2 ^ 32 mod n in let c k := (k * 2 ^ 32 + T + n - 1) / n in
  a * 2 ^ 32 + T <= u * n < (a + 1) * 2 ^ 32 ->
  0 <= u + (c b - c a) < 2 ^ 32 /\ b * 2 ^ 32 + T <= (u + (c b - c a)) * n < (b + 1) * 2 ^ 32.
Proof.
  intros n a b u Hn Pa Pb T c H. assert (TR : 0 <= T < n) by (apply Z.mod_pos_bound; lia).
  assert (D := Z.div_mod (2 ^ 32) n ltac:(lia)). fold T in D. set (q := 2 ^ 32 / n) in *.
  assert (C : forall k, k * 2 ^ 32 + T <= c k * n <= k * 2 ^ 32 + T + n - 1).
  { intros k. unfold c. assert (E := Z.div_mod (k * 2 ^ 32 + T + n - 1) n ltac:(lia)).
    assert (R := Z.mod_pos_bound (k * 2 ^ 32 + T + n - 1) n ltac:(lia)). nia. }
  assert (Ca := C a). assert (Cb := C b). clearbody c T q.
  assert (G1 : c a <= u). { apply Z.lt_succ_r, (Z.mul_lt_mono_pos_r n); [lia|]. unfold Z.succ. lia. }
  assert (G2 : u - c a < q). { apply (Z.mul_lt_mono_pos_r n); [lia|]. lia. }
  set (d := u - c a) in *. replace (u + (c b - c a)) with (c b + d) by lia.
  assert (B : b * 2 ^ 32 + T <= (c b + d) * n < (b + 1) * 2 ^ 32).
  { assert (0 <= d * n) by nia. assert (d * n <= (q - 1) * n) by nia. lia. }
  split; [|exact B]. split; [nia|]. apply (Z.mul_lt_mono_pos_r n); [lia|]. nia.
Qed.
Lemma int31n_retry_draw : forall n t, 0 < n < 2 ^ 31 -> int31n_retry n (2 ^ 32 mod n) t = draw (accmul n) t.
Proof.
  intros n t Hn. induction t as [|w t IH]; [reflexivity|]. cbn [int31n_retry draw]. cbv zeta. unfold accmul at 1. cbv zeta.
  assert (R := uint32_range (w mod 2 ^ 64) (word_mod w)). rewrite (Z.mod_small (_ * n)) by nia.
  destruct (_ <? _); [exact IH|]. rewrite Z.shiftr_div_pow2 by lia. reflexivity.
Qed.
Lemma int31n_mul_drawn : forall n, 0 < n < 2 ^ 31 -> drawn (int31n_mul n) (accmul n) (fun v => 0 <= v < n).
Proof.
  intros n Hn. assert (TR : 0 <= 2 ^ 32 mod n < n) by (apply Z.mod_pos_bound; lia). split; [|split; [|split]].
  - intros [|w t]; [reflexivity|]. unfold int31n_mul, uint32, int63, uint64. cbn [bind draw]. cbv zeta.
    fold (uint32_of_word (w mod 2 ^ 64)). assert (R := uint32_range (w mod 2 ^ 64) (word_mod w)).
    rewrite (Z.mod_small (_ * n)) by nia. rewrite neg_mod by exact Hn. unfold accmul at 1. cbv zeta. rewrite Z.shiftr_div_pow2 by lia.
    destruct ((uint32_of_word (w mod 2 ^ 64) * n) mod 2 ^ 32 <? n) eqn:E1;
      destruct ((uint32_of_word (w mod 2 ^ 64) * n) mod 2 ^ 32 <? 2 ^ 32 mod n) eqn:E2; try reflexivity; try lia.
    apply int31n_retry_draw. exact Hn.
  - intros w v W A. apply accmul_iff in A; [|exact Hn|exact W]. assert (R := uint32_range w W). nia.
  - intros a b Pa Pb. set (T := 2 ^ 32 mod n). set (c := fun k => (k * 2 ^ 32 + T + n - 1) / n).
    exists (fun w => w + (c b - c a) * 2 ^ 31). split; [|intros; lia].
    intros w W A. apply accmul_iff in A; [|exact Hn|exact W]. destruct (accmul_moves n a b _ Hn Pa Pb A) as (X & Y).
    fold T in X, Y. fold (c a) (c b) in X, Y.
    destruct (uint32_shift w (c b - c a) W X) as (W' & E). split; [exact W'|]. apply accmul_iff; [exact Hn|exact W'|]. rewrite E. exact Y.
  - assert (0 < 2 ^ 32 / n) by (apply Z.div_str_pos; lia). set (w := 2 ^ 31 * (if 2 ^ 32 mod n =? 0 then 0 else 1)).
    exists w, 0. assert (W : word w) by (unfold word, w; destruct (_ =? _); lia). split; [exact W|].
    apply accmul_iff; [exact Hn|exact W|]. unfold w. destruct (2 ^ 32 mod n =? 0) eqn:E.
    + change (uint32_of_word (2 ^ 31 * 0)) with 0. lia.
    + change (uint32_of_word (2 ^ 31 * 1)) with 1. lia.
Qed.
