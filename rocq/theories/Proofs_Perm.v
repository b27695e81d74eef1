(** Lemmas: Perm and Shuffle. *)
From Coq Require Import Permutation.
From Verif Require Import Base Spec_Crand Model_Crand Model_Crand2 Proofs_Crand Proofs_Fair Proofs_Crand2.

(** ** Series of draws *)
Definition any_drawn (f : sampler) (P : Z -> Prop) : Prop := exists acc, drawn f acc P.
Definition fits (Ps : list (Z -> Prop)) (vs : list Z) : Prop := Forall2 (fun (P : Z -> Prop) v => P v) Ps vs.
Lemma vec_drawn_moves : forall fs Ps, Forall2 any_drawn fs Ps -> moves (vec fs) (fits Ps).
Proof.
  intros fs Ps F. apply vec_moves. induction F as [|f P fs Ps (acc & D) F IH]; constructor; [|exact IH].
  split; [exact (drawn_local f acc P D)|exact (drawn_moves f acc P D)].
Qed.
Lemma vec_fits : forall fs Ps t vs t', Forall2 any_drawn fs Ps -> vec fs t = Ok (vs, t') -> fits Ps vs.
Proof.
  intros fs Ps t vs t' F. revert t vs t'. induction F as [|f P fs Ps (acc & D) F IH]; intros t vs t' H.
  - injection H as <- _. constructor.
  - apply vec_cons in H. destruct H as (v & us & t1 & -> & H1 & H2). constructor; [exact (drawn_range f acc P t v t1 D H1)|exact (IH _ _ _ H2)].
Qed.
Lemma vec_some : forall fs Ps, Forall2 any_drawn fs Ps -> exists t vs, Forall word t /\ vec fs t = Ok (vs, []).
Proof.
  intros fs Ps F. induction F as [|f P fs Ps (acc & D) F (t & vs & W & H)]; [exists [], []; auto|].
  destruct (drawn_some f acc P t D) as (w & v & Ww & Hw). exists (w :: t), (v :: vs). split; [constructor; assumption|].
  cbn [vec]. rewrite Hw. cbn [bind]. rewrite H. reflexivity.
Qed.
(** A function that computes its result from a series of draws, different results from different draws. *)
Lemma fair_image : forall A (dec : forall a b : A, {a = b} + {a <> b}) fs Ps (g : tape -> res (A * tape)) (F : list Z -> A) (Q : A -> Prop),
  Forall2 any_drawn fs Ps ->
  (forall t b t', g t = Ok (b, t') <-> exists vs, vec fs t = Ok (vs, t') /\ b = F vs) ->
  (forall vs, fits Ps vs -> Q (F vs)) ->
  (forall vs us, fits Ps vs -> fits Ps us -> F vs = F us -> vs = us) ->
  (forall b, Q b -> exists vs, fits Ps vs /\ b = F vs) -> fair g Q.
Proof.
  intros A dec fs Ps g F Q D G R IN ON. destruct (vec_some fs Ps D) as (t & vs & W & H).
  apply (fair_of_moves dec g Q (F vs) t []); [| |exact W|apply G; eauto].
  - intros s b s' X. apply G in X. destruct X as (us & X & ->). apply R. exact (vec_fits fs Ps s us s' D X).
  - apply (image_moves _ _ (vec fs) (fits Ps) g F Q); auto using vec_drawn_moves.
    intros s us s' X. exact (vec_fits fs Ps s us s' D X).
Qed.

(** ** Lists *)
Lemma list_update_len : forall A (l : list A) i x, length (list_update l i x) = length l.
Proof. induction l as [|y l IH]; intros [|i] x; cbn [list_update length]; auto. Qed.
Lemma update_split : forall A (a b : list A) x y i, length a = i -> list_update (a ++ x :: b) i y = a ++ y :: b.
Proof.
  intros A a b x y i <-. induction a as [|z a IH]; cbn [app length list_update]; [reflexivity|]. f_equal. exact IH.
Qed.
Lemma nth_split_err : forall A (l : list A) i, (i < length l)%nat -> exists a x b, l = a ++ x :: b /\ length a = i.
Proof.
  intros A l i H. destruct (nth_error l i) as [x|] eqn:E; [|apply nth_error_None in E; lia].
  destruct (nth_error_split l i E) as (a & b & -> & L). eauto.
Qed.
Lemma nth_error_mid : forall A (a b : list A) x i, length a = i -> nth_error (a ++ x :: b) i = Some x.
Proof. intros A a b x i <-. rewrite nth_error_app2, Nat.sub_diag by lia. reflexivity. Qed.
Lemma split_unique : forall A (x : A) a c a' c', ~ In x a -> ~ In x a' -> a ++ x :: c = a' ++ x :: c' -> a = a' /\ c = c'.
Proof.
  intros A x a. induction a as [|y a IH]; intros c a' c' H H' E; destruct a' as [|y' a']; cbn [app] in E.
  - injection E as ->. auto.
  - injection E as <- _. exfalso. apply H'. left. reflexivity.
  - injection E as -> _. exfalso. apply H. left. reflexivity.
  - injection E as -> E. destruct (IH c a' c') as (-> & ->); auto; intros X; [apply H|apply H']; right; exact X.
Qed.
Lemma app_same_length : forall A (a a' b b' : list A), length a = length a' -> a ++ b = a' ++ b' -> a = a' /\ b = b'.
Proof.
  intros A a. induction a as [|x a IH]; intros [|x' a'] b b' L E; try discriminate; [auto|]. cbn [app length] in *.
  injection E as -> E. destruct (IH a' b b') as (-> & ->); auto.
Qed.

(** ** Perm *)
Definition numbers (n : nat) : list Z := map Z.of_nat (seq 0 n).
Lemma numbers_S : forall n, numbers (S n) = numbers n ++ [Z.of_nat n].
Proof. intros n. unfold numbers. rewrite seq_S, map_app. reflexivity. Qed.
Lemma numbers_fresh : forall n p, Permutation p (numbers n) -> ~ In (Z.of_nat n) p.
Proof.
  intros n p P H. apply (Permutation_in _ P) in H. unfold numbers in H. apply in_map_iff in H. destruct H as (k & E & H).
  apply in_seq in H. lia.
Qed.
Lemma numbers_length : forall n p, Permutation p (numbers n) -> length p = n.
Proof. intros n p P. rewrite (Permutation_length P). unfold numbers. rewrite map_length. apply seq_length. Qed.

Definition pstep (p : list Z) (j : Z) : list Z :=
  match nth_error p (Z.to_nat j) with
  | Some x => list_update p (Z.to_nat j) (Z.of_nat (length p)) ++ [x]
  | None => p ++ [Z.of_nat (length p)]
  end.
Lemma pstep_cases : forall p j, 0 <= j < Z.of_nat (length p) + 1 ->
  (j = Z.of_nat (length p) /\ pstep p j = p ++ [j]) \/
  exists a x b, p = a ++ x :: b /\ j = Z.of_nat (length a) /\ pstep p j = a ++ Z.of_nat (length p) :: b ++ [x].
Proof.
  intros p j H. destruct (Z.eq_dec j (Z.of_nat (length p))) as [E|E].
  - left. split; [exact E|]. unfold pstep. rewrite (proj2 (nth_error_None _ _)) by lia. rewrite E. reflexivity.
  - right. destruct (nth_split_err _ p (Z.to_nat j)) as (a & x & b & -> & L); [lia|]. exists a, x, b. split; [reflexivity|]. split; [lia|].
    unfold pstep. rewrite nth_error_mid, update_split by lia. rewrite <- app_assoc. reflexivity.
Qed.
Lemma pstep_perm : forall p j, 0 <= j < Z.of_nat (length p) + 1 -> Permutation (pstep p j) (p ++ [Z.of_nat (length p)]).
Proof.
  intros p j H. destruct (pstep_cases p j H) as [(-> & ->)|(a & x & b & E & _ & ->)]; [apply Permutation_refl|].
  remember (length p) as n. clear Heqn H. subst p. rewrite <- app_assoc. apply Permutation_app_head. cbn [app].
  transitivity (Z.of_nat n :: x :: b); [constructor; symmetry; apply Permutation_cons_append|].
  transitivity (x :: Z.of_nat n :: b); [constructor|]. constructor. apply Permutation_cons_append.
Qed.
Lemma pstep_good : forall n p j, Permutation p (numbers n) -> 0 <= j < Z.of_nat n + 1 -> Permutation (pstep p j) (numbers (S n)).
Proof.
  intros n p j P H. assert (L := numbers_length n p P). rewrite numbers_S. transitivity (p ++ [Z.of_nat (length p)]).
  - apply pstep_perm. rewrite L. exact H.
  - rewrite L. apply Permutation_app_tail. exact P.
Qed.
Lemma pstep_inj : forall n p q j k, Permutation p (numbers n) -> Permutation q (numbers n) ->
  0 <= j < Z.of_nat n + 1 -> 0 <= k < Z.of_nat n + 1 -> pstep p j = pstep q k -> p = q /\ j = k.
Proof.
  intros n p q j k P Q J K E. assert (Lp := numbers_length n p P). assert (Lq := numbers_length n q Q).
  assert (Fp := numbers_fresh n p P). assert (Fq := numbers_fresh n q Q).
  destruct (pstep_cases p j) as [(-> & Ep)|(a & x & b & -> & -> & Ep)]; [rewrite Lp; exact J| |];
  (destruct (pstep_cases q k) as [(-> & Eq)|(a' & x' & b' & -> & -> & Eq)]; [rewrite Lq; exact K| |]); rewrite Ep, Eq, ?Lp, ?Lq in E.
  - apply app_inj_tail in E. destruct E as (-> & _). rewrite Lp in Lq. auto.
  - apply split_unique in E; [|exact Fp|intros X; apply Fq, in_app_iff; auto]. destruct E as (_ & E). destruct b'; discriminate.
  - apply split_unique in E; [|intros X; apply Fp, in_app_iff; auto|exact Fq]. destruct E as (_ & E). destruct b; discriminate.
  - apply split_unique in E; [|intros X; apply Fp, in_app_iff; auto|intros X; apply Fq, in_app_iff; auto].
    destruct E as (-> & E). apply app_inj_tail in E. destruct E as (-> & ->). auto.
Qed.
Lemma pstep_onto : forall n q, Permutation q (numbers (S n)) ->
  exists p j, Permutation p (numbers n) /\ 0 <= j < Z.of_nat n + 1 /\ q = pstep p j.
Proof.
  intros n q Q. rewrite numbers_S in Q.
  assert (I : In (Z.of_nat n) q) by (apply (Permutation_in _ (Permutation_sym Q)), in_app_iff; right; left; reflexivity).
  apply in_split in I. destruct I as (a & c & ->).
  assert (P : Permutation (a ++ c) (numbers n)).
  { apply Permutation_app_inv with (l1 := a) (l2 := c) (l3 := numbers n) (l4 := []) in Q. rewrite app_nil_r in Q. exact Q. }
  assert (L := numbers_length _ _ P). rewrite app_length in L.
  destruct c as [|c0 c].
  - exists a, (Z.of_nat n). rewrite app_nil_r in P. split; [exact P|]. split; [lia|]. cbn [length] in L.
    unfold pstep. rewrite (proj2 (nth_error_None _ _)) by lia. do 2 f_equal. lia.
  - destruct (exists_last (l := c0 :: c)) as (b & x & E); [discriminate|]. rewrite E in *. clear E.
    exists (a ++ x :: b), (Z.of_nat (length a)). rewrite app_length in L. cbn [length] in L. split; [|split; [lia|]].
    + transitivity (a ++ b ++ [x]); [|exact P]. apply Permutation_app_head, Permutation_cons_append.
    + unfold pstep. rewrite Nat2Z.id, nth_error_mid, update_split by reflexivity. rewrite app_length. cbn [length].
      rewrite <- app_assoc. cbn [app]. do 2 f_equal. lia.
Qed.

Definition upto (i : nat) : Z -> Prop := fun v => 0 <= v < Z.of_nat i + 1.
Definition perm_choices (n : nat) (js : list Z) : Prop := fits (map upto (seq 0 n)) js.
Lemma perm_choices_S : forall n js, perm_choices (S n) js <-> exists is j, js = is ++ [j] /\ perm_choices n is /\ upto n j.
Proof.
  intros n js. unfold perm_choices, fits. rewrite seq_S, map_app. cbn [map Nat.add]. split.
  - intros H. apply Forall2_app_inv_l in H. destruct H as (is & l & H1 & H2 & ->). inversion H2 as [|? j ? l' X Y]; subst.
    inversion Y; subst. eauto.
  - intros (is & j & -> & H & J). apply Forall2_app; [exact H|]. constructor; [exact J|constructor].
Qed.
Lemma perm_good : forall n js, perm_choices n js -> Permutation (fold_left pstep js []) (numbers n).
Proof.
  induction n as [|n IH]; intros js H; [inversion H; constructor|]. apply perm_choices_S in H. destruct H as (is & j & -> & H & J).
  rewrite fold_left_app. cbn [fold_left]. apply pstep_good; auto.
Qed.
Lemma perm_inj : forall n js ks, perm_choices n js -> perm_choices n ks -> fold_left pstep js [] = fold_left pstep ks [] -> js = ks.
Proof.
  induction n as [|n IH]; intros js ks H K E; [inversion H; inversion K; reflexivity|].
  apply perm_choices_S in H, K. destruct H as (is & j & -> & H & J), K as (ls & k & -> & K & J').
  rewrite !fold_left_app in E. cbn [fold_left] in E.
  destruct (pstep_inj n _ _ j k (perm_good n is H) (perm_good n ls K) J J' E) as (E1 & ->). rewrite (IH is ls H K E1). reflexivity.
Qed.
Lemma perm_onto : forall n q, Permutation q (numbers n) -> exists js, perm_choices n js /\ q = fold_left pstep js [].
Proof.
  induction n as [|n IH]; intros q Q.
  - exists []. split; [constructor|]. apply Permutation_sym, Permutation_nil in Q. exact Q.
  - destruct (pstep_onto n q Q) as (p & j & P & J & ->). destruct (IH p P) as (is & C & ->). exists (is ++ [j]). split.
    + apply perm_choices_S. eauto.
    + rewrite fold_left_app. reflexivity.
Qed.
Definition perm_draws (i rest : nat) : list sampler := map (fun k => intn_any (Z.of_nat k + 1)) (seq i rest).
Lemma perm_drawn : forall n, Z.of_nat n < 2 ^ 63 -> Forall2 any_drawn (perm_draws 0 n) (map upto (seq 0 n)).
Proof.
  intros n H. unfold perm_draws. assert (G : forall l, (forall k, In k l -> (k < n)%nat) ->
    Forall2 any_drawn (map (fun k => intn_any (Z.of_nat k + 1)) l) (map upto l)).
  { induction l as [|k l IH]; intros G; cbn [map]; constructor.
    - apply intn_any_drawn. specialize (G k (or_introl eq_refl)). lia.
    - apply IH. intros x X. apply G. right. exact X. }
  apply G. intros k K. apply in_seq in K. lia.
Qed.
Lemma pstep_length : forall p j, length (pstep p j) = S (length p).
Proof.
  intros p j. unfold pstep. destruct (nth_error p (Z.to_nat j)); rewrite app_length; cbn [length]; [rewrite list_update_len|]; lia.
Qed.
Lemma update_array : forall p x z zs j, 0 <= j < Z.of_nat (length p) + 1 -> nth_error (p ++ z :: zs) (Z.to_nat j) = Some x ->
  list_update (list_update (p ++ z :: zs) (length p) x) (Z.to_nat j) (Z.of_nat (length p)) = pstep p j ++ zs.
Proof.
  intros p x z zs j H N. rewrite update_split by reflexivity.
  destruct (pstep_cases p j H) as [(E & ->)|(a & y & b & E & -> & ->)].
  - rewrite update_split by lia. rewrite <- app_assoc, E. reflexivity.
  - rewrite Nat2Z.id in N |- *. remember (length p) as n. clear Heqn. subst p. rewrite <- app_assoc in N. cbn [app] in N. rewrite nth_error_mid in N by reflexivity.
    injection N as <-. rewrite <- app_assoc. cbn [app]. rewrite update_split by reflexivity. rewrite <- !app_assoc. cbn [app]. rewrite <- app_assoc. reflexivity.
Qed.
Lemma perm_loop_spec : forall rest i p t m t', length p = i -> Z.of_nat (i + rest) < 2 ^ 63 ->
  (perm_loop rest i (p ++ repeat 0 rest) t = Ok (m, t') <-> exists js, vec (perm_draws i rest) t = Ok (js, t') /\ m = fold_left pstep js p).
Proof.
  induction rest as [|rest IH]; intros i p t m t' L B.
  - cbn [perm_loop repeat]. rewrite app_nil_r. unfold perm_draws. cbn [seq map vec]. split.
    + intros H. injection H as <- <-. exists []. auto.
    + intros (js & H & ->). injection H as <- <-. reflexivity.
  - cbn [perm_loop repeat]. unfold perm_draws. cbn [seq map vec]. fold (perm_draws (S i) rest).
    destruct (intn_any_drawn (Z.of_nat i + 1) ltac:(lia)) as (acc & D).
    destruct (intn_any (Z.of_nat i + 1) t) as [[j t1]|?| |] eqn:E; cbn [bind]; try (split; [discriminate|intros (js & H & _); discriminate]).
    assert (J := drawn_range _ _ _ _ _ _ D E). cbv beta in J. rewrite <- L in J.
    destruct (nth_error (p ++ 0 :: repeat 0 rest) (Z.to_nat j)) as [x|] eqn:N.
    2: { apply nth_error_None in N. rewrite app_length in N. cbn [length] in N. lia. }
    assert (U := update_array p x 0 (repeat 0 rest) j J N). rewrite L in U. rewrite U. rewrite IH; [|rewrite pstep_length; lia|lia]. split.
    + intros (js & H & ->). exists (j :: js). rewrite H. auto.
    + intros (js & H & ->). destruct (vec (perm_draws (S i) rest) t1) as [[vs t2]|?| |]; try discriminate. cbn [bind] in H.
      injection H as <- <-. exists vs. auto.
Qed.
Lemma perm_fair_lemma : forall n, 0 <= n < 2 ^ 63 -> fair (perm n) (fun p => Permutation p (map Z.of_nat (seq 0 (Z.to_nat n)))).
Proof.
  intros n Hn. apply (fair_image _ (list_eq_dec Z.eq_dec) (perm_draws 0 (Z.to_nat n)) (map upto (seq 0 (Z.to_nat n))) _ (fun js => fold_left pstep js [])).
  - apply perm_drawn. lia.
  - intros t b t'. unfold perm. replace (n <? 0) with false by lia. apply (perm_loop_spec (Z.to_nat n) 0 []); [reflexivity|lia].
  - intros js. apply perm_good.
  - intros js ks. apply perm_inj.
  - intros q. apply perm_onto.
Qed.

(** ** Shuffle *)
Section Shuffle.
Context {A : Type}.
Lemma swap_app : forall (l r : list A) i j, (i < length l)%nat -> (j < length l)%nat -> swap (l ++ r) (i, j) = swap l (i, j) ++ r.
Proof using Type.
  intros l r i j I J. unfold swap. cbn [fst snd]. rewrite !nth_error_app1 by assumption.
  destruct (nth_error l i) as [x|] eqn:E; [|reflexivity]. destruct (nth_error l j) as [y|] eqn:F; [|reflexivity].
  assert (U : forall (l : list A) k z, (k < length l)%nat -> list_update (l ++ r) k z = list_update l k z ++ r).
  { clear. intros l k z K. destruct (nth_split_err _ l k K) as (a & x & b & -> & L). rewrite <- app_assoc. cbn [app].
    rewrite !update_split by exact L. rewrite <- app_assoc. reflexivity. }
  rewrite U by exact I. apply U. rewrite list_update_len. exact J.
Qed.
Lemma swap_length : forall (l : list A) ij, length (swap l ij) = length l.
Proof using Type.
  intros l ij. unfold swap. destruct (nth_error l (fst ij)); [|reflexivity]. destruct (nth_error l (snd ij)); [|reflexivity].
  rewrite !list_update_len. reflexivity.
Qed.
Lemma swaps_app : forall sw (l r : list A), Forall (fun ij => (fst ij < length l)%nat /\ (snd ij < length l)%nat) sw ->
  fold_left swap sw (l ++ r) = fold_left swap sw l ++ r.
Proof using Type.
  induction sw as [|[i j] sw IH]; intros l r F; [reflexivity|]. cbn [fold_left]. apply Forall_cons_iff in F. destruct F as ((I & J) & F).
  rewrite swap_app by assumption. apply IH. rewrite swap_length. exact F.
Qed.
(** The first swap: the last element changes places with the [j]-th. *)
Lemma swap_last : forall (ys : list A) z j, (j <= length ys)%nat ->
  (j = length ys /\ swap (ys ++ [z]) (length ys, j) = ys ++ [z]) \/
  exists a y b, ys = a ++ y :: b /\ j = length a /\ swap (ys ++ [z]) (length ys, j) = (a ++ z :: b) ++ [y].
Proof using Type.
  intros ys z j H. unfold swap. cbn [fst snd]. rewrite nth_error_mid by reflexivity.
  destruct (Nat.eq_dec j (length ys)) as [E|E].
  - left. split; [exact E|]. rewrite E, nth_error_mid by reflexivity. rewrite !update_split by reflexivity. reflexivity.
  - right. destruct (nth_split_err _ ys j ltac:(lia)) as (a & y & b & -> & L). exists a, y, b. split; [reflexivity|]. split; [auto|].
    rewrite <- app_assoc at 1. cbn [app]. rewrite nth_error_mid by exact L. rewrite update_split by reflexivity.
    rewrite <- !app_assoc. cbn [app]. rewrite update_split by exact L. reflexivity.
Qed.

Fixpoint pairs (i : nat) (js : list Z) : list (nat * nat) :=
  match i, js with S i', j :: js' => (i, Z.to_nat j) :: pairs i' js' | _, _ => [] end.
Fixpoint downto (i : nat) : list nat := match i with O => [] | S i' => i :: downto i' end.
Definition shuffle_choices (i : nat) (js : list Z) : Prop := fits (map upto (downto i)) js.
Lemma shuffle_choices_S : forall i js, shuffle_choices (S i) js -> exists j is, js = j :: is /\ upto (S i) j /\ shuffle_choices i is.
Proof using Type.
  intros i js H. unfold shuffle_choices, fits in H. cbn [downto map] in H. inversion H; subst. eauto.
Qed.
Lemma pairs_in : forall i js, shuffle_choices i js -> Forall (fun ij => (snd ij <= fst ij)%nat /\ (1 <= fst ij <= i)%nat) (pairs i js).
Proof using Type.
  induction i as [|i IH]; intros js H; [constructor|]. destruct (shuffle_choices_S i js H) as (j & is & -> & J & C). cbn [pairs].
  constructor; [unfold upto in J; cbn [fst snd]; lia|]. eapply Forall_impl; [|exact (IH is C)]. intros ij X. cbv beta in X. lia.
Qed.
Lemma pairs_tail : forall i js (l r : list A), shuffle_choices i js -> length l = S i ->
  fold_left swap (pairs i js) (l ++ r) = fold_left swap (pairs i js) l ++ r.
Proof using Type.
  intros i js l r C L. apply swaps_app. eapply Forall_impl; [|exact (pairs_in i js C)]. intros ij X. cbv beta in X. lia.
Qed.
Lemma last_split : forall (l : list A) n, length l = S n -> exists ys z, l = ys ++ [z] /\ length ys = n.
Proof using Type.
  intros l n L. destruct (exists_last (l := l)) as (ys & z & ->); [intros ->; discriminate|]. rewrite app_length in L. cbn [length] in L.
  exists ys, z. split; [reflexivity|lia].
Qed.
(** One step: what stands last, and what the rest is. *)
Lemma shuffle_step : forall i j is (xs : list A), length xs = S (S i) -> upto (S i) j -> shuffle_choices i is ->
  exists rest y, Permutation (rest ++ [y]) xs /\ length rest = S i /\ nth_error xs (Z.to_nat j) = Some y /\
    swap xs (S i, Z.to_nat j) = rest ++ [y] /\
    fold_left swap (pairs (S i) (j :: is)) xs = fold_left swap (pairs i is) rest ++ [y].
Proof using Type.
  intros i j is xs L J C. destruct (last_split xs (S i) L) as (ys & z & -> & Ly). unfold upto in J. cbn [pairs fold_left].
  destruct (swap_last ys z (Z.to_nat j) ltac:(lia)) as [(E & X)|(a & y & b & -> & E & X)]; rewrite Ly in X; rewrite X.
  - exists ys, z. split; [apply Permutation_refl|]. split; [exact Ly|]. split; [apply nth_error_mid; lia|]. split; [reflexivity|].
    apply pairs_tail; assumption.
  - rewrite app_length in Ly. cbn [length] in Ly. exists (a ++ z :: b), y. split; [|split; [|split; [|split; [reflexivity|]]]].
    + rewrite <- !app_assoc. apply Permutation_app_head. cbn [app].
      transitivity (z :: y :: b); [constructor; symmetry; apply Permutation_cons_append|]. transitivity (y :: z :: b); [constructor|].
      constructor. apply Permutation_cons_append.
    + rewrite app_length. cbn [length]. exact Ly.
    + rewrite <- app_assoc. cbn [app]. apply nth_error_mid. lia.
    + apply pairs_tail; [exact C|]. rewrite app_length. cbn [length]. exact Ly.
Qed.
Lemma shuffle_perm : forall i js (xs : list A), length xs = S i -> shuffle_choices i js -> Permutation (fold_left swap (pairs i js) xs) xs.
Proof using Type.
  induction i as [|i IH]; intros js xs L C; [apply Permutation_refl|]. destruct (shuffle_choices_S i js C) as (j & is & -> & J & C').
  destruct (shuffle_step i j is xs L J C') as (rest & y & P & Lr & _ & _ & ->).
  transitivity (rest ++ [y]); [apply Permutation_app_tail; apply IH; assumption|exact P].
Qed.
Lemma shuffle_inj : forall i js ks (xs : list A), length xs = S i -> NoDup xs -> shuffle_choices i js -> shuffle_choices i ks ->
  fold_left swap (pairs i js) xs = fold_left swap (pairs i ks) xs -> js = ks.
Proof using Type.
  induction i as [|i IH]; intros js ks xs L ND C K E; [inversion C; inversion K; reflexivity|].
  destruct (shuffle_choices_S i js C) as (j & is & -> & J & C'), (shuffle_choices_S i ks K) as (k & ls & -> & J' & K').
  destruct (shuffle_step i j is xs L J C') as (rest & y & P & Lr & N & S1 & X), (shuffle_step i k ls xs L J' K') as (rest' & y' & P' & Lr' & N' & S2 & X').
  rewrite X, X' in E. apply app_inj_tail in E. destruct E as (E & <-).
  assert (JK : Z.to_nat j = Z.to_nat k).
  { apply (proj1 (NoDup_nth_error xs) ND); [apply nth_error_Some|]; congruence. }
  unfold upto in J, J'. assert (j = k) by lia. subst k. rewrite S1 in S2. apply app_inj_tail in S2. destruct S2 as (<- & _).
  f_equal. apply (IH is ls rest); auto. apply (Permutation_NoDup (Permutation_sym P)) in ND. apply NoDup_remove_1 in ND. rewrite app_nil_r in ND. exact ND.
Qed.
Lemma shuffle_onto : forall i (xs q : list A), length xs = S i -> Permutation q xs ->
  exists js, shuffle_choices i js /\ q = fold_left swap (pairs i js) xs.
Proof using Type.
  induction i as [|i IH]; intros xs q L Q.
  - exists []. split; [constructor|]. cbn [pairs fold_left]. destruct xs as [|x [|x' xs]]; try discriminate.
    apply Permutation_sym, Permutation_length_1_inv in Q. exact Q.
  - assert (Lq : length q = S (S i)) by (rewrite (Permutation_length Q); exact L).
    destruct (last_split q (S i) Lq) as (q' & y & -> & Lq').
    assert (I : In y xs) by (apply (Permutation_in _ Q), in_app_iff; right; left; reflexivity).
    apply In_nth_error in I. destruct I as (j & Nj). assert (jl : (j < length xs)%nat) by (apply nth_error_Some; congruence).
    (* the step with this choice *)
    assert (J : upto (S i) (Z.of_nat j)) by (unfold upto; lia).
    assert (EX : exists is, shuffle_choices i is).
    { exists (map (fun _ => 0) (downto i)). unfold shuffle_choices, fits. clear. induction (downto i); cbn [map]; constructor; [unfold upto; lia|assumption]. }
    destruct EX as (is0 & C0). destruct (shuffle_step i (Z.of_nat j) is0 xs L J C0) as (rest & z & P & Lr & N & S1 & _).
    rewrite Nat2Z.id in N, S1. assert (z = y) by congruence. subst z.
    assert (P' : Permutation q' rest).
    { apply (Permutation_app_inv_r [y]). transitivity xs; [exact Q|symmetry; exact P]. }
    destruct (IH rest q' Lr P') as (is & C & ->). exists (Z.of_nat j :: is). split; [constructor; assumption|].
    cbn [pairs fold_left]. rewrite Nat2Z.id, S1. symmetry. apply pairs_tail; assumption.
Qed.
End Shuffle.
Lemma swaps_map : forall A B (f : A -> B) sw xs, fold_left swap sw (map f xs) = map f (fold_left swap sw xs).
Proof.
  intros A B f sw. assert (U : forall (l : list A) k z, list_update (map f l) k (f z) = map f (list_update l k z)).
  { induction l as [|x l IH]; intros [|k] z; cbn [map list_update]; try reflexivity. rewrite IH. reflexivity. }
  induction sw as [|[i j] sw IH]; intros xs; [reflexivity|]. cbn [fold_left]. rewrite <- IH. f_equal.
  unfold swap. cbn [fst snd]. rewrite !nth_error_map. destruct (nth_error xs i), (nth_error xs j); cbn [option_map]; try reflexivity.
  rewrite !U. reflexivity.
Qed.

Definition shuffle_draw (i : nat) : sampler :=
  if 2 ^ 31 - 2 <? Z.of_nat i then int63n (Z.of_nat i + 1) else int31n_mul (Z.of_nat i + 1).
Lemma shuffle_draw_drawn : forall i, Z.of_nat i + 1 < 2 ^ 63 -> any_drawn (shuffle_draw i) (upto i).
Proof.
  intros i H. unfold shuffle_draw. destruct (2 ^ 31 - 2 <? Z.of_nat i) eqn:E.
  - exists (acc63 (Z.of_nat i + 1)). apply int63n_drawn. lia.
  - exists (accmul (Z.of_nat i + 1)). apply int31n_mul_drawn. lia.
Qed.
Lemma shuffle_drawn : forall i, Z.of_nat i + 1 < 2 ^ 63 -> Forall2 any_drawn (map shuffle_draw (downto i)) (map upto (downto i)).
Proof.
  induction i as [|i IH]; intros H; cbn [downto map]; constructor; [apply shuffle_draw_drawn; exact H|apply IH; lia].
Qed.
Lemma shuffle_loop_spec : forall i t sw t', shuffle_loop i t = Ok (sw, t') <->
  exists js, vec (map shuffle_draw (downto i)) t = Ok (js, t') /\ sw = pairs i js.
Proof.
  induction i as [|i IH]; intros t sw t'.
  - cbn [shuffle_loop downto map vec]. split; [intros H; injection H as <- <-; exists []; auto|intros (js & H & ->); injection H as <- <-; reflexivity].
  - cbn [shuffle_loop downto map vec]. cbv zeta.
    change (if 2 ^ 31 - 2 <? Z.of_nat (S i) then int63n (Z.of_nat (S i) + 1) t else int31n_mul (Z.of_nat (S i) + 1) t)
      with (let n := Z.of_nat (S i) + 1 in if 2 ^ 31 - 2 <? Z.of_nat (S i) then int63n n t else int31n_mul n t).
    assert (EQ : (let n := Z.of_nat (S i) + 1 in if 2 ^ 31 - 2 <? Z.of_nat (S i) then int63n n t else int31n_mul n t) = shuffle_draw (S i) t)
      by (cbv zeta; unfold shuffle_draw; destruct (2 ^ 31 - 2 <? Z.of_nat (S i)); reflexivity).
    rewrite EQ. destruct (shuffle_draw (S i) t) as [[j t1]|?| |]; cbn [bind]; try (split; [discriminate|intros (js & H & _); discriminate]).
    split.
    + intros H. destruct (shuffle_loop i t1) as [[sw' t2]|?| |] eqn:E; try discriminate. cbn [bind] in H. injection H as <- <-.
      apply IH in E. destruct E as (js & V & ->). exists (j :: js). rewrite V. auto.
    + intros (js & H & ->). destruct (vec (map shuffle_draw (downto i)) t1) as [[vs t2]|?| |] eqn:E; try discriminate. cbn [bind] in H.
      injection H as <- <-. assert (X : shuffle_loop i t1 = Ok (pairs i vs, t2)) by (apply IH; eauto). rewrite X. reflexivity.
Qed.
Lemma shuffle_calls_lemma : forall n t sw t', shuffle n t = Ok (sw, t') -> n < 2 ^ 63 -> forall i j, In (i, j) sw -> (j <= i /\ 1 <= i)%nat /\ Z.of_nat i < n.
Proof.
  intros n t sw t' H B i j I. unfold shuffle in H. destruct (n <? 0) eqn:N; [discriminate|]. apply shuffle_loop_spec in H.
  destruct H as (js & V & ->). assert (C := vec_fits _ _ _ _ _ (shuffle_drawn (Z.to_nat (n - 1)) ltac:(lia)) V).
  assert (F := pairs_in _ _ C). rewrite Forall_forall in F. specialize (F _ I). cbn [fst snd] in F. lia.
Qed.
Lemma shuffle_permutes_lemma : forall A (xs : list A) t sw t', len xs < 2 ^ 63 ->
  shuffle (len xs) t = Ok (sw, t') -> Permutation (fold_left swap sw xs) xs.
Proof.
  intros A xs t sw t' B H. unfold shuffle in H. unfold len in *. replace (Z.of_nat (length xs) <? 0) with false in H by lia.
  apply shuffle_loop_spec in H. destruct H as (js & V & ->). destruct xs as [|x xs].
  - cbn. apply Permutation_refl.
  - assert (E : Z.to_nat (Z.of_nat (length (x :: xs)) - 1) = length xs) by (cbn [length]; lia). rewrite E in *.
    apply shuffle_perm; [reflexivity|]. apply (vec_fits _ _ _ _ _ (shuffle_drawn (length xs) ltac:(cbn [length] in B; lia)) V).
Qed.
Lemma shuffle_fair_lemma : forall xs : list Z, NoDup xs -> len xs < 2 ^ 63 ->
  fair (fun t => let* (sw, t') := shuffle (len xs) t in Ok (fold_left swap sw xs, t')) (fun ys => Permutation ys xs).
Proof.
  intros xs ND B. unfold len in *. set (i := Z.to_nat (Z.of_nat (length xs) - 1)).
  apply (fair_image _ (list_eq_dec Z.eq_dec) (map shuffle_draw (downto i)) (map upto (downto i)) _ (fun js => fold_left swap (pairs i js) xs)).
  - apply shuffle_drawn. unfold i. lia.
  - intros t b t'. unfold shuffle. replace (Z.of_nat (length xs) <? 0) with false by lia. fold i. split.
    + intros H. destruct (shuffle_loop i t) as [[sw t1]|?| |] eqn:E; try discriminate. cbn [bind] in H. injection H as <- <-.
      apply shuffle_loop_spec in E. destruct E as (js & V & ->). eauto.
    + intros (js & V & ->). assert (X : shuffle_loop i t = Ok (pairs i js, t')) by (apply shuffle_loop_spec; eauto). rewrite X. reflexivity.
  - intros js C. destruct xs as [|x xs].
    + unfold i. cbn. apply Permutation_refl.
    + apply shuffle_perm; [unfold i; cbn [length]; lia|exact C].
  - intros js ks C K E. destruct xs as [|x xs].
    + unfold i in C, K. cbn in C, K. inversion C; inversion K; reflexivity.
    + apply (shuffle_inj i js ks (x :: xs)); auto. unfold i. cbn [length]. lia.
  - intros q Q. destruct xs as [|x xs].
    + exists []. unfold i. cbn. split; [constructor|]. apply Permutation_sym, Permutation_nil in Q. exact Q.
    + apply shuffle_onto; [unfold i; cbn [length]; lia|exact Q].
Qed.
