(** Proofs for C152 and C153. *)
From Verif Require Import Base Spec Spec_Slices Model_Unicode Model_Crand Model_Functions Model_Types Model_Keys Model_Slices Proofs_Keys Proofs_KeyOps.

Section Lists.
Context {A : Type}.
Implicit Types l : list A.
Lemma nth_firstn l : forall n k, nth_error (firstn n l) k = if Nat.ltb k n then nth_error l k else None.
Proof.
  induction l as [|x l IH]; intros [|n] [|k]; cbn [firstn nth_error]; try reflexivity.
  - destruct (Nat.ltb (S k) (S n)); reflexivity.
  - rewrite IH. reflexivity.
Qed.
Lemma nth_skipn l : forall n k, nth_error (skipn n l) k = nth_error l (n + k).
Proof. induction l as [|x l IH]; intros [|n] k; cbn [skipn Nat.add nth_error]; [reflexivity|destruct k; reflexivity|reflexivity|apply IH]. Qed.
Lemma list_ext l : forall l', (forall k, nth_error l k = nth_error l' k) -> l = l'.
Proof.
  induction l as [|x l IH]; intros [|y l'] H; [reflexivity|specialize (H 0%nat); discriminate|specialize (H 0%nat); discriminate|].
  assert (x = y) as -> by (specialize (H 0%nat); cbn in H; congruence). f_equal. apply IH. intros k. exact (H (S k)).
Qed.
Lemma update_length l : forall i x, length (list_update l i x) = length l.
Proof. induction l as [|y l IH]; intros [|i] x; cbn [list_update length]; [reflexivity..|]. rewrite IH. reflexivity. Qed.
Lemma nth_update l : forall i x k, nth_error (list_update l i x) k = if Nat.eqb k i && Nat.ltb k (length l) then Some x else nth_error l k.
Proof.
  induction l as [|y l IH]; intros [|i] x [|k]; cbn [list_update nth_error length]; try reflexivity.
  - destruct (Nat.eqb (S k) (S i)); reflexivity.
  - rewrite IH. reflexivity.
Qed.
Lemma write_length xs : forall l j, length (write l j xs) = length l.
Proof. induction xs as [|x xs IH]; intros l j; [reflexivity|]. cbn [write]. rewrite IH. apply update_length. Qed.
Lemma nth_write xs : forall l j k, (j + length xs <= length l)%nat ->
  nth_error (write l j xs) k = if Nat.leb j k && Nat.ltb k (j + length xs) then nth_error xs (k - j) else nth_error l k.
Proof.
  induction xs as [|x xs IH]; intros l j k H.
  - cbn [write length] in *. replace (Nat.leb j k && Nat.ltb k (j + 0)) with false by lia. reflexivity.
  - cbn [write length] in *. rewrite IH by (rewrite update_length; lia). rewrite nth_update.
    destruct (Nat.eqb k j) eqn:E.
    + assert (k = j) as -> by lia. replace (Nat.leb (S j) j && Nat.ltb j (S j + length xs)) with false by lia.
      replace (true && Nat.ltb j (length l)) with true by lia.
      replace (Nat.leb j j && Nat.ltb j (j + S (length xs))) with true by lia. rewrite Nat.sub_diag. reflexivity.
    + destruct (Nat.leb (S j) k && Nat.ltb k (S j + length xs)) eqn:E2.
      * replace (Nat.leb j k && Nat.ltb k (j + S (length xs))) with true by lia.
        replace (k - j)%nat with (S (k - S j)) by lia. reflexivity.
      * replace (Nat.leb j k && Nat.ltb k (j + S (length xs))) with false by lia. reflexivity.
Qed.
End Lists.

Section Memory.
Context {A : Type}.
Implicit Types m : list (list A).
Definition cell m (a k : nat) : option A := nth_error (nth a m []) k.
Lemma cell_put m a j xs b k : (a < length m)%nat -> (j + length xs <= length (nth a m []))%nat ->
  cell (put m a j xs) b k = if Nat.eqb b a && (Nat.leb j k && Nat.ltb k (j + length xs)) then nth_error xs (k - j) else cell m b k.
Proof.
  intros H1 H2. unfold cell, put. destruct (Nat.eqb b a) eqn:E.
  - assert (b = a) as -> by lia. cbn [andb].
    assert (nth a (list_update m a (write (nth a m []) j xs)) [] = write (nth a m []) j xs) as ->.
    { apply nth_error_nth. rewrite nth_update. replace (Nat.eqb a a && Nat.ltb a (length m)) with true by lia. reflexivity. }
    apply nth_write, H2.
  - cbn [andb]. f_equal. assert (nth_error (list_update m a (write (nth a m []) j xs)) b = nth_error m b) as Q by (rewrite nth_update, E; reflexivity).
    destruct (nth_error m b) as [y|] eqn:N; [rewrite (nth_error_nth _ _ _ Q), (nth_error_nth _ _ _ N); reflexivity|].
    apply nth_error_None in N, Q. rewrite !nth_overflow by lia. reflexivity.
Qed.
Lemma put_length m a j xs : length (put m a j xs) = length m.
Proof. apply update_length. Qed.
Lemma put_arrays m a j xs b : length (nth b (put m a j xs) []) = length (nth b m []).
Proof.
  unfold put. destruct (Nat.eqb b a) eqn:E.
  - assert (b = a) as -> by lia. destruct (Nat.ltb a (length m)) eqn:L.
    + assert (nth a (list_update m a (write (nth a m []) j xs)) [] = write (nth a m []) j xs) as ->; [|apply write_length].
      apply nth_error_nth. rewrite nth_update. replace (Nat.eqb a a && Nat.ltb a (length m)) with true by lia. reflexivity.
    + rewrite !nth_overflow; [reflexivity|lia|rewrite update_length; lia].
  - f_equal. assert (nth_error (list_update m a (write (nth a m []) j xs)) b = nth_error m b) as Q by (rewrite nth_update, E; reflexivity).
    destruct (nth_error m b) as [y|] eqn:N; [rewrite (nth_error_nth _ _ _ Q), (nth_error_nth _ _ _ N); reflexivity|].
    apply nth_error_None in N, Q. rewrite !nth_overflow by lia. reflexivity.
Qed.
Lemma cell_old m x b k : (b < length m)%nat -> cell (m ++ [x]) b k = cell m b k.
Proof. intros H. unfold cell. rewrite app_nth1 by exact H. reflexivity. Qed.
Lemma cell_fresh m x k : cell (m ++ [x]) (length m) k = nth_error x k.
Proof. unfold cell. rewrite app_nth2, Nat.sub_diag by lia. reflexivity. Qed.

Lemma nth_elems m s k : nth_error (elems m s) k = if Nat.ltb k (sl_len s) then cell m (sl_arr s) (sl_off s + k) else None.
Proof. unfold elems, cell. rewrite nth_firstn, nth_skipn. reflexivity. Qed.
Lemma elems_length m s : valid m s -> length (elems m s) = sl_len s.
Proof.
  intros (H1 & H2). unfold elems. rewrite firstn_length, skipn_length. destruct H2 as [H2|(H2 & H3)]; lia.
Qed.

(** Arrays keep their lengths. *)
Definition grown m m' : Prop := (length m <= length m')%nat /\ forall a, (a < length m)%nat -> length (nth a m' []) = length (nth a m []).
Lemma grown_refl m : grown m m.
Proof. split; [lia|reflexivity]. Qed.
Lemma grown_trans m1 m2 m3 : grown m1 m2 -> grown m2 m3 -> grown m1 m3.
Proof. intros (H1 & H2) (H3 & H4). split; [lia|]. intros a H. rewrite H4, H2 by lia. reflexivity. Qed.
Lemma valid_grown m m' s : grown m m' -> valid m s -> valid m' s.
Proof.
  intros (G1 & G2) (H1 & H2). split; [exact H1|]. destruct H2 as [H2|(H2 & H3)]; [left; exact H2|right].
  rewrite G2 by exact H2. lia.
Qed.
(** Changes within the region of [s] only. *)
Definition only m m' (s : gslice) : Prop := forall b k, (b < length m)%nat ->
  (b <> sl_arr s \/ k < sl_off s \/ sl_off s + sl_cap s <= k)%nat -> cell m' b k = cell m b k.
(** The region of [s'] is that of [s], or new. *)
Definition moved m (s s' : gslice) : Prop :=
  (sl_arr s' = sl_arr s /\ sl_off s' = sl_off s /\ sl_cap s' = sl_cap s) \/ (length m <= sl_arr s')%nat.
Lemma only_trans m1 m2 m3 s s' : only m1 m2 s -> grown m1 m2 -> moved m1 s s' -> only m2 m3 s' -> only m1 m3 s.
Proof.
  intros H1 (G & _) M H2 b k L H. rewrite H2; [apply H1; assumption|lia|]. destruct M as [(-> & -> & ->)|M]; [exact H|left; lia].
Qed.
Lemma moved_trans m1 m2 s1 s2 s3 : (length m1 <= length m2)%nat -> moved m1 s1 s2 -> moved m2 s2 s3 -> moved m1 s1 s3.
Proof. unfold moved. intros L [(A1 & A2 & A3)|H1] [(B1 & B2 & B3)|H2]; [left|right..]; lia. Qed.
Lemma elems_only m m' s s2 : only m m' s -> valid m s2 -> apart s s2 -> valid m s -> elems m' s2 = elems m s2.
Proof.
  intros O (V1 & V2) P (W1 & W2). apply list_ext. intros k. rewrite !nth_elems. destruct (Nat.ltb k (sl_len s2)) eqn:E; [|reflexivity].
  destruct V2 as [V2|(V2 & V3)]; [lia|]. apply O; [exact V2|]. unfold apart in P. lia.
Qed.
Lemma apart_moved m s s' s2 : apart s s2 -> moved m s s' -> valid m s2 -> apart s' s2.
Proof.
  unfold apart. intros P [(A1 & A2 & A3)|M] (V1 & V2); [rewrite A1, A2, A3; exact P|].
  destruct V2 as [V2|(V2 & V3)]; [right; left; exact V2|right; right; left; lia].
Qed.
Lemma apart_sym s s2 : apart s s2 -> apart s2 s.
Proof. unfold apart. lia. Qed.

Lemma append_lemma (zero : A) grow m s xs : valid m s -> forall m' s', go_append zero grow m s xs = (m', s') ->
  valid m' s' /\ grown m m' /\ only m m' s /\ moved m s s' /\ elems m' s' = elems m s ++ xs.
Proof.
  intros V m' s' E. pose proof V as (V1 & V2). unfold go_append in E. cbv zeta in E.
  destruct (Nat.leb (sl_len s + length xs) (sl_cap s)) eqn:C.
  - assert (m' = put m (sl_arr s) (sl_off s + sl_len s) xs /\ s' = mkSl (sl_arr s) (sl_off s) (sl_len s + length xs) (sl_cap s)) as (-> & ->)
      by (split; congruence). clear E.
    assert (grown m (put m (sl_arr s) (sl_off s + sl_len s) xs)) as G by (split; [rewrite put_length; lia|intros; apply put_arrays]).
    destruct xs as [|x xs].
    { cbn [length]. rewrite Nat.add_0_r, app_nil_r. assert (forall b k, cell (put m (sl_arr s) (sl_off s + sl_len s) []) b k = cell m b k) as Q.
      { intros b k. unfold cell, put. cbn [write]. assert (nth b (list_update m (sl_arr s) (nth (sl_arr s) m [])) [] = nth b m []) as ->; [|reflexivity].
        destruct (nth_error (list_update m (sl_arr s) (nth (sl_arr s) m [])) b) as [y|] eqn:N.
        - rewrite (nth_error_nth _ _ _ N). rewrite nth_update in N. destruct (Nat.eqb b (sl_arr s) && Nat.ltb b (length m)) eqn:F.
          + assert (b = sl_arr s) as -> by lia. congruence.
          + symmetry. apply nth_error_nth. exact N.
        - apply nth_error_None in N. pose proof N as N2. rewrite update_length in N2. rewrite !nth_overflow by lia. reflexivity. }
      split; [apply (valid_grown _ _ _ G); split; [exact V1|exact V2]|]. split; [exact G|]. split; [intros b k _ _; apply Q|].
      split; [left; auto|]. apply list_ext. intros k. rewrite !nth_elems. cbn [sl_len sl_arr sl_off]. rewrite Q. reflexivity. }
    destruct V2 as [V2|(V2 & V3)]; [cbn [length] in C; lia|].
    assert (forall b k, cell (put m (sl_arr s) (sl_off s + sl_len s) (x :: xs)) b k =
      if Nat.eqb b (sl_arr s) && (Nat.leb (sl_off s + sl_len s) k && Nat.ltb k (sl_off s + sl_len s + length (x :: xs)))
      then nth_error (x :: xs) (k - (sl_off s + sl_len s)) else cell m b k) as Q by (intros b k; apply cell_put; lia).
    split; [apply (valid_grown _ _ _ G); split; cbn [sl_len sl_cap sl_arr sl_off]; [lia|right; lia]|]. split; [exact G|].
    split; [|split; [left; auto|]].
    + intros b k _ H. rewrite Q. replace (Nat.eqb b (sl_arr s) && (Nat.leb (sl_off s + sl_len s) k && Nat.ltb k (sl_off s + sl_len s + length (x :: xs)))) with false by lia. reflexivity.
    + apply list_ext. intros k. rewrite nth_elems. cbn [sl_len sl_arr sl_off]. rewrite Q.
      destruct (Nat.ltb k (sl_len s)) eqn:L.
      * rewrite nth_error_app1 by (rewrite elems_length by exact V; lia). rewrite nth_elems, L.
        replace (Nat.ltb k (sl_len s + length (x :: xs))) with true by lia.
        replace (Nat.eqb (sl_arr s) (sl_arr s) && (Nat.leb (sl_off s + sl_len s) (sl_off s + k) && Nat.ltb (sl_off s + k) (sl_off s + sl_len s + length (x :: xs)))) with false by lia.
        reflexivity.
      * rewrite nth_error_app2 by (rewrite elems_length by exact V; lia). rewrite elems_length by exact V.
        destruct (Nat.ltb k (sl_len s + length (x :: xs))) eqn:L2.
        -- replace (Nat.eqb (sl_arr s) (sl_arr s) && (Nat.leb (sl_off s + sl_len s) (sl_off s + k) && Nat.ltb (sl_off s + k) (sl_off s + sl_len s + length (x :: xs)))) with true by lia.
           f_equal. lia.
        -- symmetry. apply nth_error_None. lia.
  - assert (m' = m ++ [elems m s ++ xs ++ repeat zero (grow (sl_len s + length xs)%nat - (sl_len s + length xs))] /\
      s' = mkSl (length m) 0 (sl_len s + length xs)%nat (Nat.max (sl_len s + length xs) (grow (sl_len s + length xs)%nat))) as (-> & ->) by (split; congruence). clear E.
    set (x := elems m s ++ xs ++ repeat zero (grow (sl_len s + length xs)%nat - (sl_len s + length xs))).
    assert (length x = Nat.max (sl_len s + length xs) (grow (sl_len s + length xs)%nat)) as LX.
    { unfold x. rewrite !app_length, repeat_length, elems_length by exact V. lia. }
    split; [split; cbn [sl_len sl_cap sl_arr sl_off]; [lia|right; rewrite app_length; cbn [length]; split; [lia|]]|].
    { rewrite app_nth2, Nat.sub_diag by lia. cbn [nth]. lia. }
    split; [split; [rewrite app_length; lia|intros a H; rewrite app_nth1 by exact H; reflexivity]|].
    split; [intros b k H _; apply cell_old, H|]. split; [right; cbn [sl_arr]; lia|].
    apply list_ext. intros k. rewrite nth_elems. cbn [sl_len sl_arr sl_off]. rewrite cell_fresh. cbn [Nat.add].
    destruct (Nat.ltb k (sl_len s + length xs)) eqn:L.
    + unfold x. rewrite app_assoc, nth_error_app1 by (rewrite app_length, elems_length by exact V; lia). reflexivity.
    + symmetry. apply nth_error_None. rewrite app_length, elems_length by exact V. lia.
Qed.

Lemma swap_lemma m s i : valid m s -> (i < sl_len s)%nat -> forall m' s', go_swap_remove m s i = (m', s') ->
  valid m' s' /\ grown m m' /\ only m m' s /\ moved m s s' /\ elems m' s' = swap_remove (elems m s) i /\
  exists z, nth_error (elems m s) (sl_len s - 1) = Some z /\ elems m' s = list_update (elems m s) i z.
Proof.
  intros V I m' s' E. pose proof V as (V1 & V2). unfold go_swap_remove in E.
  destruct (nth_error (elems m s) (sl_len s - 1)) as [z|] eqn:N; [|apply nth_error_None in N; rewrite elems_length in N by exact V; lia].
  assert (m' = put m (sl_arr s) (sl_off s + i) [z] /\ s' = mkSl (sl_arr s) (sl_off s) (sl_len s - 1) (sl_cap s)) as (-> & ->) by (split; congruence). clear E.
  destruct V2 as [V2|(V2 & V3)]; [lia|].
  assert (grown m (put m (sl_arr s) (sl_off s + i) [z])) as G by (split; [rewrite put_length; lia|intros; apply put_arrays]).
  assert (forall b k, cell (put m (sl_arr s) (sl_off s + i) [z]) b k =
    if Nat.eqb b (sl_arr s) && Nat.eqb k (sl_off s + i) then Some z else cell m b k) as Q.
  { intros b k. rewrite cell_put; [|exact V2|cbn [length]; lia]. cbn [length].
    destruct (Nat.eqb b (sl_arr s) && Nat.eqb k (sl_off s + i)) eqn:F.
    - replace (Nat.eqb b (sl_arr s) && (Nat.leb (sl_off s + i) k && Nat.ltb k (sl_off s + i + 1))) with true by lia.
      replace (k - (sl_off s + i))%nat with 0%nat by lia. reflexivity.
    - replace (Nat.eqb b (sl_arr s) && (Nat.leb (sl_off s + i) k && Nat.ltb k (sl_off s + i + 1))) with false by lia. reflexivity. }
  assert (elems (put m (sl_arr s) (sl_off s + i) [z]) s = list_update (elems m s) i z) as EU.
  { apply list_ext. intros k. rewrite nth_elems, Q, nth_update, nth_elems, elems_length by exact V.
    destruct (Nat.eqb k i) eqn:F1; destruct (Nat.ltb k (sl_len s)) eqn:F2; cbn [andb]; try reflexivity.
    - replace (Nat.eqb (sl_arr s) (sl_arr s) && Nat.eqb (sl_off s + k) (sl_off s + i)) with true by lia. reflexivity.
    - replace (Nat.eqb (sl_arr s) (sl_arr s) && Nat.eqb (sl_off s + k) (sl_off s + i)) with false by lia. reflexivity. }
  split; [apply (valid_grown _ _ _ G); split; cbn [sl_len sl_cap sl_arr sl_off]; [lia|right; lia]|]. split; [exact G|].
  split; [|split; [left; auto|split]].
  - intros b k _ H. rewrite Q. replace (Nat.eqb b (sl_arr s) && Nat.eqb k (sl_off s + i)) with false by lia. reflexivity.
  - unfold swap_remove. rewrite elems_length by exact V. rewrite N, <- EU. apply list_ext. intros k. rewrite nth_firstn, !nth_elems. cbn [sl_len sl_arr sl_off].
    destruct (Nat.ltb k (sl_len s - 1)) eqn:F1; [|reflexivity]. replace (Nat.ltb k (sl_len s)) with true by lia. reflexivity.
  - exists z. split; [reflexivity|exact EU].
Qed.
End Memory.

Section Keepers.
Context (U : Uni) (grow : nat -> nat).
Local Notation k_value := (k_value U).
Definition sound (m : mem) (s : gslice) (v : list (list rune)) (m' : mem) (s' : gslice) : Prop :=
  valid m' s' /\ grown m m' /\ only m m' s /\ moved m s s' /\ elems m' s' = v.
Lemma sound_refl m s : valid m s -> sound m s (elems m s) m s.
Proof. intros V. split; [exact V|]. split; [apply grown_refl|]. split; [intros ? ? _ _; reflexivity|]. split; [left; auto|reflexivity]. Qed.
Lemma index_lt {A} (f : A -> bool) l : forall n i, index_of f l n = Some i -> (n <= i < n + length l)%nat.
Proof. induction l as [|x l IH]; intros n i H; cbn [index_of length] in *; [discriminate|]. destruct (f x); [injection H as <-; lia|]. apply IH in H. lia. Qed.
Lemma add1_sound m s x : valid m s -> forall m' s', sl_add1 U grow (m, s) x = (m', s') -> sound m s (add_keeper1 U (elems m s) x) m' s'.
Proof.
  intros V m' s' E. unfold sl_add1 in E. unfold add_keeper1. destruct (contains_keeper U (elems m s) [x]).
  - assert (m' = m /\ s' = s) as (-> & ->) by (split; congruence). apply sound_refl, V.
  - exact (append_lemma [] grow m s [x] V m' s' E).
Qed.
Lemma remove1_sound m s x : valid m s -> forall m' s', sl_remove1 U (m, s) x = (m', s') -> sound m s (remove_keeper1 U (elems m s) x) m' s'.
Proof.
  intros V m' s' E. unfold sl_remove1 in E. unfold remove_keeper1.
  destruct (index_of (fun k => equal_runes_fold U (Some x) (Some k)) (elems m s) 0) as [i|] eqn:I.
  - apply index_lt in I. rewrite elems_length in I by exact V.
    destruct (swap_lemma m s i V ltac:(lia) m' s' E) as (A & B & C & D & F & _). unfold sound. auto.
  - assert (m' = m /\ s' = s) as (-> & ->) by (split; congruence). apply sound_refl, V.
Qed.
Lemma sound_trans m s v m1 s1 v' m2 s2 : sound m s v m1 s1 -> sound m1 s1 v' m2 s2 -> sound m s v' m2 s2.
Proof.
  intros (A1 & A2 & A3 & A4 & A5) (B1 & B2 & B3 & B4 & B5). split; [exact B1|]. split; [exact (grown_trans _ _ _ A2 B2)|].
  split; [exact (only_trans _ _ _ _ _ A3 A2 A4 B3)|]. split; [exact (moved_trans _ _ _ _ _ (proj1 A2) A4 B4)|exact B5].
Qed.
Lemma fold_sound (f : mem * gslice -> list rune -> mem * gslice) (g : list (list rune) -> list rune -> list (list rune)) :
  (forall m s x, valid m s -> forall m' s', f (m, s) x = (m', s') -> sound m s (g (elems m s) x) m' s') ->
  forall xs m s, valid m s -> forall m' s', fold_left f xs (m, s) = (m', s') -> sound m s (fold_left g xs (elems m s)) m' s'.
Proof.
  intros H. induction xs as [|x xs IH]; intros m s V m' s' E; cbn [fold_left] in *.
  - assert (m' = m /\ s' = s) as (-> & ->) by (split; congruence). apply sound_refl, V.
  - destruct (f (m, s) x) as (m1, s1) eqn:F. pose proof (H m s x V m1 s1 F) as S1. pose proof S1 as (V1 & _ & _ & _ & E1).
    pose proof (IH m1 s1 V1 m' s' E) as S2. rewrite E1 in S2. exact (sound_trans _ _ _ _ _ _ _ _ S1 S2).
Qed.
Lemma op_sound m s op : valid m s -> forall m' s', sl_op U grow m s op = (m', s') -> sound m s (k_value (elems m s) op) m' s'.
Proof.
  intros V m' s' E. destruct op as [xs|xs]; cbn [sl_op k_value] in *.
  - exact (fold_sound (sl_add1 U grow) (add_keeper1 U) add1_sound xs m s V m' s' E).
  - exact (fold_sound (sl_remove1 U) (remove_keeper1 U) remove1_sound xs m s V m' s' E).
Qed.

(** One operation: the slice, and all others that are apart. *)
Lemma op_lemma m s op m' s' : valid m s -> sl_op U grow m s op = (m', s') ->
  elems m' s' = k_value (elems m s) op /\ valid m' s' /\
  forall s2, valid m s2 -> apart s s2 -> elems m' s2 = elems m s2 /\ valid m' s2 /\ apart s' s2.
Proof.
  intros V E. destruct (op_sound m s op V m' s' E) as (A & B & C & D & F). split; [exact F|]. split; [exact A|].
  intros s2 V2 P. split; [exact (elems_only _ _ _ _ C V2 P V)|]. split; [exact (valid_grown _ _ _ B V2)|exact (apart_moved _ _ _ _ P D V2)].
Qed.

Lemma step_lemma m ss o m' ss' : separate m ss -> sl_step U grow (m, ss) o = (m', ss') ->
  separate m' ss' /\ length ss' = length ss /\
  forall n s s', nth_error ss n = Some s -> nth_error ss' n = Some s' ->
    elems m' s' = if Nat.eqb n (fst o) then k_value (elems m s) (snd o) else elems m s.
Proof.
  intros (V & P) E. unfold sl_step in E. destruct (nth_error ss (fst o)) as [s|] eqn:N.
  2:{ assert (m' = m /\ ss' = ss) as (-> & ->) by (split; congruence). split; [split; assumption|]. split; [reflexivity|].
      intros n s s' H1 H2. assert (s' = s) as -> by congruence. destruct (Nat.eqb n (fst o)) eqn:Q; [|reflexivity]. assert (n = fst o) as -> by lia. congruence. }
  destruct (sl_op U grow m s (snd o)) as (m1, s1) eqn:F. assert (m' = m1 /\ ss' = list_update ss (fst o) s1) as (-> & ->) by (split; congruence).
  assert (forall n x, nth_error ss n = Some x -> valid m x) as VN by (intros n x H; rewrite Forall_forall in V; apply V, (nth_error_In _ _ H)).
  destruct (op_lemma m s (snd o) m1 s1 (VN _ _ N) F) as (A & B & C).
  assert (fst o < length ss)%nat as L by (apply nth_error_Some; congruence).
  assert (forall n x, nth_error (list_update ss (fst o) s1) n = Some x -> (n = fst o /\ x = s1) \/ (n <> fst o /\ nth_error ss n = Some x)) as NU.
  { intros n x H. rewrite nth_update in H. destruct (Nat.eqb n (fst o)) eqn:Q.
    - left. replace (Nat.ltb n (length ss)) with true in H by lia. cbn [andb] in H. split; [lia|congruence].
    - right. cbn [andb] in H. split; [lia|exact H]. }
  split; [split|split].
  - apply Forall_forall. intros x I. apply In_nth_error in I. destruct I as (n & I). destruct (NU n x I) as [(-> & ->)|(Q & H)]; [exact B|].
    apply (C x (VN _ _ H)). apply (P (fst o) n); congruence.
  - intros i j x y D Hi Hj. destruct (NU i x Hi) as [(-> & ->)|(Qi & Hi')]; destruct (NU j y Hj) as [(-> & ->)|(Qj & Hj')].
    + congruence.
    + apply (C y (VN _ _ Hj')). apply (P (fst o) j); congruence.
    + apply apart_sym, (C x (VN _ _ Hi')). apply (P (fst o) i); congruence.
    + apply (P i j); assumption.
  - apply update_length.
  - intros n x y H1 H2. destruct (NU n y H2) as [(-> & ->)|(Q & H)].
    + rewrite Nat.eqb_refl. assert (x = s) as -> by congruence. exact A.
    + replace (Nat.eqb n (fst o)) with false by lia. assert (y = x) as -> by congruence.
      apply (C x (VN _ _ H)). apply (P (fst o) n); congruence.
Qed.
Lemma run_lemma ops : forall m ss m' ss', separate m ss -> sl_run U grow ops (m, ss) = (m', ss') ->
  separate m' ss' /\ length ss' = length ss /\
  forall n s s', nth_error ss n = Some s -> nth_error ss' n = Some s' -> elems m' s' = fold_left k_value (ops_of n ops) (elems m s).
Proof.
  induction ops as [|o ops IH]; intros m ss m' ss' SP E.
  - cbn in E. assert (m' = m /\ ss' = ss) as (-> & ->) by (split; congruence). split; [exact SP|]. split; [reflexivity|].
    intros n s s' H1 H2. assert (s' = s) as -> by congruence. reflexivity.
  - unfold sl_run in E. cbn [fold_left] in E. destruct (sl_step U grow (m, ss) o) as (m1, ss1) eqn:F.
    destruct (step_lemma m ss o m1 ss1 SP F) as (A & B & C). destruct (IH m1 ss1 m' ss' A E) as (D & G & H).
    split; [exact D|]. split; [congruence|]. intros n s s' H1 H2.
    destruct (nth_error ss1 n) as [s1|] eqn:N; [|apply nth_error_None in N; assert (n < length ss)%nat by (apply nth_error_Some; congruence); lia].
    rewrite (H n s1 s' N H2), (C n s s1 H1 N). unfold ops_of. cbn [filter]. destruct (Nat.eqb n (fst o)); reflexivity.
Qed.

(** Shared slices. *)
Lemma shared_remove m s x m' s' : valid m s -> sl_op U grow m s (KRemove [x]) = (m', s') ->
  elems m' s = match index_of (fun k => equal_runes_fold U (Some x) (Some k)) (elems m s) 0 with
               | Some i => list_update (elems m s) i (last (elems m s) []) | None => elems m s end.
Proof.
  intros V E. cbn [sl_op fold_left] in E. unfold sl_remove1 in E.
  destruct (index_of (fun k => equal_runes_fold U (Some x) (Some k)) (elems m s) 0) as [i|] eqn:I.
  - apply index_lt in I. rewrite elems_length in I by exact V.
    destruct (swap_lemma m s i V ltac:(lia) m' s' E) as (_ & _ & _ & _ & _ & z & Z1 & Z2). rewrite Z2. f_equal.
    destruct (exists_last (l := elems m s)) as (a & y & Q); [intros Q; pose proof (elems_length m s V) as L; rewrite Q in L; cbn in L; lia|].
    rewrite Q, last_last. rewrite Q in Z1. pose proof (elems_length m s V) as L. rewrite Q, app_length in L. cbn [length] in L.
    rewrite nth_error_app2 in Z1 by lia. replace (sl_len s - 1 - length a)%nat with 0%nat in Z1 by lia. cbn in Z1. congruence.
  - congruence.
Qed.
Lemma shared_add1 m s x : valid m s -> forall m' s', sl_add1 U grow (m, s) x = (m', s') -> forall s2, sl_arr s2 = sl_arr s -> sl_off s2 = sl_off s ->
  (sl_len s2 <= sl_len s)%nat -> (sl_cap s <> 0%nat) -> elems m' s2 = elems m s2 /\ (sl_len s <= sl_len s')%nat.
Proof.
  intros V m' s' E s2 A2 O2 L2 NZ. unfold sl_add1 in E. destruct (contains_keeper U (elems m s) [x]).
  - assert (m' = m /\ s' = s) as (-> & ->) by (split; congruence). split; [reflexivity|lia].
  - unfold go_append in E. cbv zeta in E. pose proof V as (V1 & V2). destruct V2 as [V2|(V2 & V3)]; [lia|].
    destruct (Nat.leb (sl_len s + length [x]) (sl_cap s)) eqn:C.
    + assert (m' = put m (sl_arr s) (sl_off s + sl_len s) [x] /\ s' = mkSl (sl_arr s) (sl_off s) (sl_len s + length [x]) (sl_cap s)) as (-> & ->) by (split; congruence).
      split; [|cbn [sl_len]; lia]. apply list_ext. intros k. rewrite !nth_elems. destruct (Nat.ltb k (sl_len s2)) eqn:F; [|reflexivity].
      rewrite cell_put by lia. rewrite A2, O2.
      replace (Nat.eqb (sl_arr s) (sl_arr s) && (Nat.leb (sl_off s + sl_len s) (sl_off s + k) && Nat.ltb (sl_off s + k) (sl_off s + sl_len s + length [x]))) with false by lia.
      reflexivity.
    + assert (m' = m ++ [elems m s ++ [x] ++ repeat [] (grow (sl_len s + length [x])%nat - (sl_len s + length [x]))] /\ sl_len s' = (sl_len s + length [x])%nat) as (-> & ->)
        by (split; [congruence|]; replace s' with (snd (m', s')) by reflexivity; rewrite <- E; reflexivity).
      split; [|lia]. apply list_ext. intros k. rewrite !nth_elems. destruct (Nat.ltb k (sl_len s2)) eqn:F; [|reflexivity].
      apply cell_old. rewrite A2. exact V2.
Qed.
(** The keepers of a new key. *)
Lemma nil_valid (m : mem) : valid m nil_slice.
Proof. split; [cbn; lia|left; reflexivity]. Qed.
Lemma new_key_slice m own keepers m' s : sl_new_key U grow m own keepers = (m', s) ->
  elems m' s = remove_keeper U (vetted_keepers U keepers) [own] /\ valid m' s /\
  forall s2, valid m s2 -> elems m' s2 = elems m s2 /\ valid m' s2 /\ apart s s2.
Proof.
  unfold sl_new_key. intros E.
  destruct (fold_left (fun c x => go_append [] grow (fst c) (snd c) [x]) (vetted_keepers U keepers) (m, nil_slice)) as (m1, s1) eqn:F.
  assert (sound m nil_slice (fold_left (fun l x => l ++ [x]) (vetted_keepers U keepers) (elems m nil_slice)) m1 s1) as S1.
  { refine (fold_sound (fun c x => go_append [] grow (fst c) (snd c) [x]) (fun l x => l ++ [x]) _ _ m nil_slice (nil_valid m) m1 s1 F).
    intros m2 s2 x V m3 s3 G. exact (append_lemma [] grow m2 s2 [x] V m3 s3 G). }
  assert (forall l a, fold_left (fun (l : list (list rune)) x => l ++ [x]) l a = a ++ l) as FA.
  { induction l as [|x l IH]; intros a; cbn [fold_left]; [rewrite app_nil_r; reflexivity|]. rewrite IH, <- app_assoc. reflexivity. }
  rewrite FA in S1. change (elems m nil_slice) with (@nil (list rune)) in S1. cbn [app] in S1.
  pose proof S1 as (V1 & _ & _ & _ & E1). pose proof (op_sound m1 s1 (KRemove [own]) V1 m' s E) as S2. rewrite E1 in S2. cbn [k_value] in S2.
  destruct (sound_trans _ _ _ _ _ _ _ _ S1 S2) as (A & B & C & D & G). split; [exact G|]. split; [exact A|].
  intros s2 V2. assert (apart nil_slice s2) as P by (left; reflexivity).
  split; [exact (elems_only _ _ _ _ C V2 P (nil_valid m))|]. split; [exact (valid_grown _ _ _ B V2)|exact (apart_moved _ _ _ _ P D V2)].
Qed.
End Keepers.

Section Listing.
Context (grow : nat -> nat).
Section Table.
(** The slices of the table. *)
Context (T : list gslice).
Definition spare (a k : nat) : Prop := exists s, In s T /\ sl_arr s = a /\ (sl_off s + sl_len s <= k < sl_off s + sl_cap s)%nat.
Definition spaced (m m' : list (list rune)) : Prop := grown m m' /\
  forall a k, (a < length m)%nat -> cell m' a k = cell m a k \/ (spare a k /\ cell m' a k = Some 32).
Lemma spaced_refl m : spaced m m.
Proof. split; [apply grown_refl|]. intros a k _. left. reflexivity. Qed.
Lemma spaced_trans m1 m2 m3 : spaced m1 m2 -> spaced m2 m3 -> spaced m1 m3.
Proof.
  intros (G1 & H1) (G2 & H2). split; [exact (grown_trans _ _ _ G1 G2)|]. intros a k L. pose proof G1 as (GL & _).
  destruct (H2 a k ltac:(lia)) as [E|E]; [|right; exact E]. rewrite E. apply H1, L.
Qed.
Lemma elems_spaced m m' s : spaced m m' -> valid m s ->
  (forall k, (k < sl_len s)%nat -> ~ spare (sl_arr s) (sl_off s + k) \/ cell m (sl_arr s) (sl_off s + k) = Some 32) -> elems m' s = elems m s.
Proof.
  intros (_ & H) (V1 & V2) K. apply list_ext. intros k. rewrite !nth_elems. destruct (Nat.ltb k (sl_len s)) eqn:F; [|reflexivity].
  destruct V2 as [V2|(V2 & V3)]; [lia|]. destruct (H (sl_arr s) (sl_off s + k)%nat V2) as [E|(E1 & E2)]; [exact E|].
  destruct (K k ltac:(lia)) as [N|N]; [contradiction|]. rewrite E2, N. reflexivity.
Qed.
Definition safe (s2 : gslice) : Prop := forall s, In s T -> clear s s2.
Lemma safe_spared s2 k : safe s2 -> (k < sl_len s2)%nat -> ~ spare (sl_arr s2) (sl_off s2 + k).
Proof. intros H L (s & I & A & B). refine (H s I (sl_off s2 + k)%nat B _ A). lia. Qed.
Lemma elems_safe m m' s : spaced m m' -> valid m s -> safe s -> elems m' s = elems m s.
Proof. intros S V H. apply (elems_spaced m m' s S V). intros k L. left. apply safe_spared; assumption. Qed.

Lemma pad_lemma m s w m' s' : (forall t, In t T -> valid m t) -> In s T -> safe s -> sl_pad grow m s w = (m', s') ->
  spaced m m' /\ valid m' s' /\ elems m' s' = elems m s ++ repeat 32 (Z.to_nat (w - Z.of_nat (sl_len s))) /\
  forall m2, spaced m' m2 -> elems m2 s' = elems m' s'.
Proof.
  intros TV I SF E. pose proof (TV s I) as V. unfold sl_pad in E. set (xs := repeat 32 (Z.to_nat (w - Z.of_nat (sl_len s)))) in *.
  destruct (append_lemma 0 grow m s xs V m' s' E) as (V' & G & O & M & EL).
  assert (forall k x, nth_error xs k = Some x -> x = 32) as XS by (intros k x H; apply nth_error_In in H; apply repeat_spec in H; exact H).
  unfold go_append in E. cbv zeta in E. pose proof V as (V1 & V2).
  destruct (Nat.leb (sl_len s + length xs) (sl_cap s)) eqn:C.
  - assert (m' = put m (sl_arr s) (sl_off s + sl_len s) xs /\ s' = mkSl (sl_arr s) (sl_off s) (sl_len s + length xs)%nat (sl_cap s)) as (-> & ->) by (split; congruence).
    assert (spaced m (put m (sl_arr s) (sl_off s + sl_len s) xs)) as SP.
    { split; [exact G|]. intros a k L. destruct (Nat.eqb a (sl_arr s) && (Nat.leb (sl_off s + sl_len s) k && Nat.ltb k (sl_off s + sl_len s + length xs))) eqn:F.
      - right. split; [exists s; split; [exact I|]; lia|]. destruct V2 as [V2|(V2 & V3)]; [lia|]. rewrite cell_put, F by lia.
        destruct (nth_error xs (k - (sl_off s + sl_len s))) as [x|] eqn:N; [rewrite (XS _ _ N); reflexivity|apply nth_error_None in N; lia].
      - left. destruct V2 as [V2|(V2 & V3)].
        + assert (length xs = 0)%nat as Z0 by lia. apply length_zero_iff_nil in Z0. unfold cell, put. rewrite Z0. cbn [write].
          destruct (Nat.ltb (sl_arr s) (length m)) eqn:LM.
          * assert (list_update m (sl_arr s) (nth (sl_arr s) m []) = m) as ->; [|reflexivity]. apply list_ext. intros j. rewrite nth_update.
            destruct (Nat.eqb j (sl_arr s) && Nat.ltb j (length m)) eqn:J; [|reflexivity]. assert (j = sl_arr s) as -> by lia. symmetry. apply nth_error_nth'. lia.
          * assert (list_update m (sl_arr s) (nth (sl_arr s) m []) = m) as ->; [|reflexivity]. apply list_ext. intros j. rewrite nth_update.
            replace (Nat.eqb j (sl_arr s) && Nat.ltb j (length m)) with false by lia. reflexivity.
        + rewrite cell_put, F by lia. reflexivity. }
    split; [exact SP|]. split; [exact V'|]. split; [exact EL|]. intros m2 S2. apply (elems_spaced _ _ _ S2 V').
    cbn [sl_len sl_arr sl_off]. intros k L. destruct (Nat.ltb k (sl_len s)) eqn:LK; [left; apply safe_spared; [exact SF|lia]|right].
    assert (nth_error (elems (put m (sl_arr s) (sl_off s + sl_len s) xs) (mkSl (sl_arr s) (sl_off s) (sl_len s + length xs)%nat (sl_cap s))) k = nth_error (elems m s ++ xs) k) as Q by (rewrite EL; reflexivity).
    rewrite nth_elems in Q. cbn [sl_len sl_arr sl_off] in Q. replace (Nat.ltb k (sl_len s + length xs)) with true in Q by lia. rewrite Q.
    rewrite nth_error_app2 by (rewrite elems_length by exact V; lia). rewrite elems_length by exact V.
    destruct (nth_error xs (k - sl_len s)) as [x|] eqn:N; [rewrite (XS _ _ N); reflexivity|apply nth_error_None in N; lia].
  - assert (length m <= sl_arr s')%nat as A' by (replace s' with (snd (m', s')) by reflexivity; rewrite <- E; cbn [snd sl_arr]; lia).
    assert (m' = m ++ [elems m s ++ xs ++ repeat 0 (grow (sl_len s + length xs)%nat - (sl_len s + length xs))]) as EM by congruence.
    split; [split; [exact G|]; intros a k L; left; rewrite EM; apply cell_old, L|]. split; [exact V'|]. split; [exact EL|].
    intros m2 S2. apply (elems_spaced _ _ _ S2 V'). intros k L. left. intros (t & IT & AT & B). destruct (TV t IT) as (W1 & [W2|(W2 & W3)]); lia.
Qed.

Definition padded_cell (m : list (list rune)) (c : gslice * Z) : list rune := elems m (fst c) ++ repeat 32 (Z.to_nat (snd c - Z.of_nat (sl_len (fst c)))).
Lemma cells_lemma cells : forall m, (forall t, In t T -> valid m t /\ safe t) -> (forall c, In c cells -> In (fst c) T) ->
  forall m' ss, sl_cells grow m cells = (m', ss) -> spaced m m' /\
    (forall m2, spaced m' m2 -> map (elems m2) ss = map (padded_cell m) cells).
Proof.
  induction cells as [|(s, w) cells IH]; intros m TV IC m' ss E; cbn [sl_cells] in E.
  - assert (m' = m /\ ss = []) as (-> & ->) by (split; congruence). split; [apply spaced_refl|reflexivity].
  - destruct (sl_pad grow m s w) as (m1, s1) eqn:P. destruct (sl_cells grow m1 cells) as (m2, ss2) eqn:C.
    assert (m' = m2 /\ ss = s1 :: ss2) as (-> & ->) by (split; congruence).
    assert (In s T) as IS by (apply (IC (s, w)); left; reflexivity).
    destruct (pad_lemma m s w m1 s1 (fun t I => proj1 (TV t I)) IS (proj2 (TV s IS)) P) as (A & B & C1 & D).
    destruct (IH m1 (fun t I => conj (valid_grown _ _ _ (proj1 A) (proj1 (TV t I))) (proj2 (TV t I))) (fun c I => IC c (or_intror I)) m2 ss2 C) as (F & G).
    split; [exact (spaced_trans _ _ _ A F)|]. intros m3 S3. cbn [map]. f_equal.
    + rewrite (D m3 (spaced_trans _ _ _ F S3)), C1. reflexivity.
    + rewrite (G m3 S3). apply map_ext_in. intros c I. unfold padded_cell. rewrite (elems_safe m m1 (fst c) A); [reflexivity| |];
        apply TV, IC; right; exact I.
Qed.
Lemma rows_lemma rows : forall m, (forall t, In t T -> valid m t /\ safe t) -> (forall r c, In r rows -> In c r -> In (fst c) T) ->
  forall m' lines, sl_rows grow m rows = (m', lines) -> spaced m m' /\ lines = map (map (padded_cell m)) rows.
Proof.
  induction rows as [|r rows IH]; intros m TV IC m' lines E; cbn [sl_rows] in E.
  - assert (m' = m /\ lines = []) as (-> & ->) by (split; congruence). split; [apply spaced_refl|reflexivity].
  - destruct (sl_cells grow m r) as (m1, ss) eqn:C. cbv zeta in E. destruct (sl_rows grow m1 rows) as (m2, ls) eqn:R.
    assert (m' = m2 /\ lines = map (elems m1) ss :: ls) as (-> & ->) by (split; congruence).
    destruct (cells_lemma r m TV (fun c I => IC r c (or_introl eq_refl) I) m1 ss C) as (A & B).
    destruct (IH m1 (fun t I => conj (valid_grown _ _ _ (proj1 A) (proj1 (TV t I))) (proj2 (TV t I))) (fun r' c I J => IC r' c (or_intror I) J) m2 ls R) as (F & G).
    split; [exact (spaced_trans _ _ _ A F)|]. cbn [map]. f_equal; [exact (B m1 (spaced_refl m1))|].
    rewrite G. apply map_ext_in. intros r' I. apply map_ext_in. intros c J. unfold padded_cell. rewrite (elems_safe m m1 (fst c) A); [reflexivity| |];
      apply TV, (IC r' c (or_intror I) J).
Qed.
End Table.

Lemma listing_lemma m rows watched m' lines :
  let T := map fst (concat rows) in
  (forall s, In s (T ++ watched) -> valid m s) -> (forall s s', In s T -> In s' (T ++ watched) -> clear s s') ->
  sl_rows grow m rows = (m', lines) ->
  (forall s, In s (T ++ watched) -> elems m' s = elems m s) /\
  lines = map (map (fun c => elems m (fst c) ++ repeat 32 (Z.to_nat (snd c - Z.of_nat (sl_len (fst c)))))) rows.
Proof.
  cbv zeta. intros V C E. set (T := map fst (concat rows)) in *.
  assert (forall t, In t T -> valid m t /\ safe T t) as TV.
  { intros t I. assert (In t (T ++ watched)) as I2 by (apply in_or_app; left; exact I). split; [apply V, I2|]. intros s IS. apply C; assumption. }
  assert (forall r c, In r rows -> In c r -> In (fst c) T) as IC by (intros r c I J; unfold T; apply in_map, in_concat; eauto).
  destruct (rows_lemma T rows m TV IC m' lines E) as (A & B). split; [|exact B].
  intros s I. apply (elems_safe T m m' s A (V s I)). intros t IT. apply C; assumption.
Qed.
End Listing.
