(** Proofs for C154 and C155. *)
From Verif Require Import Base Spec Spec_Slices Spec_Pointers Model_Unicode Model_Crand Model_Functions Model_Types Model_Cipher Model_Keys
  Model_Slices Model_Pointers Proofs_Keys Proofs_KeyOps Proofs_Slices.

Lemma deref_elems (m : kmem) s j : (j < sl_len s)%nat -> deref m (pointer_to s j) = nth_error (elems m s) j.
Proof. intros H. rewrite nth_elems. replace (Nat.ltb j (sl_len s)) with true by lia. reflexivity. Qed.
Lemma get_bound (U : Uni) q ks : forall i j, get_key_loop q ks i = Some j -> (i <= j < i + length ks)%nat.
Proof. induction ks as [|k ks IH]; intros i j H; cbn [get_key_loop length] in *; [discriminate|]. destruct (runes_eqb q (go_string (kid k))); [injection H as <-; lia|]. apply IH in H. lia. Qed.
Lemma find_bound (U : Uni) gs rs ks : forall i j, find_key_loop U gs rs ks i = Some j -> (i <= j < i + length ks)%nat.
Proof.
  induction ks as [|k ks IH]; intros i j H; cbn [find_key_loop length] in *; [discriminate|].
  repeat match type of H with context [if ?b then _ else _] => destruct b end; try (apply IH in H; lia); injection H as <-; lia.
Qed.

(** Assignments: one cell. *)
Lemma cell_assign (m : kmem) p f b n : cell (pt_assign m p f) b n =
  match deref m p with Some k => if Nat.eqb b (fst p) && Nat.eqb n (snd p) then Some (f k) else cell m b n | None => cell m b n end.
Proof.
  unfold pt_assign. destruct (deref m p) as [k|] eqn:D; [|reflexivity].
  assert ((snd p < length (nth (fst p) m []))%nat) as L by (apply nth_error_Some; unfold deref in D; congruence).
  assert ((fst p < length m)%nat) as L2.
  { destruct (Nat.ltb (fst p) (length m)) eqn:E; [lia|]. rewrite nth_overflow in L by lia. cbn [length] in L. lia. }
  rewrite cell_put; [|exact L2|cbn [length]; lia]. cbn [length].
  destruct (Nat.eqb b (fst p) && Nat.eqb n (snd p)) eqn:F.
  - replace (Nat.eqb b (fst p) && (Nat.leb (snd p) n && Nat.ltb n (snd p + 1))) with true by lia.
    replace (n - snd p)%nat with 0%nat by lia. reflexivity.
  - replace (Nat.eqb b (fst p) && (Nat.leb (snd p) n && Nat.ltb n (snd p + 1))) with false by lia. reflexivity.
Qed.
Lemma assign_grown (m : kmem) p f : grown m (pt_assign m p f).
Proof. unfold pt_assign. destruct (deref m p); [|apply grown_refl]. split; [rewrite put_length; lia|intros; apply put_arrays]. Qed.
Lemma assign_elems (m : kmem) s j k f : valid m s -> nth_error (elems m s) j = Some k ->
  elems (pt_assign m (pointer_to s j) f) s = list_update (elems m s) j (f k).
Proof.
  intros V N. assert ((j < sl_len s)%nat) as L by (rewrite <- (elems_length m s V); apply nth_error_Some; congruence).
  apply list_ext. intros n. rewrite nth_elems, cell_assign, deref_elems, N by exact L. cbn [pointer_to fst snd].
  rewrite nth_update, elems_length, nth_elems by exact V. destruct (Nat.ltb n (sl_len s)) eqn:F; [|rewrite andb_comm; reflexivity].
  destruct (Nat.eqb n j) eqn:G; cbn [andb].
  - replace (Nat.eqb (sl_arr s) (sl_arr s) && Nat.eqb (sl_off s + n) (sl_off s + j)) with true by lia. reflexivity.
  - replace (Nat.eqb (sl_arr s) (sl_arr s) && Nat.eqb (sl_off s + n) (sl_off s + j)) with false by lia. reflexivity.
Qed.
(** A pointer outside the slice. *)
Lemma assign_outside (m : kmem) s p f : (forall j, (j < sl_len s)%nat -> p <> pointer_to s j) -> elems (pt_assign m p f) s = elems m s.
Proof.
  intros H. apply list_ext. intros n. rewrite !nth_elems, cell_assign. destruct (Nat.ltb n (sl_len s)) eqn:F; [|reflexivity].
  destruct (deref m p); [|reflexivity]. replace (Nat.eqb (sl_arr s) (fst p) && Nat.eqb (sl_off s + n) (snd p)) with false; [reflexivity|].
  symmetry. destruct (Nat.eqb (sl_arr s) (fst p) && Nat.eqb (sl_off s + n) (snd p)) eqn:G; [|reflexivity]. exfalso.
  apply (H n); [lia|]. destruct p as (a, b). unfold pointer_to. cbn [fst snd] in G. f_equal; lia.
Qed.

Lemma get_through U m s id p f : valid m s -> pt_get U m s id = Some p ->
  exists j k, get_key U id (elems m s) = Some j /\ nth_error (elems m s) j = Some k /\ deref m p = Some k /\
    elems (pt_assign m p f) s = list_update (elems m s) j (f k).
Proof.
  intros V E. unfold pt_get in E. destruct (get_key U id (elems m s)) as [j|] eqn:G; [|discriminate].
  cbn [option_map] in E. injection E as <-. pose proof G as G2. apply get_bound in G2; [|exact U].
  destruct (nth_error (elems m s) j) as [k|] eqn:N; [|apply nth_error_None in N; lia].
  exists j, k. rewrite elems_length in G2 by exact V. rewrite deref_elems by lia. split; [reflexivity|]. split; [exact N|]. split; [exact N|].
  apply assign_elems; assumption.
Qed.
Lemma find_through U m s gs rs p f : valid m s -> pt_find U m s gs rs = Some p ->
  exists j k, find_key U gs rs (elems m s) = Some j /\ nth_error (elems m s) j = Some k /\ deref m p = Some k /\
    elems (pt_assign m p f) s = list_update (elems m s) j (f k).
Proof.
  intros V E. unfold pt_find in E. destruct (find_key U gs rs (elems m s)) as [j|] eqn:G; [|discriminate].
  cbn [option_map] in E. injection E as <-. pose proof G as G2. apply find_bound in G2.
  destruct (nth_error (elems m s) j) as [k|] eqn:N; [|apply nth_error_None in N; lia].
  exists j, k. rewrite elems_length in G2 by exact V. rewrite deref_elems by lia. split; [reflexivity|]. split; [exact N|]. split; [exact N|].
  apply assign_elems; assumption.
Qed.

(** Histories without deletions, within the capacity. *)
Lemma get_ids U id : forall ks ks' n j, get_key_loop (key_query U id) ks n = Some j ->
  (forall i k, nth_error ks i = Some k -> exists k', nth_error ks' i = Some k' /\ kid k' = kid k) -> get_key_loop (key_query U id) ks' n = Some j.
Proof.
  induction ks as [|k ks IH]; intros ks' n j E H; cbn [get_key_loop] in E; [discriminate|].
  destruct (H 0%nat k eq_refl) as (k' & N & Q). destruct ks' as [|k1 ks']; [discriminate|]. cbn [nth_error] in N. injection N as ->.
  cbn [get_key_loop]. rewrite Q. destruct (runes_eqb (key_query U id) (go_string (kid k))); [exact E|].
  apply IH; [exact E|]. intros i k2 N. exact (H (S i) k2 N).
Qed.
Definition stays (m : kmem) (s : gslice) (m' : kmem) (s' : gslice) : Prop :=
  sl_arr s' = sl_arr s /\ sl_off s' = sl_off s /\ sl_cap s' = sl_cap s /\
  forall i k, nth_error (elems m s) i = Some k -> exists k', nth_error (elems m' s') i = Some k' /\ kid k' = kid k.
Lemma stays_trans m1 s1 m2 s2 m3 s3 : stays m1 s1 m2 s2 -> stays m2 s2 m3 s3 -> stays m1 s1 m3 s3.
Proof.
  intros (A1 & A2 & A3 & A4) (B1 & B2 & B3 & B4). split; [congruence|]. split; [congruence|]. split; [congruence|].
  intros i k N. destruct (A4 i k N) as (k1 & N1 & Q1). destruct (B4 i k1 N1) as (k2 & N2 & Q2). exists k2. split; [exact N2|congruence].
Qed.
Lemma assign_stays (m : kmem) s p f : keeps_ids f -> valid m s -> stays m s (pt_assign m p f) s.
Proof.
  intros F V. split; [reflexivity|]. split; [reflexivity|]. split; [reflexivity|]. intros i k N. rewrite nth_elems in N |- *. rewrite cell_assign.
  destruct (Nat.ltb i (sl_len s)); [|discriminate]. destruct (deref m p) as [k2|] eqn:D; [|exists k; split; [exact N|reflexivity]].
  destruct (Nat.eqb (sl_arr s) (fst p) && Nat.eqb (sl_off s + i) (snd p)) eqn:G; [|exists k; split; [exact N|reflexivity]].
  exists (f k2). split; [reflexivity|]. rewrite F. f_equal. unfold deref in D. unfold cell in N.
  replace (sl_arr s) with (fst p) in N by lia. replace (sl_off s + i)%nat with (snd p) in N by lia. congruence.
Qed.
Lemma mild_step U grow m s o m' s' : valid m s -> mild o -> (sl_len s + added [o] <= sl_cap s)%nat ->
  pt_step U grow (m, s) o = (m', s') -> valid m' s' /\ sl_len s' = (sl_len s + added [o])%nat /\ stays m s m' s'.
Proof.
  intros V M L E. destruct o as [k|id used|ids|p f]; cbn [pt_step mild] in *; [| |destruct M|].
  - unfold added in *. cbn [filter length] in *. unfold pt_new in E. pose proof (append_lemma no_key grow m s [k] V m' s' E) as (A & _ & _ & _ & EL).
    unfold go_append in E. cbn [length] in E. replace (Nat.leb (sl_len s + 1) (sl_cap s)) with true in E by lia.
    assert (s' = mkSl (sl_arr s) (sl_off s) (sl_len s + 1) (sl_cap s)) as -> by congruence.
    split; [exact A|]. split; [reflexivity|]. split; [reflexivity|]. split; [reflexivity|]. split; [reflexivity|].
    intros i k1 N. exists k1. split; [|reflexivity]. rewrite EL. rewrite nth_error_app1; [exact N|]. apply nth_error_Some. congruence.
  - assert (m' = pt_mark U m s id used /\ s' = s) as (-> & ->) by (split; congruence). unfold pt_mark.
    destruct (pt_get U m s id) as [p|].
    + split; [apply (valid_grown _ _ _ (assign_grown _ _ _)), V|]. split; [cbn; lia|]. apply assign_stays; [intros k; reflexivity|exact V].
    + split; [exact V|]. split; [cbn; lia|]. split; [reflexivity|]. split; [reflexivity|]. split; [reflexivity|]. intros i k N. exists k. auto.
  - assert (m' = pt_assign m p f /\ s' = s) as (-> & ->) by (split; congruence).
    split; [apply (valid_grown _ _ _ (assign_grown _ _ _)), V|]. split; [cbn; lia|]. apply assign_stays; assumption.
Qed.
Lemma added_cons o ops : added (o :: ops) = (added [o] + added ops)%nat.
Proof. unfold added. cbn [filter]. destruct o; reflexivity. Qed.
Lemma mild_run U grow ops : forall m s m' s', valid m s -> Forall mild ops -> (sl_len s + added ops <= sl_cap s)%nat ->
  pt_run U grow ops (m, s) = (m', s') -> valid m' s' /\ sl_len s' = (sl_len s + added ops)%nat /\ stays m s m' s'.
Proof.
  induction ops as [|o ops IH]; intros m s m' s' V M L E.
  - assert (m' = m /\ s' = s) as (-> & ->) by (unfold pt_run in E; cbn [fold_left] in E; split; congruence).
    split; [exact V|]. split; [cbn; lia|]. split; [reflexivity|]. split; [reflexivity|]. split; [reflexivity|]. intros i k N. exists k. auto.
  - rewrite added_cons in *. unfold pt_run in E. cbn [fold_left] in E. destruct (pt_step U grow (m, s) o) as (m1, s1) eqn:S1.
    pose proof (mild_step U grow m s o m1 s1 V (Forall_inv M) ltac:(lia) S1) as (V1 & L1 & T1).
    destruct (IH m1 s1 m' s' V1 (Forall_inv_tail M)) as (V2 & L2 & T2).
    + destruct T1 as (_ & _ & C & _). rewrite C, L1. lia.
    + exact E.
    + split; [exact V2|]. split; [lia|]. exact (stays_trans _ _ _ _ _ _ T1 T2).
Qed.
Lemma kept_lemma U grow ops m s m' s' id p : valid m s -> Forall mild ops -> (sl_len s + added ops <= sl_cap s)%nat ->
  pt_run U grow ops (m, s) = (m', s') -> pt_get U m s id = Some p -> valid m' s' /\ pt_get U m' s' id = Some p.
Proof.
  intros V M L E G. destruct (mild_run U grow ops m s m' s' V M L E) as (V' & _ & (T1 & T2 & _ & T)). split; [exact V'|].
  unfold pt_get in *. destruct (get_key U id (elems m s)) as [j|] eqn:K; [|discriminate]. cbn [option_map] in G. injection G as <-.
  unfold get_key in *. rewrite (get_ids U id _ _ _ _ K T). cbn [option_map]. unfold pointer_to. rewrite T1, T2. reflexivity.
Qed.

(** One deletion: where the pointers point afterwards. *)
Lemma delete_lemma U m s id m' s' i d z : valid m s -> pt_delete1 U (m, s) id = (m', s') ->
  index_of (fun k => equal_runes_fold U (Some (kid k)) (Some id)) (elems m s) 0 = Some i ->
  nth_error (elems m s) i = Some d -> nth_error (elems m s) (sl_len s - 1) = Some z ->
  valid m' s' /\ elems m' s' = swap_remove (elems m s) i /\
  forall j k, nth_error (elems m s) j = Some k ->
    deref m' (pointer_to s j) = Some (if Nat.eqb j i then (if Nat.eqb i (sl_len s - 1) then wiped_key d else z) else k) /\
    forall f, elems (pt_assign m' (pointer_to s j) f) s' =
      if Nat.eqb j (sl_len s - 1) then elems m' s'
      else list_update (elems m' s') j (f (if Nat.eqb j i then z else k)).
Proof.
  intros V E I D Z. unfold pt_delete1 in E. rewrite I in E. apply (index_lt (fun n => n)) in I. rewrite elems_length in I by exact V.
  set (m1 := pt_assign m (pointer_to s i) wiped_key) in *.
  assert (elems m1 s = list_update (elems m s) i (wiped_key d)) as E1 by (apply assign_elems; assumption).
  assert (valid m1 s) as V1 by (apply (valid_grown _ _ _ (assign_grown _ _ _)), V).
  destruct (swap_lemma m1 s i V1 ltac:(lia) m' s' E) as (A & _ & _ & _ & SW & z1 & Z1 & EU).
  assert (s' = mkSl (sl_arr s) (sl_off s) (sl_len s - 1) (sl_cap s)) as S'.
  { unfold go_swap_remove in E. rewrite Z1 in E. congruence. }
  assert (length (elems m s) = sl_len s) as LEN by (apply elems_length, V).
  assert (z1 = if Nat.eqb i (sl_len s - 1) then wiped_key d else z) as ->.
  { rewrite E1, nth_update in Z1. rewrite LEN in Z1. replace (Nat.ltb (sl_len s - 1) (sl_len s)) with true in Z1 by lia.
    rewrite andb_true_r, Nat.eqb_sym in Z1. destruct (Nat.eqb i (sl_len s - 1)); congruence. }
  assert (elems m' s' = swap_remove (elems m s) i) as SW2.
  { rewrite SW. unfold swap_remove. rewrite E1, update_length, LEN. rewrite E1 in Z1. rewrite Z1, Z.
    destruct (Nat.eqb i (sl_len s - 1)) eqn:Q; apply list_ext; intros n; rewrite !nth_firstn; destruct (Nat.ltb n (sl_len s - 1)) eqn:F; try reflexivity;
      rewrite !nth_update, ?update_length, LEN.
    - replace (Nat.eqb n i && Nat.ltb n (sl_len s)) with false by lia. reflexivity.
    - destruct (Nat.eqb n i && Nat.ltb n (sl_len s)); reflexivity. }
  split; [exact A|]. split; [exact SW2|]. intros j k N.
  assert ((j < sl_len s)%nat) as LJ by (rewrite <- LEN; apply nth_error_Some; congruence).
  assert (deref m' (pointer_to s j) = Some (if Nat.eqb j i then (if Nat.eqb i (sl_len s - 1) then wiped_key d else z) else k)) as DR.
  { rewrite deref_elems, EU, nth_update, E1, update_length, LEN by exact LJ. replace (Nat.ltb j (sl_len s)) with true by lia.
    rewrite andb_true_r. destruct (Nat.eqb j i) eqn:Q; [reflexivity|]. rewrite nth_update, Q. exact N. }
  split; [exact DR|]. intros f. destruct (Nat.eqb j (sl_len s - 1)) eqn:Q.
  - apply assign_outside. intros n Ln P. subst s'. cbn [sl_len] in Ln. unfold pointer_to in P. cbn [sl_arr sl_off] in P. assert ((sl_off s + j = sl_off s + n)%nat) by congruence. lia.
  - assert (pointer_to s j = pointer_to s' j) as PE by (subst s'; reflexivity). rewrite PE in *. apply assign_elems; [exact A|].
    rewrite <- deref_elems, DR by (subst s'; cbn [sl_len]; lia). f_equal. destruct (Nat.eqb j i) eqn:R; [|reflexivity].
    replace (Nat.eqb i (sl_len s - 1)) with false by lia. reflexivity.
Qed.

(** Growth: the pointers stay with the old array. *)
Lemma grown_lemma grow m s k m' s' : valid m s -> pt_new grow m s k = (m', s') -> (sl_cap s <= sl_len s)%nat ->
  elems m' s' = elems m s ++ [k] /\
  forall j k1, nth_error (elems m s) j = Some k1 -> deref m' (pointer_to s j) = Some k1 /\
    forall f, elems (pt_assign m' (pointer_to s j) f) s' = elems m' s'.
Proof.
  intros V E C. unfold pt_new in E. destruct (append_lemma no_key grow m s [k] V m' s' E) as (A & _ & _ & _ & EL). split; [exact EL|].
  intros j k1 N. assert ((j < sl_len s)%nat) as LJ by (rewrite <- (elems_length m s V); apply nth_error_Some; congruence).
  unfold go_append in E. cbn [length] in E. replace (Nat.leb (sl_len s + 1) (sl_cap s)) with false in E by lia.
  destruct V as (V1 & [V2|(V2 & V3)]); [lia|].
  split.
  - rewrite <- N, nth_elems. replace (Nat.ltb j (sl_len s)) with true by lia.
    assert (m' = m ++ [elems m s ++ [k] ++ repeat no_key (grow (sl_len s + 1)%nat - (sl_len s + 1))]) as -> by congruence.
    exact (cell_old m _ (sl_arr s) (sl_off s + j) V2).
  - intros f. apply assign_outside. intros n Ln P. unfold pointer_to in P. assert (sl_arr s = sl_arr s') as Q by congruence.
    assert (s' = mkSl (length m) 0 (sl_len s + 1)%nat (Nat.max (sl_len s + 1) (grow (sl_len s + 1)%nat))) as -> by congruence.
    cbn [sl_arr] in Q. lia.
Qed.

(** ** Lists of keys *)
Lemma mark_elems U m s id used : valid m s -> elems (pt_mark U m s id used) s = fst (mark_key_used U id used (elems m s)).
Proof.
  intros V. unfold pt_mark. destruct (pt_get U m s id) as [p|] eqn:G.
  - destruct (get_through U m s id p (fun k => set_used k used) V G) as (j & k & E1 & E2 & E3 & E4). rewrite E4.
    unfold get_key in E1. unfold mark_key_used. rewrite E1. cbn [fst]. unfold mark. rewrite E2. reflexivity.
  - unfold pt_get, get_key in G. unfold mark_key_used. destruct (get_key_loop (key_query U id) (elems m s) 0); [discriminate|reflexivity].
Qed.
Lemma delete1_elems U m s id m' s' : valid m s -> pt_delete1 U (m, s) id = (m', s') ->
  valid m' s' /\ elems m' s' = fst (delete_key1 U (elems m s) id).
Proof.
  intros V E. unfold delete_key1. destruct (index_of (fun k => equal_runes_fold U (Some (kid k)) (Some id)) (elems m s) 0) as [i|] eqn:I.
  - pose proof I as L. apply (index_lt (fun n => n)) in L. rewrite elems_length in L by exact V.
    destruct (nth_error (elems m s) i) as [d|] eqn:D; [|apply nth_error_None in D; rewrite elems_length in D by exact V; lia].
    destruct (nth_error (elems m s) (sl_len s - 1)) as [z|] eqn:Z; [|apply nth_error_None in Z; rewrite elems_length in Z by exact V; lia].
    destruct (delete_lemma U m s id m' s' i d z V E I D Z) as (A & B & _). split; [exact A|exact B].
  - unfold pt_delete1 in E. rewrite I in E. assert (m' = m /\ s' = s) as (-> & ->) by (split; congruence). split; [exact V|reflexivity].
Qed.
Lemma delete_elems U ids : forall m s m' s', valid m s -> fold_left (pt_delete1 U) ids (m, s) = (m', s') ->
  valid m' s' /\ elems m' s' = fst (delete_key U (elems m s) ids).
Proof.
  induction ids as [|id ids IH]; intros m s m' s' V E; cbn [fold_left delete_key] in *.
  - assert (m' = m /\ s' = s) as (-> & ->) by (split; congruence). auto.
  - destruct (pt_delete1 U (m, s) id) as (m1, s1) eqn:D. destruct (delete1_elems U m s id m1 s1 V D) as (V1 & E1).
    destruct (IH m1 s1 m' s' V1 E) as (V2 & E2). split; [exact V2|]. rewrite E2, E1.
    destruct (delete_key1 U (elems m s) id) as [a x]. cbn [fst]. destruct (delete_key U a ids). reflexivity.
Qed.
Lemma values_lemma U grow ops : forall m s m' s', valid m s -> Forall no_assignment ops -> pt_run U grow ops (m, s) = (m', s') ->
  valid m' s' /\ elems m' s' = fold_left (by_value U) ops (elems m s).
Proof.
  induction ops as [|o ops IH]; intros m s m' s' V F E; unfold pt_run in *; cbn [fold_left] in *.
  - assert (m' = m /\ s' = s) as (-> & ->) by (split; congruence). auto.
  - inversion F as [|? ? F1 F2]; subst. destruct (pt_step U grow (m, s) o) as (m1, s1) eqn:S.
    assert (valid m1 s1 /\ elems m1 s1 = by_value U (elems m s) o) as (V1 & E1).
    { destruct o as [k|id used|ids|p f]; cbn [pt_step by_value] in *; [| | |destruct F1].
      - pose proof (append_lemma no_key grow m s [k] V m1 s1 S) as (A & _ & _ & _ & EL). auto.
      - assert (m1 = pt_mark U m s id used /\ s1 = s) as (-> & ->) by (split; congruence). split; [|apply mark_elems, V].
        unfold pt_mark. destruct (pt_get U m s id); [apply (valid_grown _ _ _ (assign_grown _ _ _)), V|exact V].
      - exact (delete_elems U ids m s m1 s1 V S). }
    rewrite <- E1. exact (IH m1 s1 m' s' V1 F2 E).
Qed.
