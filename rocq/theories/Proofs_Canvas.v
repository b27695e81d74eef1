(** Lemmas about the printed key. *)
From Verif Require Import Base Spec Model_Functions Model_Types Model_Canvas Props_Functions.

Definition covers (o : stroke) (x y : nat) : Prop := sk_y o = y /\ (sk_x o <= x < sk_x o + length (sk_text o))%nat.
Lemma put_hit c o x y : covers o x y -> put_stroke c o x y = nth (x - sk_x o) (sk_text o) 32.
Proof.
  intros (A & B & C). unfold put_stroke. rewrite A, Nat.eqb_refl. rewrite (proj2 (Nat.leb_le _ _) B), (proj2 (Nat.ltb_lt _ _) C). reflexivity.
Qed.
Lemma put_miss c o x y : ~ covers o x y -> put_stroke c o x y = c x y.
Proof.
  intros H. unfold put_stroke. destruct (Nat.eqb y (sk_y o) && Nat.leb (sk_x o) x && Nat.ltb x (sk_x o + length (sk_text o)))%bool eqn:E; [|reflexivity].
  exfalso. apply H. rewrite !andb_true_iff, Nat.eqb_eq, Nat.leb_le, Nat.ltb_lt in E. unfold covers. lia.
Qed.
Lemma covers_dec o x y : {covers o x y} + {~ covers o x y}.
Proof.
  unfold covers. destruct (Nat.eq_dec (sk_y o) y); [|right; tauto].
  destruct (le_dec (sk_x o) x); [|right; tauto]. destruct (lt_dec x (sk_x o + length (sk_text o))); [left; tauto|right; tauto].
Qed.
Lemma fold_miss os : forall c x y, (forall o, In o os -> ~ covers o x y) -> fold_left put_stroke os c x y = c x y.
Proof.
  induction os as [|o os IH]; intros c x y H; [reflexivity|]. cbn [fold_left]. rewrite IH; [|intros o' I; apply H; right; exact I].
  apply put_miss, H. left. reflexivity.
Qed.
Lemma fold_hit os : forall c x y v, (exists o, In o os /\ covers o x y) ->
  (forall o, In o os -> covers o x y -> nth (x - sk_x o) (sk_text o) 32 = v) -> fold_left put_stroke os c x y = v.
Proof.
  induction os as [|o os IH]; intros c x y v (o' & I & C) H; [destruct I|]. cbn [fold_left].
  assert (D : (exists p, In p os /\ covers p x y) \/ forall p, In p os -> ~ covers p x y).
  { clear -os. induction os as [|p os IH]; [right; intros p []|].
    destruct (covers_dec p x y) as [C|C]; [left; exists p; split; [left; reflexivity|exact C]|].
    destruct IH as [(q & I & Q)|IH]; [left; exists q; split; [right; exact I|exact Q]|right].
    intros q [<-|I]; [exact C|exact (IH q I)]. }
  destruct D as [D|D].
  - apply IH; [exact D|]. intros p P. apply H. right. exact P.
  - rewrite fold_miss by exact D. destruct I as [->|I]; [|exfalso; exact (D o' I C)].
    rewrite put_hit by exact C. apply H; [left; reflexivity|exact C].
Qed.

Lemma in_indexed {A} (l : list A) n x : In (n, x) (combine (seq 0 (length l)) l) <-> nth_error l n = Some x.
Proof.
  assert (G : forall s, In (n, x) (combine (seq s (length l)) l) <-> (s <= n)%nat /\ nth_error l (n - s) = Some x).
  { induction l as [|a l IH]; intros s; cbn [length seq combine].
    - split; [intros []|]. intros (_ & H). destruct (n - s)%nat; discriminate H.
    - cbn [In]. rewrite IH. split.
      + intros [E|(L & E)].
        * injection E as -> ->. split; [lia|]. rewrite Nat.sub_diag. reflexivity.
        * split; [lia|]. replace (n - s)%nat with (S (n - S s)) by lia. exact E.
      + intros (L & E). destruct (Nat.eq_dec s n) as [->|N].
        * left. rewrite Nat.sub_diag in E. injection E as ->. reflexivity.
        * right. split; [lia|]. replace (n - s)%nat with (S (n - S s)) in E by lia. exact E. }
  rewrite G, Nat.sub_0_r. split; [tauto|]. intros H. split; [lia|exact H].
Qed.
Lemma in_text y sp lines o : In o (put_text y sp lines) <-> exists n l, nth_error lines n = Some l /\ o = mkStroke 0 (y + sp * n) l.
Proof.
  unfold put_text. rewrite in_map_iff. split.
  - intros ((n, l) & E & I). apply in_indexed in I. exists n, l. split; [exact I|symmetry; exact E].
  - intros (n & l & I & E). exists (n, l). split; [symmetry; exact E|apply in_indexed; exact I].
Qed.
Lemma in_right cols y lines o : In o (put_right cols y lines) <->
  exists n l, nth_error lines n = Some l /\ o = mkStroke (cols - length l) (y + n) l.
Proof.
  unfold put_right. rewrite in_map_iff. split.
  - intros ((n, l) & E & I). apply in_indexed in I. exists n, l. split; [exact I|symmetry; exact E].
  - intros (n & l & I & E). exists (n, l). split; [symmetry; exact E|apply in_indexed; exact I].
Qed.
Lemma width_le lines n l : nth_error lines n = Some l -> (length l <= width lines)%nat.
Proof.
  revert n. unfold width. induction lines as [|a lines IH]; intros [|n] H; try discriminate H; cbn [map fold_right] in *.
  - injection H as ->. lia.
  - specialize (IH n H). lia.
Qed.
Lemma map_seq_text (f : nat -> rune) s : forall a, (forall i, (i < length s)%nat -> f (a + i)%nat = nth i s 32) -> map f (seq a (length s)) = s.
Proof.
  induction s as [|c s IH]; intros a H; [reflexivity|]. cbn [length seq map]. f_equal.
  - rewrite <- (Nat.add_0_r a). rewrite (H 0%nat) by (cbn [length]; lia). reflexivity.
  - apply IH. intros i L. replace (S a + i)%nat with (a + S i)%nat by lia. apply (H (S i)). cbn [length]. lia.
Qed.
Lemma map_seq_blank (f : nat -> rune) n : forall a, (forall x, (a <= x < a + n)%nat -> f x = 32) -> map f (seq a n) = repeat 32 n.
Proof.
  induction n as [|n IH]; intros a H; [reflexivity|]. cbn [seq map repeat]. f_equal; [apply H; lia|]. apply IH. intros x L. apply H. lia.
Qed.
Lemma page_row cols rows os y : (y < rows)%nat -> nth y (page cols rows os) [] = map (fun x => drawn os x y) (seq 0 cols).
Proof.
  intros L. unfold page. rewrite (nth_indep _ [] (map (fun x => drawn os x 0%nat) (seq 0 cols))) by (rewrite map_length, seq_length; exact L).
  rewrite (map_nth (fun y => map (fun x => drawn os x y) (seq 0 cols)) (seq 0 rows) 0%nat y). rewrite seq_nth by exact L. reflexivity.
Qed.
Lemma page_length cols rows os : length (page cols rows os) = rows.
Proof. unfold page. rewrite map_length. apply seq_length. Qed.

Section Layout.
Context (table lines footer : list (list rune)) (cols body sp y0 : nat) (head : list stroke).
Context (Hcols : (width table + 3 + width lines <= cols)%nat) (Hy : (y0 <= 4)%nat) (Hsp : (1 <= sp)%nat).
Context (Hbody : (length table <= body)%nat) (Hbody2 : (length lines * sp <= body)%nat).
Context (Hhead : Forall (fun o => (sk_y o < y0)%nat) head).
Let f := (4 + body)%nat.
Let os := head ++ put_right cols y0 table ++ put_text y0 sp lines ++ put_text f 1 footer.

Lemma at_split x y : drawn os x y = fold_left put_stroke (put_text f 1 footer) (fold_left put_stroke (put_text y0 sp lines)
  (fold_left put_stroke (put_right cols y0 table) (drawn head))) x y.
Proof. unfold os, drawn. rewrite !fold_left_app. reflexivity. Qed.
Lemma foot_miss c x y : (y < f)%nat -> fold_left put_stroke (put_text f 1 footer) c x y = c x y.
Proof. intros L. apply fold_miss. intros o I (A & _). apply in_text in I. destruct I as (n & l & _ & ->). cbn [sk_y] in A. lia. Qed.
Lemma head_miss x y : (y0 <= y)%nat -> drawn head x y = 32.
Proof.
  intros L. unfold drawn. rewrite fold_miss; [reflexivity|]. intros o I (A & _). rewrite Forall_forall in Hhead. specialize (Hhead o I). lia.
Qed.
Lemma line_lt n l : nth_error lines n = Some l -> (y0 + sp * n < f)%nat.
Proof.
  intros H. assert (n < length lines)%nat by (apply nth_error_Some; rewrite H; discriminate). unfold f.
  assert (sp * n < length lines * sp)%nat by (rewrite (Nat.mul_comm (length lines)); apply Nat.mul_lt_mono_pos_l; lia). lia.
Qed.
Lemma text_hit c n l x : nth_error lines n = Some l -> (x < length l)%nat ->
  fold_left put_stroke (put_text y0 sp lines) c x (y0 + sp * n)%nat = nth x l 32.
Proof.
  intros N L. apply fold_hit.
  - exists (mkStroke 0 (y0 + sp * n) l). split; [apply in_text; exists n, l; split; [exact N|reflexivity]|]. split; [reflexivity|]. cbn [sk_x sk_text]. lia.
  - intros o I (A & B). apply in_text in I. destruct I as (n' & l' & N' & ->). cbn [sk_x sk_y sk_text] in *.
    assert (n' = n) by nia. subst n'. rewrite N in N'. injection N' as <-. rewrite Nat.sub_0_r. reflexivity.
Qed.
Lemma text_miss c x y : (width lines <= x)%nat -> fold_left put_stroke (put_text y0 sp lines) c x y = c x y.
Proof.
  intros L. apply fold_miss. intros o I (_ & B). apply in_text in I. destruct I as (n & l & N & ->). apply width_le in N.
  cbn [sk_x sk_text] in B. lia.
Qed.
Lemma text_miss_line c n l x : nth_error lines n = Some l -> (length l <= x)%nat ->
  fold_left put_stroke (put_text y0 sp lines) c x (y0 + sp * n)%nat = c x (y0 + sp * n)%nat.
Proof.
  intros N L. apply fold_miss. intros o I (A & B). apply in_text in I. destruct I as (n' & l' & N' & ->). cbn [sk_x sk_y sk_text] in *.
  assert (n' = n) by nia. subst n'. rewrite N in N'. injection N' as <-. lia.
Qed.
Lemma table_hit c m t x : nth_error table m = Some t -> (cols - length t <= x < cols)%nat ->
  fold_left put_stroke (put_right cols y0 table) c x (y0 + m)%nat = nth (x - (cols - length t)) t 32.
Proof.
  intros N L. pose proof (width_le _ _ _ N) as W. apply fold_hit.
  - exists (mkStroke (cols - length t) (y0 + m) t). split; [apply in_right; exists m, t; split; [exact N|reflexivity]|].
    split; [reflexivity|]. cbn [sk_x sk_text]. lia.
  - intros o I (A & B). apply in_right in I. destruct I as (m' & t' & N' & ->). cbn [sk_x sk_y sk_text] in *.
    assert (m' = m) by lia. subst m'. rewrite N in N'. injection N' as <-. reflexivity.
Qed.
Lemma table_miss c x m : match nth_error table m with Some t => (x < cols - length t)%nat | None => True end ->
  fold_left put_stroke (put_right cols y0 table) c x (y0 + m)%nat = c x (y0 + m)%nat.
Proof.
  intros H. apply fold_miss. intros o I (A & B). apply in_right in I. destruct I as (m' & t' & N' & ->). cbn [sk_x sk_y sk_text] in *.
  assert (m' = m) by lia. subst m'. rewrite N' in H. lia.
Qed.
Lemma row_of_line n l : nth_error lines n = Some l ->
  let t := match nth_error table (sp * n) with Some t => t | None => [] end in
  map (fun x => drawn os x (y0 + sp * n)%nat) (seq 0 cols) = l ++ repeat 32 (cols - length l - length t) ++ t /\
  (3 <= cols - length l - length t)%nat.
Proof.
  intros N t. pose proof (width_le _ _ _ N) as W. pose proof (line_lt n l N) as LT.
  assert (T : (length t <= width table)%nat).
  { unfold t. destruct (nth_error table (sp * n)) as [t0|] eqn:E; [exact (width_le _ _ _ E)|cbn [length]; lia]. }
  split; [|lia]. set (b := (cols - length l - length t)%nat).
  replace cols with (length l + (b + length t))%nat at 1 by lia. rewrite seq_app, map_app. f_equal.
  - apply map_seq_text. intros i L. rewrite Nat.add_0_l, at_split, foot_miss by exact LT. apply text_hit; [exact N|exact L].
  - rewrite Nat.add_0_l, seq_app, map_app. f_equal.
    + apply map_seq_blank. intros x L. rewrite at_split, foot_miss by exact LT. rewrite (text_miss_line _ n l) by (try exact N; lia).
      rewrite table_miss; [apply head_miss; lia|]. unfold t in b. destruct (nth_error table (sp * n)); [lia|exact I].
    + apply map_seq_text. intros i L. rewrite at_split, foot_miss by exact LT. rewrite (text_miss_line _ n l) by (try exact N; lia).
      unfold t in *. destruct (nth_error table (sp * n)) as [t0|] eqn:E; [|cbn [length] in L; lia].
      rewrite (table_hit _ _ t0) by (try exact E; lia). f_equal. lia.
Qed.
Lemma row_of_other m : (y0 + m < f)%nat -> (forall n, (n < length lines)%nat -> m <> (sp * n)%nat) ->
  let t := match nth_error table m with Some t => t | None => [] end in
  map (fun x => drawn os x (y0 + m)%nat) (seq 0 cols) = repeat 32 (cols - length t) ++ t /\ (3 <= cols - length t)%nat.
Proof.
  intros LT H t. assert (T : (length t <= width table)%nat).
  { unfold t. destruct (nth_error table m) as [t0|] eqn:E; [exact (width_le _ _ _ E)|cbn [length]; lia]. }
  split; [|lia].
  assert (M : forall c x, fold_left put_stroke (put_text y0 sp lines) c x (y0 + m)%nat = c x (y0 + m)%nat).
  { intros c x. apply fold_miss. intros o I (A & _). apply in_text in I. destruct I as (n' & l' & N' & ->). cbn [sk_y] in A.
    assert (n' < length lines)%nat by (apply nth_error_Some; rewrite N'; discriminate). specialize (H n' H0). lia. }
  replace cols with (cols - length t + length t)%nat at 1 by lia. rewrite seq_app, map_app. f_equal.
  - apply map_seq_blank. intros x L. rewrite at_split, foot_miss, M by exact LT. rewrite table_miss; [apply head_miss; lia|].
    unfold t in L. destruct (nth_error table m); [lia|exact I].
  - apply map_seq_text. intros i L. rewrite Nat.add_0_l, at_split, foot_miss, M by exact LT.
    unfold t in *. destruct (nth_error table m) as [t0|] eqn:E; [|cbn [length] in L; lia].
    rewrite (table_hit _ _ t0) by (try exact E; lia). f_equal. lia.
Qed.
Lemma row_of_table m t : nth_error table m = Some t -> exists left,
  map (fun x => drawn os x (y0 + m)%nat) (seq 0 cols) = left ++ t /\ length left = (cols - length t)%nat.
Proof.
  intros N. pose proof (width_le _ _ _ N) as W. assert (m < length table)%nat by (apply nth_error_Some; rewrite N; discriminate).
  exists (map (fun x => drawn os x (y0 + m)%nat) (seq 0 (cols - length t))). rewrite map_length, seq_length. split; [|reflexivity].
  replace cols with (cols - length t + length t)%nat at 1 by lia. rewrite seq_app, map_app. f_equal. rewrite Nat.add_0_l.
  apply map_seq_text. intros i L. rewrite at_split, foot_miss by (unfold f; lia). rewrite text_miss by lia.
  rewrite (table_hit _ _ t) by (try exact N; lia). f_equal. lia.
Qed.
Lemma row_of_footer n l : nth_error footer n = Some l -> (length l <= cols)%nat -> exists right,
  map (fun x => drawn os x (f + n)%nat) (seq 0 cols) = l ++ right.
Proof.
  intros N L. exists (map (fun x => drawn os x (f + n)%nat) (seq (length l) (cols - length l))).
  replace cols with (length l + (cols - length l))%nat at 1 by lia. rewrite seq_app, map_app. f_equal.
  apply map_seq_text. intros i I. rewrite Nat.add_0_l, at_split. apply fold_hit.
  - exists (mkStroke 0 (f + 1 * n) l). split; [apply in_text; exists n, l; split; [exact N|reflexivity]|]. split; [cbn [sk_y]; lia|]. cbn [sk_x sk_text]. lia.
  - intros o J (A & B). apply in_text in J. destruct J as (n' & l' & N' & ->). cbn [sk_x sk_y sk_text] in *.
    assert (n' = n) by lia. subst n'. rewrite N in N'. injection N' as <-. rewrite Nat.sub_0_r. reflexivity.
Qed.
End Layout.

Lemma split_line a : ~ In 10 a -> split_lines a = [a].
Proof.
  induction a as [|c a IH]; intros H; [reflexivity|]. cbn [split_lines]. destruct (Z.eqb_spec c 10) as [->|N]; [exfalso; apply H; left; reflexivity|].
  rewrite IH; [reflexivity|]. intros I. apply H. right. exact I.
Qed.
Lemma split_more a s : ~ In 10 a -> split_lines (a ++ 10 :: s) = a :: split_lines s.
Proof.
  induction a as [|c a IH]; intros H; [reflexivity|]. cbn [app split_lines]. destruct (Z.eqb_spec c 10) as [->|N]; [exfalso; apply H; left; reflexivity|].
  rewrite IH; [reflexivity|]. intros I. apply H. right. exact I.
Qed.
Lemma split_join ls : ls <> [] -> (forall l, In l ls -> ~ In 10 l) -> split_lines (join [10] ls) = ls.
Proof.
  induction ls as [|a ls IH]; intros N H; [congruence|]. destruct ls as [|b ls].
  - cbn [join]. apply split_line, H. left. reflexivity.
  - change (join [10] (a :: b :: ls)) with (a ++ 10 :: join [10] (b :: ls)). rewrite split_more by (apply H; left; reflexivity).
    f_equal. apply IH; [discriminate|]. intros l I. apply H. right. exact I.
Qed.
Lemma in_join sep ls c : In c (join sep ls) -> In c sep \/ In c (concat ls).
Proof.
  induction ls as [|a ls IH]; [intros []|]. destruct ls as [|b ls].
  - cbn [join concat]. intros H. right. apply in_or_app. left. exact H.
  - change (join sep (a :: b :: ls)) with (a ++ sep ++ join sep (b :: ls)). intros H. apply in_app_or in H. destruct H as [H|H].
    + right. cbn [concat]. apply in_or_app. left. exact H.
    + apply in_app_or in H. destruct H as [H|H]; [left; exact H|]. destruct (IH H) as [X|X]; [left; exact X|right].
      cbn [concat]. apply in_or_app. right. exact X.
Qed.

Lemma printed_lemma : forall table footer y0 head gs columns keyColumns k, (y0 <= 4)%nat -> Forall (fun o => (sk_y o < y0)%nat) head ->
  0 < gs -> letters (krunes k) -> krunes k <> [] ->
  let rows := key_string table footer y0 head gs columns keyColumns k in
  (exists groups sp, (1 <= sp <= 2)%nat /\ concat (concat groups) = krunes k /\
    (exists gl g, concat groups = gl ++ [g] /\ (forall x, In x gl -> len x = gs) /\ 1 <= len g <= gs) /\
    (forall n l, nth_error groups n = Some l -> exists blanks t,
      nth (y0 + sp * n) rows [] = join [32] l ++ repeat 32 blanks ++ t /\ (3 <= blanks)%nat /\ (t = [] \/ In t table)) /\
    forall y, (y0 <= y < length rows - length footer)%nat -> (forall n, (n < length groups)%nat -> y <> (y0 + sp * n)%nat) ->
      exists blanks t, nth y rows [] = repeat 32 blanks ++ t /\ (3 <= blanks)%nat /\ (t = [] \/ In t table)) /\
  (forall m t, nth_error table m = Some t -> exists left, nth (y0 + m) rows [] = left ++ t) /\
  (forall n l, nth_error footer n = Some l ->
    len l <= columns \/ len l <= Z.of_nat (width table) + 3 + Z.min gs (len (krunes k)) -> exists right, nth (length rows - length footer + n) rows [] = l ++ right).
Proof.
  intros table footer y0 head gs columns keyColumns k Y H G L N rows.
  destruct (proj1 (c27_groups_total lb_unix (krunes k) gs keyColumns) G) as (out & E & _).
  destruct (c27_groups lb_unix gs keyColumns (krunes k) out N E) as (grp & O & C & NE & GS & _ & _ & _).
  assert (S : split_lines out = map (join [32]) grp).
  { rewrite O. apply split_join.
    - intros X. apply map_eq_nil in X. subst grp. destruct GS as (gl & g & X & _). destruct gl; discriminate X.
    - intros l I X. apply in_map_iff in I. destruct I as (gr & <- & I). apply in_join in X. destruct X as [[X|[]]|X]; [discriminate X|].
      assert (J : In 10 (krunes k)).
      { rewrite <- C. apply in_concat in X. destruct X as (w & W1 & W2). apply in_concat. exists w. split; [|exact W2].
        apply in_concat. exists gr. split; [exact I|exact W1]. }
      unfold letters in L. rewrite Forall_forall in L. specialize (L 10 J). unfold is_letter in L. lia. }
  unfold rows, key_string. rewrite E, S. set (lines := map (join [32]) grp).
  set (sp := if Nat.leb (length lines * 2 - 1) (length table) then 2%nat else 1%nat).
  set (cols0 := (width table + 3 + width lines)%nat).
  set (cols := if Z.of_nat cols0 <? columns then Z.to_nat columns else cols0).
  set (body := if Nat.ltb (length lines * sp) (length table) then length table else (length lines * sp)%nat).
  assert (SP : (1 <= sp <= 2)%nat) by (unfold sp; destruct (Nat.leb (length lines * 2 - 1) (length table)); lia).
  assert (CO : (cols0 <= cols)%nat) by (unfold cols; destruct (Z.ltb_spec (Z.of_nat cols0) columns); lia).
  assert (CC : columns <= Z.of_nat cols) by (unfold cols; destruct (Z.ltb_spec (Z.of_nat cols0) columns); lia).
  assert (B1 : (length table <= body)%nat) by (unfold body; destruct (Nat.ltb_spec (length lines * sp) (length table)); lia).
  assert (B2 : (length lines * sp <= body)%nat) by (unfold body; destruct (Nat.ltb_spec (length lines * sp) (length table)); lia).
  assert (W1 : Z.min gs (len (krunes k)) <= Z.of_nat (width lines)).
  { destruct grp as [|l1 grp0]; [destruct GS as (gl & g & X & _); destruct gl; discriminate X|].
    destruct l1 as [|g1 l1]; [exfalso; apply (NE []); [left; reflexivity|reflexivity]|].
    assert (P1 : (length g1 <= length (join [32%Z] (g1 :: l1)))%nat)
      by (destruct l1; [cbn [join]; lia|cbn [join]; rewrite app_length; lia]).
    pose proof (width_le lines 0 (join [32%Z] (g1 :: l1)) eq_refl) as P2.
    assert (P3 : Z.min gs (len (krunes k)) <= len g1); [|unfold len in P3 |- *; lia].
    destruct GS as (gl & g & X & GL & _). destruct gl as [|g2 gl]; cbn [concat app] in X; injection X as X1 X2.
    - subst g. rewrite <- C. cbn [concat app]. rewrite X2. cbn [concat]. rewrite app_nil_r. lia.
    - subst g2. rewrite (GL g1 (or_introl eq_refl)). lia. }
  replace (4 + length footer + body - length footer)%nat with (4 + body)%nat by lia.
  clearbody cols body. assert (S1 : (1 <= sp)%nat) by lia.
  set (os := head ++ put_right cols y0 table ++ put_text y0 sp lines ++ put_text (4 + body) 1 footer).
  split; [|split].
  - exists grp, sp. split; [exact SP|]. split; [exact C|]. split; [exact GS|]. split.
    2: { rewrite page_length. intros y LY NY.
      destruct (row_of_other table lines footer cols body sp y0 head CO Y S1 B1 B2 H (y - y0)) as (R & R3); [lia| |].
      - unfold lines. rewrite map_length. intros n LN. specialize (NY n LN). lia.
      - replace (y0 + (y - y0))%nat with y in R by lia. eexists. eexists. split; [rewrite page_row by lia; exact R|]. split; [exact R3|].
        destruct (nth_error table (y - y0)) as [t|] eqn:T; [right; exact (nth_error_In _ _ T)|left; reflexivity]. }
    intros n l I.
    assert (J : nth_error lines n = Some (join [32] l)) by (unfold lines; rewrite nth_error_map, I; reflexivity).
    pose proof (line_lt table lines cols body sp y0 CO Y S1 B1 B2 n _ J) as LT.
    destruct (row_of_line table lines footer cols body sp y0 head CO Y S1 B1 B2 H n _ J) as (R & R3).
    eexists. eexists. split; [rewrite page_row by lia; exact R|]. split; [exact R3|].
    destruct (nth_error table (sp * n)) as [t|] eqn:T; [right; exact (nth_error_In _ _ T)|left; reflexivity].
  - intros m t I. assert (m < length table)%nat by (apply nth_error_Some; rewrite I; discriminate).
    destruct (row_of_table table lines footer cols body sp y0 head CO Y S1 B1 B2 m t I) as (left & R & _).
    exists left. rewrite page_row by lia. exact R.
  - intros n l I W. assert (n < length footer)%nat by (apply nth_error_Some; rewrite I; discriminate).
    destruct (row_of_footer table lines footer cols body sp y0 head CO Y S1 B1 B2 n l I ltac:(unfold cols0 in CO; unfold len in W, W1; lia)) as (right & R).
    exists right. rewrite page_length. replace (4 + length footer + body - length footer + n)%nat with (4 + body + n)%nat by lia. rewrite page_row by lia. exact R.
Qed.
