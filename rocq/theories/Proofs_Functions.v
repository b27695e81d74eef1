(** Lemmas about functions.go. *)
From Verif Require Import Base Spec Model_Unicode Model_Crand Model_Functions.

(** ** groups *)
Definition line_text (l : list (list rune)) : list rune := join [32] l.

Lemma join_snoc : forall sep l x, l <> [] -> join sep (l ++ [x]) = join sep l ++ sep ++ x.
Proof.
  induction l as [|y l IH]; intros x H; [congruence|]. destruct l as [|z l].
  - reflexivity.
  - change ((y :: z :: l) ++ [x]) with (y :: (z :: l) ++ [x]).
    change (join sep (y :: (z :: l) ++ [x])) with (y ++ sep ++ join sep ((z :: l) ++ [x])).
    rewrite IH by discriminate. change (join sep (y :: z :: l)) with (y ++ sep ++ join sep (z :: l)).
    rewrite <- !app_assoc. reflexivity.
Qed.

(** The shape of grouped text: [done] complete lines, [line] complete groups of
    the current line, [cur] the current, incomplete group. *)
Definition line_ok (gs columns : Z) (line : list (list rune)) : Prop :=
  line <> [] /\ (forall g, In g line -> len g = gs) /\
  (0 < columns -> len (line_text line) <= Z.max gs (columns - 1)).

(** A broken line could not take another group. *)
Definition line_full (gs columns : Z) (line : list (list rune)) : Prop :=
  0 < columns /\ columns <= len (line_text line) + 1 + gs.

Definition shape (lb : list rune) (gs columns : Z) (input output : list rune) : Prop :=
  exists (full : list (list (list rune))) (last : list (list rune)) (g : list rune),
    output = join lb (map line_text (full ++ [last ++ [g]])) /\
    input = concat (concat (full ++ [last ++ [g]])) /\
    (forall l, In l full -> line_ok gs columns l /\ line_full gs columns l) /\
    (forall x, In x last -> len x = gs) /\ 1 <= len g <= gs /\
    (0 < columns -> len (line_text (last ++ [g])) <= Z.max gs (columns - 1)).

Lemma len_app : forall A (a b : list A), len (a ++ b) = len a + len b.
Proof. intros. unfold len. rewrite app_length. lia. Qed.
Lemma len_cons : forall A (x : A) l, len (x :: l) = 1 + len l.
Proof. intros. unfold len. cbn [length]. lia. Qed.
Lemma len_nonneg : forall A (l : list A), 0 <= len l.
Proof. intros. unfold len. lia. Qed.

Definition sofar (lb : list rune) (full : list (list (list rune))) (last : list (list rune))
    (cur : list rune) : list rune :=
  flat_map (fun l => line_text l ++ lb) full ++ flat_map (fun g => g ++ [32]) last ++ cur.

Lemma join_flat : forall sep l x, join sep (l ++ [x]) = flat_map (fun y => y ++ sep) l ++ x.
Proof.
  induction l as [|y l IH]; intros x; [reflexivity|].
  change ((y :: l) ++ [x]) with (y :: (l ++ [x])). cbn [flat_map].
  destruct (l ++ [x]) eqn:E; [destruct l; discriminate|].
  change (join sep (y :: l0 :: l1)) with (y ++ sep ++ join sep (l0 :: l1)).
  rewrite <- E, IH. rewrite <- !app_assoc. reflexivity.
Qed.

Lemma flat_map_map_line : forall lb full,
  flat_map (fun y => y ++ lb) (map line_text full) = flat_map (fun l => line_text l ++ lb) full.
Proof. induction full as [|l f IH]; [reflexivity|]. cbn. rewrite IH. reflexivity. Qed.

Lemma sofar_join : forall lb full last g,
  sofar lb full last g = join lb (map line_text (full ++ [last ++ [g]])).
Proof.
  intros. unfold sofar. rewrite map_app. cbn [map]. rewrite join_flat, flat_map_map_line.
  f_equal. unfold line_text. rewrite join_flat. reflexivity.
Qed.

Lemma concat2_snoc : forall (full : list (list (list rune))) l,
  concat (concat (full ++ [l])) = concat (concat full) ++ concat l.
Proof. intros. rewrite concat_app. cbn [concat]. rewrite app_nil_r. apply concat_app. Qed.
Lemma concat_snoc : forall (l : list (list rune)) g, concat (l ++ [g]) = concat l ++ g.
Proof. intros. rewrite concat_app. cbn [concat]. rewrite app_nil_r. reflexivity. Qed.

Definition line_len (last : list (list rune)) (cur : list rune) : Z :=
  len (flat_map (fun g => g ++ [32]) last ++ cur).

Lemma line_len_text : forall last g, line_len last g = len (line_text (last ++ [g])).
Proof. intros. unfold line_len, line_text. rewrite join_flat. reflexivity. Qed.

Lemma groups_loop_shape : forall lb gs columns, 0 < gs -> forall rest full last cur out input,
  (forall l, In l full -> line_ok gs columns l /\ line_full gs columns l) ->
  (forall x, In x last -> len x = gs) -> len cur < gs ->
  (rest = [] -> cur <> []) ->
  (0 < columns -> line_len last cur - len cur + gs <= Z.max gs (columns - 1)) ->
  out = sofar lb full last cur ->
  input = concat (concat full) ++ concat last ++ cur ++ rest ->
  shape lb gs columns input (groups_loop lb gs columns rest (len cur) (line_len last cur) out).
Proof.
  intros lb gs columns Hgs. induction rest as [|c rest IH]; intros full last cur out input Hf Hl Hc Hn Hw Ho Hi.
  - cbn. exists full, last, cur. split; [rewrite Ho; apply sofar_join|].
    split. { rewrite Hi, !concat_app. cbn. rewrite !concat_app. cbn. rewrite !app_nil_r. reflexivity. }
    split; [exact Hf|]. split; [exact Hl|].
    assert (cur <> []) by auto.
    split. { destruct cur; [congruence|]. rewrite len_cons. rewrite len_cons in Hc.
             pose proof (len_nonneg _ cur). lia. }
    intros Hp. specialize (Hw Hp). rewrite <- line_len_text. lia.
  - cbn [groups_loop].
    assert (L1 : len (cur ++ [c]) = len cur + 1) by (rewrite len_app; reflexivity).
    assert (L2 : line_len last (cur ++ [c]) = line_len last cur + 1)
      by (unfold line_len; rewrite app_assoc, len_app, len_cons; change (len (@nil rune)) with 0; lia).
    assert (O1 : out ++ [c] = sofar lb full last (cur ++ [c]))
      by (rewrite Ho; unfold sofar; rewrite <- !app_assoc; reflexivity).
    assert (I1 : input = concat (concat full) ++ concat last ++ (cur ++ [c]) ++ rest)
      by (rewrite Hi, <- !app_assoc; reflexivity).
    destruct (len cur + 1 =? gs) eqn:E.
    + assert (Hg : len (cur ++ [c]) = gs) by lia.
      destruct rest as [|d rest].
      * cbn. exists full, last, (cur ++ [c]). split; [rewrite O1; apply sofar_join|].
        split. { rewrite I1, !concat_app. cbn. rewrite !concat_app. cbn. rewrite !app_nil_r. reflexivity. }
        split; [exact Hf|]. split; [exact Hl|]. split; [lia|].
        intros Hp. specialize (Hw Hp). rewrite <- line_len_text. lia.
      * destruct ((0 <? columns) && (columns - gs - 1 <=? line_len last cur + 1)) eqn:E2.
        -- change 0 with (len (@nil rune)) at 1.
           replace 0 with (line_len [] []) by reflexivity.
           apply (IH (full ++ [last ++ [cur ++ [c]]])).
           ++ intros l Hin. apply in_app_iff in Hin. destruct Hin as [Hin|[<-|[]]]; [auto|].
              split.
              ** split; [destruct last; discriminate|]. split.
                 --- intros g Hin. apply in_app_iff in Hin. destruct Hin as [Hin|[<-|[]]]; auto.
                 --- intros Hp. specialize (Hw Hp). rewrite <- line_len_text. lia.
              ** unfold line_full. rewrite <- line_len_text. lia.
           ++ intros x [].
           ++ unfold len. cbn. lia.
           ++ discriminate.
           ++ intros _. unfold line_len, len. cbn. lia.
           ++ rewrite O1. unfold sofar at 2. rewrite flat_map_app. cbn. rewrite !app_nil_r.
              unfold sofar. rewrite <- !app_assoc. f_equal. unfold line_text. rewrite join_flat.
              rewrite <- !app_assoc. reflexivity.
           ++ rewrite I1, concat2_snoc, concat_snoc. cbn [concat app].
              rewrite <- !app_assoc. reflexivity.
        -- assert (L3 : line_len last cur + 1 + 1 = line_len (last ++ [cur ++ [c]]) []).
           { unfold line_len. rewrite flat_map_app. cbn. rewrite !app_nil_r, !len_app. cbn.
             unfold len. cbn. lia. }
           rewrite L3. change 0 with (len (@nil rune)) at 1.
           apply (IH full (last ++ [cur ++ [c]])).
           ++ exact Hf.
           ++ intros x Hin. apply in_app_iff in Hin. destruct Hin as [Hin|[<-|[]]]; auto.
           ++ unfold len. cbn. lia.
           ++ discriminate.
           ++ intros Hp. rewrite <- L3. unfold len. cbn. lia.
           ++ rewrite O1. unfold sofar. rewrite flat_map_app. cbn. rewrite !app_nil_r, <- !app_assoc. reflexivity.
           ++ rewrite I1, concat_snoc. cbn [app]. rewrite <- !app_assoc. reflexivity.
    + rewrite <- L1, <- L2. apply (IH full last (cur ++ [c])).
      * exact Hf.
      * exact Hl.
      * lia.
      * intros _. destruct cur; discriminate.
      * intros Hp. specialize (Hw Hp). lia.
      * exact O1.
      * exact I1.
Qed.

Lemma groups_shape : forall lb gs columns s out, s <> [] ->
  groups lb (Some s) gs columns = Ok out -> 0 < gs /\ shape lb gs columns s out.
Proof.
  intros lb gs columns s out Hs H. unfold groups in H.
  destruct (gs <=? 0) eqn:E; [discriminate|]. injection H as <-.
  assert (0 < gs) by lia. split; [assumption|].
  change (groups_loop lb gs columns s 0 0 []) with
    (groups_loop lb gs columns s (len (@nil rune)) (line_len [] []) []).
  apply (groups_loop_shape lb gs columns H s [] [] []).
  - intros l [].
  - intros x [].
  - unfold len. cbn. lia.
  - intros ->. congruence.
  - intros _. unfold line_len, len. cbn. lia.
  - reflexivity.
  - reflexivity.
Qed.

(** ** EqualRunes *)
Lemma combine_eq : forall (x y : list rune), length x = length y ->
  forallb (fun p => fst p =? snd p) (combine x y) = true <-> x = y.
Proof.
  induction x as [|a x IH]; destruct y as [|b y]; intros H; try discriminate; [cbn; tauto|].
  cbn. injection H as H. rewrite andb_true_iff, (IH y H). split.
  - intros [H1 H2]. f_equal; [lia|assumption].
  - intros E. injection E as -> ->. split; [lia|reflexivity].
Qed.
Lemma equal_runes_spec : forall a b, equal_runes a b = true <-> a = b.
Proof.
  intros [x|] [y|]; cbn; try (split; [discriminate|congruence]); [|tauto].
  unfold len. destruct (Z.of_nat (length x) =? Z.of_nat (length y)) eqn:E; cbn [negb].
  - rewrite combine_eq by lia. split; [intros ->; reflexivity|intros H; congruence].
  - split; [discriminate|]. intros H. injection H as ->. lia.
Qed.

Lemma combine_fold : forall U (x y : list rune), length x = length y ->
  forallb (fun p => to_upper U (fst p) =? to_upper U (snd p)) (combine x y) = true <->
  map (to_upper U) x = map (to_upper U) y.
Proof.
  induction x as [|a x IH]; destruct y as [|b y]; intros H; try discriminate; [cbn; tauto|].
  cbn. injection H as H. rewrite andb_true_iff, (IH y H). split.
  - intros [H1 H2]. f_equal; [lia|assumption].
  - intros E. injection E as E1 E2. split; [lia|assumption].
Qed.
Lemma equal_fold_spec : forall U a b, equal_runes_fold U a b = true <->
  option_map (map (to_upper U)) a = option_map (map (to_upper U)) b.
Proof.
  intros U [x|] [y|]; cbn; try (split; [discriminate|congruence]); [|tauto].
  unfold len. destruct (Z.of_nat (length x) =? Z.of_nat (length y)) eqn:E; cbn [negb].
  - rewrite combine_fold by lia. split; [intros ->; reflexivity|intros H; congruence].
  - split; [discriminate|]. intros H. injection H as H. apply (f_equal (@length _)) in H.
    rewrite !map_length in H. lia.
Qed.

Lemma upper_same_letter : forall U a b, 0 <= a <= 255 -> 0 <= b <= 255 ->
  to_upper U a = to_upper U b <-> same_letter a b.
Proof.
  intros U a b Ha Hb. unfold to_upper, in_latin1, same_letter, case_pair.
  replace ((0 <=? a) && (a <=? 255)) with true by lia.
  replace ((0 <=? b) && (b <=? 255)) with true by lia.
  destruct ((97 <=? a) && (a <=? 122)) eqn:A1; destruct ((97 <=? b) && (b <=? 122)) eqn:B1; try lia;
  destruct (a =? 181) eqn:A2; destruct (b =? 181) eqn:B2; try lia;
  destruct ((224 <=? a) && (a <=? 254) && negb (a =? 247)) eqn:A3;
  destruct ((224 <=? b) && (b <=? 254) && negb (b =? 247)) eqn:B3; try lia;
  destruct (a =? 255) eqn:A4; destruct (b =? 255) eqn:B4; lia.
Qed.

Lemma fold_same_letter : forall U x y, Forall (fun c => 0 <= c <= 255) x ->
  Forall (fun c => 0 <= c <= 255) y ->
  equal_runes_fold U (Some x) (Some y) = true <-> Forall2 same_letter x y.
Proof.
  intros U x y Hx Hy. rewrite equal_fold_spec. cbn [option_map].
  split.
  - intros H. injection H as H. revert y Hy H. induction Hx as [|a x Ha Hx IH]; intros [|b y] Hy H; try discriminate; [constructor|].
    cbn in H. injection H as H1 H2. inversion Hy; subst. constructor; [apply (upper_same_letter U); assumption|auto].
  - intros H. f_equal. revert Hx Hy. induction H as [|a b x y Hab H IH]; intros Hx Hy; [reflexivity|].
    inversion Hx; inversion Hy; subst. cbn. f_equal; [apply upper_same_letter; assumption|auto].
Qed.

(** ** Needles *)
Lemma exists_equal : forall hs n, existsb (fun h => equal_runes (Some h) (Some n)) hs = true <-> In n hs.
Proof.
  intros. rewrite existsb_exists. split.
  - intros (h & Hin & E). apply equal_runes_spec in E. injection E as ->. exact Hin.
  - intros H. exists n. split; [exact H|apply equal_runes_spec; reflexivity].
Qed.

Lemma len_zero : forall A (l : list A), (len l =? 0) = true <-> l = [].
Proof. intros A [|x l]; unfold len; cbn; split; intros; try reflexivity; try discriminate. Qed.

Lemma all_needles_spec : forall U ns hs ci, all_needles U ns hs ci = true <->
  exists n h, ns = Some n /\ hs = Some h /\ n <> [] /\ h <> [] /\
    forall x, In x n -> exists y, In y h /\
      (if ci then equal_runes_fold U (Some y) (Some x) = true else y = x).
Proof.
  intros U [n|] [h|] ci; unfold all_needles; cbv beta iota; try (split; [discriminate|intros (n' & h' & E1 & E2 & _); congruence]).
  destruct (len n =? 0) eqn:E1; cbn [orb].
  { apply len_zero in E1. split; [discriminate|]. intros (n' & h' & Q1 & Q2 & Q3 & _). congruence. }
  destruct (len h =? 0) eqn:E2; cbn [orb].
  { apply len_zero in E2. split; [discriminate|]. intros (n' & h' & Q1 & Q2 & Q3 & Q4 & _). congruence. }
  rewrite forallb_forall. split.
  - intros H. exists n, h. split; [reflexivity|]. split; [reflexivity|].
    split; [intros ->; discriminate|]. split; [intros ->; discriminate|].
    intros x Hx. specialize (H x Hx). apply existsb_exists in H. destruct H as (y & Hy & E).
    exists y. split; [exact Hy|]. destruct ci; [exact E|]. apply equal_runes_spec in E. congruence.
  - intros (n' & h' & Q1 & Q2 & _ & _ & Q) x Hx. injection Q1 as <-. injection Q2 as <-.
    destruct (Q x Hx) as (y & Hy & E). apply existsb_exists. exists y. split; [exact Hy|].
    destruct ci; [exact E|]. apply equal_runes_spec. congruence.
Qed.

Lemma any_needle_spec : forall ns hs, any_needle ns hs = true <->
  exists n h x, ns = Some n /\ hs = Some h /\ In x n /\ In x h.
Proof.
  intros [n|] [h|]; unfold any_needle; cbv beta iota; try (split; [discriminate|intros (n' & h' & x & E1 & E2 & _); congruence]).
  destruct (len n =? 0) eqn:E1; cbn [orb].
  { apply len_zero in E1. subst. split; [discriminate|]. intros (n' & h' & x & Q1 & Q2 & Q3 & Q4). injection Q1 as <-. destruct Q3. }
  destruct (len h =? 0) eqn:E2; cbn [orb].
  { apply len_zero in E2. subst. split; [discriminate|]. intros (n' & h' & x & Q1 & Q2 & Q3 & Q4). injection Q2 as <-. destruct Q4. }
  rewrite existsb_exists. split.
  - intros (x & Hx & E). apply exists_equal in E. eauto 10.
  - intros (n' & h' & x & Q1 & Q2 & Q3 & Q4). injection Q1 as <-. injection Q2 as <-.
    exists x. split; [exact Q3|]. apply exists_equal. exact Q4.
Qed.

Lemma any_of_them_spec : forall hs n, any_of_them hs n = true <->
  exists h x, hs = Some h /\ n = Some x /\ x <> [] /\ In x h.
Proof.
  intros [h|] [x|]; unfold any_of_them; cbv beta iota; try (split; [discriminate|intros (h' & x' & E1 & E2 & _); congruence]).
  destruct (len x =? 0) eqn:E1.
  { apply len_zero in E1. split; [discriminate|]. intros (h' & x' & Q1 & Q2 & Q3 & _). congruence. }
  rewrite exists_equal. split.
  - intros H. exists h, x. repeat split; auto. intros ->. discriminate.
  - intros (h' & x' & Q1 & Q2 & _ & Q). congruence.
Qed.

(** ** Vetting *)
Section V.
Context (U : Uni).

Definition nosep (s : list rune) : Prop := Forall (fun c => c <> 44 /\ c <> 32) s.

Lemma fields_aux_app : forall f s c t cur, f c = true ->
  fields_func_aux f (s ++ c :: t) cur = fields_func_aux f s cur ++ fields_func_aux f t [].
Proof.
  induction s as [|a s IH]; intros c t cur Hc.
  - cbn. rewrite Hc. destruct cur; reflexivity.
  - cbn. destruct (f a) eqn:E.
    + destruct cur; [apply IH; exact Hc|]. rewrite IH by exact Hc. reflexivity.
    + apply IH. exact Hc.
Qed.

Lemma fields_aux_nosep : forall f s cur, (forall c, In c s -> f c = false) ->
  fields_func_aux f s cur = match rev cur ++ s with [] => [] | x => [x] end.
Proof.
  induction s as [|a s IH]; intros cur H.
  - cbn. rewrite app_nil_r. destruct cur as [|x cur]; [reflexivity|].
    cbn. destruct (rev cur ++ [x]) eqn:E; [destruct (rev cur); discriminate|reflexivity].
  - cbn. rewrite (H a (or_introl eq_refl)). rewrite IH by (intros; apply H; right; assumption).
    cbn. rewrite <- app_assoc. reflexivity.
Qed.

Lemma vetted_app : forall a b, vetted_keepers U (a ++ b) = vetted_keepers U a ++ vetted_keepers U b.
Proof. intros. unfold vetted_keepers. apply flat_map_app. Qed.

Lemma vetted_one : forall s, vetted_keepers U [s] =
  flat_map (fun sub => let v := str_upper U (trim_space U sub) in if 0 <? len v then [v] else [])
    (fields_func keeper_sep s).
Proof. intros. unfold vetted_keepers. cbn [flat_map]. apply app_nil_r. Qed.

Lemma vetted_sep : forall s c t, c = 44 \/ c = 32 ->
  vetted_keepers U [s ++ c :: t] = vetted_keepers U [s] ++ vetted_keepers U [t].
Proof.
  intros s c t Hc. rewrite !vetted_one. unfold fields_func.
  rewrite fields_aux_app by (unfold keeper_sep; destruct Hc; subst; reflexivity).
  apply flat_map_app.
Qed.

Definition space_at_ends (s : list rune) : Prop :=
  match s with [] => False | c :: _ => is_space U c = true end \/
  match rev s with [] => False | c :: _ => is_space U c = true end.

Lemma drop_white : forall w s, Forall (fun c => is_space U c = true) w ->
  drop_while (is_space U) (w ++ s) = drop_while (is_space U) s.
Proof. induction 1 as [|c w H _ IH]; [reflexivity|]. cbn. rewrite H. exact IH. Qed.

Lemma drop_stop : forall s, match s with [] => False | c :: _ => is_space U c = true end \/
  drop_while (is_space U) s = s.
Proof. destruct s as [|c s]; [right; reflexivity|]. cbn. destruct (is_space U c); auto. Qed.

Lemma trim_exact : forall w1 s w2, Forall (fun c => is_space U c = true) w1 ->
  Forall (fun c => is_space U c = true) w2 -> ~ space_at_ends s ->
  trim_space U (w1 ++ s ++ w2) = s.
Proof.
  intros w1 s w2 H1 H2 Hs. unfold trim_space. rewrite drop_white by exact H1.
  destruct s as [|c s].
  - cbn. replace (drop_while (is_space U) w2) with (@nil rune); [reflexivity|].
    symmetry. rewrite <- (app_nil_r w2). rewrite drop_white by exact H2. reflexivity.
  - change ((c :: s) ++ w2) with (c :: s ++ w2).
    destruct (drop_stop (c :: s ++ w2)) as [E|E]; [exfalso; apply Hs; left; exact E|].
    rewrite E. change (c :: s ++ w2) with ((c :: s) ++ w2). rewrite rev_app_distr.
    rewrite drop_white by (apply Forall_rev; exact H2).
    destruct (drop_stop (rev (c :: s))) as [E2|E2]; [exfalso; apply Hs; right; exact E2|].
    rewrite E2. apply rev_involutive.
Qed.

Lemma vetted_word : forall w1 s w2, nosep (w1 ++ s ++ w2) ->
  Forall (fun c => is_space U c = true) w1 -> Forall (fun c => is_space U c = true) w2 ->
  ~ space_at_ends s ->
  vetted_keepers U [w1 ++ s ++ w2] = match s with [] => [] | _ => [map (to_upper U) s] end.
Proof.
  intros w1 s w2 Hn H1 H2 Hs. rewrite vetted_one. unfold fields_func.
  rewrite fields_aux_nosep.
  2: { intros c Hc. unfold nosep in Hn. rewrite Forall_forall in Hn. specialize (Hn c Hc).
       unfold keeper_sep. lia. }
  cbn [rev app]. pose proof (trim_exact w1 s w2 H1 H2 Hs) as T.
  destruct (w1 ++ s ++ w2) eqn:E.
  - destruct w1; [|discriminate]. destruct s; [|discriminate]. reflexivity.
  - cbn [flat_map]. rewrite T. unfold str_upper. destruct s as [|c s']; [reflexivity|].
    unfold len. cbn [map length]. replace (0 <? Z.of_nat (S (length (map (to_upper U) s')))) with true by lia.
    reflexivity.
Qed.

(** Every separator-free text is white space, a trimmed core, white space. *)
Lemma drop_split : forall s, exists w, s = w ++ drop_while (is_space U) s /\
  Forall (fun c => is_space U c = true) w.
Proof.
  induction s as [|c s (w & E & H)]; [exists []; auto|]. cbn. destruct (is_space U c) eqn:C.
  - exists (c :: w). split; [cbn; rewrite <- E; reflexivity|constructor; assumption].
  - exists []. auto.
Qed.
Lemma drop_head : forall s, match drop_while (is_space U) s with [] => True | c :: _ => is_space U c = false end.
Proof. induction s as [|c s IH]; [exact I|]. cbn. destruct (is_space U c) eqn:E; [exact IH|exact E]. Qed.

Lemma trim_split : forall s, exists w1 w2, s = w1 ++ trim_space U s ++ w2 /\
  Forall (fun c => is_space U c = true) w1 /\ Forall (fun c => is_space U c = true) w2 /\
  ~ space_at_ends (trim_space U s).
Proof.
  intros s. destruct (drop_split s) as (w1 & E1 & H1).
  destruct (drop_split (rev (drop_while (is_space U) s))) as (w2 & E2 & H2).
  exists w1, (rev w2). unfold trim_space.
  assert (E3 : drop_while (is_space U) s =
     rev (drop_while (is_space U) (rev (drop_while (is_space U) s))) ++ rev w2).
  { rewrite <- rev_app_distr. rewrite <- E2. symmetry. apply rev_involutive. }
  split; [rewrite <- E3; exact E1|]. split; [exact H1|]. split; [apply Forall_rev; exact H2|].
  intros [Q|Q].
  - pose proof (drop_head s) as D. rewrite E3 in D.
    destruct (rev (drop_while (is_space U) (rev (drop_while (is_space U) s)))); [destruct Q|].
    cbn in D. congruence.
  - rewrite rev_involutive in Q. pose proof (drop_head (rev (drop_while (is_space U) s))) as D.
    destruct (drop_while (is_space U) (rev (drop_while (is_space U) s))); [destruct Q|]. congruence.
Qed.

(** What a vetted call-sign looks like. *)
Hypothesis HI : uni_upper_idem U.
Hypothesis HS : uni_space_upper U.

Lemma upper_sep : uni_ok U -> forall c, to_upper U c = 44 \/ to_upper U c = 32 -> c = 44 \/ c = 32.
Proof.
  intros HU c H. unfold to_upper in H. destruct (in_latin1 c) eqn:E.
  - unfold in_latin1 in E.
    destruct ((97 <=? c) && (c <=? 122)) eqn:A1; [lia|]. destruct (c =? 181); [lia|].
    destruct ((224 <=? c) && (c <=? 254) && negb (c =? 247)) eqn:A3; [lia|].
    destruct (c =? 255); lia.
  - destruct (c =? 305) eqn:A1; [lia|]. destruct (c =? 383) eqn:A2; [lia|].
    specialize (HU c E ltac:(lia) ltac:(lia)). unfold in_latin1 in HU. lia.
Qed.

Definition vetted_ok (v : list rune) : Prop :=
  v <> [] /\ nosep v /\ map (to_upper U) v = v /\ ~ space_at_ends v.

Lemma in_fields_aux : forall f s cur x, In x (fields_func_aux f s cur) ->
  (forall c, In c cur -> f c = false) -> x <> [] /\ forall c, In c x -> f c = false.
Proof.
  induction s as [|a s IH]; intros cur x Hx Hc.
  - cbn in Hx. destruct cur as [|y cur]; [destruct Hx|]. destruct Hx as [<-|[]].
    split; [cbn; destruct (rev cur); discriminate|]. intros c Hin. apply Hc. apply in_rev. exact Hin.
  - cbn in Hx. destruct (f a) eqn:E.
    + destruct cur as [|y cur]; [apply (IH [] x Hx); intros c []|].
      destruct Hx as [<-|Hx].
      * split; [cbn; destruct (rev cur); discriminate|]. intros c Hin. apply Hc. apply in_rev. exact Hin.
      * apply (IH [] x Hx). intros c [].
    + apply (IH (a :: cur) x Hx). intros c [<-|Hin]; auto.
Qed.

Lemma space_at_ends_upper : forall s, space_at_ends (map (to_upper U) s) <-> space_at_ends s.
Proof.
  intros s. unfold space_at_ends. rewrite <- map_rev.
  destruct s as [|c s]; [cbn; tauto|]. destruct (rev (c :: s)) as [|d r] eqn:E.
  { cbn. rewrite HS. tauto. }
  cbn. rewrite !HS. tauto.
Qed.

Lemma vetted_all_ok : uni_ok U -> forall l v, In v (vetted_keepers U l) -> vetted_ok v.
Proof.
  intros HU l v H. unfold vetted_keepers in H. apply in_flat_map in H. destruct H as (s & _ & H).
  apply in_flat_map in H. destruct H as (sub & Hs & H). cbv zeta in H.
  destruct (0 <? len (str_upper U (trim_space U sub))) eqn:E; [|destruct H].
  destruct H as [<-|[]]. destruct (in_fields_aux _ _ _ _ Hs) as (F1 & F2); [intros c []|].
  destruct (trim_split sub) as (w1 & w2 & T1 & T2 & T3 & T4).
  split. { intros Q. rewrite Q in E. discriminate. }
  split.
  { apply Forall_forall. intros c Hc. unfold str_upper in Hc. apply in_map_iff in Hc.
    destruct Hc as (d & <- & Hd).
    assert (keeper_sep d = false).
    { apply F2. rewrite T1. apply in_app_iff. right. apply in_app_iff. left. exact Hd. }
    unfold keeper_sep in H.
    split; intros Q; destruct (upper_sep HU d); try tauto; lia. }
  split. { unfold str_upper. rewrite map_map. apply map_ext. intros a. apply HI. }
  unfold str_upper. rewrite space_at_ends_upper. exact T4.
Qed.

Lemma vetted_fix : forall v, vetted_ok v -> vetted_keepers U [v] = [v].
Proof.
  intros v (H1 & H2 & H3 & H4).
  pose proof (vetted_word [] v [] ) as W. cbn [app] in W. rewrite app_nil_r in W.
  rewrite W; auto. destruct v; [congruence|]. rewrite H3. reflexivity.
Qed.

Lemma vetted_join : forall l, Forall vetted_ok l -> vetted_keepers U [join [44] l] = l.
Proof.
  induction l as [|v l IH]; intros H; [reflexivity|]. inversion H; subst.
  destruct l as [|w l].
  - apply vetted_fix. assumption.
  - change (join [44] (v :: w :: l)) with (v ++ 44 :: join [44] (w :: l)).
    rewrite vetted_sep by auto. rewrite vetted_fix by assumption. rewrite IH by assumption. reflexivity.
Qed.

Lemma vetted_list : forall l, Forall vetted_ok l -> vetted_keepers U l = l.
Proof.
  induction l as [|v l IH]; intros H; [reflexivity|]. inversion H; subst.
  change (v :: l) with ([v] ++ l). rewrite vetted_app, vetted_fix, IH by assumption. reflexivity.
Qed.
End V.

(** ** Small helpers *)
Lemma trim_right_loop_spec : forall f s i, (i = length s)%nat ->
  exists suf, s = trim_right_loop i s f ++ suf /\ Forall (fun c => f c = true) suf /\
    match rev (trim_right_loop i s f) with [] => True | c :: _ => f c = false end.
Proof.
  intros f s i. revert s. induction i as [|i IH]; intros s H.
  - destruct s; [|discriminate]. exists []. cbn. auto.
  - cbn. destruct (nth_error s i) as [c|] eqn:E.
    2: { apply nth_error_None in E. lia. }
    apply nth_error_split in E. destruct E as (a & b & -> & La).
    rewrite app_length in H. cbn in H. destruct b; [|cbn in H; lia].
    replace (firstn i (a ++ [c])) with a.
    2: { rewrite firstn_app, <- La, firstn_all, Nat.sub_diag. cbn. rewrite app_nil_r. reflexivity. }
    destruct (f c) eqn:Fc.
    + destruct (IH a (eq_sym La)) as (suf & H1 & H2 & H3). exists (suf ++ [c]).
      split; [rewrite app_assoc, <- H1; reflexivity|]. split; [|exact H3].
      apply Forall_app. auto.
    + exists []. rewrite app_nil_r. split; [reflexivity|]. split; [constructor|].
      rewrite rev_app_distr. cbn. exact Fc.
Qed.

Lemma fold_max : forall ns h, let r := fold_left (fun h n => if h <? n then n else h) ns h in
  (r = h \/ In r ns) /\ h <= r /\ forall y, In y ns -> y <= r.
Proof.
  induction ns as [|n ns IH]; intros h; cbn; [split; [auto|split; [lia|intros y []]]|].
  destruct (h <? n) eqn:E; destruct (IH (if h <? n then n else h)) as (A & B & C); rewrite E in *.
  - split; [destruct A as [A|A]; auto|]. split; [lia|]. intros y [<-|Hy]; [exact B|auto].
  - split; [destruct A as [A|A]; auto|]. split; [lia|]. intros y [<-|Hy]; [lia|auto].
Qed.
Lemma fold_min : forall ns h, let r := fold_left (fun l n => if n <? l then n else l) ns h in
  (r = h \/ In r ns) /\ r <= h /\ forall y, In y ns -> r <= y.
Proof.
  induction ns as [|n ns IH]; intros h; cbn; [split; [auto|split; [lia|intros y []]]|].
  destruct (n <? h) eqn:E; destruct (IH (if n <? h then n else h)) as (A & B & C); rewrite E in *.
  - split; [destruct A as [A|A]; auto|]. split; [lia|]. intros y [<-|Hy]; [exact B|auto].
  - split; [destruct A as [A|A]; auto|]. split; [lia|]. intros y [<-|Hy]; [lia|auto].
Qed.

Lemma highest_spec : forall ns, ns <> [] -> Forall (fun n => min_int <= n <= max_int) ns ->
  greatest (highest_int ns) ns.
Proof.
  intros ns Hn Hr. unfold highest_int. destruct (len ns =? 0) eqn:E; [apply len_zero in E; congruence|].
  destruct (fold_max ns min_int) as (A & B & C). split; [|exact C].
  destruct A as [A|A]; [|exact A]. destruct ns as [|n ns]; [congruence|].
  inversion Hr; subst. left. specialize (C n (or_introl eq_refl)). lia.
Qed.
Lemma lowest_spec : forall ns, ns <> [] -> Forall (fun n => min_int <= n <= max_int) ns ->
  least (lowest_int ns) ns.
Proof.
  intros ns Hn Hr. unfold lowest_int. destruct (len ns =? 0) eqn:E; [apply len_zero in E; congruence|].
  destruct (fold_min ns max_int) as (A & B & C). split; [|exact C].
  destruct A as [A|A]; [|exact A]. destruct ns as [|n ns]; [congruence|].
  inversion Hr; subst. left. specialize (C n (or_introl eq_refl)). lia.
Qed.

(** ** ColumnSizes *)
(** The widths in column [c]: the header's and those of the cells. *)
Definition cells (rs : list (list (list rune))) (c : nat) : list Z :=
  flat_map (fun row => match nth_error row c with Some x => [len x] | None => [] end) rs.

Definition good (headers : list Z) (rs : list (list (list rune))) (sizes : list Z) : Prop :=
  (forall c v, nth_error sizes c = Some v ->
     exists h, nth_error headers c = Some h /\ greatest v (h :: cells rs c)) /\
  (forall c, nth_error sizes c = None <-> forall row, In row rs -> nth_error row c = None).

Lemma cells_snoc : forall rs pre x c, cells (rs ++ [pre ++ [x]]) c =
  cells (rs ++ [pre]) c ++ (if Nat.eqb c (length pre) then [len x] else []).
Proof.
  intros. unfold cells. rewrite !flat_map_app. cbn [flat_map]. rewrite !app_nil_r, <- app_assoc. f_equal.
  destruct (Nat.eqb c (length pre)) eqn:E.
  - apply Nat.eqb_eq in E. subst c. rewrite nth_error_app2, Nat.sub_diag by lia. cbn.
    replace (nth_error pre (length pre)) with (@None (list rune)); [reflexivity|].
    symmetry. apply nth_error_None. lia.
  - apply Nat.eqb_neq in E. rewrite app_nil_r.
    destruct (Nat.lt_ge_cases c (length pre)).
    + rewrite nth_error_app1 by assumption. reflexivity.
    + replace (nth_error (pre ++ [x]) c) with (@None (list rune)).
      2: { symmetry. apply nth_error_None. rewrite app_length. cbn. lia. }
      replace (nth_error pre c) with (@None (list rune)); [reflexivity|].
      symmetry. apply nth_error_None. lia.
Qed.

Lemma nth_update : forall A (l : list A) i x c, (i < length l)%nat ->
  nth_error (list_update l i x) c = if Nat.eqb c i then Some x else nth_error l c.
Proof.
  induction l as [|y l IH]; intros i x c H; [cbn in H; lia|]. destruct i as [|i].
  - destruct c; reflexivity.
  - destruct c; [reflexivity|]. cbn. apply IH. cbn in H. lia.
Qed.

Lemma greatest_snoc : forall v w h l, greatest v (h :: l) ->
  greatest (if v <? w then w else v) (h :: l ++ [w]).
Proof.
  intros v w h l (H1 & H2). destruct (v <? w) eqn:E.
  - split; [right; apply in_app_iff; right; left; reflexivity|].
    intros y [<-|Hy]; [specialize (H2 h (or_introl eq_refl)); lia|].
    apply in_app_iff in Hy. destruct Hy as [Hy|[<-|[]]]; [specialize (H2 y (or_intror Hy)); lia|lia].
  - split; [destruct H1 as [<-|H1]; [left; reflexivity|right; apply in_app_iff; auto]|].
    intros y [<-|Hy]; [apply H2; left; reflexivity|].
    apply in_app_iff in Hy. destruct Hy as [Hy|[<-|[]]]; [apply H2; right; exact Hy|lia].
Qed.

Lemma greatest_in_head : forall h v l, greatest v (h :: l) -> h <= v.
Proof. intros h v l (_ & H). apply H. left. reflexivity. Qed.

Lemma row_good : forall headers cols rs pre sizes,
  good headers (rs ++ [pre]) sizes -> (length (pre ++ cols) <= length headers)%nat ->
  exists sizes', column_sizes_row cols (length pre) headers sizes = Ok sizes' /\
    good headers (rs ++ [pre ++ cols]) sizes'.
Proof.
  intros headers. induction cols as [|x cols IH]; intros rs pre sizes G L.
  - exists sizes. rewrite app_nil_r. split; [reflexivity|exact G].
  - cbn [column_sizes_row]. rewrite app_length in L. cbn [length] in L.
    assert (HL : (Z.of_nat (length pre) <=? len headers) = true) by (unfold len; lia).
    rewrite HL. destruct (nth_error headers (length pre)) as [h|] eqn:Eh.
    2: { apply nth_error_None in Eh. lia. }
    cbn [bind].
    set (w := if len x <? h then h else len x).
    assert (Pl : length (pre ++ [x]) = S (length pre)) by (rewrite app_length; cbn; lia).
    set (sizes1 := if len sizes <=? Z.of_nat (length pre) then sizes ++ [w]
        else match nth_error sizes (length pre) with
             | Some s => if s <? w then list_update sizes (length pre) w else sizes
             | None => sizes end).
    assert (G1 : good headers (rs ++ [pre ++ [x]]) sizes1).
    { destruct G as (G1 & G2).
      assert (Lp : (length pre <= length sizes)%nat).
      { destruct (Nat.le_gt_cases (length pre) (length sizes)) as [Q|Q]; [exact Q|].
        assert (N : nth_error sizes (length sizes) = None) by (apply nth_error_None; lia).
        rewrite G2 in N. specialize (N pre). rewrite nth_error_None in N.
        assert (length pre <= length sizes)%nat by (apply N; apply in_app_iff; right; left; reflexivity). lia. }
      unfold sizes1. destruct (len sizes <=? Z.of_nat (length pre)) eqn:E1.
      - assert (Ls : length sizes = length pre) by (unfold len in E1; lia).
        assert (Cn : cells (rs ++ [pre]) (length pre) = []).
        { assert (N : nth_error sizes (length pre) = None) by (apply nth_error_None; lia).
          rewrite G2 in N. unfold cells. clear - N. induction (rs ++ [pre]) as [|r l IHl]; [reflexivity|].
          cbn. rewrite (N r (or_introl eq_refl)). apply IHl. intros row Hr. apply N. right. exact Hr. }
        split.
        + intros c v Hv. destruct (Nat.lt_ge_cases c (length sizes)) as [Q|Q].
          * rewrite nth_error_app1 in Hv by exact Q. rewrite cells_snoc.
            replace (Nat.eqb c (length pre)) with false by (symmetry; apply Nat.eqb_neq; lia).
            rewrite app_nil_r. apply G1. exact Hv.
          * rewrite nth_error_app2 in Hv by exact Q. destruct (c - length sizes)%nat as [|n] eqn:En.
            2: { cbn in Hv. destruct n; discriminate. }
            injection Hv as <-. assert (c = length pre) by lia. subst c.
            exists h. split; [exact Eh|]. rewrite cells_snoc, Nat.eqb_refl, Cn. cbn [app].
            unfold w. destruct (len x <? h) eqn:E2; split; cbn; auto; intros y [<-|[<-|[]]]; lia.
        + intros c. rewrite nth_error_None, app_length. cbn [length]. split.
          * intros H row Hr. apply in_app_iff in Hr. destruct Hr as [Hr|[<-|[]]].
            -- assert (N : nth_error sizes c = None) by (apply nth_error_None; lia).
               rewrite G2 in N. apply N. apply in_app_iff. auto.
            -- apply nth_error_None. lia.
          * intros H. assert (Q := H (pre ++ [x])). rewrite nth_error_None in Q.
            assert (length (pre ++ [x]) <= c)%nat by (apply Q; apply in_app_iff; right; left; reflexivity). lia.
      - assert (Ls : (length pre < length sizes)%nat) by (unfold len in E1; lia).
        destruct (nth_error sizes (length pre)) as [s|] eqn:Es.
        2: { apply nth_error_None in Es. lia. }
        assert (F : forall c, nth_error (if s <? w then list_update sizes (length pre) w else sizes) c =
                    if Nat.eqb c (length pre) then Some (if s <? w then w else s) else nth_error sizes c).
        { intros c. destruct (s <? w); [apply nth_update; exact Ls|].
          destruct (Nat.eqb c (length pre)) eqn:E; [|reflexivity]. apply Nat.eqb_eq in E. subst c. exact Es. }
        split.
        + intros c v Hv. rewrite F in Hv. rewrite cells_snoc. destruct (Nat.eqb c (length pre)) eqn:E.
          * apply Nat.eqb_eq in E. subst c. injection Hv as <-.
            destruct (G1 _ _ Es) as (h' & Eh' & Gr). rewrite Eh in Eh'. injection Eh' as <-.
            exists h. split; [exact Eh|]. pose proof (greatest_in_head _ _ _ Gr) as Hh.
            replace (if s <? w then w else s) with (if s <? len x then len x else s).
            2: { unfold w. destruct (len x <? h) eqn:E3; destruct (s <? len x) eqn:E4; try lia.
                 - destruct (s <? h) eqn:E5; lia. }
            apply greatest_snoc. exact Gr.
          * rewrite app_nil_r. apply G1. exact Hv.
        + intros c. rewrite F. destruct (Nat.eqb c (length pre)) eqn:E.
          * apply Nat.eqb_eq in E. subst c. split; [discriminate|]. intros H.
            assert (Q := H (pre ++ [x])). rewrite nth_error_None in Q.
            assert (length (pre ++ [x]) <= length pre)%nat by (apply Q; apply in_app_iff; right; left; reflexivity). lia.
          * apply Nat.eqb_neq in E. rewrite G2. split; intros H row Hr; apply in_app_iff in Hr;
              destruct Hr as [Hr|[<-|[]]]; try (apply H; apply in_app_iff; left; assumption).
            -- assert (N : nth_error pre c = None) by (apply H; apply in_app_iff; right; left; reflexivity).
               apply nth_error_None. rewrite nth_error_None in N. lia.
            -- assert (N : nth_error (pre ++ [x]) c = None) by (apply H; apply in_app_iff; right; left; reflexivity).
               apply nth_error_None. rewrite nth_error_None in N. lia. }
    destruct (IH rs (pre ++ [x]) sizes1 G1) as (sizes' & H1 & H2).
    { rewrite app_length, Pl. lia. }
    exists sizes'. rewrite Pl in H1. split; [exact H1|].
    rewrite <- app_assoc in H2. exact H2.
Qed.

Lemma good_add_nil : forall headers rs sizes, good headers rs sizes -> good headers (rs ++ [[]]) sizes.
Proof.
  intros headers rs sizes (G1 & G2). split.
  - intros c v Hv. destruct (G1 c v Hv) as (h & E & G). exists h. split; [exact E|].
    unfold cells. rewrite flat_map_app. cbn [flat_map]. replace (nth_error (@nil (list rune)) c) with (@None (list rune)) by (destruct c; reflexivity).
    cbn. rewrite app_nil_r. exact G.
  - intros c. rewrite G2. split; intros H row Hr.
    + apply in_app_iff in Hr. destruct Hr as [Hr|[<-|[]]]; [auto|destruct c; reflexivity].
    + apply H. apply in_app_iff. auto.
Qed.

Lemma loop_good : forall headers rs done sizes,
  good headers done sizes -> Forall (fun row => (length row <= length headers)%nat) rs ->
  exists sizes', column_sizes_loop rs headers sizes = Ok sizes' /\ good headers (done ++ rs) sizes'.
Proof.
  intros headers. induction rs as [|row rs IH]; intros done sizes G F.
  - exists sizes. rewrite app_nil_r. split; [reflexivity|exact G].
  - inversion F; subst. cbn [column_sizes_loop].
    destruct (row_good headers row done [] sizes (good_add_nil _ _ _ G)) as (s1 & E1 & G1); [assumption|].
    cbn [length app] in E1, G1. rewrite E1. cbn [bind].
    destruct (IH (done ++ [row]) s1 G1) as (s2 & E2 & G2); [assumption|].
    exists s2. split; [exact E2|]. rewrite <- app_assoc in G2. exact G2.
Qed.

Lemma row_panic : forall headers cols col sizes,
  (col <= length headers)%nat -> (length headers < col + length cols)%nat ->
  column_sizes_row cols col headers sizes = Panic.
Proof.
  intros headers. induction cols as [|x cols IH]; intros col sizes H1 H2; [cbn in H2; lia|].
  cbn [column_sizes_row]. replace (Z.of_nat col <=? len headers) with true by (unfold len; lia).
  destruct (nth_error headers col) as [h|] eqn:E; [|reflexivity].
  cbn [bind]. apply IH; [|cbn in H2; lia].
  assert (col < length headers)%nat by (apply nth_error_Some; congruence). lia.
Qed.

Lemma column_sizes_spec : forall rs headers,
  (Forall (fun row => (length row <= length headers)%nat) rs ->
     exists sizes, column_sizes rs headers = Ok sizes /\ good headers rs sizes) /\
  (~ Forall (fun row => (length row <= length headers)%nat) rs -> column_sizes rs headers = Panic).
Proof.
  intros rs headers. assert (G0 : good headers [] []).
  { split; [intros c v H; destruct c; discriminate|]. intros c. split; [intros _ row []|]. destruct c; reflexivity. }
  split.
  - intros F. apply (loop_good headers rs [] [] G0 F).
  - intros N. unfold column_sizes.
    assert (Q : forall rs done sizes, good headers done sizes ->
      ~ Forall (fun row => (length row <= length headers)%nat) rs ->
      column_sizes_loop rs headers sizes = Panic).
    { clear. induction rs as [|row rs IH]; intros done sizes G N.
      - exfalso. apply N. constructor.
      - cbn [column_sizes_loop]. destruct (Nat.le_gt_cases (length row) (length headers)) as [L|L].
        + destruct (row_good headers row done [] sizes (good_add_nil _ _ _ G)) as (s1 & E1 & G1); [assumption|].
          cbn [length app] in E1, G1. rewrite E1. cbn [bind]. apply (IH (done ++ [row]) s1 G1).
          intros F. apply N. constructor; assumption.
        + rewrite row_panic by (cbn; lia). reflexivity. }
    apply (Q rs [] [] G0 N).
Qed.

(** ** Statements for Props_Functions *)
Lemma c27_lemma : forall lb gs columns s out, s <> [] ->
  groups lb (Some s) gs columns = Ok out ->
  exists lines : list (list (list rune)),
    out = join lb (map (join [32]) lines) /\ concat (concat lines) = s /\
    (forall l, In l lines -> l <> []) /\
    (exists gl g, concat lines = gl ++ [g] /\ (forall x, In x gl -> len x = gs) /\ 1 <= len g <= gs) /\
    (0 < columns -> forall l, In l lines -> len (join [32] l) <= Z.max gs (columns - 1)) /\
    (columns <= 0 -> len lines = 1) /\
    (forall a l n b, lines = a ++ l :: n :: b -> columns <= len (join [32] l) + 1 + gs).
Proof.
  intros lb gs columns s out Hs H. destruct (groups_shape _ _ _ _ _ Hs H) as (Hg & full & last & g & S1 & S2 & S3 & S4 & S5 & S6).
  exists (full ++ [last ++ [g]]). split; [exact S1|]. split; [symmetry; exact S2|].
  split. { intros l Hl. apply in_app_iff in Hl. destruct Hl as [Hl|[<-|[]]]; [apply (S3 l Hl)|destruct last; discriminate]. }
  split. { exists (concat full ++ last), g. rewrite concat_app. cbn [concat]. rewrite app_nil_r, app_assoc.
    split; [reflexivity|]. split; [|exact S5]. intros x Hx. apply in_app_iff in Hx. destruct Hx as [Hx|Hx]; [|auto].
    apply in_concat in Hx. destruct Hx as (l & Hl & Hx). destruct (S3 l Hl) as ((_ & Q & _) & _). auto. }
  split. { intros Hc l Hl. apply in_app_iff in Hl. destruct Hl as [Hl|[<-|[]]]; [|auto].
    destruct (S3 l Hl) as ((_ & _ & Q) & _). auto. }
  split. { intros Hc. destruct full as [|l f]; [reflexivity|]. destruct (S3 l (or_introl eq_refl)) as (_ & Q & _). lia. }
  intros a l n b E. assert (Hl : In l full).
  { assert (E2 : exists b', n :: b = b' ++ [last ++ [g]]).
    { destruct (exists_last (l := n :: b)) as (b' & z & Eb); [discriminate|]. rewrite Eb in E.
      change (a ++ l :: b' ++ [z]) with (a ++ (l :: b') ++ [z]) in E. rewrite app_assoc in E.
      apply app_inj_tail in E. destruct E as (_ & <-). eauto. }
    destruct E2 as (b' & E2). rewrite E2 in E. change (a ++ l :: b' ++ [last ++ [g]]) with (a ++ (l :: b') ++ [last ++ [g]]) in E.
    rewrite app_assoc in E. apply app_inj_tail in E. destruct E as (-> & _). apply in_app_iff. right. left. reflexivity. }
  destruct (S3 l Hl) as (_ & Q & Q2). exact Q2.
Qed.

Lemma c27_total : forall lb s gs columns,
  (0 < gs -> exists out, groups lb (Some s) gs columns = Ok out /\ (s = [] -> out = [])) /\
  (gs <= 0 -> exists e, groups lb (Some s) gs columns = Err e).
Proof.
  intros. unfold groups. split; intros H.
  - replace (gs <=? 0) with false by lia. eexists. split; [reflexivity|]. intros ->. reflexivity.
  - replace (gs <=? 0) with true by lia. eauto.
Qed.

Lemma c28_wellformed_lemma : forall U l v, uni_ok U -> uni_upper_idem U -> uni_space_upper U ->
  In v (vetted_keepers U l) ->
  v <> [] /\ Forall (fun c => c <> 44 /\ c <> 32) v /\ map (to_upper U) v = v /\
  (forall c s, v = c :: s -> is_space U c = false) /\ (forall c s, v = s ++ [c] -> is_space U c = false).
Proof.
  intros U l v HU HI HS H. destruct (vetted_all_ok U HI HS HU l v H) as (H1 & H2 & H3 & H4).
  split; [exact H1|]. split; [exact H2|]. split; [exact H3|]. split; intros c s E; subst v.
  - destruct (is_space U c) eqn:Q; [|reflexivity]. exfalso. apply H4. left. exact Q.
  - destruct (is_space U c) eqn:Q; [|reflexivity]. exfalso. apply H4. right. rewrite rev_app_distr. exact Q.
Qed.

Lemma c28_laws_lemma : forall U,
  (forall a b, vetted_keepers U (a ++ b) = vetted_keepers U a ++ vetted_keepers U b) /\
  (forall s c t, c = 44 \/ c = 32 ->
     vetted_keepers U [s ++ [c] ++ t] = vetted_keepers U [s] ++ vetted_keepers U [t]) /\
  (forall w, Forall (fun c => is_space U c = true) w -> vetted_keepers U [w] = []) /\
  (forall w1 s w2, Forall (fun c => is_space U c = true) (w1 ++ w2) ->
     Forall (fun c => c <> 44 /\ c <> 32) (w1 ++ s ++ w2) -> s <> [] ->
     (forall c r, s = c :: r -> is_space U c = false) -> (forall c r, s = r ++ [c] -> is_space U c = false) ->
     vetted_keepers U [w1 ++ s ++ w2] = [map (to_upper U) s]).
Proof.
  intros U. split; [apply vetted_app|]. split; [intros; apply vetted_sep; assumption|].
  assert (W : forall w1 s w2, Forall (fun c => is_space U c = true) (w1 ++ w2) ->
     Forall (fun c => c <> 44 /\ c <> 32) (w1 ++ s ++ w2) -> s <> [] ->
     (forall c r, s = c :: r -> is_space U c = false) -> (forall c r, s = r ++ [c] -> is_space U c = false) ->
     vetted_keepers U [w1 ++ s ++ w2] = [map (to_upper U) s]).
  { intros w1 s w2 Hw Hn Hs H1 H2. apply Forall_app in Hw. destruct Hw as (Hw1 & Hw2).
    rewrite (vetted_word U); auto.
    - destruct s; [congruence|reflexivity].
    - intros [Q|Q].
      + destruct s as [|c r]; [congruence|]. rewrite (H1 c r eq_refl) in Q. discriminate.
      + destruct (rev s) as [|c r] eqn:E; [exact Q|]. rewrite (H2 c (rev r)) in Q; [discriminate|].
        rewrite <- (rev_involutive s), E. reflexivity. }
  split; [|exact W].
  intros w Hw. assert (P : exists n, (length w <= n)%nat) by eauto. destruct P as (n & Hn).
  revert w Hw Hn. induction n as [|n IH]; intros w Hw Hn.
  { destruct w; [reflexivity|cbn in Hn; lia]. }
  destruct (existsb (fun c => (c =? 44) || (c =? 32)) w) eqn:E.
  - apply existsb_exists in E. destruct E as (c & Hc & Ec). apply in_split in Hc. destruct Hc as (a & b & ->).
    rewrite vetted_sep by lia. apply Forall_app in Hw. destruct Hw as (Ha & Hb). inversion Hb; subst.
    rewrite app_length in Hn. cbn in Hn. rewrite !IH by (assumption || lia). reflexivity.
  - assert (Hsep : nosep w).
    { apply Forall_forall. intros c Hc. assert (~ ((c =? 44) || (c =? 32)) = true).
      { intros Q. assert (existsb (fun c => (c =? 44) || (c =? 32)) w = true) by (apply existsb_exists; eauto). congruence. }
      lia. }
    pose proof (vetted_word U w [] []) as V. cbn [app] in V. rewrite app_nil_r in V.
    apply V; auto. unfold space_at_ends. cbn. tauto.
Qed.

Lemma c28_idem_lemma : forall U l, uni_ok U -> uni_upper_idem U -> uni_space_upper U ->
  vetted_keepers U [join [44] (vetted_keepers U l)] = vetted_keepers U l /\
  vetted_keepers U (vetted_keepers U l) = vetted_keepers U l.
Proof.
  intros U l HU HI HS.
  assert (F : Forall (vetted_ok U) (vetted_keepers U l)).
  { apply Forall_forall. intros v Hv. apply (vetted_all_ok U HI HS HU l v Hv). }
  split; [apply vetted_join|apply vetted_list]; exact F.
Qed.

Lemma c29_all_lemma : forall U ns hs ci, all_needles U ns hs ci = true <->
  exists n h, ns = Some n /\ hs = Some h /\ n <> [] /\ h <> [] /\
    forall x, In x n -> exists y, In y h /\
      (if ci then map (to_upper U) y = map (to_upper U) x else y = x).
Proof.
  intros. rewrite all_needles_spec. split; intros (n & h & A & B & C & D & E); exists n, h; repeat (split; [assumption|]);
    intros x Hx; destruct (E x Hx) as (y & Hy & Q); exists y; split; try exact Hy; destruct ci; auto.
  - apply equal_fold_spec in Q. cbn in Q. congruence.
  - apply equal_fold_spec. cbn. congruence.
Qed.

Lemma c30_fold_lemma : forall U,
  (forall a, equal_runes_fold U a a = true) /\
  (forall a b, equal_runes_fold U a b = equal_runes_fold U b a) /\
  (forall a b c, equal_runes_fold U a b = true -> equal_runes_fold U b c = true -> equal_runes_fold U a c = true) /\
  (forall a b, equal_runes a b = true -> equal_runes_fold U a b = true) /\
  (forall x y, Forall (fun c => 0 <= c <= 255) x -> Forall (fun c => 0 <= c <= 255) y ->
     equal_runes_fold U (Some x) (Some y) = true <-> Forall2 same_letter x y) /\
  (forall s, equal_runes_fold U None (Some s) = false).
Proof.
  intros U. split; [intros; apply equal_fold_spec; reflexivity|]. split.
  { intros a b. apply eq_true_iff_eq. rewrite !equal_fold_spec. split; congruence. }
  split. { intros a b c. rewrite !equal_fold_spec. congruence. }
  split. { intros a b H. apply equal_runes_spec in H. subst. apply equal_fold_spec. reflexivity. }
  split; [apply fold_same_letter|reflexivity].
Qed.

Lemma c52_trim_lemma : forall s f, exists suf, s = trim_right_rune_func s f ++ suf /\
  Forall (fun c => f c = true) suf /\
  (forall a c, trim_right_rune_func s f = a ++ [c] -> f c = false).
Proof.
  intros s f. destruct (trim_right_loop_spec f s (length s) eq_refl) as (suf & H1 & H2 & H3).
  exists suf. split; [exact H1|]. split; [exact H2|]. intros a c E. unfold trim_right_rune_func in E.
  rewrite E, rev_app_distr in H3. exact H3.
Qed.

Lemma c52_padding_lemma : forall s n, exists k, with_padding s n = s ++ repeat 32 k /\
  len (with_padding s n) = Z.max (len s) n.
Proof.
  intros s n. exists (Z.to_nat (n - len s)). split; [reflexivity|].
  unfold with_padding, padding. rewrite len_app. unfold len at 2. rewrite repeat_length. unfold len. lia.
Qed.
