(** Lemmas about SummaryOfKeys and DeleteKeysBySummaryString. *)
From Verif Require Import Base Spec Model_Unicode Model_Crand Model_Functions Model_Types Model_Keys
  Proofs_Functions Proofs_Keys Proofs_KeyOps.

Lemma go_string_len : forall s, len (go_string s) = len s.
Proof. intros. unfold go_string, len. rewrite map_length. reflexivity. Qed.

Lemma str_join_eq : forall l sep, str_join l sep = join sep l.
Proof. induction l as [|x [|y l] IH]; intros sep; [reflexivity|reflexivity|]. cbn [str_join join]. f_equal. f_equal. apply IH. Qed.

Lemma str_join_len : forall x l, len (str_join (x :: l) [44]) + 1 = len x + 1 + fold_right (fun x a => len x + 1 + a) 0 l.
Proof.
  intros x l. revert x. induction l as [|y l IH]; intros x; [cbn [str_join fold_right]; lia|].
  change (str_join (x :: y :: l) [44]) with (x ++ [44] ++ str_join (y :: l) [44]).
  rewrite !len_app. change (len [44]) with 1. specialize (IH y). cbn [fold_right]. lia.
Qed.

Lemma fold_sum : forall l a, fold_left (fun a (x : list rune) => a + (len x + 1)) l a = a + fold_right (fun x a => len x + 1 + a) 0 l.
Proof. induction l as [|x l IH]; intros a; cbn [fold_left fold_right]; [lia|]. rewrite IH. lia. Qed.

Definition keeper_text (k : key) : list rune :=
  if 0 <? len (kkeepers k) then join_runes (kkeepers k) [44] else w_anonymous.


Lemma sum_go_string : forall l, fold_right (fun x a => len x + 1 + a) 0 (map go_string l) =
  fold_right (fun (x : list rune) a => len x + 1 + a) 0 l.
Proof. induction l as [|x l IH]; [reflexivity|]. cbn [map fold_right]. rewrite go_string_len, IH. reflexivity. Qed.

Lemma predict_step_spec : forall c k, 0 <= fst c -> 0 <= snd c ->
  fst c <= fst (predict_step c k) /\ snd c <= snd (predict_step c k) /\
  len (keeper_text k) <= fst (predict_step c k) /\ len (kcomment k) <= snd (predict_step c k).
Proof.
  intros (c1 & c6) k H1 H6. unfold predict_step. cbv zeta. cbn [fst snd] in *. pose proof (len_nonneg _ (kcomment k)).
  assert (Z6 : snd (0, if c6 <? len (kcomment k) then len (kcomment k) else c6) =
               if c6 <? len (kcomment k) then len (kcomment k) else c6) by reflexivity.
  unfold keeper_text. destruct (kkeepers k) as [|x l] eqn:E.
  - change (len (@nil (list rune)) =? 0) with true. change (0 <? len (@nil (list rune))) with false. cbv iota.
    change (len w_anonymous) with 9. destruct (c1 <? 9) eqn:A; destruct (c6 <? len (kcomment k)) eqn:B; lia.
  - assert (L : len (x :: l) <> 0) by (rewrite len_cons; pose proof (len_nonneg _ l); lia).
    pose proof (len_nonneg _ (x :: l)).
    replace (len (x :: l) =? 0) with false by lia. replace (0 <? len (x :: l)) with true by lia.
    unfold join_runes, runes_to_strings. cbn [map].
    pose proof (str_join_len (go_string x) (map go_string l)) as J.
    rewrite go_string_len, sum_go_string in J.
    pose proof (fold_sum (x :: l) 0) as F. cbn [fold_right] in F.
    set (kl := fold_left _ (x :: l) 0) in *.
    pose proof (len_nonneg _ (str_join (go_string x :: map go_string l) [44])).
    destruct ((0 <? kl) && (c1 <? kl)) eqn:A; destruct (c6 <? len (kcomment k)) eqn:B; lia.
Qed.

Lemma predict_fold : forall ks c, 0 <= fst c -> 0 <= snd c ->
  let r := fold_left predict_step ks c in
  fst c <= fst r /\ snd c <= snd r /\
  forall k, In k ks -> len (keeper_text k) <= fst r /\ len (kcomment k) <= snd r.
Proof.
  induction ks as [|k ks IH]; intros c H1 H2; cbv zeta; cbn [fold_left].
  - split; [lia|]. split; [lia|]. intros ? [].
  - destruct (predict_step_spec c k H1 H2) as (A & B & C & D).
    destruct (IH (predict_step c k) ltac:(lia) ltac:(lia)) as (I1 & I2 & I3). cbv zeta in *.
    split; [lia|]. split; [lia|]. intros k' [<-|Hk]; [lia|apply I3; exact Hk].
Qed.

Lemma padded_column : forall s w ws ss line, len s < w -> columns ws ss line ->
  columns (w :: ws) (s :: ss) (with_padding s w ++ line).
Proof.
  intros s w ws ss line H H2. unfold with_padding, padding. rewrite <- app_assoc.
  constructor; [exact H|lia|exact H2].
Qed.

Lemma sizes_eq : forall gs k ks, predict_column_sizes gs (k :: ks) =
  [gs; fst (fold_left predict_step (k :: ks) (7, 0)); 12; 12; 4; 11; snd (fold_left predict_step (k :: ks) (7, 0))].
Proof. reflexivity. Qed.

Definition key_fields (dtg : Z -> list rune) (k : key) : list (list rune) :=
  [kid k; keeper_text k; dtg (kcreated k); dtg (kexpires k);
   if kused k then w_yes else w_no; if kcompromised k then w_yes else w_no; kcomment k].

Lemma summary_line_columns : forall dtg gs w1 w6 k, len (kid k) <= gs ->
  (forall x, len (dtg x) = 12) -> len (keeper_text k) <= w1 -> len (kcomment k) <= w6 ->
  columns (map (fun w => w + 1) [gs; w1; 12; 12; 4; 11; w6]) (key_fields dtg k)
    (summary_line dtg [gs; w1; 12; 12; 4; 11; w6] k).
Proof.
  intros dtg gs w1 w6 k H1 H2 H3 H4. unfold summary_line, key_fields. cbv zeta. cbn [nth map].
  change (if 0 <? len (kkeepers k) then join_runes (kkeepers k) [44] else w_anonymous) with (keeper_text k).
  rewrite <- (app_nil_r (with_padding (kcomment k) (w6 + 1))).
  apply padded_column; [lia|]. apply padded_column; [lia|].
  apply padded_column; [rewrite H2; lia|]. apply padded_column; [rewrite H2; lia|].
  apply padded_column; [destruct (kused k); reflexivity|].
  apply padded_column; [destruct (kcompromised k); reflexivity|].
  apply padded_column; [lia|]. constructor.
Qed.

Lemma keeper_text_spec : forall k, keeper_text k =
  match kkeepers k with [] => w_anonymous | _ => join [44] (map go_string (kkeepers k)) end.
Proof.
  intros k. unfold keeper_text, join_runes, runes_to_strings. rewrite str_join_eq.
  destruct (kkeepers k) as [|x l]; [reflexivity|]. rewrite len_cons. pose proof (len_nonneg _ l).
  replace (0 <? 1 + len l) with true by lia. reflexivity.
Qed.

Lemma c50_columns_lemma : forall dtg gs f ks header lines,
  (forall k, In k ks -> len (kid k) = gs) -> (forall x, len (dtg x) = 12) ->
  summary_of_keys dtg gs f ks = (header, lines) ->
  exists w1 w6,
    Forall2 (fun k line => columns [gs + 1; w1; 13; 13; 5; 12; w6] (key_fields dtg k) line) (filter f ks) lines /\
    (2 <= gs -> filter f ks <> [] -> exists h, header = h ++ nth 6 key_headers [] /\
       columns [gs + 1; w1; 13; 13; 5; 12] (firstn 6 key_headers) h).
Proof.
  intros dtg gs f ks header lines H1 H2 H. unfold summary_of_keys in H. cbv zeta in H. injection H as <- <-.
  assert (G : forall k, In k (filter f ks) -> len (kid k) = gs) by (intros k Hk; apply filter_In in Hk; apply H1, Hk).
  destruct (filter f ks) as [|k kp]; [exists 0, 0; split; [constructor|intros _ X; congruence]|].
  rewrite sizes_eq. destruct (predict_fold (k :: kp) (7, 0) ltac:(cbn; lia) ltac:(cbn; lia)) as (A & B & C).
  cbv zeta in A, B, C. cbn [fst snd] in A, B.
  set (r := fold_left predict_step (k :: kp) (7, 0)) in *.
  exists (fst r + 1), (snd r + 1). split.
  - assert (L : forall l, incl l (k :: kp) ->
      Forall2 (fun k line => columns [gs + 1; fst r + 1; 13; 13; 5; 12; snd r + 1] (key_fields dtg k) line) l
        (map (summary_line dtg [gs; fst r; 12; 12; 4; 11; snd r]) l)).
    { induction l as [|x l IH]; intros Hl; [constructor|]. cbn [map]. constructor.
      - apply summary_line_columns; [rewrite (G x (Hl x (or_introl eq_refl))); lia|exact H2| |];
          apply (C x (Hl x (or_introl eq_refl))).
      - apply IH. intros y Hy. apply Hl. right. exact Hy. }
    apply L. apply incl_refl.
  - intros Hg _. unfold key_headers. cbn [nth firstn summary_header].
    exists ([73; 68] ++ repeat 32 (Z.to_nat (gs - len [73; 68] + 1)) ++
            [75; 69; 69; 80; 69; 82; 83] ++ repeat 32 (Z.to_nat (fst r - len [75; 69; 69; 80; 69; 82; 83] + 1)) ++
            [67; 82; 69; 65; 84; 69; 68] ++ repeat 32 6 ++ [69; 88; 80; 73; 82; 69; 83] ++ repeat 32 6 ++
            [85; 83; 69; 68] ++ repeat 32 1 ++ [67; 79; 77; 80; 82; 79; 77; 73; 83; 69; 68] ++ repeat 32 1 ++ []).
    split.
    + rewrite <- !app_assoc. reflexivity.
    + change (len [73; 68]) with 2. change (len [75; 69; 69; 80; 69; 82; 83]) with 7.
      apply columns_cons; [change (len [73; 68]) with 2; lia|change (len [73; 68]) with 2; lia|].
      apply columns_cons; [change (len [75; 69; 69; 80; 69; 82; 83]) with 7; lia|change (len [75; 69; 69; 80; 69; 82; 83]) with 7; lia|].
      apply columns_cons; [reflexivity|reflexivity|]. apply columns_cons; [reflexivity|reflexivity|].
      apply columns_cons; [reflexivity|reflexivity|]. apply columns_cons; [reflexivity|reflexivity|]. constructor.
Qed.

Section WithUnicode.
Context (U : Uni).
Notation up := (to_upper U).

Lemma map_upper_letters : forall s, letters s -> map up s = s.
Proof.
  induction s as [|c s IH]; intros H; [reflexivity|]. inversion H; subst. cbn [map].
  rewrite letter_upper, IH by assumption. reflexivity.
Qed.

Lemma store_distinct : forall gs ks, store_ok gs ks -> distinct_ids up ks.
Proof.
  intros gs ks (H1 & H2). unfold distinct_ids, distinct_texts. rewrite map_map.
  assert (E : map (fun k => map up (kid k)) ks = map kid ks).
  { apply map_ext_in. intros k Hk. apply map_upper_letters. apply (H2 k Hk). }
  rewrite E. exact H1.
Qed.

Lemma letters_vetted : forall s, letters s -> s <> [] -> vetted_keepers U [s] = [s].
Proof.
  intros s H Hne. apply vetted_fix. unfold vetted_ok. split; [exact Hne|].
  assert (Q : forall c, In c s -> is_letter c) by (apply Forall_forall; exact H).
  assert (S : forall c, In c s -> is_space U c = false).
  { intros c Hc. specialize (Q c Hc). unfold is_letter in Q. unfold is_space, in_latin1.
    replace ((0 <=? c) && (c <=? 255)) with true by lia. lia. }
  split; [apply Forall_forall; intros c Hc; specialize (Q c Hc); unfold is_letter in Q; lia|].
  split; [apply map_upper_letters; exact H|]. intros [X|X].
  - destruct s as [|c s]; [destruct X|]. rewrite S in X by (left; reflexivity). discriminate.
  - destruct (rev s) as [|c r] eqn:E; [destruct X|]. rewrite S in X; [discriminate|].
    apply in_rev. rewrite E. left. reflexivity.
Qed.

Lemma cut_letters : forall s n r, letters s -> cut_space (s ++ repeat 32 (S n) ++ r) = s.
Proof.
  induction s as [|c s IH]; intros n r H; [reflexivity|]. inversion H as [|? ? Hc Hs]; subst. unfold is_letter in Hc.
  cbn [app cut_space]. replace (c =? 32) with false by lia. f_equal. apply IH. exact Hs.
Qed.

Lemma delete_app : forall a b ks,
  delete_key U ks (a ++ b) = let (k1, n1) := delete_key U ks a in let (k2, n2) := delete_key U k1 b in (k2, n1 + n2).
Proof.
  induction a as [|x a IH]; intros b ks; cbn [app delete_key].
  - destruct (delete_key U ks b) as (k2 & n2). reflexivity.
  - destruct (delete_key1 U ks x) as (k1 & n1). rewrite IH. destruct (delete_key U k1 a) as (k2 & n2).
    destruct (delete_key U k2 b) as (k3 & n3). f_equal. lia.
Qed.

Lemma summary_delete : forall lines ks, delete_keys_by_summary U ks lines =
  delete_key U ks (flat_map (fun l => vetted_keepers U [cut_space l]) lines).
Proof.
  induction lines as [|l lines IH]; intros ks; [reflexivity|]. cbn [delete_keys_by_summary flat_map].
  rewrite delete_app. unfold delete_key_by_string. destruct (delete_key U ks (vetted_keepers U [cut_space l])) as (k1 & n1).
  rewrite IH. reflexivity.
Qed.

Lemma forall2_nth : forall A B (R : A -> B -> Prop) l m, Forall2 R l m ->
  forall j, match nth_error l j, nth_error m j with Some x, Some y => R x y | None, None => True | _, _ => False end.
Proof.
  induction 1 as [|x y l m H _ IH]; intros [|j]; cbn [nth_error]; auto. apply IH.
Qed.

Lemma columns_cut : forall w ws s ss line, columns (w :: ws) (s :: ss) line -> letters s -> cut_space line = s.
Proof.
  intros w ws s ss line H L. inversion H as [|? ? ? ? n line' H1 H2 H3]; subst.
  destruct n as [|n]; [lia|]. apply cut_letters. exact L.
Qed.

Lemma c50_delete_lemma : forall dtg gs f ks header lines js ks' n,
  0 < gs -> store_ok gs ks -> (forall x, len (dtg x) = 12) ->
  summary_of_keys dtg gs f ks = (header, lines) ->
  delete_keys_by_summary U ks (map (fun j => nth j lines []) js) = (ks', n) ->
  n = len ks - len ks' /\ distinct_ids up ks' /\
  forall k, In k ks' <-> In k ks /\ ~ exists j, In j js /\ nth_error (filter f ks) j = Some k.
Proof.
  intros dtg gs f ks header lines js ks' n Hg Hs Hd H D.
  pose proof (store_distinct gs ks Hs) as Hdist. destruct Hs as (Hnd & Hs).
  destruct (c50_columns_lemma dtg gs f ks header lines (fun k Hk => proj1 (proj2 (Hs k Hk))) Hd H) as (w1 & w6 & C & _).
  rewrite summary_delete in D. destruct (delete_lemma U _ _ _ _ D Hdist) as (A1 & A2 & A3).
  split; [exact A2|]. split; [exact A1|]. intros k. rewrite A3.
  assert (Q : forall j, vetted_keepers U [cut_space (nth j lines [])] =
    match nth_error (filter f ks) j with Some k => [kid k] | None => [] end).
  { intros j. pose proof (forall2_nth _ _ _ _ _ C j) as N.
    destruct (nth_error (filter f ks) j) as [k0|] eqn:E.
    - destruct (nth_error lines j) as [line|] eqn:E2; [|destruct N].
      rewrite (nth_error_nth _ _ [] E2). apply nth_error_In, filter_In in E. destruct E as (E & _).
      destruct (Hs k0 E) as (L1 & L2 & _). unfold key_fields in N. rewrite (columns_cut _ _ _ _ _ N L1).
      apply letters_vetted; [exact L1|]. intros X. rewrite X in L2. cbn in L2. lia.
    - destruct (nth_error lines j) eqn:E2; [destruct N|]. rewrite nth_overflow; [reflexivity|].
      apply nth_error_None. exact E2. }
  split; intros (K1 & K2); (split; [exact K1|]).
  - intros (j & J1 & J2). apply (K2 (kid k)); [|reflexivity]. apply in_flat_map.
    exists (nth j lines []). split; [apply in_map_iff; eauto|]. rewrite Q, J2. left. reflexivity.
  - intros id Hid E. apply in_flat_map in Hid. destruct Hid as (l & Hl & Hid). apply in_map_iff in Hl.
    destruct Hl as (j & <- & Hj). rewrite Q in Hid. destruct (nth_error (filter f ks) j) as [k0|] eqn:E2; [|destruct Hid].
    destruct Hid as [<-|[]]. apply K2. exists j. split; [exact Hj|]. rewrite E2. f_equal.
    apply nth_error_In, filter_In in E2. destruct E2 as (E2 & _).
    unfold same_text in E. rewrite !map_upper_letters in E by (apply Hs; assumption).
    (* same ID, so the same key *)
    clear - Hnd K1 E2 E. induction ks as [|x ks IH]; [destruct K1|]. cbn [map] in Hnd. inversion Hnd as [|? ? N Hn]; subst.
    destruct K1 as [<-|K1]; destruct E2 as [<-|E2]; auto.
    + exfalso. apply N. rewrite E. apply in_map. exact E2.
    + exfalso. apply N. rewrite <- E. apply in_map. exact K1.
Qed.
End WithUnicode.

Lemma c50_columns_lemma2 : forall dtg gs f ks header lines,
  (forall k, In k ks -> len (kid k) = gs) -> (forall x, len (dtg x) = 12) ->
  summary_of_keys dtg gs f ks = (header, lines) ->
  exists w1 w6,
    Forall2 (fun k line => columns [gs + 1; w1; 13; 13; 5; 12; w6]
        [kid k; match kkeepers k with [] => str_anonymous | _ => join [44] (map go_string (kkeepers k)) end;
         dtg (kcreated k); dtg (kexpires k); yes_no (kused k); yes_no (kcompromised k); kcomment k] line)
      (filter f ks) lines /\
    (2 <= gs -> filter f ks <> [] -> exists h, header = h ++ str_comment /\
       columns [gs + 1; w1; 13; 13; 5; 12] [str_id; str_keepers; str_created; str_expires; str_used; str_compromised] h).
Proof.
  intros dtg gs f ks header lines H1 H2 H.
  destruct (c50_columns_lemma dtg gs f ks header lines H1 H2 H) as (w1 & w6 & A & B).
  exists w1, w6. split; [|exact B]. revert A. generalize (filter f ks) lines. clear.
  induction 1 as [|k line l m HR _ IH]; constructor; [|exact IH].
  unfold key_fields in HR. rewrite keeper_text_spec in HR. exact HR.
Qed.
