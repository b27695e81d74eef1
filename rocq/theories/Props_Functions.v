(** Properties C27-C30, C52, C53: grouping, call-sign vetting, comparisons and
    small helpers (functions.go). *)
From Verif Require Import Base Spec Model_Unicode Model_Crand Model_Functions Proofs_Functions Examples.

(** C27. The output is lines of groups: [lines] is the list of lines, each a list
    of groups. Every group but the very last has [gs] letters; nothing is lost;
    lines stay below the column width and are only broken where the next group
    would not fit. *)
Theorem c27_groups : forall lb gs columns s out, s <> [] ->
  groups lb (Some s) gs columns = Ok out ->
  exists lines : list (list (list rune)),
    out = join lb (map (join [32]) lines) /\ concat (concat lines) = s /\
    (forall l, In l lines -> l <> []) /\
    (exists gl g, concat lines = gl ++ [g] /\ (forall x, In x gl -> len x = gs) /\ 1 <= len g <= gs) /\
    (0 < columns -> forall l, In l lines -> len (join [32] l) <= Z.max gs (columns - 1)) /\
    (columns <= 0 -> len lines = 1) /\
    (forall a l n b, lines = a ++ l :: n :: b -> columns <= len (join [32] l) + 1 + gs).
Proof. exact c27_lemma. Qed.
Print Assumptions c27_groups.

Theorem c27_groups_total : forall lb s gs columns,
  (0 < gs -> exists out, groups lb (Some s) gs columns = Ok out /\ (s = [] -> out = [])) /\
  (gs <= 0 -> exists e, groups lb (Some s) gs columns = Err e).
Proof. exact c27_total. Qed.
Print Assumptions c27_groups_total.

Example c27_nontrivial : groups lb_unix (Some txt_other) 5 17 =
  Ok [65;84;84;65;67;32;75;32;65;84;32;10;68;65;87;78].
Proof. vm_compute. reflexivity. Qed.

(** C28. [c28_laws] determines the function: input texts are treated one by
    one, commas and spaces separate, white space around a word is dropped, the
    word is changed to upper case. *)
Theorem c28_laws : forall U,
  (forall a b, vetted_keepers U (a ++ b) = vetted_keepers U a ++ vetted_keepers U b) /\
  (forall s c t, c = 44 \/ c = 32 ->
     vetted_keepers U [s ++ [c] ++ t] = vetted_keepers U [s] ++ vetted_keepers U [t]) /\
  (forall w, Forall (fun c => is_space U c = true) w -> vetted_keepers U [w] = []) /\
  (forall w1 s w2, Forall (fun c => is_space U c = true) (w1 ++ w2) ->
     Forall (fun c => c <> 44 /\ c <> 32) (w1 ++ s ++ w2) -> s <> [] ->
     (forall c r, s = c :: r -> is_space U c = false) -> (forall c r, s = r ++ [c] -> is_space U c = false) ->
     vetted_keepers U [w1 ++ s ++ w2] = [map (to_upper U) s]).
Proof. exact c28_laws_lemma. Qed.
Print Assumptions c28_laws.

Theorem c28_wellformed : forall U l v, uni_ok U -> uni_upper_idem U -> uni_space_upper U ->
  In v (vetted_keepers U l) ->
  v <> [] /\ Forall (fun c => c <> 44 /\ c <> 32) v /\ map (to_upper U) v = v /\
  (forall c s, v = c :: s -> is_space U c = false) /\ (forall c s, v = s ++ [c] -> is_space U c = false).
Proof. exact c28_wellformed_lemma. Qed.
Print Assumptions c28_wellformed.

Theorem c28_idempotent : forall U l, uni_ok U -> uni_upper_idem U -> uni_space_upper U ->
  vetted_keepers U [join [44] (vetted_keepers U l)] = vetted_keepers U l /\
  vetted_keepers U (vetted_keepers U l) = vetted_keepers U l.
Proof. exact c28_idem_lemma. Qed.
Print Assumptions c28_idempotent.

Example c28_nontrivial : vetted_keepers uni_id [[118;113;44;32;10;111;115;9;44;44]; [65]] = [callVQ; callOS; [65]].
Proof. vm_compute. reflexivity. Qed.
Example c28_hypotheses : uni_ok uni_id /\ uni_upper_idem uni_id /\ uni_space_upper uni_id.
Proof. exact (conj uni_id_ok (conj uni_id_idem uni_id_space)). Qed.

(** C29. *)
Theorem c29_all_needles : forall U ns hs ci, all_needles U ns hs ci = true <->
  exists n h, ns = Some n /\ hs = Some h /\ n <> [] /\ h <> [] /\
    forall x, In x n -> exists y, In y h /\
      (if ci then map (to_upper U) y = map (to_upper U) x else y = x).
Proof. exact c29_all_lemma. Qed.
Print Assumptions c29_all_needles.

Theorem c29_any_needle : forall ns hs, any_needle ns hs = true <->
  exists n h x, ns = Some n /\ hs = Some h /\ In x n /\ In x h.
Proof. exact any_needle_spec. Qed.
Print Assumptions c29_any_needle.

Theorem c29_any_of_them : forall hs n, any_of_them hs n = true <->
  exists h x, hs = Some h /\ n = Some x /\ x <> [] /\ In x h.
Proof. exact any_of_them_spec. Qed.
Print Assumptions c29_any_of_them.

Example c29_nontrivial :
  all_needles uni_id (Some [callVQ; callOS]) (Some [callOS; [118; 113]]) true = true /\
  all_needles uni_id (Some [callVQ; callOS]) (Some [callOS; [118; 113]]) false = false /\
  any_needle (Some [callVQ; callOS]) (Some [callOS; [118; 113]]) = true.
Proof. vm_compute. repeat split; reflexivity. Qed.

(** C30. [None] is a nil pointer. *)
Theorem c30_equal_runes : forall a b, equal_runes a b = true <-> a = b.
Proof. exact equal_runes_spec. Qed.
Print Assumptions c30_equal_runes.

Theorem c30_equal_fold : forall U,
  (forall a, equal_runes_fold U a a = true) /\
  (forall a b, equal_runes_fold U a b = equal_runes_fold U b a) /\
  (forall a b c, equal_runes_fold U a b = true -> equal_runes_fold U b c = true -> equal_runes_fold U a c = true) /\
  (forall a b, equal_runes a b = true -> equal_runes_fold U a b = true) /\
  (forall x y, Forall (fun c => 0 <= c <= 255) x -> Forall (fun c => 0 <= c <= 255) y ->
     equal_runes_fold U (Some x) (Some y) = true <-> Forall2 same_letter x y) /\
  (forall s, equal_runes_fold U None (Some s) = false).
Proof. exact c30_fold_lemma. Qed.
Print Assumptions c30_equal_fold.

Example c30_nontrivial : equal_runes_fold uni_id (Some [65; 229; 48]) (Some [97; 197; 48]) = true /\
  same_letter 97 65 /\ same_letter 229 197 /\ ~ same_letter 48 79.
Proof. split; [reflexivity|]. unfold same_letter, case_pair. lia. Qed.

(** C52. *)
Theorem c52_highest : forall ns, ns <> [] -> Forall (fun n => - 2 ^ 63 <= n <= 2 ^ 63 - 1) ns ->
  greatest (highest_int ns) ns.
Proof. exact highest_spec. Qed.
Print Assumptions c52_highest.

Theorem c52_lowest : forall ns, ns <> [] -> Forall (fun n => - 2 ^ 63 <= n <= 2 ^ 63 - 1) ns ->
  least (lowest_int ns) ns.
Proof. exact lowest_spec. Qed.
Print Assumptions c52_lowest.

Theorem c52_trim_right : forall s f, exists suf, s = trim_right_rune_func s f ++ suf /\
  Forall (fun c => f c = true) suf /\
  (forall a c, trim_right_rune_func s f = a ++ [c] -> f c = false).
Proof. exact c52_trim_lemma. Qed.
Print Assumptions c52_trim_right.

Theorem c52_padding : forall s n, exists k, with_padding s n = s ++ repeat 32 k /\
  len (with_padding s n) = Z.max (len s) n.
Proof. exact c52_padding_lemma. Qed.
Print Assumptions c52_padding.

Example c52_nontrivial : highest_int [-3; 7; 2] = 7 /\ lowest_int [4; -9; 2] = -9 /\
  trim_right_rune_func [32; 65; 32; 32] (Z.eqb 32) = [32; 65] /\ with_padding [65] 3 = [65; 32; 32].
Proof. vm_compute. repeat split; reflexivity. Qed.

(** C53 is false: without headers any non-empty row panics. *)
Theorem c53_column_sizes_refuted : exists rs, column_sizes rs [] = Panic.
Proof. exists [[[65; 66]]]. reflexivity. Qed.
Print Assumptions c53_column_sizes_refuted.

(** The exact condition, and the result otherwise. Missing: rows with more
    columns than there are headers. *)
Theorem c53_column_sizes_partial : forall rs headers,
  (Forall (fun row => (length row <= length headers)%nat) rs ->
   exists sizes, column_sizes rs headers = Ok sizes /\
     (forall c v, nth_error sizes c = Some v -> exists h, nth_error headers c = Some h /\
        greatest v (h :: flat_map (fun row => match nth_error row c with Some x => [len x] | None => [] end) rs)) /\
     (forall c, nth_error sizes c = None <-> forall row, In row rs -> nth_error row c = None)) /\
  (~ Forall (fun row => (length row <= length headers)%nat) rs -> column_sizes rs headers = Panic).
Proof. exact column_sizes_spec. Qed.
Print Assumptions c53_column_sizes_partial.

Example c53_nontrivial : column_sizes [[[65]; [66; 67; 68]]; [[65; 66; 67]]] [2; 2] = Ok [3; 3].
Proof. reflexivity. Qed.
