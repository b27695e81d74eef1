(** Property C161: the printed key. *)
From Verif Require Import Base Spec Model_Functions Model_Types Model_Canvas Proofs_Canvas Examples.

(** Whatever the head of the page, the table and the legend are: the rows below
    the head show the groups of the key in order, at the left, nothing else, and
    at least three blanks between them and the table; the table and the legend
    are complete. [nth y rows []]: a row of the page. *)
Theorem c161_printed_key : forall table footer y0 head gs columns keyColumns k, (y0 <= 4)%nat -> Forall (fun o => (sk_y o < y0)%nat) head ->
  0 < gs -> letters (krunes k) -> krunes k <> [] ->
  let rows := key_string table footer y0 head gs columns keyColumns k in
  (exists groups sp, (1 <= sp <= 2)%nat /\ concat (concat groups) = krunes k /\
    (exists gl g, concat groups = gl ++ [g] /\ (forall x, In x gl -> len x = gs) /\ 1 <= len g <= gs) /\
    (forall n l, nth_error groups n = Some l -> exists blanks t,
      nth (y0 + sp * n) rows [] = join [32] l ++ repeat 32 blanks ++ t /\ (3 <= blanks)%nat /\ (t = [] \/ In t table)) /\
    forall y, (y0 <= y < length rows - length footer)%nat -> (forall n, (n < length groups)%nat -> y <> (y0 + sp * n)%nat) ->
      exists blanks t, nth y rows [] = repeat 32 blanks ++ t /\ (3 <= blanks)%nat /\ (t = [] \/ In t table)) /\
  (forall m t, nth_error table m = Some t -> exists left, nth (y0 + m) rows [] = left ++ t) /\
  (forall n l, nth_error footer n = Some l ->
    len l <= columns \/ len l <= Z.of_nat (width table) + 3 + Z.min gs (len (krunes k)) -> exists right, nth (length rows - length footer + n) rows [] = l ++ right).
Proof. exact printed_lemma. Qed.
Print Assumptions c161_printed_key.

(** A key of 40 letters beside a table of five lines, above a legend of two. *)
Definition vx_table : list (list rune) := map (fun n => repeat (97 + Z.of_nat n) 4) (seq 0 5).
Definition vx_footer : list (list rune) := [[73; 68; 88]; [67; 84; 49]].
Definition vx_head : list stroke := [mkStroke 0 0 (repeat 95 30); mkStroke 0 1 idA].
Definition vx_rows : list (list rune) := key_string vx_table vx_footer 4 vx_head 5 0 17 (ex_key idA 3 40 [callVQ]).
Example c161_applied : exists groups sp, concat (concat groups) = krunes (ex_key idA 3 40 [callVQ]) /\
  (forall n l, nth_error groups n = Some l -> exists blanks t,
     nth (4 + sp * n) vx_rows [] = join [32] l ++ repeat 32 blanks ++ t /\ (3 <= blanks)%nat /\ (t = [] \/ In t vx_table)).
Proof.
  destruct (c161_printed_key vx_table vx_footer 4 vx_head 5 0 17 (ex_key idA 3 40 [callVQ])) as ((groups & sp & _ & C & _ & R & _) & _).
  - apply le_n.
  - constructor; [cbn [sk_y]; lia|]. constructor; [cbn [sk_y]; lia|constructor].
  - reflexivity.
  - repeat (apply Forall_cons; [vm_compute; split; discriminate|]); apply Forall_nil.
  - intros X. discriminate X.
  - exists groups, sp. split; [exact C|exact R].
Qed.
Example c161_page : length vx_rows = 11%nat /\
  firstn 17 (nth 4 vx_rows []) = firstn 5 (krunes (ex_key idA 3 40 [])) ++ [32] ++ firstn 5 (skipn 5 (krunes (ex_key idA 3 40 []))) ++ repeat 32 3 ++ repeat 97 3 /\
  nth 9 vx_rows [] = [73; 68; 88] ++ repeat 32 15.
Proof. vm_compute. split; [reflexivity|split; reflexivity]. Qed.
