(** Model of Key.String (print.go:42-85): where the parts of a printed key are put
    on the canvas of the library blox. Of the library it is assumed that text put
    at a place within the canvas stands there unless something is put over it
    later; texts are taken as lists of lines. The head of the page (separators,
    key ID and the line KEEPERS, print.go:79-80) is any list of texts above the
    line at which the groups begin. Definitions only. *)
From Verif Require Import Base Model_Functions Model_Types.

(** A line of text put at column and row. *)
Record stroke := mkStroke { sk_x : nat; sk_y : nat; sk_text : list rune }.

Section Canvas.
Context (cols rows : nat).
Definition put_stroke (c : nat -> nat -> rune) (o : stroke) : nat -> nat -> rune := fun x y =>
  if (Nat.eqb y (sk_y o) && Nat.leb (sk_x o) x && Nat.ltb x (sk_x o + length (sk_text o)))%bool
  then nth (x - sk_x o) (sk_text o) 32 else c x y.
Definition drawn (os : list stroke) : nat -> nat -> rune := fold_left put_stroke os (fun _ _ => 32).
(** String() of the canvas as a list of rows; what is outside is cut off. *)
Definition page (os : list stroke) : list (list rune) :=
  map (fun y => map (fun x => drawn os x y) (seq 0 cols)) (seq 0 rows).
(** PutText at column 0 with SetLineSpacing. *)
Definition put_text (y spacing : nat) (lines : list (list rune)) : list stroke :=
  map (fun p => mkStroke 0 (y + spacing * fst p) (snd p)) (combine (seq 0 (length lines)) lines).
(** PutTextRightAligned *)
Definition put_right (y : nat) (lines : list (list rune)) : list stroke :=
  map (fun p => mkStroke (cols - length (snd p)) (y + fst p) (snd p)) (combine (seq 0 (length lines)) lines).
End Canvas.

(** blox.RowAndColumnCount: the length of the longest line. *)
Definition width (lines : list (list rune)) : nat := fold_right Nat.max 0%nat (map (@length rune) lines).
(** The lines of a text with LineBreak "\n". *)
Fixpoint split_lines (s : list rune) : list (list rune) :=
  match s with
  | [] => [[]]
  | c :: s' => if c =? 10 then [] :: split_lines s'
               else match split_lines s' with l :: r => (c :: l) :: r | [] => [[c]] end
  end.

(** print.go:42-85 Key.String. [table]: diana.ReciprocalTable, [footer]:
    KeyFooter, [y0]: the row reached after the head (headerLines in the code), [head]:
    what is put there. *)
Definition key_string (table footer : list (list rune)) (y0 : nat) (head : list stroke) (gs columns keyColumns : Z) (k : key)
  : list (list rune) :=
  let fieldPadding := 3%nat in
  let headerLines := 4%nat in
  let footerLines := length footer in
  let rtLength := width table in
  let rtLines := length table in
  let lines := split_lines (match groups lb_unix (Some (krunes k)) gs keyColumns with Ok g => g | _ => [] end) in
  let groupsLength := width lines in
  let groupsLines := length lines in
  let spacing := if Nat.leb (groupsLines * 2 - 1) rtLines then 2%nat else 1%nat in
  let cols0 := (rtLength + fieldPadding + groupsLength)%nat in
  let cols := if Z.of_nat cols0 <? columns then Z.to_nat columns else cols0 in
  let rows := (headerLines + footerLines + (if Nat.ltb (groupsLines * spacing) rtLines then rtLines else groupsLines * spacing))%nat in
  page cols rows (head ++ put_right cols y0 table ++ put_text y0 spacing lines ++ put_text (rows - footerLines) 1 footer).
