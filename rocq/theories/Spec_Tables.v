(** Vocabulary for tables printed by the program. *)
From Verif Require Import Base Spec Model_Unicode.

(** The number of characters of the longest of [cells], at least [n]. *)
Definition widest (n : Z) (cells : list (list rune)) : Z := fold_right Z.max n (map len cells).
(** A row: every cell is followed by spaces up to the width of its column and
    one more. *)
Fixpoint row (widths : list Z) (cells : list (list rune)) : list rune :=
  match widths, cells with
  | w :: ws, c :: cs => c ++ repeat 32 (Z.to_nat (w + 1 - len c)) ++ row ws cs
  | _, _ => []
  end.
Definition keepers_cell (keepers : list (list rune)) : list rune :=
  match keepers with [] => str_anonymous | _ => join [44] (map go_string keepers) end.
Definition str_nil_cell : list rune := [78; 73; 76].
Definition recipients_cell (recipients : list (list rune)) : list rune :=
  match recipients with [] => str_nil_cell | _ => join [44] (map go_string recipients) end.
Definition from_cell (from : list rune) : list rune := match from with [] => str_nil_cell | _ => from end.
