(** Go slices with length and capacity, and the functions that change slices in
    place or append to slices they share with others: AddKeeper, RemoveKeeper
    (keys.go:142-166), AddRecipient, RemoveRecipient (messages.go:291-315), the
    copies made by NewKey (keys.go:76-77) and ExportKeys (persistence.go:511),
    and withPadding in the listings (functions.go:373-383). Model_Heap does
    without lengths and capacities. Definitions only. *)
From Verif Require Import Base Model_Unicode Model_Crand Model_Functions Model_Types Model_Keys.

(** A slice: array, first element, length, capacity. The nil slice has capacity
    0. *)
Record gslice := mkSl { sl_arr : nat; sl_off : nat; sl_len : nat; sl_cap : nat }.
Definition nil_slice : gslice := mkSl 0 0 0 0.

Section Slices.
Context {A : Type} (zero : A).
(** The capacity of a new array made by [append] for a number of elements;
    unspecified by the language. *)
Context (grow : nat -> nat).

(** The elements of a slice. *)
Definition elems (m : list (list A)) (s : gslice) : list A :=
  firstn (sl_len s) (skipn (sl_off s) (nth (sl_arr s) m [])).
(** Writing [xs] to the array [a] from index [j] on. *)
Fixpoint write (arr : list A) (j : nat) (xs : list A) : list A :=
  match xs with [] => arr | x :: xs' => write (list_update arr j x) (S j) xs' end.
Definition put (m : list (list A)) (a j : nat) (xs : list A) : list (list A) :=
  list_update m a (write (nth a m []) j xs).
(** The built-in function append. *)
Definition go_append (m : list (list A)) (s : gslice) (xs : list A) : list (list A) * gslice :=
  let n := (sl_len s + length xs)%nat in
  if Nat.leb n (sl_cap s) then (put m (sl_arr s) (sl_off s + sl_len s) xs, mkSl (sl_arr s) (sl_off s) n (sl_cap s))
  else (m ++ [elems m s ++ xs ++ repeat zero (grow n - n)], mkSl (length m) 0 n (Nat.max n (grow n))).
(** [s[i] = s[len(s)-1]; s = s[:len(s)-1]] *)
Definition go_swap_remove (m : list (list A)) (s : gslice) (i : nat) : list (list A) * gslice :=
  match nth_error (elems m s) (sl_len s - 1) with
  | Some z => (put m (sl_arr s) (sl_off s + i) [z], mkSl (sl_arr s) (sl_off s) (sl_len s - 1) (sl_cap s))
  | None => (m, s)
  end.
End Slices.

(** * Keepers and recipients. The elements (rune slices) are values here. *)
Section Keepers.
Context (U : Uni) (grow : nat -> nat).
Definition mem := list (list (list rune)).

(** keys.go:145-149, messages.go:294-298, one argument *)
Definition sl_add1 (c : mem * gslice) (x : list rune) : mem * gslice :=
  let (m, s) := c in if contains_keeper U (elems m s) [x] then (m, s) else go_append [] grow m s [x].
(** keys.go:156-164, messages.go:305-313, one argument *)
Definition sl_remove1 (c : mem * gslice) (x : list rune) : mem * gslice :=
  let (m, s) := c in
  match index_of (fun k => equal_runes_fold U (Some x) (Some k)) (elems m s) 0 with
  | Some i => go_swap_remove m s i
  | None => (m, s)
  end.
Inductive kop := KAdd (xs : list (list rune)) | KRemove (xs : list (list rune)).
Definition sl_op (m : mem) (s : gslice) (op : kop) : mem * gslice :=
  match op with KAdd xs => fold_left sl_add1 xs (m, s) | KRemove xs => fold_left sl_remove1 xs (m, s) end.
(** Several keys or messages, each with its slice; an operation on the [n]th. *)
Definition sl_step (c : mem * list gslice) (o : nat * kop) : mem * list gslice :=
  let (m, ss) := c in
  match nth_error ss (fst o) with
  | Some s => let (m', s') := sl_op m s (snd o) in (m', list_update ss (fst o) s')
  | None => (m, ss)
  end.
Definition sl_run (ops : list (nat * kop)) (c : mem * list gslice) : mem * list gslice := fold_left sl_step ops c.

(** keys.go:56-58 the keepers of a new key: VettedKeepers appends to a nil slice
    (functions.go:179), RemoveKeeper removes the own call-sign. The key in the
    store (line 76) and the one returned (line 77) have this slice. *)
Definition sl_new_key (m : mem) (own : list rune) (keepers : list (list rune)) : mem * gslice :=
  let (m1, s1) := fold_left (fun c x => go_append [] grow (fst c) (snd c) [x]) (vetted_keepers U keepers) (m, nil_slice) in
  sl_op m1 s1 (KRemove [own]).
End Keepers.

(** * Listings. *)
Section Listing.
Context (grow : nat -> nat).
(** functions.go:381-383 withPadding *)
Definition sl_pad (m : list (list rune)) (s : gslice) (width : Z) : list (list rune) * gslice :=
  go_append 0 grow m s (repeat 32 (Z.to_nat (width - Z.of_nat (sl_len s)))).
(** The cells of a row that are slices of the store and not copies (keys.go:324,
    messages.go:443, 448, 451, 453), each with its width; first all are padded,
    then copied to the line (keys.go:325-333, messages.go:457-465). *)
Fixpoint sl_cells (m : list (list rune)) (cells : list (gslice * Z)) : list (list rune) * list gslice :=
  match cells with
  | [] => (m, [])
  | (s, w) :: cells' => let (m1, s1) := sl_pad m s w in let (m2, ss) := sl_cells m1 cells' in (m2, s1 :: ss)
  end.
Fixpoint sl_rows (m : list (list rune)) (rows : list (list (gslice * Z))) : list (list rune) * list (list (list rune)) :=
  match rows with
  | [] => (m, [])
  | r :: rows' =>
      let (m1, ss) := sl_cells m r in
      let line := map (elems m1) ss in
      let (m2, lines) := sl_rows m1 rows' in (m2, line :: lines)
  end.
End Listing.
