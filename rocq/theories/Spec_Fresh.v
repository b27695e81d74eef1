(** Specification vocabulary: what is read from the random source. *)
From Verif Require Import Base Model_Unicode Model_Crand Model_Heap.

(** The words t were not enough: with more of them, more than t would be read. *)
Definition exhausted {A} (f : tape -> A * tape) (t : tape) : Prop :=
  exists more, (length (snd (f (t ++ more))) < length more)%nat.
(** The words [used] and no others are read, and they alone decide the outcome. *)
Definition reads {A} (f : tape -> A * tape) (used : tape) (a : A) : Prop :=
  forall rest, f (used ++ rest) = (a, rest).
(** The operations [ops], each reading its own piece of the source and nothing
    else, lead from one state to the other. *)
Fixpoint read_in_turn (U : Uni) (line_breaks : list rune -> list rune) (dtg_parse : list rune -> option Z)
    (ops : list hop) (pieces : list tape) (h : heap) (i : hinst) (h' : heap) (i' : hinst) : Prop :=
  match ops, pieces with
  | [], [] => h = h' /\ i = i'
  | op :: ops', piece :: pieces' => exists h1 i1,
      reads (hstep U line_breaks dtg_parse op h i) piece (h1, i1) /\
      read_in_turn U line_breaks dtg_parse ops' pieces' h1 i1 h' i'
  | _, _ => False
  end.
