(** Specification vocabulary: one draw after the other. *)
From Verif Require Import Base Model_Crand.

(** Draw with each function in turn. *)
Fixpoint in_turn {A} (fs : list (tape -> res (A * tape))) (t : tape) : res (list A * tape) :=
  match fs with
  | [] => Ok ([], t)
  | f :: fs' => let* (a, t1) := f t in let* (l, t2) := in_turn fs' t1 in Ok (a :: l, t2)
  end.
(** A draw that stops the program if the source fails. *)
Definition drawn_or_panic {A} (f : tape -> option (A * tape)) (t : tape) : res (A * tape) :=
  match f t with Some r => Ok r | None => Panic end.
