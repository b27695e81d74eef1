(** Specification vocabulary for lists of call-signs that are added to and
    removed from. *)
From Verif Require Import Base Spec.

Section Calls.
Context (up : rune -> rune).
(** The call-sign is in the list, in whatever case. *)
Definition listed_call (l : list (list rune)) (x : list rune) : Prop := exists y, In y l /\ same_text up y x.

(** A history of additions ([true]) and removals ([false]): the last one that
    concerns [x] is an addition, or none concerns it and it was there before. *)
Definition last_added (ops : list (bool * list rune)) (x : list rune) : Prop :=
  exists before o after, ops = before ++ (true, o) :: after /\ same_text up o x /\
    forall p, In p after -> ~ same_text up (snd p) x.
Definition untouched (ops : list (bool * list rune)) (x : list rune) : Prop :=
  forall p, In p ops -> ~ same_text up (snd p) x.
End Calls.
