(** Specification vocabulary: how a key ID may be written. *)
From Verif Require Import Base Spec Model_Unicode.

(** A number that is a Unicode character. *)
Definition character (c : Z) : Prop := 0 <= c < 55296 \/ 57343 < c <= 1114111.
(** White space: that of Latin-1, and what Unicode calls so elsewhere. *)
Definition blank (U : Uni) (c : Z) : Prop :=
  white c \/ (character c /\ 255 < c /\ c <> 305 /\ c <> 383 /\ u_isspace U c = true).
(** A character that stands for the letter [u] of a key ID: itself, its lower
    case, dotless i for I and long s for S (their upper case is I and S). *)
Definition stands_for (c u : Z) : Prop := c = u \/ c = u + 32 \/ (c = 305 /\ u = 73) \/ (c = 383 /\ u = 83).
(** [q] is [id], so written, with white space around. *)
Definition written (U : Uni) (id q : list Z) : Prop :=
  exists a s b, q = a ++ s ++ b /\ Forall (blank U) a /\ Forall (blank U) b /\ Forall2 stands_for s id.
(** How a number is shown: a character as itself, any other as U+FFFD. *)
Definition shown_as (c d : Z) : Prop := (character c /\ d = c) \/ (~ character c /\ d = 65533).
