(** Specification vocabulary: binary floating point numbers that are not negative,
    in units of 2^-63. *)
From Verif Require Import Base.

(** A number with at most p significant bits. *)
Definition with_bits (p m : Z) : Prop := exists q e, 0 <= e /\ 0 <= q < 2 ^ p /\ m = q * 2 ^ e.
(** m is one of those that are closest to v. *)
Definition nearest (p v m : Z) : Prop :=
  with_bits p m /\ forall m', with_bits p m' -> Z.abs (v - m) <= Z.abs (v - m').
