(** Characters that make no difference to a radiogram. *)
From Verif Require Import Base.

(** The capital of a letter of Latin-1; long s (U+017F) is an S. *)
Definition big (c : rune) : rune :=
  if (97 <=? c) && (c <=? 122) then c - 32
  else if (224 <=? c) && (c <=? 254) && negb (c =? 247) then c - 32
  else if c =? 383 then 83
  else c.

(** Moreover the Kelvin sign (U+212A) as a K, and tab, form feed and carriage
    return as spaces. *)
Definition plain_sign (c : rune) : rune :=
  if c =? 8490 then 75
  else if (c =? 9) || (c =? 12) || (c =? 13) then 32
  else big c.
