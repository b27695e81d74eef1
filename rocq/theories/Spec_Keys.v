(** Specification vocabulary for new keys. *)
From Coq Require Import Permutation.
From Verif Require Import Base Model_Unicode Model_Functions Spec.

(** The keepers [kk] of a new key: those given (vetted, see C28), but once without
    the station's own call-sign [own]. *)
Definition keepers_named (U : Uni) (given : list (list rune)) (own : list rune) (kk : list (list rune)) : Prop :=
  (kk = vetted_keepers U given /\ forall c, In c kk -> ~ same_text (to_upper U) c own) \/
  exists c, same_text (to_upper U) c own /\ Permutation (vetted_keepers U given) (c :: kk).
