(** Specification vocabulary: fair random functions. *)
From Verif Require Import Base Model_Crand.

(** All sources of [N] words for which [f] returns [a]. *)
Definition sources_of {A} (N : nat) (f : tape -> res (A * tape)) (a : A) (l : list tape) : Prop :=
  NoDup l /\ forall t, In t l <-> length t = N /\ Forall (fun w => 0 <= w < 2 ^ 64) t /\ exists t', f t = Ok (a, t').
(** [f] returns nothing but results with [P], each of them for equally many
    sources of every length; every one is possible with sources of some length. *)
Definition fair {A} (f : tape -> res (A * tape)) (P : A -> Prop) : Prop :=
  (forall t a t', f t = Ok (a, t') -> P a) /\
  (forall N, exists c, forall a, P a -> exists l, sources_of N f a l /\ length l = c) /\
  exists N, forall a, P a -> exists l, sources_of N f a l /\ l <> [].
