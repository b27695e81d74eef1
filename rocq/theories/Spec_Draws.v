(** Specification vocabulary: random draws. *)
From Verif Require Import Base.

(** The draws [w] that overwrote a text [old]: as many as it has characters; or
    none, and fewer are left. *)
Definition wipe_draws (old w rest : list Z) : Prop :=
  length w = length old \/ (w = [] /\ (length rest < length old)%nat).
