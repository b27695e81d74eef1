(** Specification vocabulary: stores that differ in the dates and comments of
    their keys only. *)
From Verif Require Import Base Model_Types.

Definition same_but_dates (k k' : key) : Prop :=
  kid k' = kid k /\ krunes k' = krunes k /\ kkeepers k' = kkeepers k /\ kused k' = kused k /\
  kcompromised k' = kcompromised k.
Definition redated (i i' : inst) : Prop :=
  Forall2 same_but_dates (i_keys i) (i_keys i') /\ i' = set_keys i (i_keys i').
