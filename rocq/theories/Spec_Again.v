(** Vocabulary for EnrichWithKey and for enciphering again. *)
From Verif Require Import Base Spec Model_Types.

(** There is a key with this ID, neither used nor compromised. *)
Definition free_named (ks : list key) (id : list rune) : Prop :=
  exists k, In k ks /\ kid k = id /\ kused k = false /\ kcompromised k = false.
