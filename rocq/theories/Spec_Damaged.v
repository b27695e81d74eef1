(** Specification vocabulary: a store whose keys have proper IDs; their key
    text may be anything. *)
From Verif Require Import Base Spec Model_Types.

Definition ids_ok (gs : Z) (ks : list key) : Prop :=
  NoDup (map kid ks) /\ forall k, In k ks -> letters (kid k) /\ len (kid k) = gs.
(** The piece [p] of a ciphertext was made with the beginning of a key of the
    store, and all of that beginning is letters. *)
Definition made_with (ks : list key) (j : nat) (p : list Z) : Prop :=
  exists k, nth_error ks j = Some k /\ letters p /\ (length p <= length (krunes k))%nat /\
    letters (firstn (length p) (krunes k)).
