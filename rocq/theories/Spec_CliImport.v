(** Specification vocabulary for imported keys. *)
From Verif Require Import Base Model_Unicode Model_Types Spec.

(** [k'] is the copy of the key [k] that a station [own] has after importing it
    from the station [from]: [from] is a keeper, [own] is not (unless it is
    [from]), the other keepers are the same. *)
Definition imported_copy (U : Uni) (own from : list rune) (k k' : key) : Prop :=
  kid k' = kid k /\ krunes k' = krunes k /\ kcreated k' = kcreated k /\ kexpires k' = kexpires k /\
  kused k' = kused k /\ kcompromised k' = kcompromised k /\ kcomment k' = kcomment k /\
  (exists y, In y (kkeepers k') /\ same_text (to_upper U) y from) /\
  (forall y, In y (kkeepers k') -> In y (kkeepers k) \/ y = from) /\
  (forall y, In y (kkeepers k) -> In y (kkeepers k') \/ same_text (to_upper U) y own) /\
  (distinct_texts (to_upper U) (kkeepers k) -> distinct_texts (to_upper U) (kkeepers k') /\
     (~ same_text (to_upper U) from own -> forall y, In y (kkeepers k') -> ~ same_text (to_upper U) y own)).
