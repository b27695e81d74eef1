(** Property C139: Float64 and Float32 of package crand. A result m stands for
    m / 2^63. *)
From Verif Require Import Base Model_Crand Model_Float Spec_Float Proofs_Float.

(** The result lies in [0, 1) and is the number with 53 bits that is nearest to
    k / 2^63, where k are the lower 63 bits of the last word that is read; words
    are skipped only if they are within 2^-54 of 1. *)
Theorem c139_float64 : forall t m t', float64 t = Ok (m, t') ->
  0 <= m < 2 ^ 63 /\ exists skipped w, t = skipped ++ w :: t' /\ nearest 53 (w mod 2 ^ 63) m /\
    forall u, In u skipped -> 2 ^ 63 - 2 ^ 9 <= u mod 2 ^ 63.
Proof. exact float64_lemma. Qed.
Print Assumptions c139_float64.
(** Float32 rounds such a number to 24 bits, and does not return 1 either. *)
Theorem c139_float32 : forall t m t', float32 t = Ok (m, t') ->
  0 <= m < 2 ^ 63 /\ exists skipped w m64, t = skipped ++ w :: t' /\ nearest 53 (w mod 2 ^ 63) m64 /\ nearest 24 m64 m /\
    forall u, In u skipped -> 2 ^ 63 - 2 ^ 38 - 2 ^ 9 <= u mod 2 ^ 63.
Proof. exact float32_lemma. Qed.
Print Assumptions c139_float32.
(** Nearest means: not farther than 2^-54 (for 53 bits) or 2^-25 (for 24 bits). *)
Theorem c139_close : forall p v m, 1 < p < 63 -> 0 <= v < 2 ^ 63 -> nearest p v m -> Z.abs (m - v) <= 2 ^ (62 - p).
Proof. exact nearest_close. Qed.
Print Assumptions c139_close.
(** Every number in [0, 1) with so many bits (and nothing below 2^-63) can be the result. *)
Theorem c139_possible : forall m t, 0 <= m < 2 ^ 63 ->
  (with_bits 53 m -> float64 (m :: t) = Ok (m, t)) /\ (with_bits 24 m -> float32 (m :: t) = Ok (m, t)).
Proof. intros m t B. split; intros W; [exact (float64_possible m t W B)|exact (float32_possible m t W B)]. Qed.
Print Assumptions c139_possible.
(** One word is enough except with probability about 2^-25. *)
Theorem c139_one_word : forall w t, w mod 2 ^ 63 < 2 ^ 63 - 2 ^ 38 - 2 ^ 9 ->
  (exists m, float64 (w :: t) = Ok (m, t)) /\ exists m, float32 (w :: t) = Ok (m, t).
Proof. exact float_word. Qed.
Print Assumptions c139_one_word.
(** The first word would be rounded to 1. The second one is rounded up, to 53 and to 24 bits. *)
Example c139_nontrivial :
  float64 [2 ^ 63 - 1; 2 ^ 62 + 2 ^ 61 + 2 ^ 9 + 1; 7] = Ok (2 ^ 62 + 2 ^ 61 + 2 ^ 10, [7]) /\
  float32 [2 ^ 63 - 2 ^ 30; 2 ^ 62 + 2 ^ 38 + 2 ^ 37; 7] = Ok (2 ^ 62 + 2 ^ 39, [7]) /\
  exists s w, [2 ^ 63 - 1; 2 ^ 62 + 2 ^ 61 + 2 ^ 9 + 1; 7] = s ++ w :: [7] /\ nearest 53 (w mod 2 ^ 63) (2 ^ 62 + 2 ^ 61 + 2 ^ 10).
Proof.
  assert (E : float64 [2 ^ 63 - 1; 2 ^ 62 + 2 ^ 61 + 2 ^ 9 + 1; 7] = Ok (2 ^ 62 + 2 ^ 61 + 2 ^ 10, [7])) by (vm_compute; reflexivity).
  split; [exact E|]. split; [vm_compute; reflexivity|].
  destruct (c139_float64 _ _ _ E) as (_ & s & w & A & N & _). exists s, w. split; assumption.
Qed.
