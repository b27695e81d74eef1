(** Properties C01-C06: the DIANA trigraph. *)
From Verif Require Import Base Spec Model_Diana Model_Table Proofs_Diana.

(** C01. *)
Theorem c01_trigraph_rune_value : forall d x k, is_letter x -> is_letter k ->
  trigraph_rune (Some d) (Some x) (Some k) = (Some (diana_letter x k), None)
  /\ is_letter (diana_letter x k).
Proof. exact (fun d x k hx hk => conj (trigraph_rune_ok d x k hx hk) (diana_letter_letter x k)). Qed.
Print Assumptions c01_trigraph_rune_value.

Theorem c01_trigraph_byte_value : forall d x k, is_letter x -> is_letter k ->
  trigraph_byte (Some d) (Some x) (Some k) = (Some (diana_letter x k), None).
Proof. exact trigraph_byte_ok. Qed.
Print Assumptions c01_trigraph_byte_value.

Theorem c01_symmetric : forall d x k,
  trigraph_rune (Some d) (Some x) (Some k) = trigraph_rune (Some d) (Some k) (Some x).
Proof. exact c01_symmetric_lemma. Qed.
Print Assumptions c01_symmetric.

Theorem c01_reciprocal : forall d1 d2 x k c, is_letter x -> is_letter k ->
  trigraph_rune (Some d1) (Some k) (Some x) = (Some c, None) ->
  trigraph_rune (Some d2) (Some k) (Some c) = (Some x, None).
Proof. exact c01_reciprocal_lemma. Qed.
Print Assumptions c01_reciprocal.

Theorem c01_reciprocal_text : forall key text, letters key -> letters text ->
  (length text <= length key)%nat ->
  letters (diana_text key text) /\ length (diana_text key text) = length text /\
  diana_text key (diana_text key text) = text.
Proof. exact c01_text_lemma. Qed.
Print Assumptions c01_reciprocal_text.

Example c01_nontrivial :
  trigraph_rune (Some 0) (Some 72) (Some 81) = (Some 67, None) /\
  trigraph_rune (Some 0) (Some 67) (Some 81) = (Some 72, None).
Proof. vm_compute. split; reflexivity. Qed.

(** C02. *)
Theorem c02_perfect_secrecy : forall text cipher,
  letters text -> letters cipher -> length cipher = length text ->
  exists! key, (letters key /\ length key = length text) /\ diana_text key text = cipher.
Proof. exact c02_lemma. Qed.
Print Assumptions c02_perfect_secrecy.

Example c02_nontrivial : letters [72; 69; 76] /\ letters [65; 65; 90] /\
  diana_text [83; 86; 80] [72; 69; 76] = [65; 65; 90].
Proof. repeat split; repeat constructor; unfold is_letter; cbn; lia. Qed.

(** C03. *)
Theorem c03_rune_rejects : forall d x k,
  (exists v, trigraph_rune d x k = (Some v, None)) /\
     (exists dv a b, d = Some dv /\ x = Some a /\ k = Some b /\ is_letter a /\ is_letter b)
  \/ (exists e, trigraph_rune d x k = (d, Some e)) /\
     ~ (exists dv a b, d = Some dv /\ x = Some a /\ k = Some b /\ is_letter a /\ is_letter b).
Proof. exact c03_rune_lemma. Qed.
Print Assumptions c03_rune_rejects.

Theorem c03_byte_rejects : forall d x k,
  (exists v, trigraph_byte d x k = (Some v, None)) /\
     (exists dv a b, d = Some dv /\ x = Some a /\ k = Some b /\ is_letter a /\ is_letter b)
  \/ (exists e, trigraph_byte d x k = (d, Some e)) /\
     ~ (exists dv a b, d = Some dv /\ x = Some a /\ k = Some b /\ is_letter a /\ is_letter b).
Proof. exact c03_byte_lemma. Qed.
Print Assumptions c03_byte_rejects.

Theorem c03_byte_rune_agree : forall d x k, trigraph_byte d x k = trigraph_rune d x k.
Proof. exact c03_agree_lemma. Qed.
Print Assumptions c03_byte_rune_agree.

Example c03_nontrivial :
  trigraph_rune (Some 7) (Some 97) (Some 65) = (Some 7, Some ErrOutOfRange) /\
  trigraph_rune (Some 7) None (Some 65) = (Some 7, Some ErrNilPointer).
Proof. split; reflexivity. Qed.

(** C04. *)
Theorem c04_zero_key : forall d c, is_letter c ->
  exists z, zero_key_rune (Some d) (Some c) = (Some z, None) /\
    zero_key_byte (Some d) (Some c) = (Some z, None) /\ is_letter z /\
    (forall k d', is_letter k ->
       (trigraph_rune (Some d') (Some k) (Some c) = (Some c, None) <-> k = z)).
Proof. exact c04_lemma. Qed.
Print Assumptions c04_zero_key.

Example c04_nontrivial : zero_key_rune (Some 0) (Some 65) = (Some 90, None).
Proof. reflexivity. Qed.

(** C05: the function can panic ... *)
Theorem c05_total_refuted : exists out c key i,
  0 <= i <= len out /\
  append_trigraph_byte_by_key (mkAtk (Some out) (Some c) (Some key) (Some i)) =
    (mkAtk (Some out) (Some c) (Some key) (Some i), Panic).
Proof. exact c05_refuted_lemma. Qed.
Print Assumptions c05_total_refuted.

(** ... exactly when all pointers are non-nil and the index is within the
    output but not within the key; otherwise it is all-or-nothing. Missing for
    the full claim: the case [len key <= i <= len out]. *)
Theorem c05_append_partial : forall s,
  (append_trigraph_byte_by_key s = (s, Panic) <->
     exists out c key i, s = mkAtk (Some out) (Some c) (Some key) (Some i) /\
       0 <= i <= len out /\ len key <= i) /\
  (forall s' r, append_trigraph_byte_by_key s = (s', r) -> r <> Panic ->
     (exists e, r = Err e /\ s' = s) \/
     (r = Ok tt /\ exists out c key i k,
        s = mkAtk (Some out) (Some c) (Some key) (Some i) /\
        nth_error key (Z.to_nat i) = Some k /\ 0 <= i /\
        s' = mkAtk (Some (out ++ [diana_letter c k])) (Some c) (Some key) (Some (i + 1)))).
Proof. exact c05_partial_lemma. Qed.
Print Assumptions c05_append_partial.

(** Called as its documentation suggests (index tracking the output, index
    within the key, letters only) it always appends the trigraph. *)
Theorem c05_append_works : forall out c key i k,
  0 <= i <= len out -> nth_error key (Z.to_nat i) = Some k -> is_letter c -> is_letter k ->
  append_trigraph_byte_by_key (mkAtk (Some out) (Some c) (Some key) (Some i)) =
    (mkAtk (Some (out ++ [diana_letter c k])) (Some c) (Some key) (Some (i + 1)), Ok tt).
Proof. exact c05_works_lemma. Qed.
Print Assumptions c05_append_works.

Example c05_nontrivial :
  append_trigraph_byte_by_key (mkAtk (Some [65]) (Some 66) (Some [70; 71]) (Some 1)) =
  (mkAtk (Some [65; 83]) (Some 66) (Some [70; 71]) (Some 2), Ok tt).
Proof. reflexivity. Qed.

(** C06: line 0 is the header with the column letters, line r+1 lists for row
    letter r the pairs "row letter, trigraph in lower case". *)
Theorem c06_table : forall r c, (r < 26)%nat -> (c < 26)%nat ->
  exists header line, nth_error reciprocal_table 0 = Some header /\
    nth_error reciprocal_table (S r) = Some line /\
    cell header c = Some (65 + Z.of_nat c, 32) /\
    exists x, trigraph_byte (Some 0) (Some (65 + Z.of_nat r)) (Some (65 + Z.of_nat c)) = (Some x, None)
      /\ cell line c = Some (65 + Z.of_nat r, x + 32).
Proof. exact c06_lemma. Qed.
Print Assumptions c06_table.

Theorem c06_table_size : length reciprocal_table = 27%nat /\
  forall line, In line reciprocal_table -> (length (runes line) = 78 \/ length (runes line) = 77)%nat.
Proof. exact c06_size_lemma. Qed.
Print Assumptions c06_table_size.
