From Verif Require Import Base Spec Model_Diana Model_Table.

Ltac Zify.zify_post_hook ::= Z.to_euclidean_division_equations.

Lemma rem_mod26 : forall a b, 65 <= a <= 90 -> 65 <= b <= 90 ->
  Z.rem (Z.rem (25 - (a - 65) - (b - 65)) 26 + 26) 26 = (25 - (a - 65) - (b - 65)) mod 26.
Proof. intros a b Ha Hb. lia. Qed.

Lemma diana_letter_letter : forall x k, is_letter (diana_letter x k).
Proof. intros x k. unfold is_letter, diana_letter. lia. Qed.

Lemma diana_letter_comm : forall x k, diana_letter x k = diana_letter k x.
Proof. intros x k. unfold diana_letter. f_equal. f_equal. lia. Qed.

Lemma diana_letter_invol : forall x k, is_letter x -> is_letter k ->
  diana_letter k (diana_letter k x) = x.
Proof. intros x k Hx Hk. unfold is_letter, diana_letter in *. lia. Qed.

Lemma diana_letter_inj_key : forall x k1 k2, is_letter x -> is_letter k1 -> is_letter k2 ->
  diana_letter k1 x = diana_letter k2 x -> k1 = k2.
Proof. intros x k1 k2 Hx H1 H2 H. unfold is_letter, diana_letter in *. lia. Qed.

Definition in_range (c : rune) : bool := (65 <=? c) && (c <=? 90).

Lemma trigraph_rune_ok : forall d x y, is_letter x -> is_letter y ->
  trigraph_rune (Some d) (Some x) (Some y) = (Some (diana_letter x y), None).
Proof.
  intros d x y Hx Hy. unfold is_letter in *. unfold trigraph_rune.
  replace (((x <? 65) || (90 <? x)) || ((y <? 65) || (90 <? y))) with false by lia.
  rewrite rem_mod26 by assumption. reflexivity.
Qed.

Lemma trigraph_byte_ok : forall d x y, is_letter x -> is_letter y ->
  trigraph_byte (Some d) (Some x) (Some y) = (Some (diana_letter x y), None).
Proof.
  intros d x y Hx Hy. unfold is_letter in *. unfold trigraph_byte.
  replace (((x <? 65) || (90 <? x)) || ((y <? 65) || (90 <? y))) with false by lia.
  rewrite rem_mod26 by assumption. unfold to_byte, diana_letter.
  rewrite Z.mod_small by lia. reflexivity.
Qed.

Lemma trigraph_ok : forall x y, is_letter x -> is_letter y ->
  trigraph x y = Ok (diana_letter x y).
Proof.
  intros x y Hx Hy. unfold trigraph. rewrite trigraph_rune_ok by assumption. reflexivity.
Qed.

Lemma trigraph_ok_inv : forall x y r, trigraph x y = Ok r ->
  is_letter x /\ is_letter y /\ r = diana_letter x y.
Proof.
  intros x y r H.
  destruct (Z_le_dec 65 x) as [H1|H1]; [destruct (Z_le_dec x 90) as [H2|H2];
    [destruct (Z_le_dec 65 y) as [H3|H3]; [destruct (Z_le_dec y 90) as [H4|H4]|]|]|].
  { rewrite trigraph_ok in H by (unfold is_letter; lia).
    injection H as <-. unfold is_letter. repeat split; lia. }
  all: unfold trigraph, trigraph_rune in H;
    replace (((x <? 65) || (90 <? x)) || ((y <? 65) || (90 <? y))) with true in H by lia;
    discriminate H.
Qed.

Lemma trigraph_total : forall x y, ~ (is_letter x /\ is_letter y) ->
  trigraph x y = Err ErrOutOfRange.
Proof.
  intros x y H. unfold is_letter in H. unfold trigraph, trigraph_rune.
  replace (((x <? 65) || (90 <? x)) || ((y <? 65) || (90 <? y))) with true by lia.
  reflexivity.
Qed.

Lemma diana_text_length : forall key text, (length text <= length key)%nat ->
  length (diana_text key text) = length text.
Proof.
  induction key as [|k key IH]; intros text H; destruct text as [|x text]; cbn [diana_text length] in *; try lia.
  f_equal. apply IH. lia.
Qed.

Lemma diana_text_letters : forall key text, letters (diana_text key text).
Proof.
  induction key as [|k key IH]; intros text; [constructor|].
  destruct text as [|x text]; [constructor|].
  cbn [diana_text]. constructor; [apply diana_letter_letter|apply IH].
Qed.

Lemma diana_text_invol : forall key text, letters key -> letters text ->
  (length text <= length key)%nat ->
  diana_text key (diana_text key text) = text.
Proof.
  induction key as [|k key IH]; intros text Hk Ht Hl; destruct text as [|x text];
    cbn [diana_text length] in *; try reflexivity; try lia.
  inversion Hk; inversion Ht; subst.
  rewrite diana_letter_invol by assumption.
  rewrite IH by (assumption || lia). reflexivity.
Qed.

Lemma diana_text_key_unique : forall text key1 key2,
  letters text -> letters key1 -> letters key2 ->
  length key1 = length text -> length key2 = length text ->
  diana_text key1 text = diana_text key2 text -> key1 = key2.
Proof.
  induction text as [|x text IH]; intros key1 key2 Ht H1 H2 L1 L2 H.
  - destruct key1; destruct key2; cbn [diana_text length] in *; try discriminate; reflexivity.
  - destruct key1 as [|a key1]; destruct key2 as [|b key2]; cbn [diana_text length] in *; try discriminate.
    inversion Ht; inversion H1; inversion H2; subst.
    injection H as Ha Hb.
    f_equal.
    + eapply diana_letter_inj_key; [| | |exact Ha]; assumption.
    + apply IH; auto; lia.
Qed.

Lemma diana_text_key_exists : forall text cipher,
  letters text -> letters cipher -> length cipher = length text ->
  exists key, letters key /\ length key = length text /\ diana_text key text = cipher.
Proof.
  induction text as [|x text IH]; intros cipher Ht Hc L.
  - destruct cipher; [|discriminate]. exists []. repeat split; constructor.
  - destruct cipher as [|c cipher]; [discriminate|].
    inversion Ht; inversion Hc; subst. injection L as L.
    destruct (IH cipher) as (key & K1 & K2 & K3); auto.
    exists (diana_letter x c :: key).
    repeat split.
    + constructor; [apply diana_letter_letter|assumption].
    + cbn [length]. lia.
    + cbn [diana_text]. rewrite K3. f_equal.
      rewrite diana_letter_comm. apply diana_letter_invol; assumption.
Qed.

(** A cell of the printed table: upper-case row letter, lower-case trigraph. *)
Definition cell_ok (r c : nat) : bool :=
  match nth_error reciprocal_table (S r) with
  | Some line =>
      match cell line c with
      | Some (a, b) =>
          (a =? 65 + Z.of_nat r) &&
          (b =? diana_letter (65 + Z.of_nat r) (65 + Z.of_nat c) + 32)
      | None => false
      end
  | None => false
  end.

Lemma table_cells : forall r c, (r < 26)%nat -> (c < 26)%nat -> cell_ok r c = true.
Proof.
  assert (H : forallb (fun r => forallb (cell_ok r) (seq 0 26)) (seq 0 26) = true)
    by (vm_compute; reflexivity).
  intros r c Hr Hc.
  rewrite forallb_forall in H. specialize (H r). rewrite in_seq in H.
  assert (Hr' : forallb (cell_ok r) (seq 0 26) = true) by (apply H; lia).
  rewrite forallb_forall in Hr'. apply Hr'. rewrite in_seq. lia.
Qed.

Lemma trigraph_rune_err : forall d x y, ~ (is_letter x /\ is_letter y) ->
  trigraph_rune (Some d) (Some x) (Some y) = (Some d, Some ErrOutOfRange).
Proof.
  intros d x y H. unfold is_letter in H. unfold trigraph_rune.
  replace (((x <? 65) || (90 <? x)) || ((y <? 65) || (90 <? y))) with true by lia.
  reflexivity.
Qed.

Lemma trigraph_byte_err : forall d x y, ~ (is_letter x /\ is_letter y) ->
  trigraph_byte (Some d) (Some x) (Some y) = (Some d, Some ErrOutOfRange).
Proof.
  intros d x y H. unfold is_letter in H. unfold trigraph_byte.
  replace (((x <? 65) || (90 <? x)) || ((y <? 65) || (90 <? y))) with true by lia.
  reflexivity.
Qed.

Lemma is_letter_dec : forall c, {is_letter c} + {~ is_letter c}.
Proof.
  intros c. unfold is_letter.
  destruct (Z_le_dec 65 c); [destruct (Z_le_dec c 90)|]; [left|right|right]; lia.
Defined.

Lemma atk_cases : forall s,
  (exists e, append_trigraph_byte_by_key s = (s, Err e)) \/
  (append_trigraph_byte_by_key s = (s, Panic) /\
   exists out c key i, s = mkAtk (Some out) (Some c) (Some key) (Some i) /\
     0 <= i <= len out /\ len key <= i) \/
  (exists out c key i k, s = mkAtk (Some out) (Some c) (Some key) (Some i) /\
     0 <= i <= len out /\ nth_error key (Z.to_nat i) = Some k /\
     is_letter c /\ is_letter k /\
     append_trigraph_byte_by_key s =
       (mkAtk (Some (out ++ [diana_letter c k])) (Some c) (Some key) (Some (i + 1)), Ok tt)).
Proof.
  intros [[out|] [c|] [key|] [i|]];
    try (left; eexists; reflexivity).
  unfold append_trigraph_byte_by_key; cbn [atk_out atk_char atk_key atk_index].
  destruct (i <? 0) eqn:E1; [left; eexists; reflexivity|].
  destruct (len out <? i) eqn:E2; [left; eexists; reflexivity|].
  destruct (nth_error key (Z.to_nat i)) as [k|] eqn:E3.
  - destruct (is_letter_dec c) as [Hc|Hc]; [destruct (is_letter_dec k) as [Hk|Hk]|].
    + rewrite trigraph_byte_ok by assumption.
      right; right. exists out, c, key, i, k. repeat split; auto; try lia; apply Hc || apply Hk.
    + rewrite trigraph_byte_err by tauto. left; eexists; reflexivity.
    + rewrite trigraph_byte_err by tauto. left; eexists; reflexivity.
  - right; left. split; [reflexivity|].
    exists out, c, key, i. apply nth_error_None in E3. unfold len in *. repeat split; lia.
Qed.

Lemma c01_symmetric_lemma : forall d x k,
  trigraph_rune (Some d) (Some x) (Some k) = trigraph_rune (Some d) (Some k) (Some x).
Proof.
  intros d x k.
  destruct (is_letter_dec x) as [Hx|Hx]; [destruct (is_letter_dec k) as [Hk|Hk]|].
  - rewrite !trigraph_rune_ok by assumption. rewrite diana_letter_comm. reflexivity.
  - rewrite !trigraph_rune_err by tauto. reflexivity.
  - rewrite !trigraph_rune_err by tauto. reflexivity.
Qed.

Lemma c01_reciprocal_lemma : forall d1 d2 x k c, is_letter x -> is_letter k ->
  trigraph_rune (Some d1) (Some k) (Some x) = (Some c, None) ->
  trigraph_rune (Some d2) (Some k) (Some c) = (Some x, None).
Proof.
  intros d1 d2 x k c Hx Hk H. rewrite trigraph_rune_ok in H by assumption.
  injection H as <-.
  rewrite trigraph_rune_ok by (assumption || apply diana_letter_letter).
  rewrite diana_letter_invol by assumption. reflexivity.
Qed.

Lemma c01_text_lemma : forall key text, letters key -> letters text ->
  (length text <= length key)%nat ->
  letters (diana_text key text) /\ length (diana_text key text) = length text /\
  diana_text key (diana_text key text) = text.
Proof.
  intros key text Hk Ht Hl. split; [apply diana_text_letters|].
  split; [apply diana_text_length; assumption|apply diana_text_invol; assumption].
Qed.

Lemma c02_lemma : forall text cipher,
  letters text -> letters cipher -> length cipher = length text ->
  exists! key, (letters key /\ length key = length text) /\ diana_text key text = cipher.
Proof.
  intros text cipher Ht Hc L.
  destruct (diana_text_key_exists text cipher Ht Hc L) as (key & K1 & K2 & K3).
  exists key. split; [repeat split; assumption|].
  intros key' [[K1' K2'] K3'].
  apply diana_text_key_unique with (text := text); try assumption. congruence.
Qed.

Lemma c03_rune_lemma : forall d x k,
  (exists v, trigraph_rune d x k = (Some v, None)) /\
     (exists dv a b, d = Some dv /\ x = Some a /\ k = Some b /\ is_letter a /\ is_letter b)
  \/ (exists e, trigraph_rune d x k = (d, Some e)) /\
     ~ (exists dv a b, d = Some dv /\ x = Some a /\ k = Some b /\ is_letter a /\ is_letter b).
Proof.
  intros [dv|] [a|] [b|];
    try (right; split; [eexists; reflexivity|
      intros (? & ? & ? & H1 & H2 & H3 & _); congruence]).
  destruct (is_letter_dec a) as [Ha|Ha]; [destruct (is_letter_dec b) as [Hb|Hb]|].
  - left. split; [eexists; apply trigraph_rune_ok; assumption|].
    exists dv, a, b. auto.
  - right. split; [eexists; apply trigraph_rune_err; tauto|].
    intros (? & ? & ? & H1 & H2 & H3 & H4 & H5). injection H2 as <-. injection H3 as <-. tauto.
  - right. split; [eexists; apply trigraph_rune_err; tauto|].
    intros (? & ? & ? & H1 & H2 & H3 & H4 & H5). injection H2 as <-. injection H3 as <-. tauto.
Qed.

Lemma c03_agree_lemma : forall d x k, trigraph_byte d x k = trigraph_rune d x k.
Proof.
  intros [dv|] [a|] [b|]; try reflexivity.
  destruct (is_letter_dec a) as [Ha|Ha]; [destruct (is_letter_dec b) as [Hb|Hb]|].
  - rewrite trigraph_byte_ok, trigraph_rune_ok by assumption. reflexivity.
  - rewrite trigraph_byte_err, trigraph_rune_err by tauto. reflexivity.
  - rewrite trigraph_byte_err, trigraph_rune_err by tauto. reflexivity.
Qed.

Lemma c03_byte_lemma : forall d x k,
  (exists v, trigraph_byte d x k = (Some v, None)) /\
     (exists dv a b, d = Some dv /\ x = Some a /\ k = Some b /\ is_letter a /\ is_letter b)
  \/ (exists e, trigraph_byte d x k = (d, Some e)) /\
     ~ (exists dv a b, d = Some dv /\ x = Some a /\ k = Some b /\ is_letter a /\ is_letter b).
Proof. intros d x k. rewrite c03_agree_lemma. apply c03_rune_lemma. Qed.

Lemma c04_lemma : forall d c, is_letter c ->
  exists z, zero_key_rune (Some d) (Some c) = (Some z, None) /\
    zero_key_byte (Some d) (Some c) = (Some z, None) /\ is_letter z /\
    (forall k d', is_letter k ->
       (trigraph_rune (Some d') (Some k) (Some c) = (Some c, None) <-> k = z)).
Proof.
  intros d c Hc. exists (diana_letter c c).
  unfold zero_key_rune, zero_key_byte.
  split; [apply trigraph_rune_ok; assumption|].
  split; [apply trigraph_byte_ok; assumption|].
  split; [apply diana_letter_letter|].
  intros k d' Hk. rewrite trigraph_rune_ok by assumption. split; intros H.
  - injection H as H. unfold is_letter, diana_letter in *. lia.
  - subst k. f_equal. f_equal. unfold is_letter, diana_letter in *. lia.
Qed.

Lemma c05_refuted_lemma : exists out c key i,
  0 <= i <= len out /\
  append_trigraph_byte_by_key (mkAtk (Some out) (Some c) (Some key) (Some i)) =
    (mkAtk (Some out) (Some c) (Some key) (Some i), Panic).
Proof. exists [65; 66], 67, [68], 1. split; [unfold len; cbn; lia|reflexivity]. Qed.

Lemma c05_partial_lemma : forall s,
  (append_trigraph_byte_by_key s = (s, Panic) <->
     exists out c key i, s = mkAtk (Some out) (Some c) (Some key) (Some i) /\
       0 <= i <= len out /\ len key <= i) /\
  (forall s' r, append_trigraph_byte_by_key s = (s', r) -> r <> Panic ->
     (exists e, r = Err e /\ s' = s) \/
     (r = Ok tt /\ exists out c key i k,
        s = mkAtk (Some out) (Some c) (Some key) (Some i) /\
        nth_error key (Z.to_nat i) = Some k /\ 0 <= i /\
        s' = mkAtk (Some (out ++ [diana_letter c k])) (Some c) (Some key) (Some (i + 1)))).
Proof.
  intros s. split.
  - split.
    + intros H. destruct (atk_cases s) as [(e & E)|[(E & W)|(out & c & key & i & k & E1 & E2 & E3 & E4 & E5 & E6)]].
      * rewrite E in H. discriminate.
      * exact W.
      * rewrite E6 in H. discriminate.
    + intros (out & c & key & i & -> & H1 & H2).
      unfold append_trigraph_byte_by_key; cbn [atk_out atk_char atk_key atk_index].
      replace (i <? 0) with false by lia. replace (len out <? i) with false by lia.
      assert (N : nth_error key (Z.to_nat i) = None)
        by (apply nth_error_None; unfold len in *; lia).
      rewrite N. reflexivity.
  - intros s' r H NP.
    destruct (atk_cases s) as [(e & E)|[(E & W)|(out & c & key & i & k & E1 & E2 & E3 & E4 & E5 & E6)]].
    + rewrite E in H. injection H as <- <-. left. exists e. auto.
    + rewrite E in H. injection H as <- <-. congruence.
    + rewrite E6 in H. injection H as <- <-. right. split; [reflexivity|].
      exists out, c, key, i, k. repeat split; auto; lia.
Qed.

Lemma c05_works_lemma : forall out c key i k,
  0 <= i <= len out -> nth_error key (Z.to_nat i) = Some k -> is_letter c -> is_letter k ->
  append_trigraph_byte_by_key (mkAtk (Some out) (Some c) (Some key) (Some i)) =
    (mkAtk (Some (out ++ [diana_letter c k])) (Some c) (Some key) (Some (i + 1)), Ok tt).
Proof.
  intros out c key i k Hi Hk Hc Hl.
  unfold append_trigraph_byte_by_key; cbn [atk_out atk_char atk_key atk_index].
  replace (i <? 0) with false by lia. replace (len out <? i) with false by lia.
  rewrite Hk, trigraph_byte_ok by assumption. reflexivity.
Qed.

Definition header_ok (c : nat) : bool :=
  match nth_error reciprocal_table 0 with
  | Some h => match cell h c with
              | Some (a, b) => (a =? 65 + Z.of_nat c) && (b =? 32)
              | None => false
              end
  | None => false
  end.

Lemma header_cells : forall c, (c < 26)%nat -> header_ok c = true.
Proof.
  assert (H : forallb header_ok (seq 0 26) = true) by (vm_compute; reflexivity).
  intros c Hc. rewrite forallb_forall in H. apply H. rewrite in_seq. lia.
Qed.

Lemma c06_lemma : forall r c, (r < 26)%nat -> (c < 26)%nat ->
  exists header line, nth_error reciprocal_table 0 = Some header /\
    nth_error reciprocal_table (S r) = Some line /\
    cell header c = Some (65 + Z.of_nat c, 32) /\
    exists x, trigraph_byte (Some 0) (Some (65 + Z.of_nat r)) (Some (65 + Z.of_nat c)) = (Some x, None)
      /\ cell line c = Some (65 + Z.of_nat r, x + 32).
Proof.
  intros r c Hr Hc.
  pose proof (header_cells c Hc) as H1. pose proof (table_cells r c Hr Hc) as H2.
  unfold header_ok in H1. unfold cell_ok in H2.
  destruct (nth_error reciprocal_table 0) as [h|]; [|discriminate].
  destruct (nth_error reciprocal_table (S r)) as [line|]; [|discriminate].
  exists h, line. split; [reflexivity|]. split; [reflexivity|].
  destruct (cell h c) as [[a b]|]; [|discriminate].
  destruct (cell line c) as [[a' b']|]; [|discriminate].
  apply andb_true_iff in H1. destruct H1 as [H1 H1'].
  apply andb_true_iff in H2. destruct H2 as [H2 H2'].
  apply Z.eqb_eq in H1, H1', H2, H2'. subst a b a' b'.
  split; [reflexivity|].
  exists (diana_letter (65 + Z.of_nat r) (65 + Z.of_nat c)).
  split; [apply trigraph_byte_ok; unfold is_letter; lia|reflexivity].
Qed.

Lemma c06_size_lemma : length reciprocal_table = 27%nat /\
  forall line, In line reciprocal_table -> (length (runes line) = 78 \/ length (runes line) = 77)%nat.
Proof.
  split; [reflexivity|].
  assert (H : forallb (fun l => Nat.eqb (length (runes l)) 78 || Nat.eqb (length (runes l)) 77)
    reciprocal_table = true) by (vm_compute; reflexivity).
  intros line Hin. rewrite forallb_forall in H. specialize (H line Hin). lia.
Qed.
