(** Lemmas about looking up and marking keys. *)
From Verif Require Import Base Spec Model_Unicode Model_Functions Model_Types Model_Cipher.

(** *** Equality of texts *)
Lemma runes_eqb_spec : forall a b, runes_eqb a b = true <-> a = b.
Proof.
  induction a as [|x a IH]; intros [|y b]; cbn [runes_eqb]; split; intros H;
    try reflexivity; try discriminate.
  - apply andb_true_iff in H. destruct H as [H1 H2]. apply IH in H2. f_equal; [lia|assumption].
  - injection H as -> ->. rewrite Z.eqb_refl. cbn. apply IH. reflexivity.
Qed.

Lemma combine_eq : forall a b : list Z, length a = length b ->
  forallb (fun p => fst p =? snd p) (combine a b) = true -> a = b.
Proof.
  induction a as [|x a IH]; intros [|y b] L H; try reflexivity; try discriminate.
  cbn in H. apply andb_true_iff in H. destruct H as [H1 H2].
  f_equal; [lia|]. apply IH; [cbn in L; lia|assumption].
Qed.

Lemma combine_refl : forall a : list Z,
  forallb (fun p => fst p =? snd p) (combine a a) = true.
Proof. induction a as [|x a IH]; [reflexivity|]. cbn. rewrite Z.eqb_refl. exact IH. Qed.

Lemma equal_runes_spec : forall a b, equal_runes (Some a) (Some b) = true <-> a = b.
Proof.
  intros a b. unfold equal_runes, len. split; intros H.
  - destruct (Z.of_nat (length a) =? Z.of_nat (length b)) eqn:E; [|discriminate].
    cbn [negb] in H. apply combine_eq; [lia|exact H].
  - subst b. rewrite Z.eqb_refl. cbn [negb]. apply combine_refl.
Qed.

Lemma existsb_equal : forall n hs,
  existsb (fun h => equal_runes (Some h) (Some n)) hs = true <-> In n hs.
Proof.
  intros n hs. rewrite existsb_exists. split.
  - intros (h & H1 & H2). apply equal_runes_spec in H2. subst h. exact H1.
  - intros H. exists n. split; [exact H|]. apply equal_runes_spec. reflexivity.
Qed.

Lemma all_needles_spec : forall U ns hs, all_needles U (Some ns) (Some hs) false = true <->
  ns <> [] /\ hs <> [] /\ incl ns hs.
Proof.
  intros U ns hs. unfold all_needles. unfold len.
  destruct ns as [|n ns]; [cbn; split; [discriminate|tauto]|].
  destruct hs as [|h hs]; [cbn; split; [discriminate|tauto]|].
  replace ((Z.of_nat (length (n :: ns)) =? 0) || (Z.of_nat (length (h :: hs)) =? 0)) with false
    by (cbn [length]; lia).
  rewrite forallb_forall. split.
  - intros H. split; [discriminate|]. split; [discriminate|].
    intros x Hx. apply existsb_equal. apply (H x Hx).
  - intros (_ & _ & H) x Hx. apply existsb_equal. apply (H x Hx).
Qed.

(** *** FindKey *)
Section WithU.
Context (U : Uni).

Definition eligibleb (gs : Z) (recips : list (list rune)) (k : key) : bool :=
  negb (kused k) && (len (kid k) =? gs) &&
  (if len recips =? 0 then len (kkeepers k) =? 0
   else all_needles U (Some recips) (Some (kkeepers k)) false).

Lemma len_nil : forall A (l : list A), (len l =? 0) = true <-> l = [].
Proof. intros A [|x l]; unfold len; cbn [length]; split; intros; try reflexivity; try discriminate; lia. Qed.

Lemma eligibleb_spec : forall gs recips k,
  eligibleb gs recips k = true <-> eligible gs recips k.
Proof.
  intros gs recips k. unfold eligibleb, eligible, for_recipients.
  rewrite !andb_true_iff, negb_true_iff, Z.eqb_eq.
  destruct recips as [|r recips].
  - cbn [len length Z.of_nat Z.eqb]. change (len (@nil (list Z)) =? 0) with true. cbn iota.
    rewrite len_nil. tauto.
  - replace (len (r :: recips) =? 0) with false by (unfold len; cbn [length]; lia).
    rewrite all_needles_spec. split.
    + tauto.
    + intros (A & B & C). repeat split; auto; [discriminate|].
      intros N. rewrite N in C. apply (C r). left. reflexivity.
Qed.

Lemma find_key_loop_step : forall gs recips k ks i,
  find_key_loop U gs recips (k :: ks) i =
  if eligibleb gs recips k then Some i else find_key_loop U gs recips ks (S i).
Proof.
  intros. cbn [find_key_loop]. unfold eligibleb.
  destruct (kused k); [reflexivity|]. cbn [negb andb].
  destruct (len (kid k) =? gs); [|reflexivity]. cbn [negb andb].
  destruct (len recips =? 0); [|reflexivity].
  reflexivity.
Qed.

Lemma find_key_loop_some : forall gs recips ks i j,
  find_key_loop U gs recips ks i = Some j ->
  (i <= j)%nat /\ exists k, nth_error ks (j - i) = Some k /\ eligible gs recips k /\
  forall j' k', (j' < j - i)%nat -> nth_error ks j' = Some k' -> ~ eligible gs recips k'.
Proof.
  induction ks as [|k ks IH]; intros i j H; [discriminate|].
  rewrite find_key_loop_step in H.
  destruct (eligibleb gs recips k) eqn:E.
  - injection H as <-. split; [lia|]. exists k. rewrite Nat.sub_diag. cbn.
    split; [reflexivity|]. split; [apply eligibleb_spec; exact E|]. intros j' k' L. lia.
  - apply IH in H. destruct H as (L & k1 & H1 & H2 & H3). split; [lia|].
    replace (j - i)%nat with (S (j - S i)) by lia. exists k1. split; [exact H1|].
    split; [exact H2|]. intros [|j'] k' L' N.
    + cbn in N. injection N as <-. rewrite <- eligibleb_spec. congruence.
    + apply (H3 j' k'); [lia|exact N].
Qed.

Lemma find_key_loop_none : forall gs recips ks i,
  find_key_loop U gs recips ks i = None -> forall k, In k ks -> ~ eligible gs recips k.
Proof.
  induction ks as [|k ks IH]; intros i H k' Hin; [contradiction|].
  rewrite find_key_loop_step in H.
  destruct (eligibleb gs recips k) eqn:E; [discriminate|].
  destruct Hin as [->|Hin]; [rewrite <- eligibleb_spec; congruence|].
  apply (IH (S i) H k' Hin).
Qed.

Lemma find_key_some : forall gs recips ks j, find_key U gs recips ks = Some j ->
  exists k, nth_error ks j = Some k /\ eligible gs recips k /\
  forall j' k', (j' < j)%nat -> nth_error ks j' = Some k' -> ~ eligible gs recips k'.
Proof.
  intros gs recips ks j H. apply find_key_loop_some in H.
  rewrite Nat.sub_0_r in H. apply H.
Qed.

Lemma find_key_none : forall gs recips ks, find_key U gs recips ks = None ->
  forall k, In k ks -> ~ eligible gs recips k.
Proof. intros gs recips ks H. apply (find_key_loop_none _ _ _ _ H). Qed.

(** *** IDs of letters as queries *)
Lemma letter_not_space : forall c, is_letter c -> is_space U c = false.
Proof.
  intros c H. unfold is_letter in H. unfold is_space, in_latin1.
  replace ((0 <=? c) && (c <=? 255)) with true by lia. lia.
Qed.
Lemma letter_upper : forall c, is_letter c -> to_upper U c = c.
Proof.
  intros c H. unfold is_letter in H. unfold to_upper, in_latin1.
  replace ((0 <=? c) && (c <=? 255)) with true by lia.
  replace ((97 <=? c) && (c <=? 122)) with false by lia.
  replace (c =? 181) with false by lia.
  replace ((224 <=? c) && (c <=? 254) && negb (c =? 247)) with false by lia.
  replace (c =? 255) with false by lia. reflexivity.
Qed.
Lemma letter_valid : forall c, is_letter c -> valid_rune c = true.
Proof. intros c H. unfold is_letter in H. unfold valid_rune. lia. Qed.

Lemma go_string_letters : forall s, letters s -> go_string s = s.
Proof.
  induction 1 as [|c s H _ IH]; [reflexivity|]. cbn [go_string map].
  rewrite letter_valid by assumption. f_equal. exact IH.
Qed.

Lemma drop_while_letters : forall s, letters s -> drop_while (is_space U) s = s.
Proof.
  intros [|c s] H; [reflexivity|]. cbn [drop_while]. inversion H; subst.
  rewrite letter_not_space by assumption. reflexivity.
Qed.
Lemma trim_space_letters : forall s, letters s -> trim_space U s = s.
Proof.
  intros s H. unfold trim_space. rewrite (drop_while_letters s H).
  rewrite drop_while_letters; [apply rev_involutive|].
  apply Forall_rev. exact H.
Qed.
Lemma str_upper_letters : forall s, letters s -> str_upper U s = s.
Proof.
  induction 1 as [|c s H _ IH]; [reflexivity|]. cbn. rewrite letter_upper by assumption.
  f_equal. exact IH.
Qed.
Lemma key_query_letters : forall s, letters s -> key_query U s = s.
Proof.
  intros s H. unfold key_query. rewrite go_string_letters, trim_space_letters by assumption.
  apply str_upper_letters. exact H.
Qed.

(** *** GetKey *)
Lemma get_key_loop_some : forall q ks i j, get_key_loop q ks i = Some j ->
  (i <= j)%nat /\ exists k, nth_error ks (j - i) = Some k /\ q = go_string (kid k).
Proof.
  induction ks as [|k ks IH]; intros i j H; [discriminate|]. cbn [get_key_loop] in H.
  destruct (runes_eqb q (go_string (kid k))) eqn:E.
  - injection H as <-. split; [lia|]. exists k. rewrite Nat.sub_diag. split; [reflexivity|].
    apply runes_eqb_spec. exact E.
  - apply IH in H. destruct H as (L & k1 & H1 & H2). split; [lia|].
    replace (j - i)%nat with (S (j - S i)) by lia. exists k1. auto.
Qed.
Lemma get_key_loop_none : forall q ks i, get_key_loop q ks i = None ->
  forall k, In k ks -> q <> go_string (kid k).
Proof.
  induction ks as [|k ks IH]; intros i H k' Hin; [contradiction|]. cbn [get_key_loop] in H.
  destruct (runes_eqb q (go_string (kid k))) eqn:E; [discriminate|].
  destruct Hin as [->|Hin].
  - intros N. apply runes_eqb_spec in N. congruence.
  - apply (IH (S i) H k' Hin).
Qed.

Lemma store_ok_index : forall gs ks i j k k', store_ok gs ks ->
  nth_error ks i = Some k -> nth_error ks j = Some k' -> kid k = kid k' -> i = j.
Proof.
  intros gs ks i j k k' (ND & _) Hi Hj E.
  apply (proj1 (NoDup_nth_error (map kid ks)) ND).
  - rewrite map_length. apply nth_error_Some. congruence.
  - rewrite !nth_error_map, Hi, Hj. cbn. congruence.
Qed.

Lemma get_key_letters : forall gs ks id j, store_ok gs ks -> letters id ->
  get_key U id ks = Some j -> exists k, nth_error ks j = Some k /\ kid k = id.
Proof.
  intros gs ks id j Hs Hl H. unfold get_key in H. rewrite key_query_letters in H by assumption.
  apply get_key_loop_some in H. destruct H as (_ & k & H1 & H2). rewrite Nat.sub_0_r in H1.
  exists k. split; [exact H1|].
  destruct (proj2 Hs k) as (L1 & _); [apply nth_error_In in H1; exact H1|].
  rewrite go_string_letters in H2 by assumption. congruence.
Qed.

Lemma get_key_found : forall gs ks i k, store_ok gs ks -> nth_error ks i = Some k ->
  get_key U (kid k) ks = Some i.
Proof.
  intros gs ks i k Hs Hi.
  assert (Hin : In k ks) by (apply nth_error_In in Hi; exact Hi).
  destruct (proj2 Hs k Hin) as (L1 & _).
  destruct (get_key U (kid k) ks) as [j|] eqn:E.
  - destruct (get_key_letters gs ks _ j Hs L1 E) as (k' & H1 & H2).
    f_equal. apply (store_ok_index gs ks j i k' k Hs H1 Hi H2).
  - unfold get_key in E. rewrite key_query_letters in E by assumption.
    exfalso. apply (get_key_loop_none _ _ _ E k Hin).
    rewrite go_string_letters by assumption. reflexivity.
Qed.

Lemma mark_key_used_found : forall gs ks i k b, store_ok gs ks -> nth_error ks i = Some k ->
  mark_key_used U (kid k) b ks = (mark ks i b, Ok tt).
Proof.
  intros gs ks i k b Hs Hi. unfold mark_key_used.
  pose proof (get_key_found gs ks i k Hs Hi) as E. unfold get_key in E. rewrite E. reflexivity.
Qed.

End WithU.

(** *** list_update and mark *)
Lemma list_update_length : forall A (l : list A) i x, length (list_update l i x) = length l.
Proof. induction l as [|y l IH]; intros [|i] x; cbn; auto. Qed.

Lemma nth_error_update : forall A (l : list A) i x j,
  nth_error (list_update l i x) j =
  if Nat.eqb i j then match nth_error l j with Some _ => Some x | None => None end
  else nth_error l j.
Proof.
  induction l as [|y l IH]; intros i x j.
  - destruct i, j; cbn; try reflexivity. destruct (Nat.eqb i j); reflexivity.
  - destruct i as [|i], j as [|j]; cbn [list_update nth_error Nat.eqb]; try reflexivity.
    apply IH.
Qed.

Lemma mark_length : forall ks i b, length (mark ks i b) = length ks.
Proof. intros. unfold mark. destruct (nth_error ks i); [apply list_update_length|reflexivity]. Qed.

Lemma nth_error_mark : forall ks i b j,
  nth_error (mark ks i b) j =
  if Nat.eqb i j then option_map (fun k => set_used k b) (nth_error ks j)
  else nth_error ks j.
Proof.
  intros ks i b j. unfold mark. destruct (nth_error ks i) as [k|] eqn:E.
  - rewrite nth_error_update. destruct (Nat.eqb i j) eqn:Q; [|reflexivity].
    apply Nat.eqb_eq in Q. subst j. rewrite E. reflexivity.
  - destruct (Nat.eqb i j) eqn:Q; [|reflexivity].
    apply Nat.eqb_eq in Q. subst j. rewrite E. reflexivity.
Qed.

Lemma nth_error_ext : forall A (l l' : list A),
  (forall i, nth_error l i = nth_error l' i) -> l = l'.
Proof.
  induction l as [|x l IH]; intros [|y l'] H.
  - reflexivity.
  - specialize (H 0%nat). discriminate.
  - specialize (H 0%nat). discriminate.
  - f_equal; [specialize (H 0%nat); cbn in H; congruence|].
    apply IH. intros i. apply (H (S i)).
Qed.

Lemma same_but_used_mark : forall ks i b, same_but_used (mark ks i b) ks.
Proof.
  intros ks i b. apply nth_error_ext. intros j. rewrite !nth_error_map, nth_error_mark.
  destruct (Nat.eqb i j); [|reflexivity]. destruct (nth_error ks j); reflexivity.
Qed.

Lemma same_but_used_refl : forall ks, same_but_used ks ks.
Proof. reflexivity. Qed.
Lemma same_but_used_sym : forall a b, same_but_used a b -> same_but_used b a.
Proof. unfold same_but_used. congruence. Qed.
Lemma same_but_used_trans : forall a b c, same_but_used a b -> same_but_used b c -> same_but_used a c.
Proof. unfold same_but_used. congruence. Qed.

Lemma same_but_used_nth : forall a b i k, same_but_used a b -> nth_error a i = Some k ->
  exists k', nth_error b i = Some k' /\ set_used k' false = set_used k false.
Proof.
  intros a b i k H N. unfold same_but_used in H.
  assert (E : nth_error (map (fun k => set_used k false) a) i
            = nth_error (map (fun k => set_used k false) b) i) by congruence.
  rewrite !nth_error_map, N in E. destruct (nth_error b i) as [k'|]; [|discriminate].
  exists k'. split; [reflexivity|]. cbn in E. congruence.
Qed.

Lemma set_used_fields : forall k k', set_used k false = set_used k' false ->
  kid k = kid k' /\ krunes k = krunes k' /\ kkeepers k = kkeepers k' /\
  kcreated k = kcreated k' /\ kexpires k = kexpires k' /\ kcompromised k = kcompromised k' /\
  kcomment k = kcomment k'.
Proof. intros [] [] H. cbn in *. injection H. intros. subst. auto 10. Qed.

Lemma set_used_same : forall k, set_used k (kused k) = k.
Proof. intros []. reflexivity. Qed.

Lemma set_used_eq : forall k k', set_used k false = set_used k' false -> kused k = kused k' -> k = k'.
Proof. intros [] [] H1 H2. cbn in *. injection H1. intros. subst. reflexivity. Qed.

Lemma same_but_used_store : forall gs a b, same_but_used a b -> store_ok gs a -> store_ok gs b.
Proof.
  intros gs a b H (H1 & H2).
  assert (E : map kid b = map kid a).
  { transitivity (map kid (map (fun k => set_used k false) b)).
    - rewrite map_map. reflexivity.
    - rewrite <- H, map_map. reflexivity. }
  split; [rewrite E; exact H1|].
  intros k Hin. apply In_nth_error in Hin. destruct Hin as (i & Hi).
  destruct (same_but_used_nth b a i k (same_but_used_sym _ _ H) Hi) as (k' & N & Q).
  apply set_used_fields in Q. destruct Q as (Q1 & Q2 & _).
  apply nth_error_In in N. specialize (H2 k' N). rewrite Q1, Q2 in H2. exact H2.
Qed.
