(** Concrete data for the examples and refutations beside the property
    theorems. *)
From Verif Require Import Base Spec Model_Unicode Model_Crand Model_Types.
From Coq Require Import Ascii String.

Fixpoint str (s : string) : list Z :=
  match s with
  | EmptyString => nil
  | String a s' => Z.of_N (N_of_ascii a) :: str s'
  end.

(** [n] letters, [s] selects the sequence. *)
Definition ex_runes (s : Z) (n : nat) : list rune :=
  List.map (fun i => 65 + (Z.of_nat i * Z.of_nat i * 7 + Z.of_nat i * s + s) mod 26) (seq 0 n).

Definition ex_key (id : list rune) (s : Z) (n : nat) (keepers : list (list rune)) : key :=
  mkKey id (ex_runes s n) keepers 0 0 false false nil.

Definition idA := Eval compute in str "ALPHA"%string.
Definition idB := Eval compute in str "BRAVO"%string.
Definition idC := Eval compute in str "CHARL"%string.
Definition idD := Eval compute in str "DELTA"%string.
Definition callVQ := Eval compute in str "VQ"%string.
Definition callOS := Eval compute in str "OS"%string.
Definition mid1 := Eval compute in str "a1B2"%string.
Definition mid2 := Eval compute in str "zZ9x"%string.
Definition txt_hello := Eval compute in str "Hello 73, QTH 58.6/12?"%string.
Definition txt_other := Eval compute in str "ATTACK AT DAWN"%string.
Definition txt_long := Eval compute in str "MOVE 2 units to grid 33V-58. Over"%string.
Definition txt_primary := Eval compute in str "WE MOVE AT DAWN TO THE NORTH SIDE OF THE RIVER"%string.
Definition txt_bad := Eval compute in str "HELLO!"%string.

Lemma uni_id_ok : uni_ok uni_id.
Proof. intros r H _ _. exact H. Qed.
Lemma uni_id_idem : uni_upper_idem uni_id.
Proof.
  intros r. unfold to_upper at 2 3. unfold uni_id, u_upper, in_latin1.
  destruct ((0 <=? r) && (r <=? 255)) eqn:E.
  - destruct ((97 <=? r) && (r <=? 122)) eqn:A.
    { unfold to_upper, in_latin1. replace ((0 <=? r - 32) && (r - 32 <=? 255)) with true by lia.
      replace ((97 <=? r - 32) && (r - 32 <=? 122)) with false by lia.
      replace (r - 32 =? 181) with false by lia.
      replace ((224 <=? r - 32) && (r - 32 <=? 254) && negb (r - 32 =? 247)) with false by lia.
      replace (r - 32 =? 255) with false by lia. reflexivity. }
    destruct (r =? 181) eqn:B; [reflexivity|].
    destruct ((224 <=? r) && (r <=? 254) && negb (r =? 247)) eqn:C.
    { unfold to_upper, in_latin1. replace ((0 <=? r - 32) && (r - 32 <=? 255)) with true by lia.
      replace ((97 <=? r - 32) && (r - 32 <=? 122)) with false by lia.
      replace (r - 32 =? 181) with false by lia.
      replace ((224 <=? r - 32) && (r - 32 <=? 254) && negb (r - 32 =? 247)) with false by lia.
      replace (r - 32 =? 255) with false by lia. reflexivity. }
    destruct (r =? 255) eqn:D; [reflexivity|].
    unfold to_upper, in_latin1. rewrite E, A, B, C, D. reflexivity.
  - destruct (r =? 305) eqn:A; [reflexivity|]. destruct (r =? 383) eqn:B; [reflexivity|].
    unfold to_upper, in_latin1. rewrite E, A, B. reflexivity.
Qed.
Lemma uni_id_space : uni_space_upper uni_id.
Proof.
  intros r. unfold is_space at 2, to_upper, in_latin1.
  destruct ((0 <=? r) && (r <=? 255)) eqn:E.
  - destruct ((97 <=? r) && (r <=? 122)) eqn:A.
    { unfold is_space, in_latin1. replace ((0 <=? r - 32) && (r - 32 <=? 255)) with true by lia. lia. }
    destruct (r =? 181) eqn:B; [cbn; lia|].
    destruct ((224 <=? r) && (r <=? 254) && negb (r =? 247)) eqn:C.
    { unfold is_space, in_latin1. replace ((0 <=? r - 32) && (r - 32 <=? 255)) with true by lia. lia. }
    destruct (r =? 255) eqn:D; [cbn; lia|].
    unfold is_space, in_latin1. rewrite E. reflexivity.
  - destruct (r =? 305) eqn:A; [reflexivity|]. destruct (r =? 383) eqn:B; [reflexivity|].
    cbn. unfold is_space, in_latin1. rewrite E, A, B. reflexivity.
Qed.

Definition ex_keys : list key :=
  [ex_key idA 3 40 [callVQ]; ex_key idB 5 40 [callVQ]; ex_key idC 11 40 [callVQ]; ex_key idD 2 40 nil].

Definition ex_inst (ks : list key) : inst := mkInst 5 40 110 80 ks nil callOS.
Definition ex_msg (text keyid : list rune) : msg :=
  mkMsg mid1 [callVQ] callOS 0 keyid text nil nil nil.
Definition ex_received (keyid cipher : list rune) : msg :=
  mkMsg mid2 nil nil 0 keyid nil nil cipher nil.

(** A working random source for the examples: 64 words. *)
Definition ex_tape : tape :=
  List.map (fun i => (Z.of_nat i * 2654435761 * 6364136223846793005 + 88172645463325252) mod 2 ^ 64) (seq 1 64).

(** Deciding [letters], [store_ok], [eligible] on concrete data. *)
Definition lettersb (s : list rune) : bool := forallb (fun c => (65 <=? c) && (c <=? 90)) s.
Lemma lettersb_ok : forall s, lettersb s = true -> letters s.
Proof.
  intros s H. unfold lettersb in H. rewrite forallb_forall in H. apply Forall_forall.
  intros c Hc. specialize (H c Hc). unfold is_letter. lia.
Qed.

Fixpoint nodupb (l : list (list rune)) : bool :=
  match l with
  | nil => true
  | x :: l' => negb (existsb (runes_eqb x) l') && nodupb l'
  end.
Lemma runes_eqb_refl : forall s, runes_eqb s s = true.
Proof. induction s as [|c s IH]; [reflexivity|]. cbn. rewrite Z.eqb_refl. exact IH. Qed.
Lemma nodupb_ok : forall l, nodupb l = true -> NoDup l.
Proof.
  induction l as [|x l IH]; intros H; [constructor|]. cbn in H.
  apply andb_true_iff in H. destruct H as (H1 & H2). constructor; [|auto].
  intros Hin. apply negb_true_iff in H1.
  assert (Q : existsb (runes_eqb x) l = true).
  { apply existsb_exists. exists x. split; [exact Hin|apply runes_eqb_refl]. }
  congruence.
Qed.
Definition store_okb (gs : Z) (ks : list key) : bool :=
  nodupb (List.map kid ks) &&
  forallb (fun k => lettersb (kid k) && (len (kid k) =? gs) && lettersb (krunes k)) ks.
Lemma store_okb_ok : forall gs ks, store_okb gs ks = true -> store_ok gs ks.
Proof.
  intros gs ks H. unfold store_okb in H. apply andb_true_iff in H. destruct H as (H1 & H2).
  split; [apply nodupb_ok; exact H1|]. rewrite forallb_forall in H2.
  intros k Hk. specialize (H2 k Hk). rewrite !andb_true_iff in H2. destruct H2 as ((H2 & H3) & H4).
  split; [apply lettersb_ok; exact H2|]. split; [lia|apply lettersb_ok; exact H4].
Qed.
