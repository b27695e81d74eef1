(** Lemmas: counting the stores that turn given texts into given ciphertexts. *)
From Coq Require FinFun.
From Verif Require Import Base Spec Spec_Secrecy Model_Unicode Model_Diana Model_Types Model_Cipher Proofs_Diana Proofs_Keys
  Proofs_Encipher Proofs_Secrecy.

(** All words of [n] letters. *)
Definition abc : list rune := map (fun n => 65 + Z.of_nat n) (seq 0 26).
Fixpoint words (n : nat) : list (list rune) :=
  match n with O => [[]] | S n => flat_map (fun c => map (cons c) (words n)) abc end.
Lemma in_abc : forall c, In c abc <-> is_letter c.
Proof.
  intros c. unfold abc, is_letter. rewrite in_map_iff. split.
  - intros (n & <- & H). apply in_seq in H. lia.
  - intros H. exists (Z.to_nat (c - 65)). rewrite in_seq. lia.
Qed.
Lemma abc_nodup : NoDup abc.
Proof. apply FinFun.Injective_map_NoDup; [intros a b; lia|apply seq_NoDup]. Qed.
Lemma flat_map_nodup : forall A B (f : A -> list B) l, NoDup l -> (forall x, In x l -> NoDup (f x)) ->
  (forall x y b, In x l -> In y l -> In b (f x) -> In b (f y) -> x = y) -> NoDup (flat_map f l).
Proof.
  intros A B f l N. induction N as [|x l X N IH]; intros H1 H2; [constructor|]. cbn [flat_map].
  assert (ND : NoDup (flat_map f l)).
  { apply IH; [intros y Y; apply H1; right; exact Y|]. intros y z b Y Z. apply H2; right; assumption. }
  specialize (H1 x (or_introl eq_refl)).
  assert (D : forall b, In b (f x) -> ~ In b (flat_map f l)).
  { intros b Hb I. apply in_flat_map in I. destruct I as (y & Y & I).
    assert (x = y) by (apply (H2 x y b); [left; reflexivity|right; exact Y|exact Hb|exact I]). subst. contradiction. }
  clear - H1 ND D. induction H1 as [|b l' B1 H1 IH]; [exact ND|]. cbn [app]. constructor.
  - rewrite in_app_iff. intros [I|I]; [contradiction|]. exact (D b (or_introl eq_refl) I).
  - apply IH. intros y Y. apply D. right. exact Y.
Qed.
Lemma flat_map_len : forall A B (f : A -> list B) l n, (forall x, In x l -> length (f x) = n) ->
  length (flat_map f l) = (length l * n)%nat.
Proof.
  intros A B f l n H. induction l as [|x l IH]; [reflexivity|]. cbn [flat_map length]. rewrite app_length, IH, (H x) by (auto using in_eq, in_cons). lia.
Qed.
Lemma words_spec : forall n w, In w (words n) <-> letters w /\ length w = n.
Proof.
  induction n as [|n IH]; intros w; cbn [words].
  - split; [intros [<-|[]]; split; [constructor|reflexivity]|]. intros (_ & L). destruct w; [left; reflexivity|discriminate].
  - rewrite in_flat_map. split.
    + intros (c & C & I). apply in_map_iff in I. destruct I as (v & <- & V). apply IH in V. destruct V as (V1 & V2).
      apply in_abc in C. split; [constructor; assumption|cbn; lia].
    + intros (L & N). destruct w as [|c w]; [discriminate|]. inversion L; subst. exists c. split; [apply in_abc; assumption|].
      apply in_map. apply IH. split; [assumption|]. cbn in N. lia.
Qed.
Lemma words_nodup : forall n, NoDup (words n).
Proof.
  induction n as [|n IH]; cbn [words]; [constructor; [intros []|constructor]|].
  apply flat_map_nodup; [exact abc_nodup| |].
  - intros c _. apply FinFun.Injective_map_NoDup; [intros a b E; injection E; auto|exact IH].
  - intros x y b _ _ X Y. apply in_map_iff in X, Y. destruct X as (v & <- & _), Y as (u & E & _). injection E; auto.
Qed.
Lemma words_length : forall n, Z.of_nat (length (words n)) = 26 ^ Z.of_nat n.
Proof.
  induction n as [|n IH]; [reflexivity|]. cbn [words].
  rewrite (flat_map_len _ _ _ _ (length (words n))) by (intros; apply map_length).
  rewrite Nat2Z.inj_succ, Z.pow_succ_r by lia. change (length abc) with 26%nat. lia.
Qed.

(** All refilled stores in which the letters of the key at each position begin
    as given. *)
Definition with_runes (k : key) (r : list rune) : key :=
  mkKey (kid k) r (kkeepers k) (kcreated k) (kexpires k) (kused k) (kcompromised k) (kcomment k).
Fixpoint stores (pre : nat -> list rune) (j : nat) (ks : list key) : list (list key) :=
  match ks with
  | [] => [[]]
  | k :: ks => flat_map (fun w => map (cons (with_runes k (pre j ++ w))) (stores pre (S j) ks))
                 (words (length (krunes k) - length (pre j)))
  end.
Definition pre_ok (pre : nat -> list rune) (j : nat) (ks : list key) : Prop :=
  forall x k, nth_error ks x = Some k -> letters (pre (j + x)%nat) /\ (length (pre (j + x)%nat) <= length (krunes k))%nat.
Lemma pre_ok_cons : forall pre j k ks, pre_ok pre j (k :: ks) ->
  (letters (pre j) /\ (length (pre j) <= length (krunes k))%nat) /\ pre_ok pre (S j) ks.
Proof.
  intros pre j k ks H. split; [specialize (H O k eq_refl); rewrite Nat.add_0_r in H; exact H|].
  intros x k' N. specialize (H (S x) k' N). replace (S j + x)%nat with (j + S x)%nat by lia. exact H.
Qed.
Lemma stores_spec : forall pre ks j ks2, pre_ok pre j ks ->
  (In ks2 (stores pre j ks) <-> refilled ks ks2 /\
     forall x k2, nth_error ks2 x = Some k2 -> firstn (length (pre (j + x)%nat)) (krunes k2) = pre (j + x)%nat).
Proof.
  intros pre ks. induction ks as [|k ks IH]; intros j ks2 P; cbn [stores].
  { split; [intros [<-|[]]; split; [constructor|intros [|x] k2 X; discriminate]|]. intros (H & _). inversion H. left. reflexivity. }
  apply pre_ok_cons in P. destruct P as ((L & LE) & P). rewrite in_flat_map. split.
  - intros (w & W & I). apply words_spec in W. destruct W as (W1 & W2). apply in_map_iff in I. destruct I as (ks3 & <- & I).
    apply (IH (S j) _ P) in I. destruct I as (I1 & I2). split.
    + constructor; [|exact I1]. split; [reflexivity|]. unfold with_runes. cbn [krunes]. split; [apply Forall_app; auto|].
      rewrite app_length. lia.
    + intros [|x] k2 N; cbn [nth_error] in N.
      * injection N as <-. unfold with_runes. cbn [krunes]. rewrite Nat.add_0_r, firstn_app, Nat.sub_diag, firstn_all, firstn_O. apply app_nil_r.
      * replace (j + S x)%nat with (S j + x)%nat by lia. apply I2. exact N.
  - intros (H & F). inversion H as [|k0 k2 ks0 ks3 OL H' E1 E2]; subst. exists (skipn (length (pre j)) (krunes k2)). split.
    + apply words_spec. destruct OL as (_ & O1 & O2). split; [|rewrite skipn_length; lia].
      apply Forall_forall. intros c C. unfold letters in O1; rewrite Forall_forall in O1. apply O1. rewrite <- (firstn_skipn (length (pre j)) (krunes k2)).
      apply in_or_app. right. exact C.
    + apply in_map_iff. exists ks3. split.
      * f_equal. specialize (F O k2 eq_refl). rewrite Nat.add_0_r in F. destruct OL as (OL & _). rewrite <- F at 1.
        rewrite firstn_skipn. symmetry. exact OL.
      * apply IH; [exact P|]. split; [exact H'|]. intros x k' N. replace (S j + x)%nat with (j + S x)%nat by lia. apply F. exact N.
Qed.
Lemma stores_nodup : forall pre ks j, NoDup (stores pre j ks).
Proof.
  intros pre ks. induction ks as [|k ks IH]; intros j; cbn [stores]; [constructor; [intros []|constructor]|].
  apply flat_map_nodup; [apply words_nodup| |].
  - intros w _. apply FinFun.Injective_map_NoDup; [intros a b E; injection E; auto|apply IH].
  - intros x y b _ _ X Y. apply in_map_iff in X, Y. destruct X as (v & <- & _), Y as (u & E & _). injection E as E _.
    apply app_inv_head in E. auto.
Qed.
(** Number of letters given. *)
Fixpoint given (pre : nat -> list rune) (j n : nat) : nat :=
  match n with O => O | S n => (length (pre j) + given pre (S j) n)%nat end.
Lemma stores_length : forall pre ks j, pre_ok pre j ks ->
  Z.of_nat (length (stores pre j ks)) = 26 ^ (key_letters ks - Z.of_nat (given pre j (length ks))) /\
  Z.of_nat (given pre j (length ks)) <= key_letters ks.
Proof.
  intros pre ks. induction ks as [|k ks IH]; intros j P; [cbn; lia|]. apply pre_ok_cons in P. destruct P as ((_ & LE) & P).
  cbn [stores length given]. destruct (IH (S j) P) as (E & B).
  rewrite (flat_map_len _ _ _ _ (length (stores pre (S j) ks))) by (intros; apply map_length).
  unfold key_letters, len in *. cbn [flat_map]. rewrite app_length. split; [|lia].
  rewrite Nat2Z.inj_mul, words_length, E, <- Z.pow_add_r by lia. f_equal. lia.
Qed.
Lemma given_ext : forall f g n j, (forall x, (j <= x < j + n)%nat -> f x = g x) -> given f j n = given g j n.
Proof.
  intros f g n. induction n as [|n IH]; intros j H; [reflexivity|]. cbn [given]. rewrite (H j) by lia. f_equal. apply IH. intros x X. apply H. lia.
Qed.
Lemma given_update : forall f a l n j, (j <= a < j + n)%nat -> f a = [] ->
  given (fun x => if Nat.eqb x a then l else f x) j n = (length l + given f j n)%nat.
Proof.
  intros f a l n. induction n as [|n IH]; intros j H F; [lia|]. cbn [given]. destruct (Nat.eqb j a) eqn:E.
  - apply Nat.eqb_eq in E. subst a. rewrite F. cbn [length]. f_equal. apply given_ext. intros x X.
    destruct (Nat.eqb x j) eqn:E; [apply Nat.eqb_eq in E; lia|reflexivity].
  - apply Nat.eqb_neq in E. rewrite IH by (lia || exact F). lia.
Qed.

(** The ciphertexts cut to the parts of the texts. *)
Definition piece : Type := chunk * list rune.
Definition piece_ok (p : piece) : Prop := letters (snd p) /\ length (snd p) = length (ch_text (fst p)).
Definition fits (F : chunk -> list rune) (p : piece) : Prop := F (fst p) = snd p.
Lemma app_eq_len : forall A (a b c d : list A), length a = length c -> a ++ b = c ++ d -> a = c /\ b = d.
Proof.
  intros A a. induction a as [|x a IH]; intros b [|y c] d L E; cbn [length app] in *; try lia; [auto|].
  injection E as -> E. destruct (IH b c d) as (-> & ->); [lia|exact E|auto].
Qed.
Lemma cut_one : forall ch C, letters C -> length C = length (flat_map ch_text ch) ->
  exists ps, map fst ps = ch /\ Forall piece_ok ps /\
    forall F, (forall c, In c ch -> length (F c) = length (ch_text c)) -> (flat_map F ch = C <-> Forall (fits F) ps).
Proof.
  induction ch as [|c ch IH]; intros C L E; cbn [flat_map] in *.
  { destruct C; [|discriminate]. exists []. split; [reflexivity|]. split; [constructor|]. intros F _. split; constructor. }
  rewrite app_length in E. rewrite <- (firstn_skipn (length (ch_text c)) C) in L. apply Forall_app in L. destruct L as (L1 & L2).
  destruct (IH _ L2) as (ps & M & P & Q); [rewrite skipn_length; lia|].
  exists ((c, firstn (length (ch_text c)) C) :: ps). split; [cbn; congruence|].
  assert (LF : length (firstn (length (ch_text c)) C) = length (ch_text c)) by (rewrite firstn_length; lia).
  split; [constructor; [split; [exact L1|exact LF]|exact P]|].
  intros F HF. specialize (Q F (fun d D => HF d (or_intror D))). specialize (HF c (or_introl eq_refl)).
  rewrite Forall_cons_iff, <- Q. unfold fits at 1. cbn [fst snd]. split.
  - intros X. rewrite <- (firstn_skipn (length (ch_text c)) C) in X. apply app_eq_len in X; [exact X|lia].
  - intros (X & Y). rewrite X, Y. apply firstn_skipn.
Qed.
Lemma cut_all : forall css cs, Forall2 (fun ch C => letters C /\ length C = length (flat_map ch_text ch)) css cs ->
  exists ps, map fst ps = concat css /\ Forall piece_ok ps /\
    forall F, (forall c, In c (concat css) -> length (F c) = length (ch_text c)) ->
      (map (flat_map F) css = cs <-> Forall (fits F) ps).
Proof.
  intros css cs H. induction H as [|ch C css cs (L & E) H (ps & M & P & Q)].
  { exists []. split; [reflexivity|]. split; [constructor|]. intros F _. split; constructor. }
  destruct (cut_one ch C L E) as (ps1 & M1 & P1 & Q1). exists (ps1 ++ ps). cbn [concat map]. split; [rewrite map_app; congruence|].
  split; [apply Forall_app; auto|]. intros F HF. rewrite Forall_app, <- Q1, <- Q.
  - split; [intros X; injection X; auto|]. intros (-> & ->). reflexivity.
  - intros c I. apply HF. apply in_or_app. right. exact I.
  - intros c I. apply HF. apply in_or_app. left. exact I.
Qed.

(** The letters with which each key has to begin. *)
Fixpoint begins (ps : list piece) (j : nat) : list rune :=
  match ps with
  | [] => []
  | p :: ps => if Nat.eqb j (ch_key (fst p)) then diana_text (snd p) (ch_text (fst p)) else begins ps j
  end.
Lemma begins_none : forall ps j, ~ In j (map ch_key (map fst ps)) -> begins ps j = [].
Proof.
  induction ps as [|p ps IH]; intros j H; [reflexivity|]. cbn [begins map] in *. destruct (Nat.eqb j (ch_key (fst p))) eqn:E.
  - apply Nat.eqb_eq in E. exfalso. apply H. left. auto.
  - apply IH. intros I. apply H. right. exact I.
Qed.
Lemma begins_in : forall ps p, NoDup (map ch_key (map fst ps)) -> In p ps ->
  begins ps (ch_key (fst p)) = diana_text (snd p) (ch_text (fst p)).
Proof.
  induction ps as [|q ps IH]; intros p N I; [destruct I|]. cbn [map] in N. inversion N as [|x l X N']; subst. cbn [begins].
  destruct I as [->|I]; [rewrite Nat.eqb_refl; reflexivity|].
  destruct (Nat.eqb (ch_key (fst p)) (ch_key (fst q))) eqn:E; [|apply IH; assumption].
  apply Nat.eqb_eq in E. exfalso. apply X. rewrite <- E. apply in_map, in_map. exact I.
Qed.
Lemma begins_case : forall ps j, begins ps j = [] \/ exists p, In p ps /\ ch_key (fst p) = j /\
  begins ps j = diana_text (snd p) (ch_text (fst p)).
Proof.
  induction ps as [|p ps IH]; intros j; [left; reflexivity|]. cbn [begins]. destruct (Nat.eqb j (ch_key (fst p))) eqn:E.
  - apply Nat.eqb_eq in E. right. exists p. split; [left; reflexivity|auto].
  - destruct (IH j) as [H|(q & I & H)]; [auto|]. right. exists q. split; [right; exact I|exact H].
Qed.
Lemma given_begins : forall ps n, NoDup (map ch_key (map fst ps)) -> (forall p, In p ps -> (ch_key (fst p) < n)%nat) ->
  Forall piece_ok ps -> given (begins ps) 0 n = length (flat_map snd ps).
Proof.
  intros ps n. induction ps as [|p ps IH]; intros N B P.
  { cbn [flat_map length]. clear. assert (H : forall j, given (begins []) j n = O); [|apply H].
    induction n as [|n IH]; intros j; [reflexivity|]. cbn [given]. rewrite IH. reflexivity. }
  cbn [map] in N. inversion N as [|x l X N']; subst. apply Forall_cons_iff in P. destruct P as ((P1 & P2) & P).
  cbn [flat_map]. rewrite app_length. rewrite <- (IH N' (fun q Q => B q (or_intror Q)) P).
  rewrite (given_ext _ (fun x => if Nat.eqb x (ch_key (fst p)) then diana_text (snd p) (ch_text (fst p)) else begins ps x)) by reflexivity.
  rewrite given_update; [rewrite diana_text_length by lia; lia|specialize (B p (or_introl eq_refl)); lia|].
  apply begins_none. exact X.
Qed.

(** A part comes out as given exactly if its key begins as computed. *)
Lemma diana_firstn : forall text key, diana_text (firstn (length text) key) text = diana_text key text.
Proof.
  induction text as [|x text IH]; intros [|k key]; cbn [length firstn diana_text]; try reflexivity. f_equal. apply IH.
Qed.
Lemma diana_key : forall text key C, letters text -> letters key -> letters C -> (length text <= length key)%nat ->
  length C = length text ->
  (diana_text key text = C <-> firstn (length text) key = diana_text C text).
Proof.
  intros text key C LT LK LC LE E. rewrite <- (diana_firstn text key).
  assert (LF : letters (firstn (length text) key)).
  { rewrite <- (firstn_skipn (length text) key) in LK. apply Forall_app in LK. apply LK. }
  assert (NF : length (firstn (length text) key) = length text) by (rewrite firstn_length; lia).
  revert LF NF. generalize (firstn (length text) key). clear key LK LE. intros key LK LE. revert key C LK LC LE E.
  induction text as [|x text IH]; intros [|k key] [|c C] LK LC LE E; cbn [length] in *; try lia; [split; reflexivity|].
  cbn [diana_text]. inversion LT; inversion LK; inversion LC; subst. specialize (IH H2 key C H6 H10 ltac:(lia) ltac:(lia)).
  split; intros X; injection X as X1 X2.
  - rewrite (proj1 IH X2). f_equal. rewrite <- X1. symmetry. rewrite (diana_letter_comm k x).
    rewrite diana_letter_comm. apply diana_letter_invol; assumption.
  - rewrite (proj2 IH X2). f_equal. rewrite X1, (diana_letter_comm c x), diana_letter_comm. apply diana_letter_invol; assumption.
Qed.

Section U.
Context (U : Uni) (HU : uni_ok U).
Lemma flat_text_length : forall ks ch, (forall c, In c ch -> length (chunk_cipher ks c) = length (ch_text c)) ->
  length (flat_map (chunk_cipher ks) ch) = length (flat_map ch_text ch).
Proof.
  intros ks ch. induction ch as [|c ch IH]; intros H; [reflexivity|]. cbn [flat_map]. rewrite !app_length, IH, (H c);
    auto using in_eq, in_cons.
Qed.
Lemma part_length : forall ks ks2 c, refilled ks ks2 -> part_ok ks c -> length (chunk_cipher ks2 c) = length (ch_text c).
Proof.
  intros ks ks2 c K (L & k & N & _ & LE). unfold chunk_cipher.
  destruct (R_nth ks ks2 (ch_key c) K) as [(X & _)|(k0 & k2 & X & -> & (_ & _ & E))]; [congruence|].
  apply diana_text_length. assert (k0 = k) by congruence. subst. lia.
Qed.
Lemma refilled_refl : forall gs ks, store_ok gs ks -> refilled ks ks.
Proof.
  intros gs ks (_ & H). unfold refilled. induction ks as [|k ks IH]; constructor.
  - split; [destruct k; reflexivity|]. split; [apply H; left; reflexivity|reflexivity].
  - apply IH. intros x X. apply H. right. exact X.
Qed.
Lemma refilled_sym : forall gs ks ks2, store_ok gs ks -> refilled ks ks2 -> refilled ks2 ks.
Proof.
  intros gs ks ks2 (_ & H) F. unfold refilled in *. induction F as [|k k2 ks ks2 K F IH]; constructor.
  - destruct K as (K1 & K2 & K3). split; [rewrite K1; destruct k; reflexivity|]. split; [apply H; left; reflexivity|lia].
  - apply IH. intros x X. apply H. right. exact X.
Qed.
Lemma refilled_store : forall gs ks ks2, store_ok gs ks -> refilled ks ks2 -> store_ok gs ks2.
Proof. intros gs ks ks2 H K. exact (R_store gs ks ks2 K H). Qed.

Lemma c124_same_lemma : forall gs ks ks2 calls, 0 < gs -> store_ok gs ks -> Forall (automatic gs) calls -> refilled ks ks2 ->
  match sent U ks calls, sent U ks2 calls with
  | Some out, Some out2 => Forall2 (fun m m2 => same_but_cipher m m2 /\ length (mcipher m2) = length (mcipher m)) out out2
  | None, None => True
  | _, _ => False
  end.
Proof.
  intros gs ks ks2 calls Hg Hs A K. destruct (sent U ks calls) as [out|] eqn:E.
  - destruct (sent_spec U HU gs calls ks out Hg Hs A E) as (css & N & P & C & D). destruct (D ks2 K) as (out2 & -> & F & C2).
    assert (L : map (@length rune) (map mcipher out2) = map (@length rune) (map mcipher out)).
    { rewrite C, C2, !map_map. apply map_ext_in. intros ch I.
      assert (PI : forall c, In c ch -> part_ok ks c) by (intros c X; apply P; apply in_concat; eauto).
      rewrite !flat_text_length; [reflexivity| |]; intros c X; apply (part_length ks); auto. apply (refilled_refl gs). exact Hs. }
    clear - F L. induction F as [|m m2 out out2 H F IH]; constructor; cbn [map] in L; injection L as L1 L2; auto.
  - destruct (sent U ks2 calls) as [out2|] eqn:E2; [|exact I].
    destruct (sent_spec U HU gs calls ks2 out2 Hg (refilled_store _ _ _ Hs K) A E2) as (css & _ & _ & _ & D).
    destruct (D ks (refilled_sym _ _ _ Hs K)) as (out & X & _). congruence.
Qed.

(** The letters with which each key has to begin, if known keys stay. *)
Definition starts (known : key -> bool) (ks : list key) (ps : list piece) (x : nat) : list rune :=
  match nth_error ks x with Some k => if known k then krunes k else begins ps x | None => begins ps x end.
Lemma given_starts : forall known ks ps,
  (forall x k, nth_error ks x = Some k -> known k = true -> begins ps x = []) ->
  Z.of_nat (given (starts known ks ps) 0 (length ks)) =
  Z.of_nat (given (begins ps) 0 (length ks)) + key_letters (filter known ks).
Proof.
  intros known ks ps H.
  assert (G : forall n j, (j + n = length ks)%nat -> Z.of_nat (given (starts known ks ps) j n) =
    Z.of_nat (given (begins ps) j n) + key_letters (filter known (skipn j ks))).
  { induction n as [|n IH]; intros j E; cbn [given].
    - replace j with (length ks) by lia. rewrite skipn_all. reflexivity.
    - assert (L : (j < length ks)%nat) by lia. destruct (nth_error ks j) as [k|] eqn:N; [|apply nth_error_None in N; lia].
      assert (SK : skipn j ks = k :: skipn (S j) ks).
      { clear - N. revert ks N. induction j as [|j IH]; intros [|y ks] N; try discriminate; cbn [nth_error] in N.
        - injection N as <-. reflexivity.
        - cbn [skipn]. apply IH. exact N. }
      rewrite SK, Nat2Z.inj_add, (IH (S j)) by lia. cbn [filter]. unfold starts at 1. rewrite N.
      destruct (known k) eqn:K; [|lia]. rewrite (H j k N K). unfold key_letters, len. cbn [flat_map length]. rewrite app_length. lia. }
  rewrite G by lia. rewrite skipn_O. reflexivity.
Qed.
Lemma key_letters_split : forall known ks,
  key_letters ks = key_letters (filter known ks) + key_letters (filter (fun k => negb (known k)) ks).
Proof.
  intros known ks. unfold key_letters, len. induction ks as [|k ks IH]; [reflexivity|]. cbn [flat_map filter]. rewrite app_length.
  destruct (known k); cbn [negb flat_map]; rewrite app_length; lia.
Qed.
Lemma refilled_but_spec : forall known gs ks ks2, store_ok gs ks ->
  (refilled_but known ks ks2 <-> refilled ks ks2 /\
     forall x k k2, nth_error ks x = Some k -> nth_error ks2 x = Some k2 -> known k = true -> krunes k2 = krunes k).
Proof.
  intros known gs ks ks2 (_ & HS). split.
  - intros F. unfold refilled_but, refilled in *. induction F as [|k k2 ks ks2 K F IH].
    + split; [constructor|]. intros [|x] k k2 X; discriminate.
    + destruct IH as (I1 & I2); [intros y Y; apply HS; right; exact Y|]. split.
      * constructor; [|exact I1]. destruct (known k); [|exact K]. subst k2.
        split; [destruct k; reflexivity|]. split; [apply HS; left; reflexivity|reflexivity].
      * intros [|x] a a2 X Y Z; cbn [nth_error] in *; [|apply (I2 x a a2); assumption].
        injection X as <-. injection Y as <-. rewrite Z in K. congruence.
  - intros (F & H). unfold refilled_but, refilled in *. induction F as [|k k2 ks ks2 K F IH]; constructor.
    + destruct (known k) eqn:E; [|exact K]. specialize (H O k k2 eq_refl eq_refl E). destruct K as (K & _). rewrite K, H.
      destruct k; reflexivity.
    + apply IH; [intros y Y; apply HS; right; exact Y|]. intros x. exact (H (S x)).
Qed.
Lemma firstn_full : forall A (l l' : list A), length l = length l' -> (firstn (length l) l' = l <-> l' = l).
Proof.
  intros A l l' E. rewrite E, firstn_all. split; auto.
Qed.
Lemma c124_known_lemma : forall known gs ks calls out cs, 0 < gs -> store_ok gs ks -> Forall (automatic gs) calls ->
  (forall k, In k ks -> known k = true -> kused k = true) ->
  sent U ks calls = Some out -> Forall2 (fun m c => letters c /\ length c = length (mcipher m)) out cs ->
  exists l, NoDup l /\
    (forall ks2, In ks2 l <-> refilled_but known ks ks2 /\ option_map (map mcipher) (sent U ks2 calls) = Some cs) /\
    Z.of_nat (length l) = 26 ^ (key_letters (filter (fun k => negb (known k)) ks) - len (concat cs)) /\
    len (concat cs) <= key_letters (filter (fun k => negb (known k)) ks).
Proof.
  intros known gs ks calls out cs Hg Hs A HK H HC. destruct (sent_spec U HU gs calls ks out Hg Hs A H) as (css & N & P & C & D).
  assert (RR := refilled_refl gs ks Hs).
  assert (LC : forall ch, In ch css -> length (flat_map (chunk_cipher ks) ch) = length (flat_map ch_text ch)).
  { intros ch I. apply flat_text_length. intros c X. apply (part_length ks); [exact RR|]. apply P. apply in_concat. eauto. }
  assert (F2 : Forall2 (fun ch c => letters c /\ length c = length (flat_map ch_text ch)) css cs).
  { clear - HC C LC. revert css C LC. induction HC as [|m c out cs (L & E) HC IH]; intros [|ch css] C LC; try discriminate; constructor.
    - cbn [map] in C. injection C as C1 C2. split; [exact L|]. rewrite E, C1. apply LC. left. reflexivity.
    - cbn [map] in C. injection C as C1 C2. apply IH; [exact C2|]. intros x X. apply LC. right. exact X. }
  destruct (cut_all css cs F2) as (ps & M & PO & Q).
  assert (NP : NoDup (map ch_key (map fst ps))) by (rewrite M; exact N).
  assert (PP : forall p, In p ps -> part_ok ks (fst p)) by (intros p I; apply P; rewrite <- M; apply in_map; exact I).
  assert (BU : forall x k, nth_error ks x = Some k -> known k = true -> begins ps x = []).
  { intros x k X K. destruct (begins_case ps x) as [->|(p & I & <- & _)]; [reflexivity|].
    destruct (PP p I) as (_ & k' & Y & F & _). assert (k' = k) as -> by congruence.
    rewrite (HK k (nth_error_In _ _ X) K) in F. discriminate. }
  assert (PRE : pre_ok (starts known ks ps) 0 ks).
  { intros x k X. cbn [plus]. unfold starts. rewrite X. destruct (known k) eqn:K.
    { split; [apply (proj2 Hs k (nth_error_In _ _ X))|lia]. }
    destruct (begins_case ps x) as [->|(p & I & <- & ->)]; [split; [constructor|cbn; lia]|].
    split; [apply diana_text_letters|]. destruct (PP p I) as (_ & k' & Y & _ & LE). assert (k' = k) as -> by congruence.
    rewrite Forall_forall in PO. destruct (PO p I) as (_ & LP). rewrite diana_text_length by lia. exact LE. }
  exists (stores (starts known ks ps) 0 ks). split; [apply stores_nodup|]. split.
  - intros ks2. rewrite (stores_spec _ _ _ _ PRE), (refilled_but_spec known gs ks ks2 Hs). cbn [plus].
    assert (NB : forall p k k2, In p ps -> refilled ks ks2 -> nth_error ks2 (ch_key (fst p)) = Some k2 ->
      nth_error ks (ch_key (fst p)) = Some k -> starts known ks ps (ch_key (fst p)) = diana_text (snd p) (ch_text (fst p))).
    { intros p k k2 I K X Y. unfold starts. rewrite Y. destruct (PP p I) as (_ & k' & Z & F & _). assert (k' = k) as -> by congruence.
      destruct (known k) eqn:E; [rewrite (HK k (nth_error_In _ _ Y) E) in F; discriminate|]. apply begins_in; assumption. }
    split; [intros (K & B)|intros ((K & KN) & B)];
      assert (LK : forall c, In c (concat css) -> length (chunk_cipher ks2 c) = length (ch_text c))
        by (intros c I; apply (part_length ks); auto);
      destruct (D ks2 K) as (out2 & E2 & _ & C2); rewrite E2 in *; cbn [option_map] in *; rewrite C2 in *.
    + split; [split; [exact K|]|].
      { intros x k k2 X Y Z. specialize (B x k2 Y). unfold starts in B. rewrite X, Z in B.
        destruct (R_nth ks ks2 x K) as [(W & _)|(k0 & k3 & W & V & (_ & _ & K3))]; [congruence|].
        assert (k0 = k) as -> by congruence. assert (k3 = k2) as -> by congruence. rewrite <- K3, firstn_all in B. exact B. }
      f_equal. apply (Q _ LK). apply Forall_forall. intros p I. unfold fits, chunk_cipher.
      destruct (PP p I) as (LT & k & X & _ & LE).
      destruct (R_nth ks ks2 (ch_key (fst p)) K) as [(Y & _)|(k0 & k2 & Y & Z & (_ & K2 & K3))]; [congruence|].
      assert (k0 = k) as -> by congruence. rewrite Z. assert (B' := B _ _ Z). rewrite (NB p k k2 I K Z X) in B'.
      rewrite Forall_forall in PO. destruct (PO p I) as (PL & LP). rewrite diana_text_length in B' by lia.
      apply diana_key; auto; lia.
    + split; [exact K|]. injection B as B. apply (Q _ LK) in B. intros x k2 X.
      destruct (R_nth ks ks2 x K) as [(_ & Y)|(k & k3 & Y & Z & (_ & K2 & K3))]; [congruence|].
      assert (k3 = k2) as -> by congruence. unfold starts. rewrite Y. destruct (known k) eqn:E.
      { apply firstn_full; [lia|]. exact (KN x k k2 Y X E). }
      destruct (begins_case ps x) as [->|(p & I & <- & ->)]; [reflexivity|].
      rewrite Forall_forall in B, PO. specialize (B p I). destruct (PO p I) as (PL & LP). unfold fits, chunk_cipher in B.
      rewrite X in B. destruct (PP p I) as (LT & k1 & Y1 & _ & LE). assert (k1 = k) as -> by congruence.
      rewrite diana_text_length by lia. apply diana_key; auto; lia.
  - assert (G : given (begins ps) 0 (length ks) = length (concat cs)).
    { rewrite given_begins; [|exact NP| |exact PO].
      - transitivity (length (flat_map ch_text (concat css))).
        + rewrite <- M. clear - PO. induction PO as [|p ps (_ & H) PO IH]; [reflexivity|]. cbn [flat_map map].
          rewrite !app_length. lia.
        + clear - F2. induction F2 as [|ch c css cs (_ & E) F2 IH]; [reflexivity|]. cbn [concat].
          rewrite flat_map_app, !app_length. lia.
      - intros p I. destruct (PP p I) as (_ & k & X & _). apply nth_error_Some. congruence. }
    destruct (stores_length (starts known ks ps) ks 0 PRE) as (S1 & S2).
    rewrite (given_starts known ks ps BU), G, (key_letters_split known ks) in S1, S2. unfold len.
    split; [rewrite S1; f_equal; lia|lia].
Qed.
Lemma c124_count_lemma : forall gs ks calls out cs, 0 < gs -> store_ok gs ks -> Forall (automatic gs) calls ->
  sent U ks calls = Some out -> Forall2 (fun m c => letters c /\ length c = length (mcipher m)) out cs ->
  exists l, NoDup l /\
    (forall ks2, In ks2 l <-> refilled ks ks2 /\ option_map (map mcipher) (sent U ks2 calls) = Some cs) /\
    Z.of_nat (length l) = 26 ^ (key_letters ks - len (concat cs)) /\ len (concat cs) <= key_letters ks.
Proof.
  intros gs ks calls out cs Hg Hs A H HC.
  destruct (c124_known_lemma (fun _ => false) gs ks calls out cs Hg Hs A) as (l & N & I & E & B); [discriminate|exact H|exact HC|].
  assert (F : filter (fun _ : key => negb false) ks = ks) by (clear; induction ks as [|k ks IH]; [reflexivity|cbn [filter negb]; f_equal; exact IH]).
  rewrite F in E, B. exists l. auto.
Qed.

Lemma c124_any_two_lemma : forall gs ks calls calls' out out' cs, 0 < gs -> store_ok gs ks -> Forall (automatic gs) calls ->
  Forall (automatic gs) calls' -> sent U ks calls = Some out -> sent U ks calls' = Some out' ->
  map (fun m => len (mcipher m)) out = map (fun m => len (mcipher m)) out' ->
  Forall2 (fun m c => letters c /\ length c = length (mcipher m)) out cs ->
  exists l l', NoDup l /\ NoDup l' /\ length l = length l' /\ l <> [] /\
    (forall ks2, In ks2 l <-> refilled ks ks2 /\ option_map (map mcipher) (sent U ks2 calls) = Some cs) /\
    (forall ks2, In ks2 l' <-> refilled ks ks2 /\ option_map (map mcipher) (sent U ks2 calls') = Some cs).
Proof.
  intros gs ks calls calls' out out' cs Hg Hs A A' H H' L HC.
  assert (HC' : Forall2 (fun m c => letters c /\ length c = length (mcipher m)) out' cs).
  { clear - HC L. revert out' L. induction HC as [|m c out cs (X & Y) HC IH]; intros [|m' out'] L; try discriminate; constructor;
      cbn [map] in L; injection L as L1 L2; [|auto]. unfold len in L1. split; [exact X|lia]. }
  destruct (c124_count_lemma gs ks calls out cs Hg Hs A H HC) as (l & N & I & E & B).
  destruct (c124_count_lemma gs ks calls' out' cs Hg Hs A' H' HC') as (l' & N' & I' & E' & _).
  exists l, l'. split; [exact N|]. split; [exact N'|]. split; [lia|]. split; [|split; assumption].
  intros ->. cbn [length] in E. assert (0 < 26 ^ (key_letters ks - len (concat cs))) by (apply Z.pow_pos_nonneg; lia). lia.
Qed.
End U.
