(** Every key (free ID, key text) is produced by equally many random tapes. *)
From Verif Require Import Base Spec Model_Unicode Model_Crand Model_Functions Model_Types Model_Keys
  Proofs_Functions Proofs_Crand Proofs_KeyOps.

Lemma intn_local : forall n t v t', 0 < n < 2 ^ 31 -> intn n t = Ok (v, t') ->
  exists p, t = p ++ t' /\ forall s, intn n (p ++ s) = Ok (v, s).
Proof.
  intros n t v t' Hn. revert v t'. induction t as [|w t IH]; intros v t' H; [rewrite intn_nil in H; discriminate|].
  rewrite intn_word_mod, intn_word in H by (auto using word_mod).
  destruct (accepted_word n (w mod 2 ^ 64)) eqn:E.
  - injection H as <- <-. exists [w]. split; [reflexivity|]. intros s. cbn [app].
    rewrite intn_word_mod, intn_word by (auto using word_mod). rewrite E. reflexivity.
  - destruct (IH _ _ H) as (p & -> & Q). exists (w :: p). split; [reflexivity|]. intros s. cbn [app].
    rewrite intn_word_mod, intn_word by (auto using word_mod). rewrite E. apply Q.
Qed.

Lemma letters_local : forall n t r t', random_letters n t = Ok (r, t') ->
  exists p, t = p ++ t' /\ forall s, random_letters n (p ++ s) = Ok (r, s).
Proof.
  induction n as [|n IH]; intros t r t' H; cbn [random_letters] in H.
  - injection H as <- <-. exists []. split; [reflexivity|]. intros s. reflexivity.
  - destruct (intn 26 t) as [[v t1]|e| |] eqn:E; try discriminate. cbn [bind] in H.
    destruct (random_letters n t1) as [[q t2]|e| |] eqn:E2; try discriminate. cbn [bind] in H.
    injection H as <- <-. destruct (intn_local 26 t v t1 ltac:(lia) E) as (p1 & -> & Q1).
    destruct (IH _ _ _ E2) as (p2 & -> & Q2). exists (p1 ++ p2). split; [apply app_assoc|].
    intros s. rewrite <- app_assoc. cbn [random_letters]. rewrite Q1. cbn [bind]. rewrite Q2. reflexivity.
Qed.

Lemma firstn_prefix : forall A (p t : list A), firstn (length (p ++ t) - length t) (p ++ t) = p.
Proof.
  intros. rewrite app_length. replace (length p + length t - length t)%nat with (length p + 0)%nat by lia.
  rewrite firstn_app_2. apply app_nil_r.
Qed.

Section WithUnicode.
Context (U : Uni).
Notation up := (to_upper U).

(** Change the words that produced ID [id] and key text [a] into words that
    produce [id'] and [b]; rounds with a taken ID stay. *)
Fixpoint shift_key (fuel : nat) (ks : list key) (gs : nat) (id id' a b : list rune) (t : tape) : tape :=
  match fuel with
  | O => t
  | S f =>
      match random_letters gs t with
      | Ok (r, t1) =>
          let p := firstn (length t - length t1) t in
          if contains_key_id U ks r then p ++ shift_key f ks gs id id' a b t1
          else shift_tape id id' p ++ shift_tape a b t1
      | _ => t
      end
  end.

Lemma shift_key_spec : forall f ks id id' a b t t1 t2 f',
  Forall word t -> letters id -> letters id' -> length id = length id' ->
  letters a -> letters b -> length a = length b -> contains_key_id U ks id' = false ->
  new_id_loop U f ks (length id) t = Ok (id, t1) -> random_letters (length a) t1 = Ok (a, t2) ->
  (f <= f')%nat ->
  let s := shift_key f ks (length id) id id' a b t in
  Forall word s /\ length s = length t /\
  (exists s1, new_id_loop U f' ks (length id') s = Ok (id', s1) /\ random_letters (length b) s1 = Ok (b, t2)) /\
  (contains_key_id U ks id = false -> shift_key f' ks (length id') id' id b a s = t).
Proof.
  induction f as [|f IH]; intros ks id id' a b t t1 t2 f' Ht Hid Hid' Hl Ha Hb Hl2 Hf H H2 Hle; cbn [new_id_loop] in H; [discriminate|].
  cbv zeta. cbn [shift_key]. destruct f' as [|f']; [lia|].
  destruct (random_letters (length id) t) as [[r u]|e| |] eqn:E; try discriminate. cbn [bind] in H.
  destruct (letters_local _ _ _ _ E) as (p & -> & Q). rewrite firstn_prefix.
  apply Forall_app in Ht. destruct Ht as (Hp & Hu).
  destruct (contains_key_id U ks r) eqn:C.
  - destruct (IH ks id id' a b u t1 t2 f' Hu Hid Hid' Hl Ha Hb Hl2 Hf H H2 ltac:(lia)) as (I1 & I2 & (s1 & I3 & I4) & I5).
    set (s := shift_key f ks (length id) id id' a b u) in *.
    split; [apply Forall_app; split; assumption|]. split; [rewrite !app_length; lia|].
    cbn [new_id_loop shift_key]. rewrite <- Hl, Q. cbn [bind]. rewrite C. split.
    + exists s1. rewrite Hl. split; assumption.
    + intros Hc. rewrite firstn_prefix. f_equal. rewrite Hl. apply I5. exact Hc.
  - injection H as -> ->.
    pose proof (Q []) as Qp. rewrite app_nil_r in Qp.
    destruct (shift_tape_yields p id id' [] Hp Hid Hid' Hl Qp) as (S1 & S2 & S3 & S4).
    destruct (shift_tape_yields t1 a b t2 Hu Ha Hb Hl2 H2) as (R1 & R2 & R3 & R4).
    destruct (letters_local _ _ _ _ S1) as (p' & P1 & P2). rewrite app_nil_r in P1. rewrite <- P1 in P2.
    split; [apply Forall_app; split; assumption|]. split; [rewrite !app_length; lia|].
    cbn [new_id_loop shift_key]. rewrite P2. cbn [bind]. rewrite Hf. split.
    + exists (shift_tape a b t1). split; [reflexivity|exact R1].
    + intros Hc. rewrite firstn_prefix, S4, R4. reflexivity.
Qed.

Lemma new_key_parts : forall i now e kp t i' k t', 0 < i_groupsize i -> 0 <= i_keylength i ->
  new_key U i now e kp t = Ok (i', k, t') ->
  exists t1, new_id_loop U (S (length t)) (i_keys i) (length (kid k)) t = Ok (kid k, t1) /\
    random_letters (length (krunes k)) t1 = Ok (krunes k, t') /\
    Z.of_nat (length (kid k)) = i_groupsize i /\
    Z.of_nat (length (krunes k)) = key_runes_length (i_keylength i) (i_groupsize i).
Proof.
  intros i now e kp t i' k t' Hg Hl H. unfold new_key in H.
  destruct (key_len_lemma _ _ Hg Hl) as (L1 & L2).
  replace ((i_groupsize i <? 0) || (key_runes_length (i_keylength i) (i_groupsize i) <? 0)) with false in H by lia.
  cbv zeta in H.
  destruct (new_id_loop U (S (length t)) (i_keys i) (Z.to_nat (i_groupsize i)) t) as [[id t1]|x| |] eqn:E1; try discriminate.
  cbn [bind] in H.
  destruct (random_letters (Z.to_nat (key_runes_length (i_keylength i) (i_groupsize i))) t1) as [[rs t2]|x| |] eqn:E2; try discriminate.
  cbn [bind] in H. injection H as <- <- <-. cbn [kid krunes].
  destruct (new_id_lemma U _ _ _ _ _ _ E1) as (A1 & A2 & A3).
  destruct (letters_range _ _ _ _ E2) as (B1 & B2 & _).
  exists t1. rewrite A2, B2. split; [exact E1|]. split; [exact E2|]. split; lia.
Qed.

Lemma new_key_of_parts : forall i now e kp t id rs t1 t', 0 < i_groupsize i -> 0 <= i_keylength i ->
  Z.of_nat (length id) = i_groupsize i ->
  Z.of_nat (length rs) = key_runes_length (i_keylength i) (i_groupsize i) ->
  new_id_loop U (S (length t)) (i_keys i) (length id) t = Ok (id, t1) ->
  random_letters (length rs) t1 = Ok (rs, t') ->
  exists i' k, new_key U i now e kp t = Ok (i', k, t') /\ kid k = id /\ krunes k = rs.
Proof.
  intros i now e kp t id rs t1 t' Hg Hl L1 L2 H1 H2. unfold new_key.
  destruct (key_len_lemma _ _ Hg Hl) as (_ & L3).
  replace ((i_groupsize i <? 0) || (key_runes_length (i_keylength i) (i_groupsize i) <? 0)) with false by lia.
  cbv zeta. rewrite <- L2, <- L1, !Nat2Z.id, H1. cbn [bind]. rewrite H2. cbn [bind].
  eexists. eexists. split; [reflexivity|]. split; reflexivity.
Qed.

(** [produces i now e kp id a t]: this tape makes a key with ID [id] and text [a]. *)
Definition produces (i : inst) (now e : Z) (kp : list (list rune)) (id a : list rune) (t : tape) : Prop :=
  exists i' k t', new_key U i now e kp t = Ok (i', k, t') /\ kid k = id /\ krunes k = a.

Lemma c19_keys_lemma : forall i now e kp id a id' b,
  0 < i_groupsize i -> 0 <= i_keylength i ->
  letters id -> letters id' -> letters a -> letters b ->
  len id = len id' -> len a = len b ->
  (forall k, In k (i_keys i) -> ~ same_text up (kid k) id) ->
  (forall k, In k (i_keys i) -> ~ same_text up (kid k) id') ->
  exists f g : tape -> tape,
    (forall t, Forall word t -> produces i now e kp id a t ->
       Forall word (f t) /\ length (f t) = length t /\ produces i now e kp id' b (f t) /\ g (f t) = t) /\
    (forall t, Forall word t -> produces i now e kp id' b t ->
       Forall word (g t) /\ length (g t) = length t /\ produces i now e kp id a (g t) /\ f (g t) = t).
Proof.
  intros i now e kp id a id' b Hg Hl Hid Hid' Ha Hb L1 L2 F1 F2.
  assert (Q : forall id a id' b, letters id -> letters id' -> letters a -> letters b -> len id = len id' -> len a = len b ->
    (forall k, In k (i_keys i) -> ~ same_text up (kid k) id) -> (forall k, In k (i_keys i) -> ~ same_text up (kid k) id') ->
    forall t, Forall word t -> produces i now e kp id a t ->
    let s := shift_key (S (length t)) (i_keys i) (length id) id id' a b t in
    Forall word s /\ length s = length t /\ produces i now e kp id' b s /\
    shift_key (S (length s)) (i_keys i) (length id') id' id b a s = t).
  { clear id a id' b Hid Hid' Ha Hb L1 L2 F1 F2.
    intros id a id' b Hid Hid' Ha Hb L1 L2 F1 F2 t Ht (i1 & k & t' & P & <- & <-).
    destruct (new_key_parts _ _ _ _ _ _ _ _ Hg Hl P) as (t1 & P1 & P2 & P3 & P4).
    unfold len in *.
    destruct (shift_key_spec _ _ _ id' _ b _ _ _ (S (length t)) Ht Hid Hid' ltac:(lia) Ha Hb ltac:(lia)
      (proj2 (contains_id_false U _ _) F2) P1 P2 (le_n _)) as (S1 & S2 & (s1 & S3 & S4) & S5).
    cbv zeta. set (s := shift_key (S (length t)) (i_keys i) (length (kid k)) (kid k) id' (krunes k) b t) in *.
    split; [exact S1|]. split; [exact S2|]. split.
    - destruct (new_key_of_parts i now e kp s id' b s1 t' Hg Hl ltac:(lia) ltac:(lia)) as (i2 & k2 & N1 & N2 & N3).
      + rewrite S2. exact S3.
      + exact S4.
      + exists i2, k2, t'. auto.
    - rewrite S2. apply S5. apply contains_id_false. exact F1. }
  exists (fun t => shift_key (S (length t)) (i_keys i) (length id) id id' a b t),
         (fun t => shift_key (S (length t)) (i_keys i) (length id') id' id b a t).
  split; intros t Ht P; apply Q; auto.
Qed.

(** Some tape produces it, and none is longer than necessary. *)
Lemma letters_possible : forall s u, letters s ->
  random_letters (length s) (map (fun c => (c - 65) * 2 ^ 32) s ++ u) = Ok (s, u).
Proof.
  induction s as [|c s IH]; intros u H; [reflexivity|]. inversion H as [|? ? Hc Hs]; subst. unfold is_letter in Hc.
  cbn [map app length random_letters]. rewrite intn_word by (unfold word; lia).
  assert (Hx : int31_of_word ((c - 65) * 2 ^ 32) = c - 65).
  { rewrite int31_of_word_eq by lia. rewrite Z.div_mul by lia. apply Z.mod_small. lia. }
  unfold accepted_word. rewrite Hx. replace (c - 65 <=? int31n_max 26) with true by (unfold int31n_max; change ((2 ^ 31) mod 26) with 24; lia).
  rewrite orb_true_r. cbn [bind]. rewrite IH by exact Hs. cbn [bind]. rewrite Z.mod_small by lia.
  f_equal. f_equal. f_equal. lia.
Qed.

Lemma c19_possible_lemma : forall i now e kp id a,
  0 < i_groupsize i -> 0 <= i_keylength i -> letters id -> letters a ->
  len id = i_groupsize i -> len a = key_runes_length (i_keylength i) (i_groupsize i) ->
  (forall k, In k (i_keys i) -> ~ same_text up (kid k) id) ->
  exists t, Forall word t /\ length t = (length id + length a)%nat /\ produces i now e kp id a t.
Proof.
  intros i now e kp id a Hg Hl Hid Ha L1 L2 F. unfold len in *.
  set (w := fun c => (c - 65) * 2 ^ 32).
  assert (W : forall s, letters s -> Forall word (map w s)).
  { intros s Hs. apply Forall_forall. intros x Hx. apply in_map_iff in Hx. destruct Hx as (c & <- & Hc).
    unfold letters in Hs. rewrite Forall_forall in Hs. specialize (Hs c Hc). unfold is_letter in Hs. unfold w, word. lia. }
  exists (map w id ++ map w a). split; [apply Forall_app; split; apply W; assumption|].
  split; [rewrite app_length, !map_length; reflexivity|].
  destruct (new_key_of_parts i now e kp (map w id ++ map w a) id a (map w a) [] Hg Hl L1 L2) as (i2 & k2 & N).
  - cbn [new_id_loop]. unfold w. rewrite letters_possible by exact Hid. cbn [bind].
    rewrite (proj2 (contains_id_false U _ _) F). reflexivity.
  - rewrite <- (app_nil_r (map w a)). apply letters_possible. exact Ha.
  - exists i2, k2, []. exact N.
Qed.
End WithUnicode.
