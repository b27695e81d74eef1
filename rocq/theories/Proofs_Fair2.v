(** Lemmas: new IDs, keys, PFKs and salts are fair. *)
From Coq Require FinFun.
From Verif Require Import Base Spec Spec_Persist Spec_Crand Model_Unicode Model_Crand Model_Functions Model_Types Model_Keys Model_Cipher Model_Station
  Proofs_Keys Proofs_Crand Proofs_Secrecy2 Proofs_Uniform Proofs_KeyProps Proofs_Station Proofs_Messages Proofs_Draws
  Proofs_Fair Proofs_Crand2 Proofs_Perm.

(** ** Message IDs *)
Lemma alnum_of_inj : forall v w, 0 <= v < 62 -> 0 <= w < 62 -> alnum_of v = alnum_of w -> v = w.
Proof.
  intros v w V W. unfold alnum_of. destruct (v <? 26) eqn:A, (w <? 26) eqn:B; cbn [andb];
    destruct (v <? 52) eqn:C, (w <? 52) eqn:D; destruct (26 <=? v) eqn:E, (26 <=? w) eqn:F; cbn [andb];
    destruct (52 <=? v) eqn:G, (52 <=? w) eqn:H; lia.
Qed.
Lemma alnum_of_onto : forall c, alnum c -> exists v, 0 <= v < 62 /\ c = alnum_of v.
Proof.
  intros c [H|[H|H]].
  - exists (c - 65). unfold is_letter in H. split; [lia|]. unfold alnum_of. replace (c - 65 <? 26) with true by lia. lia.
  - exists (c - 97 + 26). split; [lia|]. unfold alnum_of. replace (c - 97 + 26 <? 26) with false by lia.
    replace (26 <=? c - 97 + 26) with true by lia. replace (c - 97 + 26 <? 52) with true by lia. cbn [andb]. lia.
  - exists (c - 48 + 52). unfold digit in H. split; [lia|]. unfold alnum_of. replace (c - 48 + 52 <? 26) with false by lia.
    replace (c - 48 + 52 <? 52) with false by lia. rewrite andb_false_r. replace (52 <=? c - 48 + 52) with true by lia. lia.
Qed.
Definition in62 : Z -> Prop := fun v => 0 <= v < 62.
Lemma draws62 : forall n, Forall2 any_drawn (repeat (intn 62) n) (repeat in62 n).
Proof.
  induction n as [|n IH]; cbn [repeat]; constructor; [|exact IH]. exists (acc31 62). apply intn_drawn. lia.
Qed.
Lemma fits_repeat : forall (P : Z -> Prop) n vs, fits (repeat P n) vs <-> length vs = n /\ Forall P vs.
Proof.
  intros P n. induction n as [|n IH]; intros vs; cbn [repeat]; split.
  - intros H. inversion H. auto.
  - intros (L & _). destruct vs; [constructor|discriminate].
  - intros H. inversion H as [|? v ? vs' V R]; subst. apply IH in R. destruct R as (<- & R). auto.
  - intros (L & F). destruct vs as [|v vs]; [discriminate|]. apply Forall_cons_iff in F. destruct F as (F1 & F2).
    constructor; [exact F1|]. apply IH. auto.
Qed.
Lemma alnum_vec : forall n t s t', random_alnum_runes n t = Ok (s, t') <-> exists vs, vec (repeat (intn 62) n) t = Ok (vs, t') /\ s = map alnum_of vs.
Proof.
  induction n as [|n IH]; intros t s t'; cbn [random_alnum_runes repeat vec].
  - split; [intros H; injection H as <- <-; exists []; auto|intros (vs & H & ->); injection H as <- <-; reflexivity].
  - change (26 + 26 + 10) with 62. destruct (intn 62 t) as [[v t1]|?| |]; cbn [bind]; try (split; [discriminate|intros (vs & H & _); discriminate]). split.
    + intros H. destruct (random_alnum_runes n t1) as [[r t2]|?| |] eqn:E; try discriminate. cbn [bind] in H. injection H as <- <-.
      apply IH in E. destruct E as (vs & E & ->). exists (v :: vs). rewrite E. auto.
    + intros (vs & H & ->). destruct (vec (repeat (intn 62) n) t1) as [[us t2]|?| |] eqn:E; try discriminate. cbn [bind] in H. injection H as <- <-.
      assert (X : random_alnum_runes n t1 = Ok (map alnum_of us, t2)) by (apply IH; eauto). rewrite X. reflexivity.
Qed.
Lemma map_alnum_inj : forall vs us, Forall in62 vs -> Forall in62 us -> map alnum_of vs = map alnum_of us -> vs = us.
Proof.
  induction vs as [|v vs IH]; intros [|u us] H H' E; try discriminate; [reflexivity|]. cbn [map] in E.
  assert (E1 : alnum_of v = alnum_of u) by congruence. assert (E2 : map alnum_of vs = map alnum_of us) by congruence.
  apply Forall_cons_iff in H, H'. f_equal; [exact (alnum_of_inj v u (proj1 H) (proj1 H') E1)|exact (IH us (proj2 H) (proj2 H') E2)].
Qed.
Lemma map_alnum_onto : forall s, Forall alnum s -> exists vs, length vs = length s /\ Forall in62 vs /\ s = map alnum_of vs.
Proof.
  intros s F. induction F as [|c s C F (vs & L & V & ->)]; [exists []; auto|]. destruct (alnum_of_onto c C) as (v & R & ->).
  exists (v :: vs). cbn [length map]. auto.
Qed.
Definition id_text (n : nat) (s : list rune) : Prop := length s = n /\ Forall alnum s.
Lemma alnum_moves : forall n, moves (random_alnum_runes n) (id_text n).
Proof.
  intros n. apply (image_moves _ _ (vec (repeat (intn 62) n)) (fits (repeat in62 n)) _ (map alnum_of)).
  - apply vec_drawn_moves, draws62.
  - intros t a t' H. exact (vec_fits _ _ _ _ _ (draws62 n) H).
  - apply alnum_vec.
  - intros a b A B. apply fits_repeat in A, B. apply map_alnum_inj; tauto.
  - intros s (L & F). destruct (map_alnum_onto s F) as (vs & Lv & V & ->). exists vs. split; [|reflexivity].
    apply fits_repeat. split; [congruence|exact V].
Qed.
Lemma id_loop_retry : forall fuel ms t, new_unique_message_id_loop fuel ms t = retry (random_alnum_runes 4) (contains_message_id ms) fuel t.
Proof.
  induction fuel as [|k IH]; intros ms t; [reflexivity|]. cbn [new_unique_message_id_loop retry].
  destruct (random_alnum_runes 4 t) as [[id t1]|?| |]; cbn [bind]; try reflexivity. destruct (contains_message_id ms id); [apply IH|reflexivity].
Qed.
(** One of more texts is not among fewer. *)
Lemma pigeon : forall A (dec : forall a b : A, {a = b} + {a <> b}) (l m : list A), NoDup l -> (length m < length l)%nat -> exists x, In x l /\ ~ In x m.
Proof.
  intros A dec l m ND L. destruct (Exists_dec (fun x => ~ In x m) l) as [E|E].
  - intros x. destruct (in_dec dec x m); tauto.
  - apply Exists_exists in E. exact E.
  - exfalso. assert (I : incl l m). { intros x X. destruct (in_dec dec x m) as [Y|Y]; [exact Y|]. exfalso. apply E, Exists_exists. eauto. }
    assert (H := NoDup_incl_length ND I). lia.
Qed.
Definition all62 : list Z := map Z.of_nat (seq 0 62).
Fixpoint vecs62 (n : nat) : list (list Z) :=
  match n with O => [[]] | S n => flat_map (fun c => map (cons c) (vecs62 n)) all62 end.
Lemma vecs62_nodup : forall n, NoDup (vecs62 n).
Proof.
  induction n as [|n IH]; cbn [vecs62]; [constructor; [intros []|constructor]|]. apply flat_map_nodup.
  - apply FinFun.Injective_map_NoDup; [intros a b E; lia|apply seq_NoDup].
  - intros c _. apply FinFun.Injective_map_NoDup; [intros a b E; injection E; auto|exact IH].
  - intros x y b _ _ X Y. apply in_map_iff in X, Y. destruct X as (v & <- & _), Y as (u & E & _). injection E; auto.
Qed.
Lemma vecs62_in : forall n v, In v (vecs62 n) -> length v = n /\ Forall in62 v.
Proof.
  induction n as [|n IH]; intros v H; cbn [vecs62] in H; [destruct H as [<-|[]]; auto|]. apply in_flat_map in H.
  destruct H as (c & C & H). apply in_map_iff in H. destruct H as (u & <- & H). destruct (IH u H) as (L & F). cbn [length]. split; [congruence|].
  constructor; [|exact F]. unfold all62 in C. apply in_map_iff in C. destruct C as (k & <- & K). apply in_seq in K. unfold in62. lia.
Qed.
Lemma vecs62_length : forall n, Z.of_nat (length (vecs62 n)) = 62 ^ Z.of_nat n.
Proof.
  induction n as [|n IH]; [reflexivity|]. cbn [vecs62]. rewrite (flat_map_len _ _ _ _ (length (vecs62 n))) by (intros; apply map_length).
  rewrite Nat2Z.inj_succ, Z.pow_succ_r by lia. change (length all62) with 62%nat. lia.
Qed.
Lemma free_id : forall ms : list msg, len ms < 62 ^ 4 -> exists id, id_text 4 id /\ ~ In id (map mid ms).
Proof.
  intros ms H. destruct (pigeon _ (list_eq_dec Z.eq_dec) (map (map alnum_of) (vecs62 4)) (map mid ms)) as (id & I & N).
  - assert (IN : forall a b, In a (vecs62 4) -> In b (vecs62 4) -> map alnum_of a = map alnum_of b -> a = b).
    { intros a b A B. apply vecs62_in in A, B. apply map_alnum_inj; tauto. }
    generalize (vecs62_nodup 4). revert IN. generalize (vecs62 4). clear. intros l IN ND.
    induction ND as [|x l X ND IH]; cbn [map]; constructor.
    + rewrite in_map_iff. intros (y & E & Y). apply X. rewrite (IN x y); [exact Y|left; reflexivity|right; exact Y|auto].
    + apply IH. intros a b A B. apply IN; right; assumption.
  - rewrite !map_length. assert (V := vecs62_length 4). unfold len in H. change (Z.of_nat 4) with 4 in V. lia.
  - apply in_map_iff in I. destruct I as (v & <- & V). apply vecs62_in in V. destruct V as (L & F). exists (map alnum_of v). split; [|exact N].
    split; [rewrite map_length; exact L|]. clear - F. induction F as [|x l X F IH]; cbn [map]; constructor; [|exact IH]. apply alnum_of_ok. exact X.
Qed.
Lemma message_id_fair : forall ms, len ms < 62 ^ 4 ->
  fair (new_unique_message_id ms) (fun id => len id = 4 /\ Forall alnum id /\ ~ In id (map mid ms)).
Proof.
  intros ms H. destruct (free_id ms H) as (id & I & N).
  assert (M : moves (new_unique_message_id ms) (fun id => len id = 4 /\ Forall alnum id /\ ~ In id (map mid ms))).
  { assert (LO : local (random_alnum_runes 4)).
    { intros t a t' E. destruct (alnum_local 4 t a t' E) as (u & E1 & _ & E2). eauto. }
    assert (R := retry_moves (random_alnum_runes 4) (id_text 4) (contains_message_id ms) LO (alnum_moves 4)).
    assert (EQ : forall t, new_unique_message_id ms t = retry (random_alnum_runes 4) (contains_message_id ms) (S (length t)) t)
      by (intros t; apply id_loop_retry).
    intros a b Pa Pb. destruct (R a b) as (h & A & B).
    - rewrite contains_mid. unfold id_text, len in *. repeat split; try tauto. lia.
    - rewrite contains_mid. unfold id_text, len in *. repeat split; try tauto. lia.
    - exists h. split.
      + intros t t' W T. rewrite EQ in T. rewrite EQ. apply A; assumption.
      + intros t s t' s' W1 W2 T S0. rewrite EQ in T, S0. apply (B t s t' s'); assumption. }
  (* a first draw that is free *)
  assert (T0 : exists t0, Forall word t0 /\ random_alnum_runes 4 t0 = Ok (id, [])).
  { destruct (vec_some _ _ (draws62 4)) as (t & vs & W & V).
    assert (X : random_alnum_runes 4 t = Ok (map alnum_of vs, [])) by (apply alnum_vec; eauto).
    destruct (alnum_moves 4 (map alnum_of vs) id) as (h & A & _); [|exact I|].
    - destruct (random_alnum_ok _ _ _ _ X). split; assumption.
    - destruct (A t [] W X) as (W' & _ & Y). eauto. }
  destruct T0 as (t0 & W & X).
  apply (fair_of_moves (list_eq_dec Z.eq_dec) _ _ id t0 []); [|exact M|exact W|].
  - intros t a t' E. destruct (new_message_id_ok ms t a t' E) as (L & F & G). unfold len. split; [lia|auto].
  - unfold new_unique_message_id. cbn [new_unique_message_id_loop]. rewrite X. cbn [bind]. rewrite (proj2 (contains_mid ms id) N). reflexivity.
Qed.

(** ** Keys *)
Definition new_key_text U i now e keepers (t : tape) : res (list rune * list rune * tape) :=
  let* (_, k, t') := new_key U i now e keepers t in Ok (kid k, krunes k, t').
Lemma new_key_text_iff : forall U i now e keepers t id a t', new_key_text U i now e keepers t = Ok (id, a, t') <->
  exists i' k, new_key U i now e keepers t = Ok (i', k, t') /\ kid k = id /\ krunes k = a.
Proof.
  intros U i now e keepers t id a t'. unfold new_key_text. destruct (new_key U i now e keepers t) as [[[i' k] t1]|?| |]; cbn [bind].
  2-4: split; [discriminate|intros (x & y & H & _); discriminate].
  split; [intros H; injection H as <- <- <-; eauto|]. intros (x & y & H & <- & <-). injection H as -> -> ->. reflexivity.
Qed.

Definition key_text U i (r : list rune * list rune) : Prop :=
  letters (fst r) /\ len (fst r) = i_groupsize i /\ (forall k, In k (i_keys i) -> ~ same_text (to_upper U) (kid k) (fst r)) /\
  letters (snd r) /\ (exists q, len (snd r) = q * i_groupsize i) /\ i_keylength i <= len (snd r) < i_keylength i + i_groupsize i.
Lemma key_text_moves : forall U i now e keepers, 0 < i_groupsize i -> 0 <= i_keylength i ->
  moves_some (new_key_text U i now e keepers) (key_text U i).
Proof.
  intros U i now e keepers Hg Hl (id & a) (id' & b) (A1 & A2 & A3 & A4 & (q & A5) & A6) (B1 & B2 & B3 & B4 & (r & B5) & B6).
  cbn [fst snd] in *.
  assert (q = r) by nia. subst r.
  destruct (c19_keys_lemma U i now e keepers id a id' b Hg Hl A1 B1 A4 B4 ltac:(lia) ltac:(lia) A3 B3) as (f & g & F & _).
  assert (PR : forall t t', new_key_text U i now e keepers t = Ok (id, a, t') -> produces U i now e keepers id a t).
  { intros t t' H. apply new_key_text_iff in H. destruct H as (i' & k & H & X & Y). exists i', k, t'. auto. }
  exists f. split.
  - intros t t' W H. destruct (F t W (PR t t' H)) as (X & Y & (i' & k & t1 & Z & Z1 & Z2) & _). split; [exact X|]. split; [exact Y|].
    exists t1. apply new_key_text_iff. eauto.
  - intros t s t' s' W1 W2 T S0 E. destruct (F t W1 (PR t t' T)) as (_ & _ & _ & G1), (F s W2 (PR s s' S0)) as (_ & _ & _ & G2). congruence.
Qed.
Lemma free_key_id : forall U (ks : list key) gs, 0 <= gs -> len ks < 26 ^ gs ->
  exists id, letters id /\ len id = gs /\ forall k, In k ks -> ~ same_text (to_upper U) (kid k) id.
Proof.
  intros U ks gs G H. destruct (pigeon _ (list_eq_dec Z.eq_dec) (words (Z.to_nat gs)) (map (fun k => map (to_upper U) (kid k)) ks)) as (id & I & N).
  - apply words_nodup.
  - rewrite map_length. assert (W := words_length (Z.to_nat gs)). unfold len in H. rewrite Z2Nat.id in W by exact G. lia.
  - apply words_spec in I. destruct I as (I & L). exists id. split; [exact I|]. split; [unfold len; lia|].
    intros k K E. apply N. apply in_map_iff. exists k. split; [|exact K]. unfold same_text in E. rewrite E.
    clear - I. induction I as [|c s C I IH]; cbn [map]; [reflexivity|]. rewrite IH, letter_upper by exact C. reflexivity.
Qed.
Lemma new_key_fair : forall U i now e keepers, 0 < i_groupsize i -> 0 <= i_keylength i -> len (i_keys i) < 26 ^ i_groupsize i ->
  fair (new_key_text U i now e keepers) (key_text U i).
Proof.
  intros U i now e keepers Hg Hl H. destruct (free_key_id U (i_keys i) (i_groupsize i) ltac:(lia) H) as (id & I1 & I2 & I3).
  set (q := (i_keylength i + i_groupsize i - 1) / i_groupsize i).
  assert (Q : i_keylength i <= q * i_groupsize i < i_keylength i + i_groupsize i).
  { unfold q. assert (D := Z.div_mod (i_keylength i + i_groupsize i - 1) (i_groupsize i) ltac:(lia)).
    assert (R := Z.mod_pos_bound (i_keylength i + i_groupsize i - 1) (i_groupsize i) ltac:(lia)). nia. }
  set (a := repeat 65 (Z.to_nat (q * i_groupsize i))).
  assert (La : len a = q * i_groupsize i) by (unfold a, len; rewrite repeat_length; lia).
  destruct (c19_possible_lemma2 U i now e keepers id a Hg Hl I1) as (t & i' & k & t' & W & K & K1 & K2).
  - unfold a, letters. apply Forall_forall. intros x X. apply repeat_spec in X. subst x. unfold is_letter. lia.
  - exact I2.
  - exists q. exact La.
  - lia.
  - exact I3.
  - assert (dec : forall x y : list rune * list rune, {x = y} + {x <> y}) by (decide equality; apply (list_eq_dec Z.eq_dec)).
    apply (fair_of_moves_some dec _ _ (id, a) t t').
    + intros s (id1 & a1) s' X. apply new_key_text_iff in X. destruct X as (i1 & k1 & X & <- & <-).
      destruct (c18_new_key_lemma U i now e keepers s i1 k1 s' Hg Hl X) as (_ & X1 & X2 & X3 & X4 & X5 & X6 & _).
      unfold key_text. cbn [fst snd]. auto 8.
    + apply key_text_moves; assumption.
    + exact W.
    + apply new_key_text_iff. eauto.
Qed.

(** ** PFKs and salts *)
Definition byte_draw : sampler := fun t => match t with [] => Panic | w :: t' => Ok (w mod 256, t') end.
Definition in256 : Z -> Prop := fun v => 0 <= v < 256.
Lemma byte_drawn : drawn byte_draw (fun w => Some (w mod 256)) in256.
Proof.
  split; [|split; [|split]].
  - intros [|w t]; [reflexivity|]. cbn [byte_draw draw]. do 2 f_equal.
    change (2 ^ 64) with (256 * 2 ^ 56). rewrite Z.rem_mul_r by lia. rewrite Z.mul_comm, Z.mod_add by lia. rewrite Z.mod_mod by lia. reflexivity.
  - intros w v _ A. injection A as <-. apply Z.mod_pos_bound. lia.
  - intros a b Pa Pb. exists (fun w => w + (b - a)). split; [|intros; lia].
    intros w W A. assert (A' : w mod 256 = a) by congruence. clear A. unfold word, in256 in *.
    assert (D := Z.div_mod w 256 ltac:(lia)). rewrite A' in D. set (q := w / 256) in *.
    split; [change (2 ^ 64) with (256 * 2 ^ 56) in *; lia|]. f_equal. symmetry. apply (Z.mod_unique _ _ q); [left; lia|]. lia.
  - exists 0, 0. split; [unfold word; lia|reflexivity].
Qed.
Lemma bytes_drawn : forall n, Forall2 any_drawn (repeat byte_draw n) (repeat in256 n).
Proof. induction n as [|n IH]; cbn [repeat]; constructor; [exists (fun w => Some (w mod 256)); exact byte_drawn|exact IH]. Qed.
Lemma bytes_vec : forall n t b t', read_bytes n t = Some (b, t') <-> vec (repeat byte_draw n) t = Ok (b, t').
Proof.
  induction n as [|n IH]; intros t b t'.
  - unfold read_bytes. cbn. split; intros H; injection H as <- <-; reflexivity.
  - cbn [repeat vec]. destruct t as [|w t].
    + unfold read_bytes. cbn. split; discriminate.
    + cbn [byte_draw bind]. assert (E : read_bytes (S n) (w :: t) = match read_bytes n t with Some (r, t1) => Some (w mod 256 :: r, t1) | None => None end).
      { unfold read_bytes. change (Nat.leb (S n) (length (w :: t))) with (Nat.leb n (length t)). destruct (Nat.leb n (length t)); reflexivity. }
      rewrite E. split.
      * intros H. destruct (read_bytes n t) as [[r t1]|] eqn:R; [|discriminate]. injection H as <- <-. apply IH in R. rewrite R. reflexivity.
      * intros H. destruct (vec (repeat byte_draw n) t) as [[r t1]|?| |] eqn:R; try discriminate. cbn [bind] in H. injection H as <- <-.
        assert (X : read_bytes n t = Some (r, t1)) by (apply IH; exact R). rewrite X. reflexivity.
Qed.

Lemma hex_digit_of_inj : forall v w, 0 <= v < 16 -> 0 <= w < 16 -> hex_digit_of v = hex_digit_of w -> v = w.
Proof. intros v w V W. unfold hex_digit_of. destruct (v <? 10) eqn:A, (w <? 10) eqn:B; lia. Qed.
Lemma hex_encode_inj : forall b c, Forall in256 b -> Forall in256 c -> hex_encode b = hex_encode c -> b = c.
Proof.
  induction b as [|x b IH]; intros [|y c] B C E; try discriminate; [reflexivity|]. unfold hex_encode in E. cbn [flat_map app] in E.
  assert (E1 : hex_digit_of (x / 16) = hex_digit_of (y / 16)) by congruence.
  assert (E2 : hex_digit_of (x mod 16) = hex_digit_of (y mod 16)) by congruence.
  assert (E3 : hex_encode b = hex_encode c) by (unfold hex_encode; congruence).
  apply Forall_cons_iff in B, C. destruct B as (X & B), C as (Y & C). unfold in256 in X, Y. f_equal; [|exact (IH c B C E3)].
  assert (Dx := Z.div_mod x 16 ltac:(lia)). assert (Rx := Z.mod_pos_bound x 16 ltac:(lia)).
  assert (Dy := Z.div_mod y 16 ltac:(lia)). assert (Ry := Z.mod_pos_bound y 16 ltac:(lia)).
  apply hex_digit_of_inj in E1; [|lia|lia]. apply hex_digit_of_inj in E2; lia.
Qed.
Lemma generated_fair : forall g, (g = generate_pfk \/ g = generate_salt) ->
  fair g (fun x => len x = 64 /\ Forall hex_digit x /\ map hex_lower x = x).
Proof.
  intros g G. assert (EQ : forall t, g t = match read_bytes 32 t with Some (b, t') => Ok (hex_encode b, t') | None => Panic end)
    by (destruct G as [->| ->]; reflexivity). clear G.
  assert (BY : forall vs, Forall in256 vs -> Forall byte vs) by (intros vs V; eapply Forall_impl; [|exact V]; intros v X; unfold byte, in256 in *; lia).
  apply (fair_image _ (list_eq_dec Z.eq_dec) (repeat byte_draw 32) (repeat in256 32) g hex_encode).
  - apply bytes_drawn.
  - intros t b t'. rewrite EQ. split.
    + intros H. destruct (read_bytes 32 t) as [[r t1]|] eqn:R; [|discriminate]. apply bytes_vec in R. exists r.
      assert (E1 : hex_encode r = b) by congruence. assert (E2 : t1 = t') by congruence. subst. auto.
    + intros (vs & V & ->). apply bytes_vec in V. rewrite V. reflexivity.
  - intros vs F. apply fits_repeat in F. destruct F as (L & F). destruct (hex_encode_digits vs (BY vs F)) as (X & Y & Z).
    unfold len in *. split; [lia|auto].
  - intros vs us F F'. apply fits_repeat in F, F'. apply hex_encode_inj; tauto.
  - intros x (L & D & LW). destruct (hex_decode_ok x D) as (b & B). { exists 32. lia. }
    destruct (hex_decode_some x b B) as (_ & E & F & N). exists b. split; [|congruence]. apply fits_repeat. unfold len in *. split; [lia|].
    eapply Forall_impl; [|exact F]. intros v X. unfold byte, in256 in *. lia.
Qed.
