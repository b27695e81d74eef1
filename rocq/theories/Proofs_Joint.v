(** Lemmas behind C132: keys made one after the other are independent. *)
From Verif Require Import Base Spec Spec_Persist Spec_Crand Spec_Joint Model_Unicode Model_Crand Model_Functions Model_Types Model_Keys
  Model_Station Proofs_Functions Proofs_Keys Proofs_KeyOps Proofs_Crand Proofs_Uniform Proofs_KeyProps Proofs_Station
  Proofs_Draws Proofs_SecretGen Proofs_Fair Proofs_Crand2 Proofs_Perm Proofs_Fair2.

(** ** Sources of one result of one function become sources of a result of another *)
Definition xm {A B} (f : tape -> res (A * tape)) (a : A) (g : tape -> res (B * tape)) (b : B) : Prop :=
  exists h : tape -> tape,
    (forall t t', Forall word t -> f t = Ok (a, t') -> Forall word (h t) /\ length (h t) = length t /\ g (h t) = Ok (b, t')) /\
    forall t s t' s', Forall word t -> Forall word s -> f t = Ok (a, t') -> f s = Ok (a, s') -> h t = h s -> t = s.

Lemma xm_seq : forall A B C A' B' C' (f : tape -> res (A * tape)) a (g : tape -> res (B * tape)) b
    (f' : tape -> res (A' * tape)) a' (g' : tape -> res (B' * tape)) b' (k : tape -> res (C * tape)) c (k' : tape -> res (C' * tape)) c',
  local g -> xm f a g b -> xm f' a' g' b' ->
  (forall t t', k t = Ok (c, t') -> exists t1, f t = Ok (a, t1) /\ f' t1 = Ok (a', t')) ->
  (forall t t1 t', g t = Ok (b, t1) -> g' t1 = Ok (b', t') -> k' t = Ok (c', t')) ->
  xm k c k' c'.
Proof.
  intros A B C A' B' C' f a g b f' a' g' b' k c k' c' L (h1 & H1 & J1) (h2 & H2 & J2) DK DK'.
  set (h := fun t => match f t with Ok (_, t1) => firstn (length t - length t1) (h1 t) ++ h2 t1 | _ => t end).
  assert (PT : forall t t1, Forall word t -> f t = Ok (a, t1) -> exists u, h1 t = u ++ t1 /\ h t = u ++ h2 t1 /\
    Forall word u /\ Forall word t1 /\ length t = (length u + length t1)%nat /\ forall s, g (u ++ s) = Ok (b, s)).
  { intros t t1 W H. destruct (H1 t t1 W H) as (X & Y & Z). destruct (L _ _ _ Z) as (u & D & G). exists u.
    split; [exact D|]. unfold h. rewrite H. rewrite D in X, Y |- *. rewrite app_length in Y. split.
    { f_equal. replace (length t - length t1)%nat with (length u + 0)%nat by lia. rewrite firstn_app_2, firstn_O. apply app_nil_r. }
    apply Forall_app in X. destruct X as (X1 & X2). split; [exact X1|]. split; [exact X2|]. split; [lia|exact G]. }
  exists h. split.
  - intros t t' W H. destruct (DK t t' H) as (t1 & T1 & T2).
    destruct (PT t t1 W T1) as (u & _ & -> & U1 & U2 & LE & G). destruct (H2 t1 t' U2 T2) as (X & Y & Z).
    split; [apply Forall_app; auto|]. split; [rewrite app_length; lia|]. exact (DK' _ _ _ (G (h2 t1)) Z).
  - intros t s t' s' W1 W2 T S0 E. destruct (DK t t' T) as (t1 & T1 & T2), (DK s s' S0) as (s1 & S1 & S2).
    destruct (PT t t1 W1 T1) as (u & C1 & C2 & C3 & C4 & C5 & C6), (PT s s1 W2 S1) as (x & D1 & D2 & D3 & D4 & D5 & D6).
    rewrite C2, D2 in E. assert (X := C6 (h2 t1)). rewrite E, D6 in X. injection X as X.
    assert (Y : t1 = s1) by (apply (J2 t1 s1 t' s'); auto). subst s1. apply app_inv_tail in E. subst x.
    apply (J1 t s t1 t1 W1 W2 T1 S1). congruence.
Qed.

(** ** Renaming key IDs *)
Definition swap2 (a b x : list rune) : list rune :=
  if list_eq_dec Z.eq_dec x a then b else if list_eq_dec Z.eq_dec x b then a else x.
Lemma swap2_twice : forall a b x, swap2 a b (swap2 a b x) = x.
Proof.
  intros a b x. unfold swap2. destruct (list_eq_dec Z.eq_dec x a) as [->|N1].
  - destruct (list_eq_dec Z.eq_dec b a); [congruence|]. destruct (list_eq_dec Z.eq_dec b b); congruence.
  - destruct (list_eq_dec Z.eq_dec x b) as [->|N2]; [destruct (list_eq_dec Z.eq_dec a a); congruence|].
    destruct (list_eq_dec Z.eq_dec x a); [congruence|]. destruct (list_eq_dec Z.eq_dec x b); congruence.
Qed.
Lemma swap2_other : forall a b x, x <> a -> x <> b -> swap2 a b x = x.
Proof. intros a b x A B. unfold swap2. destruct (list_eq_dec Z.eq_dec x a), (list_eq_dec Z.eq_dec x b); congruence. Qed.
Lemma swap2_first : forall a b, swap2 a b a = b.
Proof. intros a b. unfold swap2. destruct (list_eq_dec Z.eq_dec a a); congruence. Qed.

Lemma renaming : forall (P : list rune -> Prop) base L L', NoDup L -> NoDup L' -> length L = length L' ->
  (forall x, In x (L ++ L') -> P x /\ ~ In x base) ->
  exists p q, (forall x, q (p x) = x) /\ (forall x, P x -> P (p x)) /\ (forall x, P x -> P (q x)) /\ (forall x, p (q x) = x) /\
    (forall x, In x base -> p x = x) /\ map p L = L'.
Proof.
  intros P base L. induction L as [|a L IH]; intros [|b L'] N N' E H; try discriminate.
  { exists (fun x => x), (fun x => x). cbn [map]. auto 10. }
  apply NoDup_cons_iff in N, N'. destruct N as (Na & N), N' as (Nb & N').
  destruct (IH L' N N' ltac:(cbn [length] in E; lia)) as (p & q & QP & PP & PQ' & PQ & FX & M).
  { intros x X. apply H. apply in_app_or in X. apply in_or_app. cbn [In]. tauto. }
  assert (Pa : P a /\ ~ In a base) by (apply H; left; reflexivity).
  assert (Pb : P b /\ ~ In b base) by (apply H; apply in_or_app; right; left; reflexivity).
  assert (IJ : forall x y, p x = p y -> x = y) by (intros x y G; rewrite <- (QP x), <- (QP y), G; reflexivity).
  assert (SW : forall x, P x -> P (swap2 (p a) b x)).
  { intros x X. unfold swap2. destruct (list_eq_dec Z.eq_dec x (p a)); [apply Pb|].
    destruct (list_eq_dec Z.eq_dec x b); [apply PP, Pa|exact X]. }
  exists (fun x => swap2 (p a) b (p x)), (fun x => q (swap2 (p a) b x)). split; [|split; [|split; [|split; [|split]]]].
  - intros x. rewrite swap2_twice. apply QP.
  - intros x X. apply SW, PP, X.
  - intros x X. apply PQ', SW, X.
  - intros x. rewrite PQ. apply swap2_twice.
  - intros x X. rewrite (FX x X). apply swap2_other.
    + intros G. apply (proj2 Pa). assert (G2 : p x = p a) by (rewrite (FX x X); exact G). apply IJ in G2. rewrite <- G2. exact X.
    + intros ->. exact (proj2 Pb X).
  - cbn [map]. rewrite swap2_first. f_equal. rewrite <- M. apply map_ext_in. intros x X. apply swap2_other.
    + intros G. apply IJ in G. subst. contradiction.
    + intros G. apply Nb. rewrite <- M, <- G. apply in_map. exact X.
Qed.

Section WithUnicode.
Context (U : Uni).
Notation up := (to_upper U).
Definition big_ids (ks : list key) : list (list rune) := map (fun k => map up (kid k)) ks.
Lemma letters_up : forall r, letters r -> map up r = r.
Proof.
  intros r H. induction H as [|c r C H IH]; cbn [map]; [reflexivity|]. rewrite IH, (letter_upper U c C). reflexivity.
Qed.
Lemma contains_big : forall ks r, letters r -> contains_key_id U ks r = true <-> In r (big_ids ks).
Proof.
  intros ks r R. rewrite contains_id_spec. unfold big_ids. rewrite in_map_iff. unfold same_text.
  rewrite (letters_up r R). split; intros (k & A & B); exists k; auto.
Qed.

Section Rename.
Context (gs : nat) (p q : list rune -> list rune).
Definition an_id (r : list rune) : Prop := letters r /\ length r = gs.
Context (QP : forall x, q (p x) = x) (PP : forall x, an_id x -> an_id (p x)).

Lemma contains_renamed : forall ks ks2 r, map p (big_ids ks) = big_ids ks2 -> an_id r ->
  contains_key_id U ks2 (p r) = contains_key_id U ks r.
Proof using QP PP.
  intros ks ks2 r E R. assert (I : In (p r) (big_ids ks2) <-> In r (big_ids ks)).
  { rewrite <- E, in_map_iff. split; [|intros H; eauto].
    intros (x & X & Y). rewrite <- (QP r), <- X, (QP x). exact Y. }
  rewrite <- (contains_big ks r (proj1 R)), <- (contains_big ks2 (p r) (proj1 (PP r R))) in I.
  destruct (contains_key_id U ks2 (p r)), (contains_key_id U ks r); tauto || (symmetry; tauto).
Qed.
End Rename.

Section Rename2.
Context (gs : nat).
Fixpoint rename (p : list rune -> list rune) (fuel : nat) (ks : list key) (t : tape) : tape :=
  match fuel with
  | O => t
  | S f =>
      match random_letters gs t with
      | Ok (r, t1) =>
          shift_tape r (p r) (firstn (length t - length t1) t) ++
            (if contains_key_id U ks r then rename p f ks t1 else t1)
      | _ => t
      end
  end.
Lemma rename_spec : forall p q, (forall x, q (p x) = x) -> (forall x, an_id gs x -> an_id gs (p x)) ->
  forall ks ks2, map p (big_ids ks) = big_ids ks2 -> forall fuel t id t1, Forall word t ->
  new_id_loop U fuel ks gs t = Ok (id, t1) ->
  Forall word (rename p fuel ks t) /\ length (rename p fuel ks t) = length t /\
  new_id_loop U fuel ks2 gs (rename p fuel ks t) = Ok (p id, t1) /\
  rename q fuel ks2 (rename p fuel ks t) = t.
Proof using Type.
  intros p q QP PP ks ks2 E. induction fuel as [|f IH]; intros t id t1 W H; cbn [new_id_loop] in H; [discriminate|].
  destruct (random_letters gs t) as [[r u]|e| |] eqn:R; try discriminate. cbn [bind] in H.
  cbn [rename]. rewrite R. destruct (letters_local _ _ _ _ R) as (v & -> & _ & Q). rewrite firstn_prefix.
  destruct (letters_range _ _ _ _ R) as (R1 & R2 & _). assert (AR : an_id gs r) by (split; assumption).
  destruct (PP r AR) as (S1 & S2). pose proof (contains_renamed gs p q QP PP ks ks2 r E AR) as C.
  apply Forall_app in W. destruct W as (Wv & Wu).
  pose proof (Q []) as Q0. rewrite app_nil_r, <- R2 in Q0.
  destruct (shift_tape_yields v r (p r) [] Wv R1 S1 ltac:(lia) Q0) as (Y1 & Y2 & Y3 & Y4).
  rewrite S2 in Y1. destruct (letters_local _ _ _ _ Y1) as (v' & P1 & _ & P2). rewrite app_nil_r in P1. rewrite <- P1 in P2.
  assert (B : Forall word (if contains_key_id U ks r then rename p f ks u else u) /\
    length (if contains_key_id U ks r then rename p f ks u else u) = length u /\
    (if contains_key_id U ks2 (p r) then new_id_loop U f ks2 gs (if contains_key_id U ks r then rename p f ks u else u)
     else Ok (p r, if contains_key_id U ks r then rename p f ks u else u)) = Ok (p id, t1) /\
    (if contains_key_id U ks2 (p r) then rename q f ks2 (if contains_key_id U ks r then rename p f ks u else u)
     else (if contains_key_id U ks r then rename p f ks u else u)) = u).
  { rewrite C. destruct (contains_key_id U ks r).
    - exact (IH u id t1 Wu H).
    - injection H as -> ->. auto. }
  destruct B as (B1 & B2 & B3 & B4).
  split; [apply Forall_app; auto|]. split; [rewrite !app_length; lia|].
  cbn [new_id_loop rename]. rewrite P2. cbn [bind]. split; [exact B3|].
  rewrite firstn_prefix, QP, Y4. f_equal. exact B4.
Qed.
End Rename2.

(** ** One key *)
Lemma id_loop_xm : forall gs p q ks ks2 id, (0 < gs)%nat -> (forall x, q (p x) = x) -> (forall x, an_id gs x -> an_id gs (p x)) ->
  map p (big_ids ks) = big_ids ks2 ->
  xm (fun t => new_id_loop U (S (length t)) ks gs t) id (fun t => new_id_loop U (S (length t)) ks2 gs t) (p id).
Proof.
  intros gs p q ks ks2 id G QP PP E. exists (fun t => rename gs p (S (length t)) ks t). split.
  - intros t t' W H. destruct (rename_spec gs p q QP PP ks ks2 E (S (length t)) t id t' W H) as (A & B & C & _).
    split; [exact A|]. split; [exact B|]. rewrite B. exact C.
  - intros t s t' s' W1 W2 T S0 EQ.
    destruct (rename_spec gs p q QP PP ks ks2 E (S (length t)) t id t' W1 T) as (_ & L1 & _ & I1).
    destruct (rename_spec gs p q QP PP ks ks2 E (S (length s)) s id s' W2 S0) as (_ & L2 & _ & I2).
    assert (LE : length t = length s) by (rewrite <- L1, <- L2, EQ; reflexivity).
    transitivity (rename gs q (S (length t)) ks2 (rename gs p (S (length t)) ks t)); [symmetry; exact I1|].
    transitivity (rename gs q (S (length s)) ks2 (rename gs p (S (length s)) ks s)); [|exact I2].
    rewrite EQ, LE. reflexivity.
Qed.
Lemma letters_xm : forall a b n, letters a -> letters b -> length a = n -> length b = n ->
  xm (random_letters n) a (random_letters n) b.
Proof.
  intros a b n A B La Lb. exists (shift_tape a b). split.
  - intros t t' W H. rewrite <- La in H. destruct (shift_tape_yields t a b t' W A B ltac:(lia) H) as (X & Y & Z & _).
    rewrite Lb in X. auto.
  - intros t s t' s' W1 W2 T S0 E. rewrite <- La in T, S0.
    destruct (shift_tape_yields t a b t' W1 A B ltac:(lia) T) as (_ & _ & _ & I1).
    destruct (shift_tape_yields s a b s' W2 A B ltac:(lia) S0) as (_ & _ & _ & I2). rewrite <- I1, <- I2, E. reflexivity.
Qed.

Context (now e : Z) (keepers : list (list rune)).
Notation key_of i := (new_key_text U i now e keepers).
Definition made (i : inst) (r : list rune * list rune) : key :=
  mkKey (fst r) (snd r) (remove_keeper U (vetted_keepers U keepers) [i_callsign i]) now e false false [].
Definition plus (i : inst) (r : list rune * list rune) : inst := set_keys i (i_keys i ++ [made i r]).
Definition runes_len (i : inst) : nat := Z.to_nat (key_runes_length (i_keylength i) (i_groupsize i)).

Lemma key_of_eq : forall i t, 0 < i_groupsize i -> 0 <= i_keylength i ->
  key_of i t = let* (id, t1) := new_id_loop U (S (length t)) (i_keys i) (Z.to_nat (i_groupsize i)) t in
               let* (a, t2) := random_letters (runes_len i) t1 in Ok (id, a, t2).
Proof.
  intros i t Hg Hl. unfold new_key_text, new_key. destruct (key_len_lemma _ _ Hg Hl) as (_ & L).
  replace ((i_groupsize i <? 0) || (key_runes_length (i_keylength i) (i_groupsize i) <? 0)) with false by lia.
  cbv zeta. destruct (new_id_loop U (S (length t)) (i_keys i) (Z.to_nat (i_groupsize i)) t) as [[id t1]|x| |]; cbn [bind]; try reflexivity.
  unfold runes_len. destruct (random_letters (Z.to_nat (key_runes_length (i_keylength i) (i_groupsize i))) t1) as [[a t2]|x| |]; reflexivity.
Qed.
Lemma loop_local : forall ks gs, (0 < gs)%nat -> local (fun t => new_id_loop U (S (length t)) ks gs t).
Proof.
  intros ks gs G t a t' H. destruct (key_loop_local U _ _ _ _ _ _ G H) as (u & E & L & F). exists u. split; [exact E|].
  intros s. apply F. rewrite app_length. lia.
Qed.
Lemma key_xm : forall p q i i2 id a b, 0 < i_groupsize i -> 0 <= i_keylength i ->
  i_groupsize i2 = i_groupsize i -> i_keylength i2 = i_keylength i ->
  (forall x, q (p x) = x) -> (forall x, an_id (Z.to_nat (i_groupsize i)) x -> an_id (Z.to_nat (i_groupsize i)) (p x)) ->
  map p (big_ids (i_keys i)) = big_ids (i_keys i2) ->
  letters a -> letters b -> length a = runes_len i -> length b = runes_len i ->
  xm (key_of i) (id, a) (key_of i2) (p id, b).
Proof.
  intros p q i i2 id a b Hg Hl G2 L2 QP PP E A B La Lb.
  apply (xm_seq _ _ _ _ _ _ (fun t => new_id_loop U (S (length t)) (i_keys i) (Z.to_nat (i_groupsize i)) t) id
    (fun t => new_id_loop U (S (length t)) (i_keys i2) (Z.to_nat (i_groupsize i)) t) (p id)
    (random_letters (runes_len i)) a (random_letters (runes_len i)) b).
  - apply loop_local. lia.
  - apply (id_loop_xm _ p q); auto. lia.
  - apply letters_xm; assumption.
  - intros t t' H. rewrite key_of_eq in H by assumption.
    destruct (new_id_loop U (S (length t)) (i_keys i) (Z.to_nat (i_groupsize i)) t) as [[x t1]|?| |]; try discriminate. cbn [bind] in H.
    destruct (random_letters (runes_len i) t1) as [[y t2]|?| |] eqn:R; try discriminate. cbn [bind] in H. injection H as -> -> ->.
    exists t1. auto.
  - intros t t1 t' H1 H2. rewrite key_of_eq by lia. rewrite G2, H1. cbn [bind]. unfold runes_len in *. rewrite G2, L2, H2. reflexivity.
Qed.

(** ** Several keys *)
Definition texts (n : nat) (i : inst) (t : tape) : res (list (list rune * list rune) * tape) :=
  let* (i', t') := new_keys U n i now e keepers t in
  Ok (map (fun k => (kid k, krunes k)) (skipn (length (i_keys i)) (i_keys i')), t').
Lemma texts_none : forall i t, texts 0 i t = Ok ([], t).
Proof. intros i t. unfold texts. cbn [new_keys bind]. rewrite skipn_all. reflexivity. Qed.
Lemma made_eq : forall i t i1 k t1, new_key U i now e keepers t = Ok (i1, k, t1) ->
  k = made i (kid k, krunes k) /\ i1 = plus i (kid k, krunes k).
Proof.
  intros i t i1 k t1 H. unfold new_key in H. destruct ((i_groupsize i <? 0) || _); [discriminate|]. cbv zeta in H.
  destruct (new_id_loop U (S (length t)) (i_keys i) (Z.to_nat (i_groupsize i)) t) as [[id t2]|x| |]; try discriminate. cbn [bind] in H.
  destruct (random_letters (Z.to_nat (key_runes_length (i_keylength i) (i_groupsize i))) t2) as [[a t3]|x| |]; try discriminate.
  cbn [bind] in H. injection H as <- <- _. split; reflexivity.
Qed.
Lemma texts_step : forall n i t, 0 < i_groupsize i -> 0 <= i_keylength i ->
  texts (S n) i t = let* (r, t1) := key_of i t in let* (l, t2) := texts n (plus i r) t1 in Ok (r :: l, t2).
Proof.
  intros n i t Hg Hl. unfold texts, new_key_text. cbn [new_keys].
  destruct (new_key U i now e keepers t) as [[[i1 k] t1]|x| |] eqn:K; cbn [bind]; try reflexivity.
  destruct (made_eq i t i1 k t1 K) as (E1 & E2). rewrite <- E2.
  destruct (new_keys U n i1 now e keepers t1) as [[i' t2]|x| |] eqn:N; cbn [bind]; try reflexivity.
  assert (Hg1 : 0 < i_groupsize i1) by (rewrite E2; exact Hg). assert (Hl1 : 0 <= i_keylength i1) by (rewrite E2; exact Hl).
  destruct (new_keys_more U n i1 now e keepers t1 i' t2 Hg1 Hl1 N) as (news & -> & _). cbn [i_keys set_keys].
  assert (KS : i_keys i1 = i_keys i ++ [k]) by (rewrite E2; cbn [plus i_keys set_keys]; rewrite <- E1; reflexivity).
  assert (C1 : forall (x y : list key), skipn (length x) (x ++ y) = y).
  { intros x y. rewrite skipn_app, skipn_all, Nat.sub_diag. reflexivity. }
  rewrite C1. rewrite KS, <- app_assoc, C1. reflexivity.
Qed.

Lemma texts_xm : forall p q n i i2 l l', 0 < i_groupsize i -> 0 <= i_keylength i ->
  i_groupsize i2 = i_groupsize i -> i_keylength i2 = i_keylength i ->
  (forall x, q (p x) = x) -> (forall x, an_id (Z.to_nat (i_groupsize i)) x -> an_id (Z.to_nat (i_groupsize i)) (p x)) ->
  map p (big_ids (i_keys i)) = big_ids (i_keys i2) ->
  length l = n -> map fst l' = map p (map fst l) ->
  Forall (fun r => letters (fst r) /\ letters (snd r) /\ length (snd r) = runes_len i) (l ++ l') ->
  xm (texts n i) l (texts n i2) l'.
Proof.
  intros p q. induction n as [|n IH]; intros i i2 l l' Hg Hl G2 L2 QP PP E Ll F A.
  - destruct l; [|discriminate]. destruct l'; [|discriminate]. exists (fun t => t). split; [|auto].
    intros t t' W H. rewrite texts_none in *. injection H as <-. auto.
  - destruct l as [|[id a] l]; [discriminate|]. destruct l' as [|[id' b] l']; [discriminate|].
    cbn [map fst] in F. injection F as -> F. pose proof A as A0. rewrite Forall_forall in A0.
    destruct (A0 (id, a) (or_introl eq_refl)) as (A1 & A2 & A3). destruct (A0 (p id, b)) as (B1 & B2 & B3).
    { apply in_or_app. right. left. reflexivity. }
    cbn [fst snd] in *.
    apply (xm_seq _ _ _ _ _ _ (key_of i) (id, a) (key_of i2) (p id, b)
      (texts n (plus i (id, a))) l (texts n (plus i2 (p id, b))) l').
    + intros t r t' H. destruct r as (x & y).
      apply new_key_text_iff in H. destruct H as (i' & k & H & H1 & H2).
      destruct (new_key_local U i2 now e keepers t i' k t' ltac:(lia) H) as (u & D & _ & G). exists u. split; [exact D|].
      intros s. unfold new_key_text. rewrite G. cbn [bind]. rewrite H1, H2. reflexivity.
    + apply (key_xm p q); auto.
    + apply IH; auto.
      * cbn [plus i_keys set_keys]. unfold big_ids in *. rewrite !map_app, E. cbn [map made kid fst].
        rewrite (letters_up id A1), (letters_up (p id) B1). reflexivity.
      * apply Forall_forall. intros r R. apply A0. apply in_app_or in R. apply in_or_app. cbn [In]. tauto.
    + intros t t' H. rewrite texts_step in H by assumption.
      destruct (key_of i t) as [[r t1]|x| |] eqn:K; try discriminate. cbn [bind] in H.
      destruct (texts n (plus i r) t1) as [[m t2]|x| |] eqn:T; try discriminate. cbn [bind] in H. injection H as -> -> ->.
      exists t1. auto.
    + intros t t1 t' H1 H2. rewrite texts_step by lia. rewrite H1. cbn [bind]. rewrite H2. reflexivity.
Qed.

Definition key_texts (i : inst) (n : Z) (rs : list (list rune * list rune)) : Prop :=
  len rs = n /\ NoDup (map fst rs) /\ Forall (key_text U i) rs.
Lemma plus_text : forall i r x, key_text U (plus i r) x -> letters (fst r) -> key_text U i x /\ fst x <> fst r.
Proof.
  intros i r x (A & B & C & D) R. split.
  - split; [exact A|]. split; [exact B|]. split; [|exact D]. intros k K. apply C. cbn [plus i_keys set_keys]. apply in_or_app. auto.
  - intros E. apply (C (made i r)); [cbn [plus i_keys set_keys]; apply in_or_app; right; left; reflexivity|].
    cbn [made kid]. rewrite E. reflexivity.
Qed.
Lemma key_of_text : forall i t r t', 0 < i_groupsize i -> 0 <= i_keylength i -> key_of i t = Ok (r, t') -> key_text U i r.
Proof.
  intros i t (id & a) t' Hg Hl X. apply new_key_text_iff in X. destruct X as (i1 & k1 & X & <- & <-).
  destruct (c18_new_key_lemma U i now e keepers t i1 k1 t' Hg Hl X) as (_ & X1 & X2 & X3 & X4 & X5 & X6 & _).
  unfold key_text. cbn [fst snd]. auto 8.
Qed.
Lemma texts_sound : forall n i t l t', 0 < i_groupsize i -> 0 <= i_keylength i -> texts n i t = Ok (l, t') -> key_texts i (Z.of_nat n) l.
Proof.
  induction n as [|n IH]; intros i t l t' Hg Hl H.
  - rewrite texts_none in H. injection H as <- _. split; [reflexivity|]. split; constructor.
  - rewrite texts_step in H by assumption. destruct (key_of i t) as [[r t1]|x| |] eqn:K; try discriminate. cbn [bind] in H.
    destruct (texts n (plus i r) t1) as [[m t2]|x| |] eqn:T; try discriminate. cbn [bind] in H. injection H as <- _.
    pose proof (key_of_text i t r t1 Hg Hl K) as KT. destruct (IH (plus i r) t1 m t2 Hg Hl T) as (A & B & C). rewrite Forall_forall in C.
    split; [unfold len in *; cbn [length]; lia|]. split.
    + cbn [map]. constructor; [|exact B]. intros X. apply in_map_iff in X. destruct X as (y & Y1 & Y2).
      destruct (plus_text i r y (C y Y2) (proj1 KT)) as (_ & N). exact (N Y1).
    + constructor; [exact KT|]. apply Forall_forall. intros y Y. apply (plus_text i r y (C y Y) (proj1 KT)).
Qed.
Lemma texts_possible : forall n i, 0 < i_groupsize i -> 0 <= i_keylength i -> len (i_keys i) + Z.of_nat n <= 26 ^ i_groupsize i ->
  exists t l t', Forall word t /\ texts n i t = Ok (l, t').
Proof.
  induction n as [|n IH]; intros i Hg Hl L.
  - exists [], [], []. split; [constructor|]. apply texts_none.
  - destruct (new_key_fair U i now e keepers Hg Hl ltac:(lia)) as (_ & _ & N & F).
    destruct (key_len_lemma _ _ Hg Hl) as ((q & Q1) & Q2). destruct (free_key_id U (i_keys i) (i_groupsize i) ltac:(lia) ltac:(lia)) as (id & I1 & I2 & I3).
    set (a := repeat 65 (Z.to_nat (key_runes_length (i_keylength i) (i_groupsize i)))).
    assert (KT : key_text U i (id, a)).
    { unfold key_text. cbn [fst snd]. split; [exact I1|]. split; [exact I2|]. split; [exact I3|]. unfold a, len. rewrite repeat_length. split.
      - apply Forall_forall. intros x X. apply repeat_spec in X. subst x. unfold is_letter. lia.
      - split; [exists q; lia|lia]. }
    destruct (F (id, a) KT) as ([|t ls] & S0 & NE); [contradiction|]. destruct (proj1 (proj2 S0 t) (or_introl eq_refl)) as (_ & W & t1 & K).
    change (key_of i t = Ok (id, a, t1)) in K. pose proof K as K0. apply new_key_text_iff in K0. destruct K0 as (i' & k & K1 & K2 & K3).
    destruct (new_key_local U i now e keepers t i' k t1 Hg K1) as (u & -> & _ & G).
    destruct (IH (plus i (id, a)) Hg Hl) as (s & l & s' & W' & T).
    { cbn [plus i_keys set_keys i_groupsize]. unfold len in *. rewrite app_length. cbn [length]. lia. }
    exists (u ++ s), ((id, a) :: l), s'. split; [apply Forall_app in W; apply Forall_app; tauto|].
    rewrite texts_step by assumption. assert (E : key_of i (u ++ s) = Ok (id, a, s)) by (apply new_key_text_iff; eauto).
    rewrite E. cbn [bind]. rewrite T. reflexivity.
Qed.
Lemma texts_moves : forall n i, 0 < i_groupsize i -> 0 <= i_keylength i -> moves_some (texts n i) (key_texts i (Z.of_nat n)).
Proof.
  intros n i Hg Hl l l' (A1 & A2 & A3) (B1 & B2 & B3).
  destruct (key_len_lemma _ _ Hg Hl) as ((qq & Q1) & Q2).
  assert (LN : forall r, key_text U i r -> letters (fst r) /\ letters (snd r) /\ length (snd r) = runes_len i).
  { intros r (X1 & _ & _ & X2 & (z & X3) & X4). split; [exact X1|]. split; [exact X2|]. unfold runes_len. unfold len in *.
    assert (z = qq) by nia. subst z. lia. }
  assert (IDS : forall r, key_text U i r -> an_id (Z.to_nat (i_groupsize i)) (fst r) /\ ~ In (fst r) (big_ids (i_keys i))).
  { intros r (X1 & X2 & X3 & _). split; [split; [exact X1|unfold len in *; lia]|]. unfold big_ids. rewrite in_map_iff.
    intros (k & K1 & K2). apply (X3 k K2). unfold same_text. rewrite (letters_up _ X1). exact K1. }
  rewrite Forall_forall in A3, B3.
  destruct (renaming (an_id (Z.to_nat (i_groupsize i))) (big_ids (i_keys i)) (map fst l) (map fst l') A2 B2) as (p & q & QP & PP & _ & _ & FX & M).
  { rewrite !map_length. unfold len in *. lia. }
  { intros x X. apply in_app_or in X. destruct X as [X|X]; apply in_map_iff in X; destruct X as (r & <- & R); auto. }
  destruct (texts_xm p q n i i l l' Hg Hl eq_refl eq_refl QP PP) as (h & H1 & H2).
  - rewrite <- (map_id (big_ids (i_keys i))) at 2. apply map_ext_in. exact FX.
  - unfold len in *. lia.
  - symmetry. exact M.
  - apply Forall_forall. intros r R. apply LN. apply in_app_or in R. destruct R; auto.
  - exists h. split; [|exact H2]. intros t t' W H. destruct (H1 t t' W H) as (X & Y & Z). eauto.
Qed.
Lemma texts_fair : forall n i, 0 < i_groupsize i -> 0 <= i_keylength i -> len (i_keys i) + Z.of_nat n <= 26 ^ i_groupsize i ->
  fair (texts n i) (key_texts i (Z.of_nat n)).
Proof.
  intros n i Hg Hl L. destruct (texts_possible n i Hg Hl L) as (t & l & t' & W & T).
  assert (dec : forall x y : list (list rune * list rune), {x = y} + {x <> y}).
  { apply list_eq_dec. decide equality; apply (list_eq_dec Z.eq_dec). }
  apply (fair_of_moves_some dec (texts n i) _ l t t'); [|apply texts_moves; assumption|exact W|exact T].
  intros s m s' H. exact (texts_sound n i s m s' Hg Hl H).
Qed.
End WithUnicode.

Lemma generated_joint : forall U i n now x keepers, x <> Some None -> 0 < i_groupsize i -> 0 <= i_keylength i ->
  len (i_keys i) + Z.max 0 n <= 26 ^ i_groupsize i ->
  fair (fun t => let* (i', t') := generate_keys U i n now x keepers t in
                 Ok (map (fun k => (kid k, krunes k)) (skipn (length (i_keys i)) (i_keys i')), t'))
    (key_texts U i (Z.max 0 n)).
Proof.
  intros U i n now x keepers X Hg Hl L. replace (Z.max 0 n) with (Z.of_nat (Z.to_nat n)) in * by lia.
  destruct x as [[x|]|]; [|contradiction|]; apply texts_fair; assumption.
Qed.

(** ** Draws in turn *)
Definition good_draw {A} (f : tape -> res (A * tape)) (P : A -> Prop) : Prop :=
  local f /\ moves f P /\ (forall t a t', f t = Ok (a, t') -> P a) /\ exists t a t', Forall word t /\ f t = Ok (a, t').
Lemma in_turn_xm : forall A (fs : list (tape -> res (A * tape))) Ps, Forall2 good_draw fs Ps -> forall l l',
  Forall2 (fun (P : A -> Prop) a => P a) Ps l -> Forall2 (fun (P : A -> Prop) a => P a) Ps l' -> xm (in_turn fs) l (in_turn fs) l'.
Proof.
  intros A fs Ps F. induction F as [|f P fs Ps (L & M & _) F IH]; intros l l' H H'.
  - inversion H; inversion H'; subst. exists (fun t => t). split; [auto|auto].
  - inversion H as [|? a ? m Pa Hm]; inversion H' as [|? b ? m' Pb Hm']; subst.
    apply (xm_seq _ _ _ _ _ _ f a f b (in_turn fs) m (in_turn fs) m').
    + exact L.
    + exact (M a b Pa Pb).
    + exact (IH m m' Hm Hm').
    + intros t t' T. cbn [in_turn] in T. destruct (f t) as [[x t1]|?| |] eqn:E; try discriminate. cbn [bind] in T.
      destruct (in_turn fs t1) as [[y t2]|?| |] eqn:E2; try discriminate. cbn [bind] in T. injection T as -> -> ->. eauto.
    + intros t t1 t' T1 T2. cbn [in_turn]. rewrite T1. cbn [bind]. rewrite T2. reflexivity.
Qed.
Lemma in_turn_sound : forall A (fs : list (tape -> res (A * tape))) Ps, Forall2 good_draw fs Ps -> forall t l t',
  in_turn fs t = Ok (l, t') -> Forall2 (fun (P : A -> Prop) a => P a) Ps l.
Proof.
  intros A fs Ps F. induction F as [|f P fs Ps (_ & _ & SU & _) F IH]; intros t l t' T; cbn [in_turn] in T.
  - injection T as <- _. constructor.
  - destruct (f t) as [[x t1]|?| |] eqn:E; try discriminate. cbn [bind] in T.
    destruct (in_turn fs t1) as [[y t2]|?| |] eqn:E2; try discriminate. cbn [bind] in T. injection T as <- _.
    constructor; [exact (SU t x t1 E)|exact (IH t1 y t2 E2)].
Qed.
Lemma in_turn_possible : forall A (fs : list (tape -> res (A * tape))) Ps, Forall2 good_draw fs Ps ->
  exists t l t', Forall word t /\ in_turn fs t = Ok (l, t').
Proof.
  intros A fs Ps F. induction F as [|f P fs Ps (L & _ & _ & (t & a & t' & W & T)) F (s & l & s' & W' & T')].
  - exists [], [], []. split; [constructor|reflexivity].
  - destruct (L t a t' T) as (u & -> & G). exists (u ++ s), (a :: l), s'.
    split; [apply Forall_app in W; apply Forall_app; tauto|]. cbn [in_turn]. rewrite G. cbn [bind]. rewrite T'. reflexivity.
Qed.
Lemma in_turn_fair : forall A (dec : forall a b : A, {a = b} + {a <> b}) (fs : list (tape -> res (A * tape))) Ps, Forall2 good_draw fs Ps ->
  fair (in_turn fs) (fun l => Forall2 (fun (P : A -> Prop) a => P a) Ps l).
Proof.
  intros A dec fs Ps F. destruct (in_turn_possible A fs Ps F) as (t & l & t' & W & T).
  apply (fair_of_moves_some (list_eq_dec dec) (in_turn fs) _ l t t'); [|intros a b Pa Pb|exact W|exact T].
  - exact (in_turn_sound A fs Ps F).
  - destruct (in_turn_xm A fs Ps F a b Pa Pb) as (h & H & J). exists h. split; [|exact J].
    intros s s' Ws Ts. destruct (H s s' Ws Ts) as (X & Y & Z). eauto.
Qed.

(** A function that computes its result from a series of draws is a good draw. *)
Lemma vec_local : forall fs Ps, Forall2 any_drawn fs Ps -> local (vec fs).
Proof.
  intros fs Ps F. induction F as [|f P fs Ps (acc & D) F IH]; intros t l t' H.
  - injection H as <- <-. exists []. split; [reflexivity|]. intros s. reflexivity.
  - apply vec_cons in H. destruct H as (v & us & t1 & -> & H1 & H2). destruct (drawn_local f acc P D _ _ _ H1) as (u & -> & G).
    destruct (IH _ _ _ H2) as (w & -> & K). exists (u ++ w). split; [apply app_assoc|]. intros s. cbn [vec]. rewrite <- app_assoc, G.
    cbn [bind]. rewrite K. reflexivity.
Qed.
Lemma image_draw : forall A fs Ps (g : tape -> res (A * tape)) (F : list Z -> A) (Q : A -> Prop),
  Forall2 any_drawn fs Ps ->
  (forall t b t', g t = Ok (b, t') <-> exists vs, vec fs t = Ok (vs, t') /\ b = F vs) ->
  (forall vs, fits Ps vs -> Q (F vs)) ->
  (forall vs us, fits Ps vs -> fits Ps us -> F vs = F us -> vs = us) ->
  (forall b, Q b -> exists vs, fits Ps vs /\ b = F vs) -> good_draw g Q.
Proof.
  intros A fs Ps g F Q D G R IN ON. destruct (vec_some fs Ps D) as (t & vs & W & H). split; [|split; [|split]].
  - intros s b s' X. apply G in X. destruct X as (us & X & ->). destruct (vec_local fs Ps D _ _ _ X) as (u & -> & K).
    exists u. split; [reflexivity|]. intros r. apply G. eauto.
  - apply (image_moves _ _ (vec fs) (fits Ps) g F Q); auto using vec_drawn_moves.
    intros s a s' X. exact (vec_fits fs Ps s a s' D X).
  - intros s b s' X. apply G in X. destruct X as (us & X & ->). apply R. exact (vec_fits fs Ps s us s' D X).
  - exists t, (F vs), []. split; [exact W|]. apply G. eauto.
Qed.
Definition hex64 (x : list rune) : Prop := len x = 64 /\ Forall hex_digit x /\ map hex_lower x = x.
Lemma generated_draw : forall g, (g = generate_pfk \/ g = generate_salt) -> good_draw g hex64.
Proof.
  intros g G. assert (EQ : forall t, g t = match read_bytes 32 t with Some (b, t') => Ok (hex_encode b, t') | None => Panic end)
    by (destruct G as [->| ->]; reflexivity). clear G.
  assert (BY : forall vs, Forall in256 vs -> Forall byte vs) by (intros vs V; eapply Forall_impl; [|exact V]; intros v X; unfold byte, in256 in *; lia).
  apply (image_draw _ (repeat byte_draw 32) (repeat in256 32) g hex_encode).
  - apply bytes_drawn.
  - intros t b t'. rewrite EQ. split.
    + intros H. destruct (read_bytes 32 t) as [[r t1]|] eqn:R; [|discriminate]. apply bytes_vec in R. exists r.
      assert (E1 : hex_encode r = b) by congruence. assert (E2 : t1 = t') by congruence. subst. auto.
    + intros (vs & V & ->). apply bytes_vec in V. rewrite V. reflexivity.
  - intros vs F. apply fits_repeat in F. destruct F as (L & F). destruct (hex_encode_digits vs (BY vs F)) as (X & Y & Z).
    unfold hex64, len in *. split; [lia|auto].
  - intros vs us F F'. apply fits_repeat in F, F'. apply hex_encode_inj; tauto.
  - intros x (L & D & LW). destruct (hex_decode_ok x D) as (b & B). { exists 32. lia. }
    destruct (hex_decode_some x b B) as (_ & E & F & N). exists b. split; [|congruence]. apply fits_repeat. unfold len in *. split; [lia|].
    eapply Forall_impl; [|exact F]. intros v X. unfold byte, in256 in *. lia.
Qed.
Lemma forall2_const : forall A (P : A -> Prop) n (l : list A), Forall2 (fun (P : A -> Prop) a => P a) (repeat P n) l <-> length l = n /\ Forall P l.
Proof.
  intros A P n. induction n as [|n IH]; intros l; cbn [repeat]; split.
  - intros H. inversion H. auto.
  - intros (L & _). destruct l; [constructor|discriminate].
  - intros H. inversion H as [|? v ? vs' V R]; subst. apply IH in R. destruct R as (<- & R). auto.
  - intros (L & F). destruct l as [|v l]; [discriminate|]. inversion F; subst. constructor; [assumption|]. apply IH. injection L as L. auto.
Qed.
Lemma fair_same : forall A (f : tape -> res (A * tape)) (P Q : A -> Prop), (forall a, P a <-> Q a) -> fair f P -> fair f Q.
Proof.
  intros A f P Q E (F1 & F2 & N & F3). split; [intros t a t' H; apply E; eauto|]. split.
  - intros M. destruct (F2 M) as (c & H). exists c. intros a Qa. apply H, E, Qa.
  - exists N. intros a Qa. apply F3, E, Qa.
Qed.
Lemma secrets_joint : forall gs, Forall (fun g => g = generate_pfk \/ g = generate_salt) gs ->
  fair (in_turn gs) (fun xs => length xs = length gs /\ Forall hex64 xs).
Proof.
  intros gs G. apply (fair_same _ _ (fun l => Forall2 (fun (P : list rune -> Prop) a => P a) (repeat hex64 (length gs)) l)).
  - intros l. rewrite (forall2_const _ hex64). tauto.
  - apply in_turn_fair; [exact (list_eq_dec Z.eq_dec)|]. induction G as [|g gs G1 G IH]; cbn [length repeat]; constructor; [exact (generated_draw g G1)|exact IH].
Qed.

(** ** ReadRunes and Read *)
Definition in32 : Z -> Prop := fun v => - 2 ^ 31 <= v < 2 ^ 31.
Definition rune_draw : sampler := fun t => match t with [] => Panic | w :: t' => Ok (to_int32 w, t') end.
Lemma to_int32_spec : forall w, in32 (to_int32 w) /\ exists q, w = to_int32 w + q * 2 ^ 32.
Proof.
  intros w. unfold to_int32, in32. cbv zeta. assert (D := Z.div_mod w (2 ^ 32) ltac:(lia)). assert (R := Z.mod_pos_bound w (2 ^ 32) ltac:(lia)).
  destruct (2 ^ 31 <=? w mod 2 ^ 32) eqn:E; (split; [lia|]); [exists (w / 2 ^ 32 + 1)|exists (w / 2 ^ 32)]; lia.
Qed.
Lemma to_int32_unique : forall w v q, in32 v -> w = v + q * 2 ^ 32 -> to_int32 w = v.
Proof.
  intros w v q V E. destruct (to_int32_spec w) as (S1 & r & E2). unfold in32 in *. set (x := to_int32 w) in *. clearbody x.
  assert (r = q) by lia. lia.
Qed.
Lemma rune_drawn : drawn rune_draw (fun w => Some (to_int32 w)) in32.
Proof.
  split; [|split; [|split]].
  - intros [|w t]; [reflexivity|]. cbn [rune_draw draw]. do 2 f_equal.
    destruct (to_int32_spec w) as (V & q & E). symmetry. apply (to_int32_unique _ _ (q - w / 2 ^ 64 * 2 ^ 32) V).
    assert (D := Z.div_mod w (2 ^ 64) ltac:(lia)). change (2 ^ 64) with (2 ^ 32 * 2 ^ 32) in *. lia.
  - intros w v _ A. assert (A' : to_int32 w = v) by congruence. rewrite <- A'. apply to_int32_spec.
  - intros a b Pa Pb.
    exists (fun w => (w + (b - a)) mod 2 ^ 64). split.
    + intros w W A. assert (A' : to_int32 w = a) by congruence. clear A. split; [apply Z.mod_pos_bound; lia|]. f_equal.
      destruct (to_int32_spec w) as (_ & q & E). rewrite A' in E. assert (D := Z.div_mod (w + (b - a)) (2 ^ 64) ltac:(lia)).
      apply (to_int32_unique _ _ (q - (w + (b - a)) / 2 ^ 64 * 2 ^ 32) Pb). change (2 ^ 64) with (2 ^ 32 * 2 ^ 32) in *. lia.
    + intros w x Ww Wx _ _ E. unfold word in *.
      assert (D1 := Z.div_mod (w + (b - a)) (2 ^ 64) ltac:(lia)). assert (D2 := Z.div_mod (x + (b - a)) (2 ^ 64) ltac:(lia)). lia.
  - exists 0, 0. split; [unfold word; lia|reflexivity].
Qed.
Lemma runes_vec : forall n t b t', read_runes n t = Some (b, t') <-> vec (repeat rune_draw n) t = Ok (b, t').
Proof.
  induction n as [|n IH]; intros t b t'.
  - unfold read_runes. cbn. split; intros H; injection H as <- <-; reflexivity.
  - cbn [repeat vec]. destruct t as [|w t].
    + unfold read_runes. cbn. split; discriminate.
    + cbn [rune_draw bind]. assert (E : read_runes (S n) (w :: t) = match read_runes n t with Some (r, t1) => Some (to_int32 w :: r, t1) | None => None end).
      { unfold read_runes. change (Nat.leb (S n) (length (w :: t))) with (Nat.leb n (length t)). destruct (Nat.leb n (length t)); reflexivity. }
      rewrite E. split.
      * intros H. destruct (read_runes n t) as [[r t1]|] eqn:R; [|discriminate]. injection H as <- <-. apply IH in R. rewrite R. reflexivity.
      * intros H. destruct (vec (repeat rune_draw n) t) as [[r t1]|?| |] eqn:R; try discriminate. cbn [bind] in H. injection H as <- <-.
        assert (X : read_runes n t = Some (r, t1)) by (apply IH; exact R). rewrite X. reflexivity.
Qed.
Lemma read_draw : forall (read : nat -> tape -> option (list Z * tape)) d P, any_drawn d P ->
  (forall n t b t', read n t = Some (b, t') <-> vec (repeat d n) t = Ok (b, t')) ->
  forall n, good_draw (drawn_or_panic (read n)) (fun l => length l = n /\ Forall P l).
Proof.
  intros read d P D V n. apply (image_draw _ (repeat d n) (repeat P n) _ (fun vs => vs)).
  - clear V. induction n as [|n IH]; cbn [repeat]; constructor; assumption.
  - intros t b t'. unfold drawn_or_panic. split.
    + intros H. destruct (read n t) as [[r t1]|] eqn:R; [|discriminate]. apply V in R. exists r.
      assert (r = b) by congruence. assert (t1 = t') by congruence. subst. auto.
    + intros (vs & H & ->). apply V in H. rewrite H. reflexivity.
  - intros vs F. apply fits_repeat in F. exact F.
  - auto.
  - intros b B. exists b. split; [apply fits_repeat; exact B|reflexivity].
Qed.
Lemma reads_joint : forall (read : nat -> tape -> option (list Z * tape)) d P, any_drawn d P ->
  (forall n t b t', read n t = Some (b, t') <-> vec (repeat d n) t = Ok (b, t')) ->
  forall ns, fair (in_turn (map (fun n => drawn_or_panic (read n)) ns)) (fun ls => Forall2 (fun n l => length l = n /\ Forall P l) ns ls).
Proof.
  intros read d P D V ns. apply (fair_same _ _ (fun l => Forall2 (fun (P : list Z -> Prop) a => P a) (map (fun n l => length l = n /\ Forall P l) ns) l)).
  - intros l. revert l. induction ns as [|n ns IH]; intros l; cbn [map]; split; intros H; inversion H; subst; constructor; auto; apply IH; assumption.
  - apply in_turn_fair; [exact (list_eq_dec Z.eq_dec)|]. induction ns as [|n ns IH]; cbn [map]; constructor; [apply (read_draw read d P D V)|exact IH].
Qed.
Lemma runes_joint : forall ns, fair (in_turn (map (fun n => drawn_or_panic (read_runes n)) ns))
  (fun ls => Forall2 (fun n l => length l = n /\ Forall in32 l) ns ls).
Proof. apply (reads_joint read_runes rune_draw in32); [exists (fun w => Some (to_int32 w)); exact rune_drawn|exact runes_vec]. Qed.
Lemma bytes_joint : forall ns, fair (in_turn (map (fun n => drawn_or_panic (read_bytes n)) ns))
  (fun ls => Forall2 (fun n l => length l = n /\ Forall in256 l) ns ls).
Proof. apply (reads_joint read_bytes byte_draw in256); [exists (fun w => Some (w mod 256)); exact byte_drawn|exact bytes_vec]. Qed.
