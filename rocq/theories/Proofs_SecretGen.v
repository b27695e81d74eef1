(** Lemmas: every filling of the keys made by GenerateKeys comes from equally many
    random tapes. *)
From Coq Require FinFun.
From Verif Require Import Base Spec Spec_Secrecy Model_Unicode Model_Crand Model_Functions Model_Types Model_Keys Model_Cipher
  Proofs_Functions Proofs_Crand Proofs_KeyOps Proofs_Uniform Proofs_Draws Proofs_Secrecy Proofs_Secrecy2.

Section U.
Context (U : Uni).

(** What NewKey does depends on the IDs in the store only. *)
Lemma contains_kids : forall ks ks' id, map kid ks = map kid ks' -> contains_key_id U ks id = contains_key_id U ks' id.
Proof.
  unfold contains_key_id. induction ks as [|k ks IH]; intros [|k' ks'] id H; try discriminate; [reflexivity|].
  cbn [map] in H. injection H as H1 H2. cbn [existsb]. rewrite H1, (IH ks' id H2). reflexivity.
Qed.
Lemma loop_kids : forall f ks ks' gs t, map kid ks = map kid ks' -> new_id_loop U f ks gs t = new_id_loop U f ks' gs t.
Proof.
  induction f as [|f IH]; intros ks ks' gs t H; [reflexivity|]. cbn [new_id_loop].
  destruct (random_letters gs t) as [[r t1]|?| |]; try reflexivity. cbn [bind]. rewrite (contains_kids ks ks' r H), (IH ks ks' gs t1 H).
  reflexivity.
Qed.
Lemma new_key_made : forall i now e kp t i' k t', 0 < i_groupsize i -> 0 <= i_keylength i ->
  new_key U i now e kp t = Ok (i', k, t') ->
  i' = set_keys i (i_keys i ++ [k]) /\ letters (kid k) /\ letters (krunes k) /\ contains_key_id U (i_keys i) (kid k) = false /\
  k = mkKey (kid k) (krunes k) (remove_keeper U (vetted_keepers U kp) [i_callsign i]) now e false false [] /\
  exists t1, new_id_loop U (S (length t)) (i_keys i) (length (kid k)) t = Ok (kid k, t1) /\
    random_letters (length (krunes k)) t1 = Ok (krunes k, t') /\
    Z.of_nat (length (kid k)) = i_groupsize i /\
    Z.of_nat (length (krunes k)) = key_runes_length (i_keylength i) (i_groupsize i).
Proof.
  intros i now e kp t i' k t' Hg Hl H. destruct (new_key_parts U i now e kp t i' k t' Hg Hl H) as (t1 & P1 & P2 & P3 & P4).
  destruct (new_id_lemma U _ _ _ _ _ _ P1) as (A1 & _ & A3). destruct (letters_range _ _ _ _ P2) as (B1 & _).
  unfold new_key in H. cbv zeta in H.
  destruct (_ || _); [discriminate|]. destruct (new_id_loop U _ _ _ t) as [[id u]|?| |]; try discriminate. cbn [bind] in H.
  destruct (random_letters _ u) as [[r v]|?| |]; try discriminate. cbn [bind] in H. injection H as <- <- <-. cbn [kid krunes] in *.
  split; [reflexivity|]. split; [exact A1|]. split; [exact B1|]. split; [apply contains_id_false; exact A3|]. split; [reflexivity|].
  exists t1. auto.
Qed.
Lemma key_shift : forall i K now e kp id a b, 0 < i_groupsize i -> 0 <= i_keylength i -> map kid (i_keys i) = map kid K ->
  letters b -> length a = length b ->
  exists f : tape -> tape,
    (forall t i' k t', Forall word t -> new_key U i now e kp t = Ok (i', k, t') -> kid k = id -> krunes k = a ->
       Forall word (f t) /\ length (f t) = length t /\
       new_key U (set_keys i K) now e kp (f t) = Ok (set_keys i (K ++ [with_runes k b]), with_runes k b, t')) /\
    forall t s i1 i2 k1 k2 t1 s1, Forall word t -> Forall word s ->
      new_key U i now e kp t = Ok (i1, k1, t1) -> kid k1 = id -> krunes k1 = a ->
      new_key U i now e kp s = Ok (i2, k2, s1) -> kid k2 = id -> krunes k2 = a -> f t = f s -> t = s.
Proof.
  intros i K now e kp id a b Hg Hl HK Hb Hab.
  set (f := fun t => shift_key U (S (length t)) (i_keys i) (length id) id id a b t).
  assert (Q : forall t i' k t', Forall word t -> new_key U i now e kp t = Ok (i', k, t') -> kid k = id -> krunes k = a ->
    Forall word (f t) /\ length (f t) = length t /\
    new_key U (set_keys i K) now e kp (f t) = Ok (set_keys i (K ++ [with_runes k b]), with_runes k b, t') /\
    shift_key U (S (length (f t))) (i_keys i) (length id) id id b a (f t) = t).
  { intros t i' k t' W H <- <-.
    destruct (new_key_made i now e kp t i' k t' Hg Hl H) as (_ & A1 & A2 & A3 & A4 & t1 & P1 & P2 & P3 & P4).
    destruct (shift_key_spec U _ _ (kid k) (kid k) (krunes k) b t t1 t' (S (length t)) W A1 A1 eq_refl A2 Hb Hab A3 P1 P2 (le_n _))
      as (S1 & S2 & (s1 & S3 & S4) & S5).
    subst f. cbv beta zeta. set (s := shift_key U (S (length t)) (i_keys i) (length (kid k)) (kid k) (kid k) (krunes k) b t) in *.
    split; [exact S1|]. split; [exact S2|]. split; [|rewrite S2; apply S5; exact A3].
    unfold new_key. cbn [i_groupsize i_keylength i_keys i_callsign set_keys]. destruct (key_len_lemma _ _ Hg Hl) as (_ & L3).
    replace ((i_groupsize i <? 0) || (key_runes_length (i_keylength i) (i_groupsize i) <? 0)) with false by lia.
    cbv zeta. rewrite <- P4, <- P3, !Nat2Z.id, <- (loop_kids _ (i_keys i) K _ s HK), S2, S3. cbn [bind]. rewrite Hab, S4. cbn [bind].
    rewrite A4. reflexivity. }
  exists f. split; [intros t i' k t' W H E1 E2; destruct (Q t i' k t' W H E1 E2) as (X & Y & Z & _); auto|].
  intros t s i1 i2 k1 k2 t1 s1 W1 W2 H1 E1 F1 H2 E2 F2 E.
  destruct (Q t i1 k1 t1 W1 H1 E1 F1) as (_ & _ & _ & <-). destruct (Q s i2 k2 s1 W2 H2 E2 F2) as (_ & _ & _ & <-).
  rewrite E. reflexivity.
Qed.

Lemma set_keys_twice : forall i a b, set_keys (set_keys i a) b = set_keys i b.
Proof. intros. reflexivity. Qed.
Lemma set_keys_keys : forall i i' a, i' = set_keys i a -> i_keys i' = a.
Proof. intros i i' a ->. reflexivity. Qed.
Lemma new_keys_more : forall n i now e kp t i' t', 0 < i_groupsize i -> 0 <= i_keylength i ->
  new_keys U n i now e kp t = Ok (i', t') -> exists news, i' = set_keys i (i_keys i ++ news) /\ Forall (fun k => letters (krunes k)) news.
Proof.
  induction n as [|n IH]; intros i now e kp t i' t' Hg Hl H; cbn [new_keys] in H.
  { injection H as <- _. exists []. rewrite app_nil_r. split; [destruct i; reflexivity|constructor]. }
  destruct (new_key U i now e kp t) as [[[i1 k] t1]|?| |] eqn:E; try discriminate. cbn [bind] in H.
  destruct (new_key_made i now e kp t i1 k t1 Hg Hl E) as (-> & _ & L & _).
  destruct (IH (set_keys i (i_keys i ++ [k])) now e kp t1 i' t' Hg Hl H) as (news & -> & F).
  exists (k :: news). cbn [i_keys set_keys]. rewrite set_keys_twice, <- app_assoc. split; [reflexivity|constructor; assumption].
Qed.
Lemma keys_shift : forall n i K now e kp news news', 0 < i_groupsize i -> 0 <= i_keylength i ->
  map kid (i_keys i) = map kid K -> refilled news news' ->
  exists f : tape -> tape,
    (forall t t', Forall word t -> new_keys U n i now e kp t = Ok (set_keys i (i_keys i ++ news), t') ->
       Forall word (f t) /\ length (f t) = length t /\
       new_keys U n (set_keys i K) now e kp (f t) = Ok (set_keys i (K ++ news'), t')) /\
    forall t s t1 s1, Forall word t -> Forall word s ->
      new_keys U n i now e kp t = Ok (set_keys i (i_keys i ++ news), t1) ->
      new_keys U n i now e kp s = Ok (set_keys i (i_keys i ++ news), s1) -> f t = f s -> t = s.
Proof.
  induction n as [|n IH]; intros i K now e kp news news' Hg Hl HK R.
  { exists (fun t => t). split; [|auto]. intros t t' W H. cbn [new_keys] in *. injection H as H1 H2. subst t'.
    split; [exact W|]. split; [reflexivity|]. assert (i_keys i = i_keys i ++ news) as X by (rewrite H1 at 1; reflexivity).
    rewrite <- (app_nil_r (i_keys i)) in X at 1. apply app_inv_head in X. subst news. inversion R. rewrite app_nil_r. reflexivity. }
  destruct R as [|k k' news news' OL R].
  { exists (fun t => t). split; [|auto]. intros t t' W H. exfalso. cbn [new_keys] in H. rewrite app_nil_r in H.
    destruct (new_key U i now e kp t) as [[[i1 k] t1]|?| |] eqn:E; try discriminate. cbn [bind] in H.
    destruct (new_key_made i now e kp t i1 k t1 Hg Hl E) as (-> & _).
    destruct (new_keys_more n (set_keys i (i_keys i ++ [k])) now e kp t1 _ t' Hg Hl H) as (x & X & _). apply (f_equal i_keys) in X. cbn [i_keys set_keys] in X.
    rewrite <- app_assoc in X. rewrite <- (app_nil_r (i_keys i)) in X at 1. apply app_inv_head in X. discriminate. }
  destruct OL as (O1 & O2 & O3).
  destruct (key_shift i K now e kp (kid k) (krunes k) (krunes k') Hg Hl HK O2 ltac:(lia)) as (f1 & F1 & I1).
  destruct (IH (set_keys i (i_keys i ++ [k])) (K ++ [k']) now e kp news news') as (f2 & F2 & I2); cbn [i_groupsize i_keylength i_keys set_keys];
    [exact Hg|exact Hl|rewrite !map_app; cbn [map]; rewrite HK, O1; reflexivity|exact R|].
  cbn [i_keys set_keys] in F2, I2.
  assert (ST : forall t t', new_keys U (S n) i now e kp t = Ok (set_keys i (i_keys i ++ k :: news), t') ->
    exists t1, new_key U i now e kp t = Ok (set_keys i (i_keys i ++ [k]), k, t1) /\
      new_keys U n (set_keys i (i_keys i ++ [k])) now e kp t1 = Ok (set_keys (set_keys i (i_keys i ++ [k])) ((i_keys i ++ [k]) ++ news), t')).
  { intros t t' H. cbn [new_keys] in H. destruct (new_key U i now e kp t) as [[[i1 k1] t1]|?| |] eqn:E; try discriminate. cbn [bind] in H.
    destruct (new_key_made i now e kp t i1 k1 t1 Hg Hl E) as (-> & _). exists t1.
    destruct (new_keys_more n (set_keys i (i_keys i ++ [k1])) now e kp t1 _ t' Hg Hl H) as (x & X & _). apply (f_equal i_keys) in X. cbn [i_keys set_keys] in X.
    rewrite <- app_assoc in X. apply app_inv_head in X. injection X as -> ->. split; [reflexivity|]. rewrite H, set_keys_twice, <- app_assoc. reflexivity. }
  assert (WK : with_runes k (krunes k') = k') by (symmetry; exact O1).
  set (f := fun t => match new_key U i now e kp t with Ok (_, _, t2) => firstn (length t - length t2) (f1 t) ++ f2 t2 | _ => t end).
  assert (PT : forall t t1, Forall word t -> new_key U i now e kp t = Ok (set_keys i (i_keys i ++ [k]), k, t1) ->
    exists u, f1 t = u ++ t1 /\ f t = u ++ f2 t1 /\ Forall word u /\ Forall word t1 /\ length t = (length u + length t1)%nat /\
      forall s, new_key U (set_keys i K) now e kp (u ++ s) = Ok (set_keys i (K ++ [k']), k', s)).
  { intros t t1 W H. destruct (F1 t _ k t1 W H eq_refl eq_refl) as (A & B & C). rewrite WK in C.
    destruct (new_key_local U (set_keys i K) now e kp (f1 t) _ k' t1 Hg C) as (u & D & _ & G).
    exists u. split; [exact D|]. unfold f. rewrite H. rewrite D in B |- *. rewrite app_length in B. split.
    { f_equal. replace (length t - length t1)%nat with (length u + 0)%nat by lia. rewrite firstn_app_2, firstn_O. apply app_nil_r. }
    rewrite D in A. apply Forall_app in A. destruct A as (A1 & A2). split; [exact A1|]. split; [exact A2|]. split; [lia|exact G]. }
  exists f. split.
  - intros t t' W H. destruct (ST t t' H) as (t1 & H1 & H2). destruct (PT t t1 W H1) as (u & _ & -> & A & B & L & G).
    destruct (F2 t1 t' B H2) as (X & Y & Z). split; [apply Forall_app; auto|]. split; [rewrite app_length; lia|].
    cbn [new_keys]. rewrite G. cbn [bind]. rewrite !set_keys_twice in Z. rewrite Z, <- app_assoc. reflexivity.
  - intros t s t9 s9 W1 W2 H1 H2 E. destruct (ST t t9 H1) as (t1 & A1 & A2), (ST s s9 H2) as (s1 & B1 & B2).
    destruct (PT t t1 W1 A1) as (u & C1 & C2 & C3 & C4 & C5 & C6), (PT s s1 W2 B1) as (v & D1 & D2 & D3 & D4 & D5 & D6).
    rewrite C2, D2 in E. assert (X := C6 (f2 t1)). rewrite E, D6 in X. injection X as X.
    assert (Y : t1 = s1) by (apply (I2 t1 s1 t9 s9); auto). subst s1. apply app_inv_tail in E. subst v.
    apply (I1 t s _ _ k k t1 t1 W1 W2 A1 eq_refl eq_refl B1 eq_refl eq_refl). congruence.
Qed.

(** Lists of all tapes of a length. *)
Lemma all_words : forall M, 0 <= M -> exists l : list Z, NoDup l /\ forall w, In w l <-> 0 <= w < M.
Proof.
  intros M H. pattern M. apply natlike_ind; [| |exact H].
  - exists []. split; [constructor|]. intros w. split; [intros []|lia].
  - intros x X (l & N & I). exists (x :: l). split; [constructor; [rewrite I; lia|exact N]|].
    intros w. cbn [In]. rewrite I. lia.
Qed.
Lemma all_tapes : forall N, exists l : list tape, NoDup l /\ forall t, In t l <-> length t = N /\ Forall word t.
Proof.
  destruct (all_words (2 ^ 64) ltac:(lia)) as (ws & NW & IW).
  induction N as [|N (l & NL & IL)].
  - exists [[]]. split; [constructor; [intros []|constructor]|]. intros t. split.
    + intros [<-|[]]. split; [reflexivity|constructor].
    + intros (L & _). left. destruct t; [reflexivity|discriminate].
  - exists (flat_map (fun w => map (cons w) l) ws). split.
    + apply flat_map_nodup; [exact NW| |].
      * intros w _. apply FinFun.Injective_map_NoDup; [intros a b E; injection E; auto|exact NL].
      * intros x y b _ _ X Y. apply in_map_iff in X, Y. destruct X as (v & <- & _), Y as (u & E & _). injection E; auto.
    + intros t. rewrite in_flat_map. split.
      * intros (w & W & I). apply in_map_iff in I. destruct I as (u & <- & I). apply IL in I. destruct I as (I1 & I2).
        apply IW in W. split; [cbn; lia|constructor; assumption].
      * intros (L & F). destruct t as [|w t]; [discriminate|]. inversion F; subst. exists w. split; [apply IW; assumption|].
        apply in_map. apply IL. split; [cbn in L; lia|assumption].
Qed.
Lemma key_dec : forall a b : key, {a = b} + {a <> b}.
Proof.
  assert (L : forall a b : list rune, {a = b} + {a <> b}) by (apply list_eq_dec, Z.eq_dec).
  assert (LL : forall a b : list (list rune), {a = b} + {a <> b}) by (apply list_eq_dec, L).
  decide equality; try apply Z.eq_dec; try apply Bool.bool_dec; auto.
Qed.

(** The keys that NewKey appends. *)
Definition made (i : inst) (now e : Z) (kp : list (list rune)) (k : key) : Prop :=
  k = mkKey (kid k) (krunes k) (remove_keeper U (vetted_keepers U kp) [i_callsign i]) now e false false [] /\
  letters (kid k) /\ len (kid k) = i_groupsize i /\
  letters (krunes k) /\ Z.of_nat (length (krunes k)) = key_runes_length (i_keylength i) (i_groupsize i).
Lemma new_keys_made : forall n i now e kp t i' t', 0 < i_groupsize i -> 0 <= i_keylength i ->
  new_keys U n i now e kp t = Ok (i', t') ->
  exists news, i' = set_keys i (i_keys i ++ news) /\ Forall (made i now e kp) news /\
    (NoDup (map kid (i_keys i)) -> NoDup (map kid (i_keys i ++ news))).
Proof.
  induction n as [|n IH]; intros i now e kp t i' t' Hg Hl H; cbn [new_keys] in H.
  { injection H as <- _. exists []. rewrite app_nil_r. split; [destruct i; reflexivity|]. split; [constructor|auto]. }
  destruct (new_key U i now e kp t) as [[[i1 k] t1]|?| |] eqn:E; try discriminate. cbn [bind] in H.
  destruct (new_key_made i now e kp t i1 k t1 Hg Hl E) as (-> & A1 & A2 & A3 & A4 & t2 & _ & _ & A5 & A6).
  destruct (IH (set_keys i (i_keys i ++ [k])) now e kp t1 i' t' Hg Hl H) as (news & -> & F & ND).
  exists (k :: news). cbn [i_keys set_keys] in ND |- *. rewrite set_keys_twice, <- app_assoc. split; [reflexivity|].
  split; [constructor; [split; [exact A4|unfold len; auto]|exact F]|].
  intros ND0. rewrite <- app_assoc in ND. apply ND. rewrite map_app. cbn [map].
  apply (NoDup_Add (a := kid k) (l := map kid (i_keys i))).
  { rewrite <- (app_nil_r (map kid (i_keys i))) at 1. apply Add_app. }
  split; [exact ND0|]. intros I. apply in_map_iff in I. destruct I as (k0 & I1 & I2).
  apply (proj1 (contains_id_false U _ _) A3 k0 I2). rewrite I1. reflexivity.
Qed.
Lemma made_refilled : forall i now e kp news news1, Forall (made i now e kp) news -> Forall (made i now e kp) news1 ->
  map kid news1 = map kid news -> refilled news news1.
Proof.
  intros i now e kp news news1 F. revert news1. induction F as [|k news (M1 & _ & _ & M2 & M3) F IH]; intros [|k1 news1] F1 E; try discriminate;
    constructor; cbn [map] in E; injection E as E1 E2; apply Forall_cons_iff in F1; destruct F1 as ((N1 & _ & _ & N2 & N3) & F1).
  - split; [rewrite M1, N1, E1; reflexivity|]. split; [exact N2|lia].
  - apply IH; assumption.
Qed.
Lemma refilled_app : forall old news ks2, Forall (fun k => kused k = true) old -> Forall (fun k => kused k = false) news ->
  (refilled_but kused (old ++ news) ks2 <-> exists news2, ks2 = old ++ news2 /\ refilled news news2).
Proof.
  intros old news ks2 O N. revert ks2. induction O as [|k old K O IH]; intros ks2; cbn [app].
  - split.
    + intros F. exists ks2. split; [reflexivity|]. unfold refilled_but, refilled in *.
      induction F as [|a b la lb X F IH]; constructor; apply Forall_cons_iff in N; destruct N as (N1 & N2); [rewrite N1 in X; exact X|auto].
    + intros (news2 & -> & F). unfold refilled_but, refilled in *. induction F as [|a b la lb X F IH]; constructor;
        apply Forall_cons_iff in N; destruct N as (N1 & N2); [rewrite N1; exact X|auto].
  - split.
    + intros F. inversion F as [|a b la lb X F' E1 E2]; subst. apply IH in F'. destruct F' as (news2 & -> & F').
      rewrite K in X. subst b. exists news2. split; [reflexivity|exact F'].
    + intros (news2 & -> & F). constructor; [rewrite K; reflexivity|]. apply IH. eauto.
Qed.

Section Count.
Context (n : nat) (i : inst) (now e : Z) (kp : list (list rune)) (Hg : 0 < i_groupsize i) (Hl : 0 <= i_keylength i) (N : nat).
Definition yields (ks : list key) (t : tape) : Prop :=
  length t = N /\ Forall word t /\ exists t1, new_keys U n i now e kp t = Ok (set_keys i ks, t1).
Lemma yields_dec : forall ks t, {exists t1, new_keys U n i now e kp t = Ok (set_keys i ks, t1)} +
  {~ exists t1, new_keys U n i now e kp t = Ok (set_keys i ks, t1)}.
Proof using Hg Hl.
  intros ks t. destruct (new_keys U n i now e kp t) as [[i1 t1]|?| |] eqn:E; try (right; intros (x & X); discriminate).
  destruct (list_eq_dec key_dec (i_keys i1) ks) as [D|D].
  - left. exists t1. destruct (new_keys_made _ _ _ _ _ _ _ _ Hg Hl E) as (news & -> & _). cbn [i_keys set_keys] in D. rewrite D. reflexivity.
  - right. intros (x & X). injection X as -> _. apply D. reflexivity.
Qed.
Lemma yields_list : forall ks, exists l, NoDup l /\ forall t, In t l <-> yields ks t.
Proof using Hg Hl.
  intros ks. destruct (all_tapes N) as (l & ND & I).
  exists (filter (fun t => if yields_dec ks t then true else false) l). split; [apply NoDup_filter; exact ND|].
  intros t. rewrite filter_In, I. unfold yields. destruct (yields_dec ks t); intuition discriminate.
Qed.
Lemma yields_le : forall news news' l l', refilled news news' -> NoDup l -> NoDup l' ->
  (forall t, In t l <-> yields (i_keys i ++ news) t) -> (forall t, In t l' <-> yields (i_keys i ++ news') t) ->
  (length l <= length l')%nat.
Proof using Hg Hl.
  intros news news' l l' R ND ND' I I'. destruct (keys_shift n i (i_keys i) now e kp news news' Hg Hl eq_refl R) as (f & F & J).
  rewrite <- (map_length f). apply NoDup_incl_length.
  - assert (IN : forall t s, In t l -> In s l -> f t = f s -> t = s).
    { intros t s T S0 E. apply I in T, S0. destruct T as (_ & T & t1 & T1), S0 as (_ & S0 & s1 & S1). exact (J t s t1 s1 T S0 T1 S1 E). }
    clear - ND IN. induction ND as [|t l T ND IH]; [constructor|]. cbn [map]. constructor.
    + rewrite in_map_iff. intros (s & E & S0). apply T. rewrite (IN t s); [exact S0|left; reflexivity|right; exact S0|auto].
    + apply IH. intros a b A B. apply IN; right; assumption.
  - intros s S0. apply in_map_iff in S0. destruct S0 as (t & <- & T). apply I in T. destruct T as (L & W & t1 & T).
    apply I'. destruct (F t t1 W T) as (X & Y & Z). split; [lia|]. split; [exact X|]. exists t1.
    replace (set_keys i (i_keys i)) with i in Z by (destruct i; reflexivity). exact Z.
Qed.
(** All tapes that lead to one of the given fillings. *)
Lemma yields_many : forall news c0, NoDup c0 -> (forall t, In t c0 <-> yields (i_keys i ++ news) t) ->
  Forall (fun k => letters (krunes k)) news ->
  forall ls, NoDup ls -> (forall ks2, In ks2 ls -> exists news2, ks2 = i_keys i ++ news2 /\ refilled news news2) ->
  exists l, NoDup l /\ (forall t, In t l <-> exists ks2, In ks2 ls /\ yields ks2 t) /\ length l = (length ls * length c0)%nat.
Proof using Hg Hl.
  intros news c0 ND0 I0 LT ls NL. induction NL as [|ks2 ls X NL IH]; intros H.
  { exists []. split; [constructor|]. split; [|reflexivity]. intros t. split; [intros []|intros (k & [] & _)]. }
  destruct IH as (l & ND & I & L); [intros k K; apply H; right; exact K|].
  destruct (H ks2 (or_introl eq_refl)) as (news2 & -> & R).
  destruct (yields_list (i_keys i ++ news2)) as (c & NC & IC).
  assert (R' : refilled news2 news).
  { clear - R LT. induction R as [|k k2 a b K R IH]; constructor; apply Forall_cons_iff in LT; destruct LT as (LT1 & LT2).
    - destruct K as (K1 & K2 & K3). split; [rewrite K1; destruct k; reflexivity|]. split; [exact LT1|lia].
    - apply IH. exact LT2. }
  assert (LE := yields_le news news2 c0 c R ND0 NC I0 IC). assert (GE := yields_le news2 news c c0 R' NC ND0 IC I0).
  exists (c ++ l). split; [|split].
  - apply nodup_app; [exact NC|exact ND|]. intros t T J. apply IC in T. apply I in J.
    destruct T as (_ & _ & t1 & T), J as (ks & K1 & (_ & _ & t2 & K2)). rewrite T in K2. injection K2 as K2 _.
    apply X. rewrite K2. exact K1.
  - intros t. rewrite in_app_iff, IC, I. split.
    + intros [Y|(ks & K & Y)]; [exists (i_keys i ++ news2); split; [left; reflexivity|exact Y]|exists ks; split; [right; exact K|exact Y]].
    + intros (ks & [<-|K] & Y); [left; exact Y|right; eauto].
  - rewrite app_length, L. cbn [length]. lia.
Qed.

Context (HU : uni_ok U).
Lemma sources_lemma : forall t0 i0 t0' calls calls' out out' cs,
  store_ok (i_groupsize i) (i_keys i) -> (forall k, In k (i_keys i) -> kused k = true) ->
  new_keys U n i now e kp t0 = Ok (i0, t0') ->
  Forall (automatic (i_groupsize i)) calls -> Forall (automatic (i_groupsize i)) calls' ->
  sent U (i_keys i0) calls = Some out -> sent U (i_keys i0) calls' = Some out' ->
  map (fun m => len (mcipher m)) out = map (fun m => len (mcipher m)) out' ->
  Forall2 (fun m c => letters c /\ length c = length (mcipher m)) out cs ->
  let source c t := length t = N /\ Forall word t /\ exists i1 t1, new_keys U n i now e kp t = Ok (i1, t1) /\
    map kid (i_keys i1) = map kid (i_keys i0) /\ option_map (map mcipher) (sent U (i_keys i1) c) = Some cs in
  exists l l', NoDup l /\ NoDup l' /\ length l = length l' /\ (length t0 = N -> Forall word t0 -> l <> []) /\
    (forall t, In t l <-> source calls t) /\ (forall t, In t l' <-> source calls' t).
Proof using Hg Hl HU.
  intros t0 i0 t0' calls calls' out out' cs Hs Ho H0 A A' S1 S2 L HC. cbv zeta.
  destruct (new_keys_made _ _ _ _ _ _ _ _ Hg Hl H0) as (news & -> & M & ND). cbn [i_keys set_keys] in *.
  assert (SO : store_ok (i_groupsize i) (i_keys i ++ news)).
  { split; [apply ND, Hs|]. intros k K. apply in_app_iff in K. destruct K as [K|K]; [apply Hs; exact K|].
    rewrite Forall_forall in M. destruct (M k K) as (_ & M1 & M2 & M3 & _). auto. }
  assert (NU : Forall (fun k => kused k = false) news).
  { apply Forall_impl with (2 := M). intros k (-> & _). reflexivity. }
  assert (OU : Forall (fun k => kused k = true) (i_keys i)) by (apply Forall_forall; exact Ho).
  assert (LT : Forall (fun k => letters (krunes k)) news) by (apply Forall_impl with (2 := M); intros k (_ & _ & _ & X & _); exact X).
  destruct (yields_list (i_keys i ++ news)) as (c0 & NC & IC).
  assert (ONE : forall calls, Forall (automatic (i_groupsize i)) calls ->
    forall ls, (forall ks2, In ks2 ls <-> refilled_but kused (i_keys i ++ news) ks2 /\ option_map (map mcipher) (sent U ks2 calls) = Some cs) ->
    NoDup ls -> exists l, NoDup l /\ length l = (length ls * length c0)%nat /\
      forall t, In t l <-> length t = N /\ Forall word t /\ exists i1 t1, new_keys U n i now e kp t = Ok (i1, t1) /\
        map kid (i_keys i1) = map kid (i_keys i ++ news) /\ option_map (map mcipher) (sent U (i_keys i1) calls) = Some cs).
  { clear - NC IC LT OU NU Hg Hl M. intros calls A ls I NL.
    destruct (yields_many news c0 NC IC LT ls NL) as (l & N1 & N2 & N3).
    { intros ks2 K. apply I in K. destruct K as (K & _). apply (refilled_app _ _ _ OU NU) in K. exact K. }
    exists l. split; [exact N1|]. split; [exact N3|]. intros t. rewrite N2. split.
    - intros (ks2 & K & (Y1 & Y2 & t1 & Y3)). split; [exact Y1|]. split; [exact Y2|]. exists (set_keys i ks2), t1.
      split; [exact Y3|]. cbn [i_keys set_keys]. apply I in K. destruct K as (K1 & K2). split; [|exact K2].
      clear - K1. induction K1 as [|k k2 a b X K IH]; [reflexivity|]. cbn [map]. rewrite IH. f_equal.
      destruct (kused k); [congruence|]. destruct X as (-> & _). reflexivity.
    - intros (Y1 & Y2 & i1 & t1 & Y3 & Y4 & Y5).
      destruct (new_keys_made _ _ _ _ _ _ _ _ Hg Hl Y3) as (news1 & -> & M1 & _). cbn [i_keys set_keys] in Y4, Y5.
      exists (i_keys i ++ news1). split; [|split; [exact Y1|split; [exact Y2|exists t1; exact Y3]]].
      apply I. split; [|exact Y5]. apply (refilled_app _ _ _ OU NU). exists news1. split; [reflexivity|].
      apply (made_refilled i now e kp); [exact M|exact M1|]. rewrite !map_app in Y4. apply app_inv_head in Y4. exact Y4. }
  assert (HC' : Forall2 (fun m c => letters c /\ length c = length (mcipher m)) out' cs).
  { clear - HC L. revert out' L. induction HC as [|m c out cs (X & Y) HC IH]; intros [|m' out'] L; try discriminate; constructor;
      cbn [map] in L; injection L as L1 L2; [|auto]. unfold len in L1. split; [exact X|lia]. }
  destruct (c124_known_lemma U HU kused (i_groupsize i) _ calls out cs Hg SO A (fun k _ K => K) S1 HC) as (ls & NL & IL & EL & BL).
  destruct (c124_known_lemma U HU kused (i_groupsize i) _ calls' out' cs Hg SO A' (fun k _ K => K) S2 HC') as (ls' & NL' & IL' & EL' & _).
  destruct (ONE calls A ls IL NL) as (l & N1 & N2 & N3). destruct (ONE calls' A' ls' IL' NL') as (l' & N1' & N2' & N3').
  assert (LL : length ls = length ls') by lia.
  exists l, l'. split; [exact N1|]. split; [exact N1'|]. split; [rewrite N2, N2', LL; reflexivity|]. split; [|split; assumption].
  intros T1 T2 ->. cbn [length] in N2.
  assert (I0 : In t0 c0) by (apply IC; split; [exact T1|split; [exact T2|exists t0'; exact H0]]).
  assert (0 < 26 ^ (key_letters (filter (fun k => negb (kused k)) (i_keys i ++ news)) - len (concat cs))) by (apply Z.pow_pos_nonneg; lia).
  destruct c0; [destruct I0|]. destruct ls; [cbn [length] in EL; lia|]. cbn [length] in N2. lia.
Qed.
End Count.
End U.
