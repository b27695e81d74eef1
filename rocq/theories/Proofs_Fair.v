(** Lemmas: fair random functions. *)
From Verif Require Import Base Spec_Crand Model_Crand Proofs_Crand Proofs_SecretGen.

Section Framework.
Context {A : Type}.
Definition local (f : tape -> res (A * tape)) : Prop := forall t a t', f t = Ok (a, t') ->
  exists p, t = p ++ t' /\ forall s, f (p ++ s) = Ok (a, s).
(** The sources of one result can be changed into those of another, without loss
    and without change of what is left. *)
Definition moves (f : tape -> res (A * tape)) (P : A -> Prop) : Prop := forall a b, P a -> P b ->
  exists h : tape -> tape,
    (forall t t', Forall word t -> f t = Ok (a, t') -> Forall word (h t) /\ length (h t) = length t /\ f (h t) = Ok (b, t')) /\
    forall t s t' s', Forall word t -> Forall word s -> f t = Ok (a, t') -> f s = Ok (a, s') -> h t = h s -> t = s.

Context (dec : forall a b : A, {a = b} + {a <> b}).
Lemma result_dec : forall (f : tape -> res (A * tape)) a t, {exists t', f t = Ok (a, t')} + {~ exists t', f t = Ok (a, t')}.
Proof using dec.
  intros f a t. destruct (f t) as [[b t']|?| |]; try (right; intros (x & X); discriminate).
  destruct (dec b a) as [->|D]; [left; exists t'; reflexivity|]. right. intros (x & X). injection X as -> _. contradiction.
Qed.
Lemma sources_exist : forall N (f : tape -> res (A * tape)) a, exists l, sources_of N f a l.
Proof using dec.
  intros N f a. destruct (all_tapes N) as (l & ND & I).
  exists (filter (fun t => if result_dec f a t then true else false) l). split; [apply NoDup_filter; exact ND|].
  intros t. rewrite filter_In, I. destruct (result_dec f a t); intuition discriminate.
Qed.
(** It is enough that sources of one result become sources of the other. *)
Definition moves_some (f : tape -> res (A * tape)) (P : A -> Prop) : Prop := forall a b, P a -> P b ->
  exists h : tape -> tape,
    (forall t t', Forall word t -> f t = Ok (a, t') -> Forall word (h t) /\ length (h t) = length t /\ exists t1, f (h t) = Ok (b, t1)) /\
    forall t s t' s', Forall word t -> Forall word s -> f t = Ok (a, t') -> f s = Ok (a, s') -> h t = h s -> t = s.
Lemma moves_moves : forall f P, moves f P -> moves_some f P.
Proof using Type.
  intros f P M a b Pa Pb. destruct (M a b Pa Pb) as (h & H & J). exists h. split; [|exact J].
  intros t t' W T. destruct (H t t' W T) as (X & Y & Z). eauto.
Qed.
Lemma moves_le : forall N (f : tape -> res (A * tape)) (P : A -> Prop) a b l l', moves_some f P -> P a -> P b ->
  sources_of N f a l -> sources_of N f b l' -> (length l <= length l')%nat.
Proof using dec.
  intros N f P a b l l' M Pa Pb (ND & I) (ND' & I'). destruct (M a b Pa Pb) as (h & H & J).
  rewrite <- (map_length h). apply NoDup_incl_length.
  - assert (IN : forall t s, In t l -> In s l -> h t = h s -> t = s).
    { intros t s T S0 E. apply I in T, S0. destruct T as (_ & T & t1 & T1), S0 as (_ & S0 & s1 & S1). exact (J t s t1 s1 T S0 T1 S1 E). }
    clear - ND IN. induction ND as [|t l T ND IH]; [constructor|]. cbn [map]. constructor.
    + rewrite in_map_iff. intros (s & E & S0). apply T. rewrite (IN t s); [exact S0|left; reflexivity|right; exact S0|auto].
    + apply IH. intros x y X Y. apply IN; right; assumption.
  - intros s S0. apply in_map_iff in S0. destruct S0 as (t & <- & T). apply I in T. destruct T as (L & W & t1 & T).
    apply I'. destruct (H t t1 W T) as (X & Y & Z). split; [lia|]. split; [exact X|exact Z].
Qed.
Lemma fair_of_moves_some : forall (f : tape -> res (A * tape)) (P : A -> Prop) a0 t0 t0', (forall t a t', f t = Ok (a, t') -> P a) -> moves_some f P ->
  Forall word t0 -> f t0 = Ok (a0, t0') -> fair f P.
Proof using dec.
  intros f P a0 t0 t0' SU M W H. assert (P0 := SU _ _ _ H). split; [exact SU|]. split.
  - intros N. destruct (sources_exist N f a0) as (l0 & S0). exists (length l0). intros a Pa.
    destruct (sources_exist N f a) as (l & S1). exists l. split; [exact S1|].
    apply Nat.le_antisymm; [exact (moves_le N f P a a0 l l0 M Pa P0 S1 S0)|exact (moves_le N f P a0 a l0 l M P0 Pa S0 S1)].
  - exists (length t0). intros a Pa. destruct (sources_exist (length t0) f a) as (l & S1). exists l. split; [exact S1|].
    intros ->. destruct (M a0 a P0 Pa) as (h & J & _). destruct (J t0 t0' W H) as (X & Y & Z).
    apply (proj2 S1 (h t0)). auto.
Qed.
Lemma fair_of_moves : forall (f : tape -> res (A * tape)) (P : A -> Prop) a0 t0 t0', (forall t a t', f t = Ok (a, t') -> P a) -> moves f P ->
  Forall word t0 -> f t0 = Ok (a0, t0') -> fair f P.
Proof using dec. intros f P a0 t0 t0' SU M. exact (fair_of_moves_some f P a0 t0 t0' SU (moves_moves f P M)). Qed.
End Framework.

(** Draw words until one is accepted. *)
Fixpoint draw (acc : Z -> option Z) (t : tape) : res (Z * tape) :=
  match t with
  | [] => Panic
  | w :: t' => match acc (w mod 2 ^ 64) with Some v => Ok (v, t') | None => draw acc t' end
  end.
Lemma draw_local : forall acc, local (draw acc).
Proof.
  intros acc t. induction t as [|w t IH]; intros a t' H; cbn [draw] in H; [discriminate|].
  destruct (acc (w mod 2 ^ 64)) as [v|] eqn:E.
  - injection H as <- <-. exists [w]. split; [reflexivity|]. intros s. cbn [app draw]. rewrite E. reflexivity.
  - destruct (IH a t' H) as (p & -> & G). exists (w :: p). split; [reflexivity|]. intros s. cbn [app draw]. rewrite E. apply G.
Qed.
Definition word_moves (acc : Z -> option Z) (P : Z -> Prop) : Prop := forall a b, P a -> P b -> exists h : Z -> Z,
  (forall w, word w -> acc w = Some a -> word (h w) /\ acc (h w) = Some b) /\
  forall w x, word w -> word x -> acc w = Some a -> acc x = Some a -> h w = h x -> w = x.
Lemma draw_moves : forall acc P, word_moves acc P -> moves (draw acc) P.
Proof.
  intros acc P M a b Pa Pb. destruct (M a b Pa Pb) as (h & H1 & H2).
  set (g := fix g (t : tape) : tape := match t with
    | [] => [] | w :: t' => match acc w with Some _ => h w :: t' | None => w :: g t' end end).
  exists g.
  assert (MW : forall w, word w -> w mod 2 ^ 64 = w) by (intros w W; apply Z.mod_small; exact W).
  split.
  - induction t as [|w t IH]; intros t' W H; cbn [draw] in H; [discriminate|]. apply Forall_cons_iff in W. destruct W as (W1 & W2).
    rewrite MW in H by exact W1. cbn [g]. destruct (acc w) as [v|] eqn:E.
    + injection H as -> <-. destruct (H1 w W1 E) as (X & Y). split; [constructor; assumption|]. split; [reflexivity|].
      cbn [draw]. rewrite MW, Y by exact X. reflexivity.
    + destruct (IH t' W2 H) as (X & Y & Z). split; [constructor; assumption|]. split; [cbn [length]; congruence|].
      cbn [draw]. rewrite MW, E by exact W1. exact Z.
  - induction t as [|w t IH]; intros s t' s' W1 W2 T S0 E; cbn [draw] in T; [discriminate|]. destruct s as [|x s]; [discriminate|].
    cbn [draw] in S0. apply Forall_cons_iff in W1, W2. destruct W1 as (W1 & W1'), W2 as (W2 & W2'). rewrite MW in T, S0 by assumption.
    cbn [g] in E. destruct (acc w) as [v|] eqn:Ew, (acc x) as [u|] eqn:Ex.
    + injection E as E1 ->. injection T as -> _. injection S0 as -> _. f_equal. apply H2; assumption.
    + injection E as E1 _. injection T as -> _. destruct (H1 w W1 Ew) as (_ & X). congruence.
    + injection E as E1 _. injection S0 as -> _. destruct (H1 x W2 Ex) as (_ & X). congruence.
    + injection E as -> E2. f_equal. exact (IH s t' s' W1' W2' T S0 E2).
Qed.

(** Several draws, one after the other. *)
Definition sampler : Type := tape -> res (Z * tape).
Fixpoint vec (fs : list sampler) (t : tape) : res (list Z * tape) :=
  match fs with
  | [] => Ok ([], t)
  | f :: fs' => let* (v, t1) := f t in let* (vs, t2) := vec fs' t1 in Ok (v :: vs, t2)
  end.
Lemma vec_cons : forall f fs t l t', vec (f :: fs) t = Ok (l, t') ->
  exists v vs t1, l = v :: vs /\ f t = Ok (v, t1) /\ vec fs t1 = Ok (vs, t').
Proof.
  intros f fs t l t' H. cbn [vec] in H. destruct (f t) as [[v t1]|?| |] eqn:E; try discriminate. cbn [bind] in H.
  destruct (vec fs t1) as [[vs t2]|?| |] eqn:E2; try discriminate. cbn [bind] in H. injection H as <- <-. exists v, vs, t1. auto.
Qed.
Lemma vec_moves : forall fs Ps, Forall2 (fun f P => local f /\ moves f P) fs Ps ->
  moves (vec fs) (fun vs => Forall2 (fun (P : Z -> Prop) v => P v) Ps vs).
Proof.
  intros fs Ps F. induction F as [|f P fs Ps (L & M) F IH]; intros a b Pa Pb.
  { inversion Pa; inversion Pb; subst. exists (fun t => t). split; [intros t t' W H; auto|auto]. }
  inversion Pa as [|? va ? a' Qa Ra E1 E2]; subst. inversion Pb as [|? vb ? b' Qb Rb E1 E2]; subst.
  destruct (M va vb Qa Qb) as (h1 & H1 & J1). destruct (IH a' b' Ra Rb) as (h2 & H2 & J2).
  set (h := fun t => match f t with Ok (_, t1) => firstn (length t - length t1) (h1 t) ++ h2 t1 | _ => t end).
  assert (PT : forall t t1, Forall word t -> f t = Ok (va, t1) -> exists u, h1 t = u ++ t1 /\ h t = u ++ h2 t1 /\
    Forall word u /\ Forall word t1 /\ length t = (length u + length t1)%nat /\ forall s, f (u ++ s) = Ok (vb, s)).
  { intros t t1 W H. destruct (H1 t t1 W H) as (X & Y & Z). destruct (L _ _ _ Z) as (u & D & G). exists u.
    split; [exact D|]. unfold h. rewrite H. rewrite D in X, Y |- *. rewrite app_length in Y. split.
    { f_equal. replace (length t - length t1)%nat with (length u + 0)%nat by lia. rewrite firstn_app_2, firstn_O. apply app_nil_r. }
    apply Forall_app in X. destruct X as (X1 & X2). split; [exact X1|]. split; [exact X2|]. split; [lia|exact G]. }
  exists h. split.
  - intros t t' W H. apply vec_cons in H. destruct H as (v & vs & t1 & E & T1 & T2). injection E as <- <-.
    destruct (PT t t1 W T1) as (u & _ & -> & U1 & U2 & LE & G). destruct (H2 t1 t' U2 T2) as (X & Y & Z).
    split; [apply Forall_app; auto|]. split; [rewrite app_length; lia|]. cbn [vec]. rewrite G. cbn [bind]. rewrite Z. reflexivity.
  - intros t s t' s' W1 W2 T S0 E. apply vec_cons in T, S0. destruct T as (v & vs & t1 & Ev & T1 & T2). injection Ev as <- <-.
    destruct S0 as (v & vs & s1 & Ev & S1 & S2). injection Ev as <- <-.
    destruct (PT t t1 W1 T1) as (u & C1 & C2 & C3 & C4 & C5 & C6), (PT s s1 W2 S1) as (x & D1 & D2 & D3 & D4 & D5 & D6).
    rewrite C2, D2 in E. assert (X := C6 (h2 t1)). rewrite E, D6 in X. injection X as X.
    assert (Y : t1 = s1) by (apply (J2 t1 s1 t' s'); auto). subst s1. apply app_inv_tail in E. subst x.
    apply (J1 t s t1 t1 W1 W2 T1 S1). congruence.
Qed.

(** Results computed from draws. *)
Lemma image_moves : forall A B (f : tape -> res (A * tape)) (P : A -> Prop) (g : tape -> res (B * tape)) (F : A -> B) (Q : B -> Prop),
  moves f P -> (forall t a t', f t = Ok (a, t') -> P a) ->
  (forall t b t', g t = Ok (b, t') <-> exists a, f t = Ok (a, t') /\ b = F a) ->
  (forall a b, P a -> P b -> F a = F b -> a = b) -> (forall b, Q b -> exists a, P a /\ b = F a) -> moves g Q.
Proof.
  intros A B f P g F Q M SU G IN ON a b Qa Qb. destruct (ON a Qa) as (x & Px & ->), (ON b Qb) as (y & Py & ->).
  destruct (M x y Px Py) as (h & H & J). exists h.
  assert (K : forall t t', g t = Ok (F x, t') -> f t = Ok (x, t')).
  { intros t t' T. apply G in T. destruct T as (z & T & E). rewrite (IN x z Px (SU _ _ _ T) E). exact T. }
  split.
  - intros t t' W T. destruct (H t t' W (K t t' T)) as (X & Y & Z). split; [exact X|]. split; [exact Y|]. apply G. eauto.
  - intros t s t' s' W1 W2 T S0 E. exact (J t s t' s' W1 W2 (K _ _ T) (K _ _ S0) E).
Qed.

(** Try until a result is not refused. *)
Section Retry.
Context {A : Type} (f : tape -> res (A * tape)) (P : A -> Prop) (no : A -> bool).
Fixpoint retry (fuel : nat) (t : tape) : res (A * tape) :=
  match fuel with
  | O => Panic
  | S k => let* (a, t1) := f t in if no a then retry k t1 else Ok (a, t1)
  end.
Context (LO : local f) (MO : moves f P).
Lemma retry_moves : moves (fun t => retry (S (length t)) t) (fun a => P a /\ no a = false).
Proof using LO MO.
  intros a b (Pa & Na) (Pb & Nb). destruct (MO a b Pa Pb) as (h1 & H1 & J1).
  set (h := fix h (k : nat) (t : tape) : tape := match k with
    | O => t
    | S k' => match f t with
              | Ok (x, t1) => if no x then firstn (length t - length t1) t ++ h k' t1 else h1 t
              | _ => t
              end
    end).
  assert (ST : forall k t t', retry (S k) t = Ok (a, t') ->
    (f t = Ok (a, t') /\ h (S k) t = h1 t) \/
    exists x p t1, t = p ++ t1 /\ no x = true /\ (forall s, f (p ++ s) = Ok (x, s)) /\ retry k t1 = Ok (a, t') /\ h (S k) t = p ++ h k t1).
  { intros k t t' H. cbn [retry] in H. cbn [h]. destruct (f t) as [[x t1]|?| |] eqn:E; try discriminate. cbn [bind] in H.
    destruct (no x) eqn:N; [|injection H as -> ->; auto]. right. destruct (LO t x t1 E) as (p & -> & G). exists x, p, t1.
    split; [reflexivity|]. split; [exact N|]. split; [exact G|]. split; [exact H|]. f_equal. rewrite app_length.
    replace (length p + length t1 - length t1)%nat with (length p + 0)%nat by lia. rewrite firstn_app_2, firstn_O. apply app_nil_r. }
  assert (MV : forall k t t', Forall word t -> retry k t = Ok (a, t') ->
    Forall word (h k t) /\ length (h k t) = length t /\ retry k (h k t) = Ok (b, t')).
  { induction k as [|k IH]; intros t t' W H; [discriminate|].
    destruct (ST k t t' H) as [(E & ->)|(x & p & t1 & -> & N & G & R & ->)].
    - destruct (H1 t t' W E) as (X & Y & Z). split; [exact X|]. split; [exact Y|]. cbn [retry]. rewrite Z. cbn [bind]. rewrite Nb. reflexivity.
    - apply Forall_app in W. destruct W as (W1 & W2). destruct (IH t1 t' W2 R) as (X & Y & Z). split; [apply Forall_app; auto|].
      split; [rewrite !app_length; lia|]. cbn [retry]. rewrite G. cbn [bind]. rewrite N. exact Z. }
  assert (IN : forall k t s t' s', Forall word t -> Forall word s -> retry k t = Ok (a, t') -> retry k s = Ok (a, s') -> h k t = h k s -> t = s).
  { induction k as [|k IH]; intros t s t' s' W1 W2 T S0 E; [discriminate|].
    destruct (ST k t t' T) as [(T1 & D)|(x & p & t1 & -> & N & G & R & D)], (ST k s s' S0) as [(S1 & D')|(x' & p' & s1 & -> & N' & G' & R' & D')];
      rewrite D, D' in E.
    - exact (J1 t s t' s' W1 W2 T1 S1 E).
    - exfalso. destruct (H1 t t' W1 T1) as (_ & _ & Z). rewrite E, G' in Z. injection Z as -> _. congruence.
    - exfalso. destruct (H1 s s' W2 S1) as (_ & _ & Z). rewrite <- E, G in Z. injection Z as -> _. congruence.
    - assert (X := G (h k t1)). rewrite E, G' in X. injection X as _ X. apply Forall_app in W1, W2.
      assert (Y : t1 = s1) by (apply (IH t1 s1 t' s'); intuition). subst s1. apply app_inv_tail in E. rewrite E. reflexivity. }
  exists (fun t => h (S (length t)) t). split.
  - intros t t' W H. destruct (MV _ t t' W H) as (X & Y & Z). split; [exact X|]. split; [exact Y|]. rewrite Y. exact Z.
  - intros t s t' s' W1 W2 T S0 E. assert (L : length t = length s).
    { destruct (MV _ t t' W1 T) as (_ & Y & _), (MV _ s s' W2 S0) as (_ & Y' & _). rewrite <- Y, <- Y', E. reflexivity. }
    rewrite L in T, E. exact (IN _ t s t' s' W1 W2 T S0 E).
Qed.
Context (SU : forall t a t', f t = Ok (a, t') -> P a).
Lemma retry_support : forall k t a t', retry k t = Ok (a, t') -> P a /\ no a = false.
Proof using SU.
  induction k as [|k IH]; intros t a t' H; [discriminate|]. cbn [retry] in H. destruct (f t) as [[x t1]|?| |] eqn:E; try discriminate.
  cbn [bind] in H. destruct (no x) eqn:N; [exact (IH _ _ _ H)|]. injection H as <- <-. eauto.
Qed.
End Retry.
