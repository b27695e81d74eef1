(** Any number of goroutines that encipher at the same time. *)
From Verif Require Import Base Model_Unicode Model_Diana Model_Codec Model_Crand Model_Functions Model_Types Model_Cipher
  Model_Concurrent Spec Spec_Concurrent Proofs_Functions Proofs_Keys Proofs_Concurrent Proofs_Concurrent2.

Set Default Proof Using "Type".
Section System.
Context (U : Uni) (i : inst) (calls : list (msg * tape)).
Notation gs := (i_groupsize i).
Notation ks0 := (i_keys i).

Definition used_all (ks : list key) (held : list nat) : Prop :=
  forall j, In j held -> exists k, nth_error ks j = Some k /\ kused k = true.

Definition fits (ks : list key) (m : msg) (held : list nat) (g : goroutine) : Prop :=
  match fst g with
  | Nothing => safe gs ks0 (mrecipients m) (enciphered i m) held (snd g) /\ used_all ks held
  | Taking => used_all ks held /\ exists j k, nth_error ks j = Some k /\ eligible gs (mrecipients m) k /\
      taking gs ks0 (mrecipients m) (enciphered i m) held j (snd g)
  | Releasing => block held (snd g)
  end.

Record inv (y : system) (helds : list (list nat)) : Prop := mkInv {
  inv_same : same_but_used ks0 (fst y);
  inv_len : length (snd y) = length calls;
  inv_helds : length helds = length calls;
  inv_disjoint : forall a b ha hb j, nth_error helds a = Some ha -> nth_error helds b = Some hb -> In j ha -> In j hb -> a = b;
  inv_eligible : forall n h j, nth_error helds n = Some h -> In j h -> exists c k, nth_error calls n = Some c /\
    nth_error ks0 j = Some k /\ eligible gs (mrecipients (fst c)) k;
  inv_used : forall j k, nth_error ks0 j = Some k -> kused k = true -> exists k', nth_error (fst y) j = Some k' /\ kused k' = true;
  inv_fits : forall n c g h, nth_error calls n = Some c -> nth_error (snd y) n = Some g -> nth_error helds n = Some h ->
    fits (fst y) (fst c) h g
}.

Definition alone (n : nat) (y : system) : Prop := forall q g, nth_error (snd y) q = Some g -> fst g <> Nothing -> q = n.

Lemma nth_some {A} (l : list A) n : (n < length l)%nat -> exists x, nth_error l n = Some x.
Proof. intros L. destruct (nth_error l n) eqn:E; [eauto|]. apply nth_error_None in E. lia. Qed.

Lemma move_on y helds n c g h ks' g' h' : inv y helds -> alone n y ->
  nth_error calls n = Some c -> nth_error (snd y) n = Some g -> nth_error helds n = Some h ->
  same_but_used ks0 ks' -> fits ks' (fst c) h' g' ->
  (forall q hq, q <> n -> nth_error helds q = Some hq -> used_all (fst y) hq -> used_all ks' hq) ->
  (forall q hq j, q <> n -> nth_error helds q = Some hq -> used_all (fst y) hq -> In j h' -> ~ In j hq) ->
  (forall j, In j h' -> exists k, nth_error ks0 j = Some k /\ eligible gs (mrecipients (fst c)) k) ->
  (forall j k, nth_error ks0 j = Some k -> kused k = true -> exists k', nth_error ks' j = Some k' /\ kused k' = true) ->
  inv (ks', list_update (snd y) n g') (list_update helds n h').
Proof.
  intros [I1 I2 I3 I4 I5 I6 I7] AL NC NG NH SB FT US DJ EL IU.
  assert (forall q hq, q <> n -> nth_error helds q = Some hq -> used_all (fst y) hq) as UA.
  { intros q hq NE HQ. assert (q < length calls)%nat as LQ by (rewrite <- I3; apply nth_error_Some; congruence).
    destruct (nth_some calls q LQ) as (cq & CQ). destruct (nth_some (snd y) q ltac:(lia)) as (gq & GQ).
    pose proof (I7 q cq gq hq CQ GQ HQ) as F. unfold fits in F. destruct (fst gq) eqn:D.
    - apply F.
    - exfalso. apply NE, (AL q gq GQ). congruence.
    - exfalso. apply NE, (AL q gq GQ). congruence. }
  assert (forall q x, nth_error (list_update helds n h') q = Some x -> (q = n /\ x = h') \/ (q <> n /\ nth_error helds q = Some x)) as ND.
  { intros q x E. rewrite nth_error_update in E. destruct (Nat.eqb n q) eqn:Q.
    - apply Nat.eqb_eq in Q. subst q. rewrite NH in E. cbn in E. injection E as <-. left. tauto.
    - apply Nat.eqb_neq in Q. right. split; [congruence|exact E]. }
  split; cbn [fst snd].
  - exact SB.
  - rewrite list_update_length. exact I2.
  - rewrite list_update_length. exact I3.
  - intros a b ha hb j A B JA JB. destruct (ND a ha A) as [(-> & ->)|(NA & A')], (ND b hb B) as [(-> & ->)|(NB & B')].
    + reflexivity.
    + exfalso. exact (DJ b hb j NB B' (UA b hb NB B') JA JB).
    + exfalso. exact (DJ a ha j NA A' (UA a ha NA A') JB JA).
    + exact (I4 a b ha hb j A' B' JA JB).
  - intros q h1 j H J. destruct (ND q h1 H) as [(-> & ->)|(NE & H')]; [|exact (I5 q h1 j H' J)].
    destruct (EL j J) as (k & K1 & K2). exists c, k. tauto.
  - exact IU.
  - intros q c1 g1 h1 C G H. destruct (ND q h1 H) as [(-> & ->)|(NE & H')].
    + rewrite NC in C. injection C as <-. rewrite nth_error_update, Nat.eqb_refl, NG in G. cbn in G. injection G as <-. exact FT.
    + rewrite nth_error_update in G. destruct (Nat.eqb n q) eqn:Q; [apply Nat.eqb_eq in Q; congruence|].
      pose proof (I7 q c1 g1 h1 C G H') as F. pose proof (US q h1 NE H' (UA q h1 NE H')) as U1. unfold fits in F |- *.
      destruct (fst g1) eqn:D.
      * destruct F. tauto.
      * exfalso. apply NE, (AL q g1 G). congruence.
      * exact F.
Qed.

Lemma used_mark ks j b held : used_all ks held -> (b = true \/ ~ In j held) -> used_all (mark ks j b) held.
Proof.
  clear i calls U. intros H B x X. destruct (H x X) as (k & K1 & K2). rewrite nth_error_mark, K1. destruct (Nat.eqb j x) eqn:Q.
  - apply Nat.eqb_eq in Q. subst x. cbn [option_map]. exists (set_used k b). split; [reflexivity|]. destruct B as [->|B]; [reflexivity|tauto].
  - exists k. tauto.
Qed.

Lemma turn_inv y helds n : inv y helds -> alone n y -> exists helds', inv (turn U gs n y) helds'.
Proof.
  intros IV AL. unfold turn. destruct (nth_error (snd y) n) as [[d p]|] eqn:NG; [|exists helds; exact IV].
  pose proof IV as [I1 I2 I3 I4 I5 I6 I7].
  assert (n < length calls)%nat as LN by (rewrite <- I2; apply nth_error_Some; congruence).
  destruct (nth_some calls n LN) as (c & NC). destruct (nth_some helds n ltac:(lia)) as (h & NH).
  pose proof (I7 n c (d, p) h NC NG NH) as FT. cbn [snd].
  assert (forall j k, nth_error ks0 j = Some k -> ~ In j h -> kused k = true -> exists k', nth_error (fst y) j = Some k' /\ kused k' = true) as U0
    by (intros j k A _ B; exact (I6 j k A B)).
  assert (forall j, In j h -> exists k, nth_error ks0 j = Some k /\ eligible gs (mrecipients (fst c)) k) as E0.
  { intros j J. destruct (I5 n h j NH J) as (c' & k & C1 & K1 & K2). rewrite NC in C1. injection C1 as <-. exists k. tauto. }
  (* Only what the goroutine itself knows changes. *)
  assert (forall g', fits (fst y) (fst c) h g' -> exists helds', inv (fst y, list_update (snd y) n g') helds') as STAY.
  { intros g' F. exists (list_update helds n h). eapply move_on; try eassumption.
    - tauto.
    - intros q hq j NE HQ _ J1 J2. apply NE. exact (I4 q n hq h j HQ NH J2 J1). }
  (* A key is given back. *)
  assert (forall j q, In j h -> block h q ->
    exists helds', inv (mark (fst y) j false, list_update (snd y) n
      (match q with Store _ false _ => Releasing | _ => Nothing end, q)) helds') as BACK.
  { intros j q J B.
    assert (exists h', fits (mark (fst y) j false) (fst c) h' (match q with Store _ false _ => Releasing | _ => Nothing end, q) /\ incl h' h)
      as (h' & F & IN).
    { destruct q as [[[m' r] t']|rs next|j' [|] q'|id next]; try (exfalso; exact B).
      - exists []. split; [|intros ? []]. split; [intros ->; contradiction|intros ? []].
      - exists h. split; [exact B|apply incl_refl]. }
    exists (list_update helds n h'). eapply move_on; try eassumption.
    - eapply same_but_used_trans; [exact I1|]. apply same_but_used_sym, same_but_used_mark.
    - intros q' hq NE HQ UA. apply used_mark; [exact UA|]. right. intros JQ. apply NE. exact (I4 q' n hq h j HQ NH JQ J).
    - intros q' hq x NE HQ _ X1 X2. apply NE. exact (I4 q' n hq h x HQ NH X2 (IN x X1)).
    - intros x X. apply E0, IN, X.
    - intros x k K1 K2. destruct (I6 x k K1 K2) as (k' & A1 & A2). rewrite nth_error_mark, A1. destruct (Nat.eqb j x) eqn:Q; [|exists k'; tauto].
      apply Nat.eqb_eq in Q. subst x. destruct (E0 j J) as (k1 & K3 & (K4 & _)). congruence. }
  (* Anything but taking a key. *)
  assert (safe gs ks0 (mrecipients (fst c)) (enciphered i (fst c)) h p -> used_all (fst y) h ->
    exists helds', inv (let '(ks, g') := access U gs (fst y) p in (ks, list_update (snd y) n g')) helds') as SAFE.
  { intros SF UA. destruct p as [o|rs next|j used q|id next]; cbn [access].
    - apply STAY. split; assumption.
    - destruct SF as (-> & SN & SS). apply STAY. destruct (find_key U gs (mrecipients (fst c)) (fst y)) as [j|] eqn:FK.
      + destruct (find_key_some U _ _ _ _ FK) as (k & K1 & K2 & _). split; [exact UA|]. exists j, k. split; [exact K1|]. split; [exact K2|].
        apply SS.
        * destruct (sbu_some _ _ j k (same_but_used_sym _ _ I1) K1) as (k' & A1 & A2 & A3 & A4). exists k'. split; [exact A1|].
          destruct K2 as (_ & B2 & B3). split; [reflexivity|]. split; [cbn [kid set_used]; congruence|].
          unfold for_recipients in *. change (kkeepers (set_used k' false)) with (kkeepers k'). rewrite A4. exact B3.
        * intros J. destruct (UA j J) as (k' & A1 & A2). rewrite K1 in A1. injection A1 as <-. destruct K2. congruence.
      + split; assumption.
    - destruct SF as (-> & J & B). exact (BACK j q J B).
    - destruct SF. }
  unfold fits in FT. cbn [fst snd] in FT. destruct d.
  - apply SAFE; apply FT.
  - destruct FT as (UA & j & k & K1 & K2 & TK).
    destruct p as [o|rs next|j' [|] q|id next]; try (apply SAFE; assumption).
    destruct TK as (-> & SF). cbn [access]. exists (list_update helds n (h ++ [j])).
    assert (exists k0, nth_error ks0 j = Some k0 /\ eligible gs (mrecipients (fst c)) k0) as EJ.
    { destruct (sbu_some _ _ j k (same_but_used_sym _ _ I1) K1) as (k' & A1 & A2 & A3 & A4). exists k'. split; [exact A1|].
      destruct K2 as (B1 & B2 & B3). split; [|split; [congruence|unfold for_recipients in *; rewrite A4; exact B3]].
      destruct (kused k') eqn:UK; [|reflexivity]. destruct (I6 j k' A1 UK) as (k2 & X1 & X2). congruence. }
    eapply move_on; try eassumption.
    + eapply same_but_used_trans; [exact I1|]. apply same_but_used_sym, same_but_used_mark.
    + split; [exact SF|]. intros x X. apply in_app_or in X. destruct X as [X|[<-|[]]].
      * exact (used_mark (fst y) j true h UA (or_introl eq_refl) x X).
      * rewrite nth_error_mark, Nat.eqb_refl, K1. eexists. split; reflexivity.
    + intros q' hq NE HQ U1. apply used_mark; [exact U1|left; reflexivity].
    + intros q' hq x NE HQ U1 X1 X2. apply in_app_or in X1. destruct X1 as [X1|[<-|[]]].
      * apply NE. exact (I4 q' n hq h x HQ NH X2 X1).
      * destruct (U1 j X2) as (k' & A1 & A2). rewrite K1 in A1. injection A1 as <-. destruct K2. congruence.
    + intros x X. apply in_app_or in X. destruct X as [X|[<-|[]]]; [apply E0, X|exact EJ].
    + intros x k1 X1 X2. destruct (I6 x k1 X1 X2) as (k' & A1 & A2). rewrite nth_error_mark, A1. destruct (Nat.eqb j x); eexists; (split; [reflexivity|]); [reflexivity|exact A2].
  - destruct p as [[[m' r] t']|rs next|j' [|] q|id next]; try (exfalso; exact FT).
    + cbn [access]. exists (list_update helds n []). eapply move_on; try eassumption.
      * split; [intros ->; contradiction|intros ? []].
      * tauto.
      * intros ? ? ? ? ? ? [].
      * intros ? [].
    + cbn [access]. apply BACK; apply FT.
Qed.

Lemma start_inv : uni_ok U -> 0 < gs -> store_ok gs ks0 -> (forall c, In c calls -> mkeyid (fst c) = []) ->
  exists helds, inv (start U i calls) helds.
Proof.
  intros HU HG SO KN. exists (map (fun _ => []) calls). unfold start.
  assert (forall n (h : list nat), nth_error (map (fun _ : msg * tape => []) calls) n = Some h -> h = []) as E.
  { intros n h H. rewrite nth_error_map in H. destruct (nth_error calls n); [injection H as <-; reflexivity|discriminate]. }
  split; cbn [fst snd].
  - reflexivity.
  - apply map_length.
  - apply map_length.
  - intros a b ha hb j A _ J. rewrite (E _ _ A) in J. destruct J.
  - intros n h j A J. rewrite (E _ _ A) in J. destruct J.
  - intros j k A B. exists k. tauto.
  - intros n c g h A B C. rewrite (E _ _ C). rewrite nth_error_map, A in B. injection B as <-. split; [|intros ? []].
    apply encipher_safe; try assumption. apply KN. eapply nth_error_In, A.
Qed.

Lemma run_inv schedule : forall y helds, inv y helds -> undisturbed U (fun d => d <> Nothing) gs schedule y ->
  exists helds', inv (run_schedule U gs schedule y) helds'.
Proof.
  induction schedule as [|n schedule IH]; intros y helds IV UD; [exists helds; exact IV|].
  destruct UD as (AL & UD). destruct (turn_inv y helds n IV AL) as (helds1 & IV1). exact (IH _ _ IV1 UD).
Qed.

Lemma choice {A B} (P : nat -> A -> B -> Prop) (l : list A) (d : B) :
  (forall n x, nth_error l n = Some x -> exists b, P n x b) -> exists f, forall n x, nth_error l n = Some x -> P n x (f n).
Proof.
  clear i calls U. revert P. induction l as [|x l IH]; intros P H; [exists (fun _ => d); intros [|] ?; discriminate|].
  destruct (H 0%nat x eq_refl) as (b & B0). destruct (IH (fun n => P (S n))) as (f & F); [intros n y N; exact (H (S n) y N)|].
  exists (fun n => match n with O => b | S n => f n end). intros [|n] y N; [injection N as <-; exact B0|exact (F n y N)].
Qed.

Lemma concurrent_lemma schedule : uni_ok U -> 0 < gs -> store_ok gs ks0 -> (forall c, In c calls -> mkeyid (fst c) = []) ->
  undisturbed U (fun d => d <> Nothing) gs schedule (start U i calls) ->
  let y := run_schedule U gs schedule (start U i calls) in
  exists taken : nat -> list nat,
    (forall a b j, In j (taken a) -> In j (taken b) -> a = b) /\
    forall n m t m' t', nth_error calls n = Some (m, t) -> returned y n m' (Ok tt) t' ->
      message gs ks0 (taken n) (map canon (mplain m)) (mcipher m') /\
      (exists j k, hd_error (taken n) = Some j /\ nth_error ks0 j = Some k /\ mkeyid m' = kid k) /\
      NoDup (taken n) /\
      forall j, In j (taken n) -> (exists k, nth_error ks0 j = Some k /\ eligible gs (mrecipients m) k) /\
        (exists k, nth_error (fst y) j = Some k /\ kused k = true).
Proof.
  intros HU HG SO KN UD. cbv zeta. set (y := run_schedule U gs schedule (start U i calls)).
  destruct (start_inv HU HG SO KN) as (h0 & IV0). destruct (run_inv schedule _ _ IV0 UD) as (helds & IV). fold y in IV.
  assert (undisturbed U (fun d => d <> Nothing) gs [] y) as _ by exact I.
  destruct (choice (fun n c js => (forall h, nth_error helds n = Some h -> incl js h) /\
    forall m' t', returned y n m' (Ok tt) t' ->
      message gs ks0 js (map canon (mplain (fst c))) (mcipher m') /\
      (exists j k, hd_error js = Some j /\ nth_error ks0 j = Some k /\ mkeyid m' = kid k) /\
      NoDup js /\
      forall j, In j js -> (exists k, nth_error ks0 j = Some k /\ eligible gs (mrecipients (fst c)) k) /\
        (exists k, nth_error (fst y) j = Some k /\ kused k = true)) calls []) as (f & F).
  { intros n c NC. pose proof IV as [I1 I2 I3 I4 I5 I6 I7].
    assert (n < length calls)%nat as LN by (apply nth_error_Some; congruence).
    destruct (nth_some helds n ltac:(lia)) as (h & NH). destruct (nth_some (snd y) n ltac:(lia)) as ((d & p) & NG).
    pose proof (I7 n c (d, p) h NC NG NH) as FT. rewrite NH.
    assert ((exists m' t', p = Return (m', Ok tt, t')) \/ ~ exists m' t', p = Return (m', Ok tt, t')) as [(m' & t' & ->)|NR].
    { destruct p as [[[m' [[]|e| |]] t']| | | ]; try (right; intros (? & ? & ?); discriminate). left. eauto. }
    - assert (enciphered i (fst c) h (m', Ok tt, t') /\ used_all (fst y) h) as (EN & UA).
      { unfold fits in FT. cbn [fst snd] in FT. destruct d; [exact FT|destruct FT as (A & j & k & _ & _ & B); split; [exact B|exact A]|].
        exfalso. apply FT. reflexivity. }
      destruct (EN eq_refl) as (js & J1 & J2 & J3 & J4). exists js. split; [intros ? [=<-]; exact J1|].
      intros m1 t1 (d1 & R). rewrite NG in R. injection R as <- <- <-. split; [exact J3|]. split; [exact J4|]. split; [exact J2|].
      intros j J. split; [|exact (UA j (J1 j J))]. destruct (I5 n h j NH (J1 j J)) as (c' & k & C1 & K1 & K2).
      rewrite NC in C1. injection C1 as <-. exists k. tauto.
    - exists []. split; [intros ? _ ? []|]. intros m1 t1 (d1 & R). rewrite NG in R. injection R as -> ->. exfalso. eauto. }
  exists (fun n => if (n <? length calls)%nat then f n else []). split.
  - intros a b j A B. destruct (Nat.ltb_spec a (length calls)) as [LA|LA]; [|destruct A].
    destruct (Nat.ltb_spec b (length calls)) as [LB|LB]; [|destruct B]. pose proof IV as [I1 I2 I3 I4 I5 I6 I7].
    destruct (nth_some calls a LA) as (ca & CA). destruct (nth_some calls b LB) as (cb & CB).
    destruct (nth_some helds a ltac:(lia)) as (ha & HA). destruct (nth_some helds b ltac:(lia)) as (hb & HB).
    exact (I4 a b ha hb j HA HB (proj1 (F a ca CA) ha HA j A) (proj1 (F b cb CB) hb HB j B)).
  - intros n m t m' t' NC R. assert (n < length calls)%nat as LN by (apply nth_error_Some; congruence).
    destruct (Nat.ltb_spec n (length calls)) as [_|X]; [|lia]. exact (proj2 (F n (m, t) NC) m' t' R).
Qed.
End System.

(** A goroutine alone. *)
Lemma run_solo U gs p : forall ks d, exists n d', run_schedule U gs (repeat 0%nat n) (ks, [(d, p)]) =
  (fst (solo U gs ks p), [(d', Return (snd (solo U gs ks p)))]).
Proof.
  induction p as [o|rs next IH|j b next IH|id next IH]; intros ks d; cbn [solo].
  - exists 0%nat, d. reflexivity.
  - match goal with |- context [solo U gs ks (next ?x)] => destruct (IH x ks (match x with Some _ => Taking | None => Nothing end)) as (n & d' & E) end.
    exists (S n), d'. exact E.
  - destruct (IH (mark ks j b) (match b, next with false, Store _ false _ => Releasing | _, _ => Nothing end)) as (n & d' & E).
    exists (S n), d'. exact E.
  - destruct (IH (check_given_key id ks) ks Nothing) as (n & d' & E). exists (S n), d'. exact E.
Qed.
Lemma alone_lemma U i m t i' m' r t' : encipher U i m t = (i', m', r, t') ->
  exists n, let y := run_schedule U (i_groupsize i) (repeat 0%nat n) (start U i [(m, t)]) in
  fst y = i_keys i' /\ returned y 0 m' r t'.
Proof.
  intros E. pose proof (solo_lemma U i m t) as S. rewrite E in S. unfold start. cbn [map fst snd].
  destruct (run_solo U (i_groupsize i) (encipher_prog U (i_groupsize i) (i_keys i) i m t) (i_keys i) Nothing) as (n & d & R).
  exists n. cbv zeta. rewrite R, S. cbn [fst snd]. split; [reflexivity|]. exists d. reflexivity.
Qed.
