(** Proofs about histories of a net of stations. *)
From Coq Require Import Permutation.
From Verif Require Import Base Spec Model_Unicode Model_Crand Model_Functions Model_Types Model_Cipher Model_Keys Model_Import
  Model_Net Spec_Net Spec_Keys Proofs_Keys Proofs_Read Proofs_Cipher Proofs_KeyProps Proofs_KeyOps Proofs_Import.
From Verif Require Proofs_Again Proofs_Encipher Proofs_EndToEnd.

(** ** Lists *)
Lemma nth_update {A} (l : list A) a b x : nth_error (list_update l a x) b =
  if Nat.eqb a b then option_map (fun _ => x) (nth_error l b) else nth_error l b.
Proof.
  revert a b. induction l as [|y l IH]; intros [|a] [|b]; cbn [list_update nth_error Nat.eqb option_map]; try reflexivity.
  - destruct (Nat.eqb a b); reflexivity.
  - apply IH.
Qed.

Lemma newly_used_in a : forall b id, In id (newly_used a b) <->
  exists x k k', nth_error a x = Some k /\ nth_error b x = Some k' /\ kused k = false /\ kused k' = true /\ kid k' = id.
Proof.
  induction a as [|k a IH]; intros b id.
  - split; [intros []|]. intros (x & k & k' & H & _). destruct x; discriminate.
  - destruct b as [|k' b].
    + split; [intros []|]. intros (x & k1 & k2 & _ & H & _). destruct x; discriminate.
    + cbn [newly_used]. rewrite in_app_iff, IH. split.
      * intros [H|(x & k1 & k2 & H)].
        -- exists 0%nat, k, k'. cbn [nth_error]. destruct (kused k) eqn:E1; [destruct H|]. destruct (kused k') eqn:E2; [|destruct H]. destruct H as [H|[]]. auto 10.
        -- exists (S x), k1, k2. exact H.
      * intros (x & k1 & k2 & A & B & C & D & E). destruct x as [|x].
        -- left. cbn [nth_error] in A, B. assert (k1 = k /\ k2 = k') as (-> & ->) by (split; congruence). rewrite C, D. left. exact E.
        -- right. exists x, k1, k2. auto.
Qed.

Lemma marked_ids js ks ks' : marked_used js ks ks' -> (forall x, In x js -> exists k, nth_error ks x = Some k /\ kused k = false) ->
  forall id, In id (newly_used ks ks') <-> exists x k, In x js /\ nth_error ks x = Some k /\ kid k = id.
Proof.
  intros M F id. rewrite newly_used_in. split.
  - intros (x & k & k' & A & B & C & D & E). rewrite M, A in B. cbn [option_map] in B.
    destruct (existsb (Nat.eqb x) js) eqn:X.
    + exists x, k. rewrite Proofs_Encipher.existsb_nat_In in X. assert (k' = set_used k true) as -> by congruence. auto.
    + assert (k' = k) as -> by congruence. congruence.
  - intros (x & k & I & A & E). exists x, k, (set_used k true). destruct (F x I) as (k0 & A0 & C). assert (k0 = k) as -> by congruence.
    rewrite M, A. cbn [option_map]. apply Proofs_Encipher.existsb_nat_In in I. rewrite I. auto.
Qed.

(** ** The same message in another store *)
Section Net.
Context (U : Uni) (HU : uni_ok U) (gs : Z).

Lemma store_same ks k k' : store_ok gs ks -> In k ks -> In k' ks -> kid k = kid k' -> k = k'.
Proof.
  intros S A B E. apply In_nth_error in A, B. destruct A as (x & A), B as (y & B).
  assert (x = y) as -> by exact (store_ok_index gs ks x y k k' S A B E). congruence.
Qed.

Lemma holds_nth ks k : holds ks k -> exists x k', nth_error ks x = Some k' /\ kid k' = kid k /\ krunes k' = krunes k.
Proof. intros (k' & I & A & B). apply In_nth_error in I. destruct I as (x & I). eauto. Qed.

Definition twin (ks ks' : list key) (j j' : nat) : Prop :=
  exists k k', nth_error ks j = Some k /\ nth_error ks' j' = Some k' /\ kid k' = kid k.

Lemma transfer ks ks' js p c : message gs ks js p c -> (forall j k, In j js -> nth_error ks j = Some k -> holds ks' k) ->
  forall j j', hd_error js = Some j -> twin ks ks' j j' -> NoDup (map kid ks') ->
  exists js', message gs ks' (j' :: js') p c /\ Forall2 (twin ks ks') js (j' :: js').
Proof.
  assert (Q : NoDup (map kid ks') -> forall k j j', nth_error ks j = Some k -> twin ks ks' j j' -> holds ks' k ->
    exists k', nth_error ks' j' = Some k' /\ kid k' = kid k /\ krunes k' = krunes k).
  { intros N k j j' A (k1 & k' & B1 & B2 & B3) H. destruct (holds_nth _ _ H) as (x & k2 & C1 & C2 & C3).
    assert (k1 = k) as -> by congruence.
    assert (x = j') as ->; [|exists k2; auto].
    apply (proj1 (NoDup_nth_error (map kid ks')) N).
    - rewrite map_length. apply nth_error_Some. congruence.
    - rewrite (map_nth_error kid _ _ C1), (map_nth_error kid _ _ B2). congruence. }
  induction 1 as [j k s p tl Hk Hs L R T|j k s p j1 k1 js p' c' Hk Hs L Hk1 R M IH]; intros H j0 j' E TW N.
  - assert (j0 = j) as -> by (cbn in E; congruence). destruct (Q N k j j' Hk TW) as (k' & A & B & C).
    { apply (H j); [left; reflexivity|exact Hk]. }
    exists []. split; [|constructor; [exact TW|constructor]]. rewrite <- C in L |- *. exact (message_last gs ks' j' k' s p tl A Hs L R T).
  - assert (j0 = j) as -> by (cbn in E; congruence). destruct (Q N k j j' Hk TW) as (k' & A & B & C).
    { apply (H j); [left; reflexivity|exact Hk]. }
    destruct (holds_nth ks' k1) as (x & k1' & X1 & X2 & X3).
    { apply (H j1); [right; left; reflexivity|exact Hk1]. }
    destruct (IH (fun jj kk I A => H jj kk (or_intror I) A) j1 x eq_refl ltac:(exists k1, k1'; auto) N) as (js' & M' & F).
    exists (x :: js'). split; [|constructor; assumption]. rewrite <- C in L |- *. rewrite <- X2 in R.
    exact (message_next gs ks' j' k' s p x k1' js' p' c' A Hs L X1 R M').
Qed.

Lemma message_unique ks j js1 js2 p1 p2 c : 0 < gs -> store_ok gs ks -> message gs ks (j :: js1) p1 c -> message gs ks (j :: js2) p2 c ->
  js1 = js2 /\ p1 = p2.
Proof.
  intros Hg Hs A B. pose proof (message_loop U gs ks Hg Hs _ _ _ A j js1 eq_refl [] []) as E1.
  pose proof (message_loop U gs ks Hg Hs _ _ _ B j js2 eq_refl [] []) as E2. cbn [app] in E1, E2. split; congruence.
Qed.

(** ** What stays true *)
Definition entry_ok (n : net) (e : entry) : Prop := exists K j js k,
  store_ok gs K /\ message gs K (j :: js) (map canon (en_text e)) (en_cipher e) /\ nth_error K j = Some k /\ kid k = en_keyid e /\
  (forall id, In id (en_keys e) <-> In id (map kid K)) /\
  (forall x, (x < length K)%nat -> In x (j :: js)) /\
  gs <= len (en_cipher e) /\
  (forall k1 k2, key_somewhere n k1 -> In k2 K -> kid k1 = kid k2 -> krunes k1 = krunes k2).

Definition base (n : net) : Prop := 0 < gs /\
  (forall a i, nth_error (nt_stations n) a = Some i -> i_groupsize i = gs /\ 0 <= i_keylength i /\ store_ok gs (i_keys i)) /\
  (forall f, In f (nt_files n) -> store_ok gs (i_keys f)) /\
  (forall k k', key_somewhere n k -> key_somewhere n k' -> kid k = kid k' -> krunes k = krunes k') /\
  (forall e, In e (nt_air n) -> entry_ok n e).

Lemma base_start n : net_start gs n -> base n.
Proof. intros (A & B & C & D & E & _). split; [exact A|]. split; [exact B|]. split; [exact C|]. split; [exact D|]. rewrite E. intros e []. Qed.

(** Messages of the air at a station *)
Definition ids (i : inst) : list (list rune) := map kid (i_keys i).

Lemma all_used K j js js' ks : Forall2 (twin K ks) (j :: js) js' -> (forall x, (x < length K)%nat -> In x (j :: js)) ->
  forall id, In id (map kid K) <-> exists x k, In x js' /\ nth_error ks x = Some k /\ kid k = id.
Proof.
  intros F A id. split.
  - intros I. apply in_map_iff in I. destruct I as (k & E & I). apply In_nth_error in I. destruct I as (y & I).
    assert (Y : In y (j :: js)) by (apply A, nth_error_Some; congruence).
    clear A. induction F as [|a b la lb T F IH]; [destruct Y|]. destruct Y as [->|Y].
    + destruct T as (k1 & k2 & T1 & T2 & T3). exists b, k2. split; [left; reflexivity|]. split; [exact T2|]. congruence.
    + destruct (IH Y) as (x & k0 & X1 & X2 & X3). exists x, k0. split; [right; exact X1|]. auto.
  - intros (x & k & I & N & E). clear A. induction F as [|a b la lb T F IH]; [destruct I|]. destruct I as [->|I]; [|auto].
    destruct T as (k1 & k2 & T1 & T2 & T3). assert (k2 = k) as -> by congruence. rewrite <- E, T3. apply in_map. exact (nth_error_In _ _ T1).
Qed.

Lemma marked_at js ks ks' l : NoDup (map kid ks) -> marked_used js ks ks' ->
  (forall id, In id l <-> exists x k, In x js /\ nth_error ks x = Some k /\ kid k = id) ->
  forall x, nth_error ks' x =
    option_map (fun k => if in_dec (list_eq_dec Z.eq_dec) (kid k) l then set_used k true else k) (nth_error ks x).
Proof.
  intros N M E x. rewrite M. destruct (nth_error ks x) as [k|] eqn:X; [|reflexivity]. cbn [option_map]. f_equal.
  destruct (existsb (Nat.eqb x) js) eqn:Q; destruct (in_dec (list_eq_dec Z.eq_dec) (kid k) l) as [I|I]; try reflexivity.
  - elim I. apply E. exists x, k. apply Proofs_Encipher.existsb_nat_In in Q. auto.
  - apply E in I. destruct I as (y & k' & Y1 & Y2 & Y3). assert (y = x) as ->.
    { apply (proj1 (NoDup_nth_error (map kid ks)) N).
      - rewrite map_length. apply nth_error_Some. congruence.
      - rewrite (map_nth_error kid _ _ Y2), (map_nth_error kid _ _ X). congruence. }
    apply Proofs_Encipher.existsb_nat_In in Y1. congruence.
Qed.

Lemma entry_held n e b i m t : base n -> In e (nt_air n) -> nth_error (nt_stations n) b = Some i ->
  mkeyid m = en_keyid e -> mcipher m = en_cipher e -> mid m <> [] -> (length (mplain m) <= length t)%nat ->
  (forall id, In id (en_keys e) -> In id (ids i)) ->
  exists i' t', decipher U i m t = (i', set_mplain m (map canon (en_text e)), Ok tt, t') /\ i' = set_keys i (i_keys i') /\
    forall x, nth_error (i_keys i') x =
      option_map (fun k => if in_dec (list_eq_dec Z.eq_dec) (kid k) (en_keys e) then set_used k true else k) (nth_error (i_keys i) x).
Proof.
  intros (Hg & ST & FI & AG & EN) I NB MK MC MI MP HD. destruct (EN e I) as (K & j & js & k & SK & MS & NK & KI & KE & AL & LC & KA).
  destruct (ST b i NB) as (GI & _ & SI).
  assert (HO : forall y kk, nth_error K y = Some kk -> holds (i_keys i) kk).
  { intros y kk Y. assert (In (kid kk) (ids i)) as J by (apply HD, KE, in_map; exact (nth_error_In _ _ Y)).
    apply in_map_iff in J. destruct J as (k' & J1 & J2). exists k'. split; [exact J2|]. split; [exact J1|].
    apply (KA k' kk); [left; exists b, i; auto|exact (nth_error_In _ _ Y)|exact J1]. }
  destruct (holds_nth _ _ (HO j k NK)) as (j' & k' & N1 & N2 & N3).
  destruct (transfer K (i_keys i) _ _ _ MS ltac:(intros; eapply HO; eassumption) j j' eq_refl ltac:(exists k, k'; auto) (proj1 SI)) as (js' & M' & F).
  destruct (decipher_complete U i m t j' js' k' (map canon (en_text e))) as (i' & t' & D & S & MU); rewrite ?GI, ?MC; try assumption; try congruence.
  exists i', t'. split; [exact D|]. split; [exact S|]. apply (marked_at (j' :: js')); [exact (proj1 SI)|exact MU|].
  intros id. rewrite KE. exact (all_used K j js (j' :: js') (i_keys i) F AL id).
Qed.

Lemma entry_lacking n e b i m t i' m' t' : base n -> In e (nt_air n) -> nth_error (nt_stations n) b = Some i ->
  mkeyid m = en_keyid e -> mcipher m = en_cipher e -> mid m <> [] -> (length (mplain m) <= length t)%nat ->
  decipher U i m t = (i', m', Ok tt, t') -> forall id, In id (en_keys e) -> In id (ids i).
Proof.
  intros (Hg & ST & FI & AG & EN) I NB MK MC MI MP D. destruct (EN e I) as (K & j & js & k & SK & MS & NK & KI & KE & AL & LC & KA).
  destruct (ST b i NB) as (GI & _ & SI).
  destruct (decipher_refines U i m t i' m' t') as (j2 & js2 & k2 & p2 & X1 & X2 & X3 & _); rewrite ?GI; auto.
  { rewrite MK, <- KI. apply (proj2 SK k (nth_error_In _ _ NK)). }
  rewrite GI, MC in X3.
  set (isnew := fun kk => if in_dec (list_eq_dec Z.eq_dec) (kid kk) (ids i) then false else true).
  set (Zs := i_keys i ++ filter isnew K).
  assert (NZ : NoDup (map kid Zs)).
  { unfold Zs. rewrite map_app. assert (ND : NoDup (map kid (filter isnew K))).
    { destruct SK as (NK0 & _). clear - NK0. induction K as [|a l IH]; [constructor|]. cbn [map] in NK0. inversion NK0 as [|? ? N1 N2]; subst.
      cbn [filter]. destruct (isnew a); [|apply IH, N2]. cbn [map]. constructor; [|apply IH, N2].
      intros J. apply N1. apply in_map_iff in J. destruct J as (z & J1 & J2). rewrite <- J1. apply in_map. apply filter_In in J2. apply J2. }
    assert (DJ : forall x, In x (map kid (i_keys i)) -> ~ In x (map kid (filter isnew K))).
    { intros x J1 J2. apply in_map_iff in J2. destruct J2 as (z & Z1 & Z2). apply filter_In in Z2. destruct Z2 as (_ & Z2). unfold isnew, ids in Z2.
      destruct (in_dec (list_eq_dec Z.eq_dec) (kid z) (map kid (i_keys i))); [discriminate|]. subst x. contradiction. }
    clear - ND DJ SI. destruct SI as (NI & _). induction (map kid (i_keys i)) as [|a l IH]; [exact ND|].
    inversion NI as [|? ? N1 N2]; subst. cbn [app]. constructor; [|apply IH; [exact N2|intros x J; apply DJ; right; exact J]].
    intros J. apply in_app_iff in J. destruct J as [J|J]; [contradiction|]. exact (DJ a (or_introl eq_refl) J). }
  assert (SZ : store_ok gs Zs).
  { split; [exact NZ|]. intros kk J. unfold Zs in J. apply in_app_iff in J. destruct J as [J|J]; [apply SI, J|apply filter_In in J; apply SK, J]. }
  assert (HK : forall y kk, nth_error K y = Some kk -> holds Zs kk).
  { intros y kk Y. apply nth_error_In in Y. destruct (in_dec (list_eq_dec Z.eq_dec) (kid kk) (ids i)) as [J|J].
    - apply in_map_iff in J. destruct J as (k' & J1 & J2). exists k'. split; [apply in_app_iff; left; exact J2|]. split; [exact J1|].
      apply (KA k' kk); [left; exists b, i; auto|exact Y|exact J1].
    - exists kk. split; [|auto]. apply in_app_iff. right. apply filter_In. split; [exact Y|]. unfold isnew.
      destruct (in_dec (list_eq_dec Z.eq_dec) (kid kk) (ids i)); [contradiction|reflexivity]. }
  assert (T2 : twin (i_keys i) Zs j2 j2).
  { exists k2, k2. split; [exact X1|]. split; [|reflexivity]. unfold Zs. rewrite nth_error_app1; [exact X1|]. apply nth_error_Some. congruence. }
  assert (T1 : twin K Zs j j2).
  { exists k, k2. split; [exact NK|]. split; [|congruence]. unfold Zs. rewrite nth_error_app1; [exact X1|]. apply nth_error_Some. congruence. }
  destruct (transfer K Zs _ _ _ MS (fun y kk _ Y => HK y kk Y) j j2 eq_refl T1 NZ) as (ja & Ma & Fa).
  destruct (transfer (i_keys i) Zs _ _ _ X3) with (j := j2) (j' := j2) as (jb & Mb & Fb); try assumption; try reflexivity.
  { intros y kk _ Y. exists kk. split; [apply in_app_iff; left; exact (nth_error_In _ _ Y)|auto]. }
  destruct (message_unique Zs j2 ja jb _ _ _ Hg SZ Ma Mb) as (-> & _).
  intros id J. apply KE in J. apply (all_used K j js (j2 :: jb) Zs Fa AL id) in J. destruct J as (x & kk & J1 & J2 & J3).
  clear - Fb J1 J2 J3. revert J1. induction Fb as [|a c la lc T F IH]; intros J1; [destruct J1|]. destruct J1 as [->|J1]; [|auto].
  destruct T as (ka & kc & A1 & A2 & A3). assert (kc = kk) as -> by congruence. unfold ids. rewrite <- J3, A3. apply in_map. exact (nth_error_In _ _ A1).
Qed.

(** What an operation does to the keys there are *)
Lemma key_set n a i i' k : nth_error (nt_stations n) a = Some i -> key_somewhere (set_station n a i') k ->
  In k (i_keys i') \/ key_somewhere n k.
Proof.
  intros N [(b & x & X1 & X2)|(f & F)]; [|right; right; exists f; exact F]. cbn [set_station nt_stations] in X1. rewrite nth_update in X1.
  destruct (Nat.eqb_spec a b) as [->|D].
  - rewrite N in X1. cbn [option_map] in X1. assert (x = i') as -> by congruence. left. exact X2.
  - right. left. exists b, x. auto.
Qed.
Lemma at_set n a i i' b k : nth_error (nt_stations n) a = Some i -> key_at (set_station n a i') b k ->
  (b = a /\ In k (i_keys i')) \/ (b <> a /\ key_at n b k).
Proof.
  intros N (x & X1 & X2). cbn [set_station nt_stations] in X1. rewrite nth_update in X1.
  destruct (Nat.eqb_spec a b) as [->|D].
  - rewrite N in X1. cbn [option_map] in X1. assert (x = i') as -> by congruence. left. auto.
  - right. split; [congruence|]. exists x. auto.
Qed.

Lemma base_derived n n' : base n ->
  (forall a i, nth_error (nt_stations n') a = Some i -> i_groupsize i = gs /\ 0 <= i_keylength i /\ store_ok gs (i_keys i)) ->
  (forall f, In f (nt_files n') -> store_ok gs (i_keys f)) ->
  (forall k', key_somewhere n' k' -> exists k, key_somewhere n k /\ kid k = kid k' /\ krunes k = krunes k') ->
  (forall e, In e (nt_air n') -> In e (nt_air n) \/ entry_ok n' e) -> base n'.
Proof.
  intros (Hg & ST & FI & AG & EN) S F D A. split; [exact Hg|]. split; [exact S|]. split; [exact F|]. split.
  - intros k1 k2 K1 K2 E. destruct (D k1 K1) as (x1 & A1 & A2 & A3), (D k2 K2) as (x2 & B1 & B2 & B3).
    rewrite <- A3, <- B3. apply AG; auto. congruence.
  - intros e I. destruct (A e I) as [J|J]; [|exact J]. destruct (EN e J) as (K & j & js & k & C1 & C2 & C3 & C4 & C5 & C6 & C7 & C8).
    exists K, j, js, k. split; [exact C1|]. split; [exact C2|]. split; [exact C3|]. split; [exact C4|]. split; [exact C5|]. split; [exact C6|]. split; [exact C7|].
    intros k1 k2 K1 K2 E. destruct (D k1 K1) as (x1 & A1 & A2 & A3). rewrite <- A3. apply C8; auto. congruence.
Qed.

Lemma base_set n a i i' : base n -> nth_error (nt_stations n) a = Some i ->
  i_groupsize i' = i_groupsize i -> i_keylength i' = i_keylength i -> store_ok gs (i_keys i') ->
  (forall k', In k' (i_keys i') -> exists k, key_somewhere n k /\ kid k = kid k' /\ krunes k = krunes k') ->
  base (set_station n a i').
Proof.
  intros B N G L S D. pose proof B as (Hg & ST & FI & AG & EN). destruct (ST a i N) as (G0 & L0 & _). apply (base_derived n); [exact B| | | |].
  - intros b x X. cbn [set_station nt_stations] in X. rewrite nth_update in X. destruct (Nat.eqb_spec a b) as [->|NE].
    + rewrite N in X. cbn [option_map] in X. assert (x = i') as -> by congruence. split; [congruence|]. split; [congruence|exact S].
    + exact (ST b x X).
  - exact FI.
  - intros k' K. destruct (key_set n a i i' k' N K) as [J|J]; [apply D, J|exists k'; auto].
  - intros e I. left. exact I.
Qed.

Lemma at_some n a k : key_at n a k -> key_somewhere n k.
Proof. intros H. left. exists a. exact H. Qed.

Lemma same_but_used_derived n a i ks' : nth_error (nt_stations n) a = Some i -> same_but_used (i_keys i) ks' ->
  forall k', In k' ks' -> exists k, key_somewhere n k /\ kid k = kid k' /\ krunes k = krunes k'.
Proof.
  intros N S k' I. apply In_nth_error in I. destruct I as (x & I).
  destruct (same_but_used_nth ks' (i_keys i) x k' (same_but_used_sym _ _ S) I) as (k & A & B).
  exists k. split; [apply (at_some n a); exists i; split; [exact N|exact (nth_error_In _ _ A)]|].
  split; [exact (f_equal kid B)|exact (f_equal krunes B)].
Qed.
Lemma marked_same js ks ks' : marked_used js ks ks' -> same_but_used ks ks'.
Proof.
  intros M. unfold same_but_used. apply nth_error_ext. intros x. rewrite !nth_error_map, M.
  destruct (nth_error ks x) as [k|]; [|reflexivity]. cbn [option_map]. destruct (existsb (Nat.eqb x) js); reflexivity.
Qed.

(** A message sent *)
Lemma sent_ok n a i m t i' m' t' : base n -> nth_error (nt_stations n) a = Some i ->
  encipher U i (set_mcipher m []) t = (i', m', Ok tt, t') ->
  i' = set_keys i (i_keys i') /\ same_but_used (i_keys i) (i_keys i') /\
  (forall x k, nth_error (i_keys i) x = Some k -> kused k = true -> exists k', nth_error (i_keys i') x = Some k' /\ kused k' = true) /\
  (forall id, In id (mkeyid m' :: newly_used (i_keys i) (i_keys i')) -> exists k, In k (i_keys i) /\ kid k = id /\ kused k = false) /\
  (mkeyid m = [] -> forall x k', nth_error (i_keys i') x = Some k' -> In (kid k') (mkeyid m' :: newly_used (i_keys i) (i_keys i')) -> kused k' = true) /\
  entry_ok n (mkEntry (mplain m) (mkeyid m') (mcipher m') (mkeyid m' :: newly_used (i_keys i) (i_keys i'))).
Proof.
  intros (Hg & ST & FI & AG & EN) N E. destruct (ST a i N) as (G & _ & S). pose proof S as S0. rewrite <- G in S.
  destruct (encipher_message U HU i (set_mcipher m []) t i' m' t' ltac:(lia) S (or_introl eq_refl) E) as
    (j & js & k & M & A1 & A2 & A3 & A4 & A5 & A6 & A7 & A8 & A9 & A10 & A11 & A12).
  cbn [set_mcipher mplain mkeyid mrecipients] in *. rewrite G in *.
  set (l := mkeyid m' :: newly_used (i_keys i) (i_keys i')).
  assert (FU : forall x, In x (j :: js) -> exists kk, nth_error (i_keys i) x = Some kk /\ kused kk = false).
  { intros x [<-|I]; [exists k; auto|]. destruct (A7 x I) as (kk & Q1 & Q2). exists kk. split; [exact Q1|apply Q2]. }
  assert (MM : exists js0, marked_used js0 (i_keys i) (i_keys i') /\ incl js0 (j :: js) /\ (forall x, In x js -> In x js0) /\ (mkeyid m = [] -> In j js0)).
  { destruct A8 as [(B1 & B2 & B3 & B4 & B5)|(B1 & B2 & B3)].
    - exists (j :: js). split; [exact B5|]. split; [apply incl_refl|]. split; [intros x I; right; exact I|intros _; left; reflexivity].
    - exists js. split; [exact B3|]. split; [apply incl_tl, incl_refl|]. split; [auto|]. intros Q. exfalso.
      destruct (proj2 S0 k (nth_error_In _ _ A3)) as (_ & L & _). rewrite <- B1, Q in L. unfold len in L. cbn in L. lia. }
  destruct MM as (js0 & MU & I1 & I2 & I3).
  pose proof (marked_ids js0 _ _ MU (fun x I => FU x (I1 x I))) as NU.
  assert (LI : forall id, In id l <-> exists x kk, In x (j :: js) /\ nth_error (i_keys i) x = Some kk /\ kid kk = id).
  { intros id. unfold l. cbn [In]. rewrite NU. split.
    - intros [<-|(x & kk & X1 & X2 & X3)]; [exists j, k; auto|exists x, kk; split; [exact (I1 x X1)|auto]].
    - intros (x & kk & X1 & X2 & X3). destruct X1 as [<-|X1]; [left; congruence|]. right. exists x, kk. auto. }
  split; [exact A9|]. split; [exact (marked_same _ _ _ MU)|]. split; [|split; [|split]].
  - intros x kk X Q. rewrite MU, X. cbn [option_map]. eexists. split; [reflexivity|]. destruct (existsb (Nat.eqb x) js0); [reflexivity|exact Q].
  - intros id I. apply LI in I. destruct I as (x & kk & X1 & X2 & X3). destruct (FU x X1) as (k2 & Y1 & Y2). exists kk.
    split; [exact (nth_error_In _ _ X2)|]. split; [exact X3|]. congruence.
  - intros AU x k' X I. rewrite MU in X. destruct (nth_error (i_keys i) x) as [kk|] eqn:XX; [|discriminate]. cbn [option_map] in X.
    destruct (existsb (Nat.eqb x) js0) eqn:EB; [assert (k' = set_used kk true) as -> by congruence; reflexivity|]. assert (k' = kk) as -> by congruence.
    exfalso. apply LI in I. destruct I as (y & k2 & Y1 & Y2 & Y3). assert (y = x) as -> by exact (store_ok_index gs _ y x k2 kk S0 Y2 XX Y3).
    assert (In x js0) as J by (destruct Y1 as [<-|Y1]; [apply I3, AU|apply I2, Y1]). apply Proofs_Encipher.existsb_nat_In in J. congruence.
  - set (inl := fun kk => if in_dec (list_eq_dec Z.eq_dec) (kid kk) l then true else false).
    set (K := filter inl (i_keys i)).
    assert (KI : forall kk, In kk K <-> In kk (i_keys i) /\ In (kid kk) l).
    { intros kk. unfold K. rewrite filter_In. unfold inl. destruct (in_dec (list_eq_dec Z.eq_dec) (kid kk) l); split; intros (Q1 & Q2); split; auto; discriminate. }
    assert (SK : store_ok gs K).
    { split; [|intros kk I; apply KI in I; apply S0, I]. unfold K. destruct S0 as (NK0 & _). clear - NK0. revert NK0. generalize (i_keys i). intros ks NK0.
      induction ks as [|x ks IH]; [constructor|]. cbn [map] in NK0. inversion NK0 as [|? ? N1 N2]; subst.
      cbn [filter]. destruct (inl x); [|apply IH, N2]. cbn [map]. constructor; [|apply IH, N2].
      intros J. apply N1. apply in_map_iff in J. destruct J as (z & J1 & J2). rewrite <- J1. apply in_map. apply filter_In in J2. apply J2. }
    assert (JK : forall x kk, In x (j :: js) -> nth_error (i_keys i) x = Some kk -> In kk K).
    { intros x kk I X. apply KI. split; [exact (nth_error_In _ _ X)|]. apply LI. exists x, kk. auto. }
    destruct (In_nth_error K k (JK j k (or_introl eq_refl) A3)) as (j' & J').
    destruct (transfer (i_keys i) K _ _ _ M) with (j := j) (j' := j') as (js' & M' & F').
    { intros x kk I X. exists kk. split; [exact (JK x kk I X)|auto]. } { reflexivity. } { exists k, k. auto. } { exact (proj1 SK). }
    exists K, j', js', k. cbn [en_text en_keyid en_cipher en_keys]. split; [exact SK|]. split; [exact M'|]. split; [exact J'|]. split; [congruence|].
    split; [|split; [|split]].
    + intros id. fold l. split.
      * intros I. pose proof I as I0. apply LI in I. destruct I as (x & kk & X1 & X2 & X3). rewrite <- X3. apply in_map, (JK x kk X1 X2).
      * intros I. apply in_map_iff in I. destruct I as (kk & Q1 & Q2). apply KI in Q2. rewrite <- Q1. apply Q2.
    + intros x X. destruct (nth_error K x) as [kk|] eqn:XK; [|apply nth_error_None in XK; lia].
      pose proof (nth_error_In _ _ XK) as IK. apply KI in IK. destruct IK as (_ & IK). apply LI in IK. destruct IK as (y & k2 & Y1 & Y2 & Y3).
      clear - F' Y1 Y2 Y3 XK SK. revert Y1. induction F' as [|b c lb lc T F IH]; intros Y1; [destruct Y1|]. destruct Y1 as [->|Y1]; [|right; auto].
      destruct T as (ka & kc & T1 & T2 & T3). left. apply (store_ok_index gs K c x kc kk SK T2 XK). congruence.
    + assert (0 < len (mcipher m')) by (destruct (mcipher m'); [elim A11; reflexivity|unfold len; cbn [length]; lia]).
      destruct (Z_lt_le_dec (len (mcipher m')) gs) as [Q|Q]; [|exact Q]. rewrite Z.mod_small in A10; lia.
    + intros k1 k2 K1 K2 Q. apply KI in K2. apply AG; [exact K1|apply (at_some n a); exists i; split; [exact N|apply K2]|exact Q].
Qed.

(** Each operation *)
Lemma nodup_more new : forall ks, NoDup (map kid ks) ->
  (forall a k b, new = a ++ k :: b -> forall k0, In k0 (ks ++ a) -> kid k0 <> kid k) -> NoDup (map kid (ks ++ new)).
Proof.
  induction new as [|x new IH]; intros ks N H; [rewrite app_nil_r; exact N|].
  replace (ks ++ x :: new) with ((ks ++ [x]) ++ new) by (rewrite <- app_assoc; reflexivity). apply IH.
  - rewrite map_app. cbn [map]. apply (Permutation_NoDup (Permutation_cons_append _ _)). constructor; [|exact N].
    intros J. apply in_map_iff in J. destruct J as (k0 & J1 & J2). apply (H [] x new eq_refl k0); [rewrite app_nil_r; exact J2|exact J1].
  - intros a k b -> k0 J. apply (H (x :: a) k b eq_refl). rewrite <- app_assoc in J. exact J.
Qed.

Lemma generated n a i c now expire keepers t i' t' : base n -> nth_error (nt_stations n) a = Some i ->
  generate_keys U i c now expire keepers t = Ok (i', t') ->
  i' = set_keys i (i_keys i') /\ store_ok gs (i_keys i') /\ incl (i_keys i) (i_keys i').
Proof.
  intros (Hg & ST & FI & AG & EN) N E. destruct (ST a i N) as (G & L & S).
  destruct (c18_generate_lemma U i c now expire keepers t i' t' ltac:(lia) L E) as (new & -> & _ & A & B).
  cbn [set_keys i_keys]. split; [reflexivity|]. split; [|apply incl_appl, incl_refl]. split.
  - apply nodup_more; [apply S|]. intros x k y Q k0 J F. apply (B x k y Q k0 J). unfold same_text. rewrite F. reflexivity.
  - intros k J. apply in_app_iff in J. destruct J as [J|J]; [apply S, J|]. destruct (A k J) as (A1 & A2 & A3 & _). rewrite G in A2. auto.
Qed.

Lemma base_generate n a i i' : base n -> nth_error (nt_stations n) a = Some i ->
  i_groupsize i' = i_groupsize i -> i_keylength i' = i_keylength i -> store_ok gs (i_keys i') ->
  (forall k, key_at (set_station n a i') a k -> key_at n a k \/ ~ id_known n (kid k)) -> base (set_station n a i').
Proof.
  intros (Hg & ST & FI & AG & EN) N G L S F. destruct (ST a i N) as (G0 & L0 & _).
  assert (NA : nth_error (nt_stations (set_station n a i')) a = Some i').
  { cbn [set_station nt_stations]. rewrite nth_update, Nat.eqb_refl, N. reflexivity. }
  assert (D : forall k, key_somewhere (set_station n a i') k -> key_somewhere n k \/ In k (i_keys i') /\ ~ id_known n (kid k)).
  { intros k K. destruct (key_set n a i i' k N K) as [J|J]; [|left; exact J].
    destruct (F k ltac:(exists i'; auto)) as [Q|Q]; [left; exact (at_some n a k Q)|right; auto]. }
  split; [exact Hg|]. split; [|split; [exact FI|split]].
  - intros b x X. cbn [set_station nt_stations] in X. rewrite nth_update in X. destruct (Nat.eqb_spec a b) as [->|NE]; [|exact (ST b x X)].
    rewrite N in X. cbn [option_map] in X. assert (x = i') as -> by congruence. split; [congruence|]. split; [congruence|exact S].
  - intros k1 k2 K1 K2 E. destruct (D k1 K1) as [A|(A & A')], (D k2 K2) as [B|(B & B')].
    + apply AG; assumption.
    + elim B'. left. exists k1. auto.
    + elim A'. left. exists k2. auto.
    + f_equal. exact (store_same _ k1 k2 S A B E).
  - intros e I. change (In e (nt_air n)) in I. destruct (EN e I) as (K & j & js & k & C1 & C2 & C3 & C4 & C5 & C6 & C7 & C8).
    exists K, j, js, k. split; [exact C1|]. split; [exact C2|]. split; [exact C3|]. split; [exact C4|]. split; [exact C5|]. split; [exact C6|]. split; [exact C7|].
    intros k1 k2 K1 K2 E. destruct (D k1 K1) as [A|(A & A')]; [apply C8; assumption|]. elim A'. right. exists e. split; [exact I|]. apply C5. rewrite E. apply in_map, K2.
Qed.

Lemma deleted_keys ks l : store_ok gs ks -> store_ok gs (fst (delete_key U ks l)) /\ incl (fst (delete_key U ks l)) ks.
Proof.
  intros S. destruct (delete_key U ks l) as [ks' c] eqn:E. cbn [fst]. destruct (delete_any U ks l ks' c E) as (d & P & _).
  assert (incl ks' ks) as I by (intros k J; apply (Permutation_in _ (Permutation_sym P)); apply in_app_iff; right; exact J).
  split; [|exact I]. split; [|intros k J; apply S, I, J].
  pose proof (Permutation_NoDup (Permutation_map kid P) (proj1 S)) as Q. rewrite map_app in Q. clear - Q. induction (map kid d) as [|x r IH]; [exact Q|].
  apply IH. inversion Q. assumption.
Qed.

Lemma dec_norm i m t i' m' r t' : decipher U i m t = (i', m', r, t') ->
  (exists m1 t1, mid m1 <> [] /\ mkeyid m1 = mkeyid m /\ mcipher m1 = mcipher m /\ mplain m1 = mplain m /\ decipher U i m1 t1 = (i', m', r, t')) \/
  (i' = i /\ r = Panic).
Proof.
  intros D. destruct (mid m) as [|c s] eqn:M.
  - rewrite (Proofs_Again.noid_decipher U i m t M) in D. destruct (new_unique_message_id (i_messages i) t) as [[id t1]|e| |] eqn:E;
      [left|right; split; congruence|right; split; congruence|right; split; congruence].
    exists (set_mid m id), t1. split; [exact (Proofs_Again.new_id_has _ _ _ _ m E)|]. auto.
  - left. exists m, t. split; [rewrite M; discriminate|]. auto.
Qed.
Lemma dec_fails i m t i' m' r t' : decipher U i m t = (i', m', r, t') -> r <> Ok tt -> i' = i.
Proof.
  intros D R. destruct (dec_norm _ _ _ _ _ _ _ D) as [(m1 & t1 & M & _ & _ & _ & E)|(A & _)]; [|exact A].
  destruct (Proofs_Cipher.decipher_total U i m1 t1 i' m' r t' M E) as (_ & F & _). exact (F R).
Qed.

Definition received (m : msg) (e : entry) : msg := set_mplain (set_mcipher (set_mkeyid m (en_keyid e)) (en_cipher e)) [].
Lemma read_ok n b j i e m t i' m' t' : base n -> nth_error (nt_stations n) b = Some i -> nth_error (nt_air n) j = Some e ->
  decipher U i (received m e) t = (i', m', Ok tt, t') ->
  i' = set_keys i (i_keys i') /\
  forall x, nth_error (i_keys i') x =
    option_map (fun k => if in_dec (list_eq_dec Z.eq_dec) (kid k) (en_keys e) then set_used k true else k) (nth_error (i_keys i) x).
Proof.
  intros B N A D. destruct (dec_norm _ _ _ _ _ _ _ D) as [(m1 & t1 & M & M1 & M2 & M3 & E)|(_ & F)]; [|discriminate].
  cbn [received set_mplain set_mcipher set_mkeyid mkeyid mcipher mplain] in M1, M2, M3.
  assert (L : (length (mplain m1) <= length t1)%nat) by (rewrite M3; cbn [length]; lia).
  pose proof (nth_error_In _ _ A) as IA.
  pose proof (entry_lacking n e b i m1 t1 i' m' t' B IA N M1 M2 M L E) as H.
  destruct (entry_held n e b i m1 t1 B IA N M1 M2 M L H) as (i2 & t2 & E2 & S & F).
  assert (i2 = i') as -> by congruence. split; [exact S|exact F].
Qed.
Lemma read_same i i' l : (forall x, nth_error (i_keys i') x =
    option_map (fun k => if in_dec (list_eq_dec Z.eq_dec) (kid k) l then set_used k true else k) (nth_error (i_keys i) x)) ->
  same_but_used (i_keys i) (i_keys i').
Proof.
  intros F. unfold same_but_used. apply nth_error_ext. intros x. rewrite !nth_error_map, F. destruct (nth_error (i_keys i) x) as [k|]; [|reflexivity].
  cbn [option_map]. destruct (in_dec (list_eq_dec Z.eq_dec) (kid k) l); reflexivity.
Qed.

Lemma base_air n e : base n -> entry_ok n e -> base (on_air n e).
Proof.
  intros (Hg & ST & FI & AG & EN) E. split; [exact Hg|]. split; [exact ST|]. split; [exact FI|]. split; [exact AG|].
  intros x I. cbn [on_air nt_air] in I. apply in_app_iff in I. destruct I as [I|[<-|[]]]; [exact (EN x I)|exact E].
Qed.
Lemma base_file n f : base n -> store_ok gs (i_keys f) -> (forall k, In k (i_keys f) -> key_somewhere n k) -> base (new_file n f).
Proof.
  intros B S F. pose proof B as (Hg & ST & FI & AG & EN). apply (base_derived n); [exact B|exact ST| | |].
  - intros x I. cbn [new_file nt_files] in I. apply in_app_iff in I. destruct I as [I|[<-|[]]]; [exact (FI x I)|exact S].
  - intros k [(a & A)|(x & I & J)]; [exists k; split; [left; exists a; exact A|auto]|]. exists k. split; [|auto].
    cbn [new_file nt_files] in I. apply in_app_iff in I. destruct I as [I|[<-|[]]]; [right; exists x; auto|apply F, J].
  - intros e I. left. exact I.
Qed.
Lemma filter_store f ks : store_ok gs ks -> store_ok gs (filter f ks).
Proof.
  intros (N & S). split; [|intros k J; apply filter_In in J; apply S, J]. clear S. induction ks as [|x ks IH]; [constructor|].
  cbn [map] in N. inversion N as [|? ? N1 N2]; subst. cbn [filter]. destruct (f x); [|apply IH, N2]. cbn [map]. constructor; [|apply IH, N2].
  intros J. apply N1. apply in_map_iff in J. destruct J as (z & J1 & J2). rewrite <- J1. apply in_map. apply filter_In in J2. apply J2.
Qed.

Lemma imported n b i x ow ask take ans i' c e : base n -> nth_error (nt_stations n) b = Some i -> In x (nt_files n) ->
  import_keys U i ow ask take x ans = (i', c, e) ->
  i' = set_keys i (i_keys i') /\ store_ok gs (i_keys i') /\
  forall k', In k' (i_keys i') -> exists k, key_somewhere n k /\ kid k = kid k' /\ krunes k = krunes k'.
Proof.
  intros (Hg & ST & FI & AG & EN) N I E. destruct (ST b i N) as (G & L & S). pose proof (FI x I) as SX.
  destruct (c36_lemma U i ow ask take x ans i' c e (Proofs_EndToEnd.store_distinct U gs _ SX) (Proofs_EndToEnd.store_distinct U gs _ S) E)
    as (added & A1 & A2 & A3 & A4 & A5 & A6 & _).
  split; [exact A5|].
  assert (Q : forall k', In k' (i_keys i') -> In k' (i_keys i) \/ exists k, In k (i_keys x) /\ kid k' = kid k /\ krunes k' = krunes k).
  { intros k' J. apply A4 in J. destruct J as [(J & _)|(k & J1 & ->)]; [left; exact J|right]. exists k. apply A1 in J1. apply filter_In in J1.
    split; [apply J1|]. split; reflexivity. }
  split.
  - split; [exact (Proofs_EndToEnd.distinct_nodup U _ A6)|]. intros k' J. destruct (Q k' J) as [J'|(k & J1 & J2 & J3)]; [apply S, J'|].
    rewrite J2, J3. apply SX, J1.
  - intros k' J. destruct (Q k' J) as [J'|(k & J1 & J2 & J3)].
    + exists k'. split; [apply (at_some n b); exists i; auto|auto].
    + exists k. split; [right; exists x; auto|auto].
Qed.

Lemma set_keys_fields2 i ks : i_groupsize (set_keys i ks) = i_groupsize i /\ i_keylength (set_keys i ks) = i_keylength i.
Proof. split; reflexivity. Qed.

Lemma base_step n o : base n -> new_ids U n o -> base (nt_step U n o).
Proof.
  intros B F. pose proof B as (Hg & ST & FI & AG & EN).
  destruct o as [a c now ex kp t|a give|f b take ow ask ans|a l|a m t|b j m t]; cbn [nt_step new_ids] in F |- *.
  - destruct (nth_error (nt_stations n) a) as [i|] eqn:N; [|exact B].
    destruct (generate_keys U i c now ex kp t) as [[i' t']| | |] eqn:E; try exact B.
    destruct (generated n a i c now ex kp t i' t' B N E) as (A1 & A2 & A3).
    apply (base_generate n a i i' B N); [rewrite A1; reflexivity|rewrite A1; reflexivity|exact A2|exact F].
  - destruct (nth_error (nt_stations n) a) as [i|] eqn:N; [|exact B]. destruct (ST a i N) as (_ & _ & S).
    apply base_file; [exact B|apply filter_store, S|]. intros k J. cbn [export_keys i_keys] in J. apply filter_In in J.
    apply (at_some n a). exists i. split; [exact N|apply J].
  - destruct (nth_error (nt_files n) f) as [x|] eqn:NF; [|exact B]. destruct (nth_error (nt_stations n) b) as [i|] eqn:N; [|exact B].
    destruct (import_keys U i ow ask take x ans) as [[i' c] e] eqn:E.
    destruct (imported n b i x ow ask take ans i' c e B N (nth_error_In _ _ NF) E) as (A1 & A2 & A3).
    change (base (set_station n b i')). apply (base_set n b i i' B N); [rewrite A1; reflexivity|rewrite A1; reflexivity|exact A2|exact A3].
  - destruct (nth_error (nt_stations n) a) as [i|] eqn:N; [|exact B]. destruct (ST a i N) as (_ & _ & S).
    destruct (deleted_keys (i_keys i) l S) as (S' & I). apply (base_set n a i _ B N); [reflexivity|reflexivity|exact S'|].
    intros k J. exists k. split; [apply (at_some n a); exists i; split; [exact N|apply I, J]|auto].
  - destruct (nth_error (nt_stations n) a) as [i|] eqn:N; [|exact B]. destruct (ST a i N) as (G & _ & S).
    destruct (encipher U i (set_mcipher m []) t) as [[[i' m'] r] t'] eqn:E.
    destruct r as [[]|e| |].
    + destruct (sent_ok n a i m t i' m' t' B N E) as (A1 & A2 & A3 & A4 & A5 & A6).
      assert (B' : base (set_station n a i')).
      { apply (base_set n a i i' B N); [rewrite A1; reflexivity|rewrite A1; reflexivity|exact (same_but_used_store gs _ _ A2 S)|].
        exact (same_but_used_derived n a i _ N A2). }
      apply base_air; [exact B'|].
      destruct A6 as (K & j & js & k & C1 & C2 & C3 & C4 & C5 & C6 & C7 & C8).
      exists K, j, js, k. split; [exact C1|]. split; [exact C2|]. split; [exact C3|]. split; [exact C4|]. split; [exact C5|]. split; [exact C6|]. split; [exact C7|].
      intros k1 k2 K1 K2 Q. destruct (key_set n a i i' k1 N K1) as [J|J]; [|apply C8; assumption].
      destruct (same_but_used_derived n a i _ N A2 k1 J) as (x & X1 & X2 & X3). rewrite <- X3. apply C8; [exact X1|exact K2|congruence].
    + assert (i' = i) as -> by (apply (Proofs_Encipher.encipher_fail U HU i (set_mcipher m []) t i' m' (Err e) t'); [lia|rewrite G; exact S|exact E|discriminate]).
      apply (base_set n a i i B N); [reflexivity|reflexivity|exact S|]. apply (same_but_used_derived n a i _ N), same_but_used_refl.
    + assert (i' = i) as -> by (apply (Proofs_Encipher.encipher_fail U HU i (set_mcipher m []) t i' m' Panic t'); [lia|rewrite G; exact S|exact E|discriminate]).
      apply (base_set n a i i B N); [reflexivity|reflexivity|exact S|]. apply (same_but_used_derived n a i _ N), same_but_used_refl.
    + assert (i' = i) as -> by (apply (Proofs_Encipher.encipher_fail U HU i (set_mcipher m []) t i' m' Diverge t'); [lia|rewrite G; exact S|exact E|discriminate]).
      apply (base_set n a i i B N); [reflexivity|reflexivity|exact S|]. apply (same_but_used_derived n a i _ N), same_but_used_refl.
  - destruct (nth_error (nt_stations n) b) as [i|] eqn:N; [|exact B]. destruct (nth_error (nt_air n) j) as [e|] eqn:NA; [|exact B].
    destruct (ST b i N) as (G & _ & S). change (set_mplain (set_mcipher (set_mkeyid m (en_keyid e)) (en_cipher e)) []) with (received m e).
    destruct (decipher U i (received m e) t) as [[[i' m'] r] t'] eqn:E.
    destruct r as [[]|er| |].
    + destruct (read_ok n b j i e m t i' m' t' B N NA E) as (A1 & A2). pose proof (read_same _ _ _ A2) as A3.
      change (base (set_station n b i')). apply (base_set n b i i' B N); [rewrite A1; reflexivity|rewrite A1; reflexivity|exact (same_but_used_store gs _ _ A3 S)|].
      exact (same_but_used_derived n b i _ N A3).
    + assert (i' = i) as -> by (apply (dec_fails _ _ _ _ _ _ _ E); discriminate).
      apply (base_set n b i i B N); [reflexivity|reflexivity|exact S|]. apply (same_but_used_derived n b i _ N), same_but_used_refl.
    + assert (i' = i) as -> by (apply (dec_fails _ _ _ _ _ _ _ E); discriminate).
      apply (base_set n b i i B N); [reflexivity|reflexivity|exact S|]. apply (same_but_used_derived n b i _ N), same_but_used_refl.
    + assert (i' = i) as -> by (apply (dec_fails _ _ _ _ _ _ _ E); discriminate).
      apply (base_set n b i i B N); [reflexivity|reflexivity|exact S|]. apply (same_but_used_derived n b i _ N), same_but_used_refl.
Qed.

(** ** Keys are one-time *)
Definition caught (n : net) : Prop :=
  (forall b j, In j (nt_heard n b) -> (j < length (nt_air n))%nat) /\
  (forall b j e k, In j (nt_heard n b) -> nth_error (nt_air n) j = Some e -> key_at n b k -> In (kid k) (en_keys e) -> kused k = true) /\
  (forall j1 j2 e1 e2 id, nth_error (nt_air n) j1 = Some e1 -> nth_error (nt_air n) j2 = Some e2 ->
     In id (en_keys e1) -> In id (en_keys e2) -> j1 = j2).

Lemma caught_start n : net_start gs n -> caught n.
Proof.
  intros (_ & _ & _ & _ & A & H). split; [intros b j I; rewrite H in I; destruct I|]. split; [intros b j e k I; rewrite H in I; destruct I|].
  intros j1 j2 e1 e2 id N. rewrite A in N. destruct j1; discriminate.
Qed.

Lemma caught_set n a i i' : caught n -> nth_error (nt_stations n) a = Some i ->
  (forall k', In k' (i_keys i') -> (exists k, In k (i_keys i) /\ kid k = kid k' /\ (kused k = true -> kused k' = true)) \/ ~ id_known n (kid k')) ->
  caught (set_station n a i').
Proof.
  intros (C1 & C2 & C3) N H. split; [exact C1|]. split; [|exact C3].
  intros b j e k J A K I. change (In j (nt_heard n b)) in J. change (nth_error (nt_air n) j = Some e) in A.
  destruct (at_set n a i i' b k N K) as [(-> & Q)|(_ & Q)]; [|exact (C2 b j e k J A Q I)].
  destruct (H k Q) as [(k0 & Q1 & Q2 & Q3)|Q1].
  - apply Q3, (C2 a j e k0 J A); [exists i; auto|rewrite Q2; exact I].
  - elim Q1. right. exists e. split; [exact (nth_error_In _ _ A)|exact I].
Qed.

Lemma caught_hear n b js : caught n -> (forall j, In j js -> In j (nt_heard n b) \/
    exists e, nth_error (nt_air n) j = Some e /\ forall k, key_at n b k -> In (kid k) (en_keys e) -> kused k = true) ->
  caught (hear n b js).
Proof.
  intros (C1 & C2 & C3) H. split; [|split; [|exact C3]].
  - intros x j I. cbn [hear nt_heard nt_air] in I |- *. destruct (Nat.eqb_spec x b) as [->|NE]; [|exact (C1 x j I)].
    destruct (H j I) as [Q|(e & Q & _)]; [exact (C1 b j Q)|]. apply nth_error_Some. congruence.
  - intros x j e k I A K J. cbn [hear nt_heard nt_air] in I, A. change (key_at n x k) in K. destruct (Nat.eqb_spec x b) as [->|NE]; [|exact (C2 x j e k I A K J)].
    destruct (H j I) as [Q|(e' & Q & Q')]; [exact (C2 b j e k Q A K J)|]. assert (e' = e) as -> by congruence. exact (Q' k K J).
Qed.

Lemma caught_step n o : base n -> caught n -> new_ids U n o -> reads_first n o -> caught (nt_step U n o).
Proof.
  intros B C F R. pose proof B as (Hg & ST & FI & AG & EN).
  destruct o as [a c now ex kp t|a give|f b take ow ask ans|a l|a m t|b j m t]; cbn [nt_step new_ids reads_first] in F, R |- *.
  - destruct (nth_error (nt_stations n) a) as [i|] eqn:N; [|exact C].
    destruct (generate_keys U i c now ex kp t) as [[i' t']| | |] eqn:E; try exact C.
    apply (caught_set n a i i' C N). intros k' I. destruct (F k') as [(i0 & Q1 & Q2)|Q].
    + exists i'. split; [|exact I]. cbn [set_station nt_stations]. rewrite nth_update, Nat.eqb_refl, N. reflexivity.
    + left. exists k'. assert (i0 = i) as -> by congruence. auto.
    + right. exact Q.
  - destruct (nth_error (nt_stations n) a) as [i|] eqn:N; [|exact C]. exact C.
  - destruct (nth_error (nt_files n) f) as [x|] eqn:NF; [|exact C]. destruct (nth_error (nt_stations n) b) as [i|] eqn:N; [|exact C].
    destruct (import_keys U i ow ask take x ans) as [[i' c] e] eqn:E. destruct C as (C1 & C2 & C3). split; [|split; [|exact C3]].
    + intros y j I. cbn [hear nt_heard set_station] in I. destruct (Nat.eqb y b); [destruct I|exact (C1 y j I)].
    + intros y j e0 k I A K J. cbn [hear nt_heard set_station] in I. destruct (Nat.eqb_spec y b) as [->|NE]; [destruct I|].
      change (key_at (set_station n b i') y k) in K. destruct (at_set n b i i' y k N K) as [(Q & _)|(_ & Q)]; [contradiction|]. exact (C2 y j e0 k I A Q J).
  - destruct (nth_error (nt_stations n) a) as [i|] eqn:N; [|exact C]. destruct (ST a i N) as (_ & _ & S).
    destruct (deleted_keys (i_keys i) l S) as (_ & I). apply (caught_set n a i _ C N). intros k' J. left. exists k'. split; [apply I, J|auto].
  - destruct (nth_error (nt_stations n) a) as [i|] eqn:N; [|exact C]. destruct (ST a i N) as (G & _ & S).
    destruct R as (R0 & R).
    destruct (encipher U i (set_mcipher m []) t) as [[[i' m'] r] t'] eqn:E.
    assert (FAIL : r <> Ok tt -> caught (set_station n a i')).
    { intros Q. assert (i' = i) as -> by (apply (Proofs_Encipher.encipher_fail U HU i (set_mcipher m []) t i' m' r t'); [lia|rewrite G; exact S|exact E|exact Q]).
      apply (caught_set n a i i C N). intros k' J. left. exists k'. auto. }
    destruct r as [[]|e| |]; try (apply FAIL; discriminate).
    destruct (sent_ok n a i m t i' m' t' B N E) as (A1 & A2 & A3 & A4 & A5 & A6).
    set (l := mkeyid m' :: newly_used (i_keys i) (i_keys i')) in *. set (e := mkEntry (mplain m) (mkeyid m') (mcipher m') l).
    assert (C' : caught (set_station n a i')).
    { apply (caught_set n a i i' C N). intros k' J. left. apply In_nth_error in J. destruct J as (x & J).
      destruct (same_but_used_nth _ _ x k' (same_but_used_sym _ _ A2) J) as (k & Q1 & Q2). exists k. split; [exact (nth_error_In _ _ Q1)|].
      split; [exact (f_equal kid Q2)|]. intros Q. destruct (A3 x k Q1 Q) as (k2 & Q3 & Q4). congruence. }
    destruct C' as (D1 & D2 & D3). cbn [set_station nt_air nt_heard] in D1, D2, D3. split; [|split].
    + intros b j I. cbn [on_air hear set_station nt_heard nt_air] in I |- *. rewrite app_length. cbn [length].
      destruct (Nat.eqb_spec b a) as [->|NE]; [destruct I as [<-|I]; [lia|]|]; specialize (D1 _ _ I); lia.
    + intros b j e0 k I A K J. cbn [on_air hear set_station nt_heard nt_air] in I, A. change (key_at (set_station n a i') b k) in K.
      assert (OLD : In j (nt_heard n b) -> kused k = true).
      { intros Q. pose proof (D1 b j Q) as L. rewrite nth_error_app1 in A by exact L. exact (D2 b j e0 k Q A K J). }
      destruct (Nat.eqb_spec b a) as [->|NE]; [|exact (OLD I)]. destruct I as [<-|I]; [|exact (OLD I)].
      rewrite nth_error_app2, Nat.sub_diag in A by lia. cbn [nth_error] in A. assert (e0 = e) as -> by congruence.
      destruct K as (x & X1 & X2). cbn [set_station nt_stations] in X1. rewrite nth_update, Nat.eqb_refl, N in X1. cbn [option_map] in X1.
      assert (x = i') as -> by congruence. apply In_nth_error in X2. destruct X2 as (y & X2). exact (A5 R0 y k X2 J).
    + assert (NEW : forall j1 e1 id, nth_error (nt_air n) j1 = Some e1 -> In id (en_keys e1) -> ~ In id l).
      { intros j1 e1 id Q1 Q2 Q3. destruct (A4 id Q3) as (k & K1 & K2 & K3).
        assert (KA : key_at n a k) by (exists i; auto).
        assert (H1 : In j1 (nt_heard n a)) by (apply (R j1 e1 k Q1 KA); rewrite K2; exact Q2).
        pose proof (proj1 (proj2 C) a j1 e1 k H1 Q1 KA ltac:(rewrite K2; exact Q2)). congruence. }
      assert (AT : forall j1 e1, nth_error (nt_air n ++ [e]) j1 = Some e1 -> nth_error (nt_air n) j1 = Some e1 \/ j1 = length (nt_air n) /\ e1 = e).
      { intros j1 e1 Q. destruct (Nat.lt_ge_cases j1 (length (nt_air n))) as [L|L]; [left; rewrite nth_error_app1 in Q by exact L; exact Q|right].
        rewrite nth_error_app2 in Q by exact L. destruct (j1 - length (nt_air n))%nat as [|d] eqn:D; [|destruct d; discriminate]. cbn [nth_error] in Q. split; [lia|congruence]. }
      intros j1 j2 e1 e2 id Q1 Q2 I1 I2. cbn [on_air nt_air] in Q1, Q2.
      destruct (AT j1 e1 Q1) as [P1|(-> & ->)], (AT j2 e2 Q2) as [P2|(-> & ->)]; [exact (D3 _ _ _ _ _ P1 P2 I1 I2)| | |reflexivity].
      * elim (NEW _ _ _ P1 I1 I2).
      * elim (NEW _ _ _ P2 I2 I1).
  - destruct (nth_error (nt_stations n) b) as [i|] eqn:N; [|exact C]. destruct (nth_error (nt_air n) j) as [e|] eqn:NA; [|exact C].
    destruct (ST b i N) as (G & _ & S). change (set_mplain (set_mcipher (set_mkeyid m (en_keyid e)) (en_cipher e)) []) with (received m e).
    destruct (decipher U i (received m e) t) as [[[i' m'] r] t'] eqn:E.
    assert (FAIL : r <> Ok tt -> caught (set_station n b i')).
    { intros Q. assert (i' = i) as -> by exact (dec_fails _ _ _ _ _ _ _ E Q). apply (caught_set n b i i C N). intros k' J. left. exists k'. auto. }
    destruct r as [[]|er| |]; try (apply FAIL; discriminate).
    destruct (read_ok n b j i e m t i' m' t' B N NA E) as (A1 & A2).
    assert (Q : forall k', In k' (i_keys i') -> exists k, In k (i_keys i) /\ kid k = kid k' /\ (kused k = true \/ In (kid k) (en_keys e) -> kused k' = true)).
    { intros k' J. apply In_nth_error in J. destruct J as (x & J). rewrite A2 in J. destruct (nth_error (i_keys i) x) as [k|] eqn:X; [|discriminate].
      cbn [option_map] in J. exists k. split; [exact (nth_error_In _ _ X)|].
      destruct (in_dec (list_eq_dec Z.eq_dec) (kid k) (en_keys e)) as [I|I].
      - assert (k' = set_used k true) as -> by congruence. split; reflexivity.
      - assert (k' = k) as -> by congruence. split; [reflexivity|]. intros [P|P]; [exact P|contradiction]. }
    apply caught_hear.
    + apply (caught_set n b i i' C N). intros k' J. left. destruct (Q k' J) as (k & Q1 & Q2 & Q3). exists k. auto.
    + intros x [<-|I]; [right|left; exact I]. exists e. split; [exact NA|]. intros k (i0 & I0 & I1) I2.
      cbn [set_station nt_stations] in I0. rewrite nth_update, Nat.eqb_refl, N in I0. cbn [option_map] in I0. assert (i0 = i') as -> by congruence.
      destruct (Q k I1) as (k0 & Q1 & Q2 & Q3). apply Q3. right. rewrite Q2. exact I2.
Qed.

(** ** Histories *)
Lemma base_run os : forall n, base n -> all_along U (new_ids U) n os -> base (nt_run U n os).
Proof.
  induction os as [|o os IH]; intros n B H; [exact B|]. cbn [nt_run]. destruct H as (H1 & H2). apply IH; [apply base_step; assumption|exact H2].
Qed.
Lemma caught_run os : forall n, base n -> caught n -> all_along U (new_ids U) n os -> all_along U reads_first n os -> caught (nt_run U n os).
Proof.
  induction os as [|o os IH]; intros n B C H R; [exact C|]. cbn [nt_run]. destruct H as (H1 & H2), R as (R1 & R2).
  apply IH; [apply base_step; assumption|apply caught_step; assumption|exact H2|exact R2].
Qed.
End Net.

Lemma net_one_time U gs n os j1 j2 e1 e2 id : uni_ok U -> net_start gs n ->
  all_along U (new_ids U) n os -> all_along U reads_first n os ->
  nth_error (nt_air (nt_run U n os)) j1 = Some e1 -> nth_error (nt_air (nt_run U n os)) j2 = Some e2 ->
  In id (en_keys e1) -> In id (en_keys e2) -> j1 = j2.
Proof.
  intros HU S F R. destruct (caught_run U HU gs os n (base_start gs n S) (caught_start gs n S) F R) as (_ & _ & C). apply C.
Qed.

Lemma net_read U gs n os e b i m t : uni_ok U -> net_start gs n -> all_along U (new_ids U) n os ->
  In e (nt_air (nt_run U n os)) -> nth_error (nt_stations (nt_run U n os)) b = Some i ->
  mkeyid m = en_keyid e -> mcipher m = en_cipher e -> mid m <> [] -> (length (mplain m) <= length t)%nat ->
  ((forall id, In id (en_keys e) -> In id (map kid (i_keys i))) ->
   exists i' t', decipher U i m t = (i', set_mplain m (map canon (en_text e)), Ok tt, t') /\ i' = set_keys i (i_keys i') /\
    forall x, nth_error (i_keys i') x =
      option_map (fun k => if in_dec (list_eq_dec Z.eq_dec) (kid k) (en_keys e) then set_used k true else k) (nth_error (i_keys i) x)) /\
  ((exists id, In id (en_keys e) /\ ~ In id (map kid (i_keys i))) ->
   exists m' er t', decipher U i m t = (i, m', Err er, t')).
Proof.
  intros HU S F I N MK MC MI MP. pose proof (base_run U HU gs os n (base_start gs n S) F) as B. split.
  - intros H. exact (entry_held U gs _ e b i m t B I N MK MC MI MP H).
  - intros (id & J1 & J2). destruct (decipher U i m t) as [[[i' m'] r] t'] eqn:E.
    destruct (Proofs_Cipher.decipher_total U i m t i' m' r t' MI E) as ([->|(er & ->)] & Q & _).
    + elim J2. exact (entry_lacking U gs _ e b i m t i' m' t' B I N MK MC MI MP E id J1).
    + rewrite (Q ltac:(discriminate)). eauto.
Qed.
