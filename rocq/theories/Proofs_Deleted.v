(** Proofs about reading a message after keys were deleted. *)
From Verif Require Import Base Spec Model_Unicode Model_Crand Model_Functions Model_Types Model_Cipher Model_Keys
  Proofs_Keys Proofs_Read Proofs_Cipher Proofs_KeyProps Proofs_Net.
From Verif Require Proofs_EndToEnd.

Section Deleted.
Context (U : Uni).

Lemma read_draws i m t i' m1 t1 : mid m <> [] -> decipher U i m t = (i', m1, Ok tt, t1) ->
  t1 = snd (wipe_value (mplain m) t) /\ i_groupsize i <= len (mcipher m).
Proof.
  intros Hid H. unfold decipher, ensure_id in H.
  replace (len (mid m) =? 0) with false in H by (symmetry; apply not_true_is_false; intros Q; apply len_nil in Q; auto).
  destruct (negb (len (mkeyid m) =? i_groupsize i)); [discriminate|].
  destruct (len (mcipher m) <? i_groupsize i) eqn:E2; [discriminate|].
  destruct (get_key U (mkeyid m) (i_keys i)) as [k0|]; [|discriminate].
  destruct (wipe_value (mplain m) t) as [p0 t2].
  match type of H with context [decipher_loop ?a ?b ?c ?d ?e ?f ?g ?h ?x ?y] =>
    destruct (decipher_loop a b c d e f g h x y) as [[p stack] [[]|er| |]]; try discriminate end.
  split; [cbn [snd]; congruence|lia].
Qed.

Lemma fewer_keys i m t i' m1 t1 : 0 < i_groupsize i -> store_ok (i_groupsize i) (i_keys i) -> letters (mkeyid m) -> mid m <> [] ->
  (length (mplain m) <= length t)%nat -> decipher U i m t = (i', m1, Ok tt, t1) ->
  exists needed, In (mkeyid m) needed /\ incl needed (map kid (i_keys i)) /\
    (forall x, nth_error (i_keys i') x =
      option_map (fun k => if in_dec (list_eq_dec Z.eq_dec) (kid k) needed then set_used k true else k) (nth_error (i_keys i) x)) /\
    forall ks', NoDup (map kid ks') -> incl ks' (i_keys i) ->
      (incl needed (map kid ks') -> exists ks1, decipher U (set_keys i ks') m t = (set_keys i ks1, m1, Ok tt, t1) /\
         forall x, nth_error ks1 x =
           option_map (fun k => if in_dec (list_eq_dec Z.eq_dec) (kid k) needed then set_used k true else k) (nth_error ks' x)) /\
      ((exists id, In id needed /\ ~ In id (map kid ks')) ->
         exists m' e t2, decipher U (set_keys i ks') m t = (set_keys i ks', m', Err e, t2)).
Proof.
  intros Hg Hs Hl Hid Ht H. destruct (read_draws _ _ _ _ _ _ Hid H) as (T & LC).
  destruct (decipher_refines U i m t i' m1 t1 Hg Hs Hl Hid Ht H) as (j & js & k & p & Nj & Kj & M & E1 & _ & MU).
  assert (VA : forall x, In x (j :: js) -> exists kx, nth_error (i_keys i) x = Some kx).
  { clear - M. remember (j :: js) as l. clear Heql. induction M as [? ? ? ? ? A|? ? ? ? ? ? ? ? ? A ? ? B ? M IH]; intros x [<-|I]; eauto; destruct I. }
  set (needed := map (fun x => match nth_error (i_keys i) x with Some kx => kid kx | None => [] end) (j :: js)).
  assert (NE : forall id, In id needed <-> exists x kx, In x (j :: js) /\ nth_error (i_keys i) x = Some kx /\ kid kx = id).
  { intros id. unfold needed. rewrite in_map_iff. split.
    - intros (x & A & B). destruct (VA x B) as (kx & C). rewrite C in A. exists x, kx. auto.
    - intros (x & kx & A & B & C). exists x. rewrite B. auto. }
  exists needed. split; [apply NE; exists j, k; split; [left; reflexivity|auto]|].
  split. { intros id I. apply NE in I. destruct I as (x & kx & _ & B & <-). apply in_map. exact (nth_error_In _ _ B). }
  split. { exact (marked_at (j :: js) _ _ needed (proj1 Hs) MU NE). }
  intros ks' ND IN.
  assert (Hs' : store_ok (i_groupsize i) ks') by (split; [exact ND|intros kk I; exact (proj2 Hs kk (IN kk I))]).
  split.
  - intros IC.
    assert (HO : forall x kx, In x (j :: js) -> nth_error (i_keys i) x = Some kx -> holds ks' kx).
    { intros x kx A B. assert (I : In (kid kx) (map kid ks')) by (apply IC, NE; exists x, kx; auto).
      apply in_map_iff in I. destruct I as (k2 & A2 & B2). assert (k2 = kx) as ->; [|exists kx; auto].
      exact (store_same (i_groupsize i) (i_keys i) k2 kx Hs (IN _ B2) (nth_error_In _ _ B) A2). }
    destruct (holds_nth _ _ (HO j k (or_introl eq_refl) Nj)) as (j' & k' & N1 & N2 & N3).
    destruct (transfer (i_groupsize i) (i_keys i) ks' _ _ _ M HO j j' eq_refl ltac:(exists k, k'; auto) ND) as (js' & M' & F).
    destruct (decipher_complete U (set_keys i ks') m t j' js' k' p) as (i2 & t2 & D & S & MU2); try assumption; try congruence.
    destruct (read_draws _ _ _ _ _ _ Hid D) as (T2 & _).
    exists (i_keys i2). split.
    + rewrite D, T2, E1, <- T. rewrite S. reflexivity.
    + apply (marked_at (j' :: js')); [exact ND|exact MU2|]. intros id. rewrite NE. clear - F. split.
      * intros (x & kx & A & B & C). revert A. induction F as [|a b la lb TW F IH]; intros A; [destruct A|]. destruct A as [->|A].
        -- destruct TW as (k1 & k2 & T1 & T2 & T3). exists b, k2. split; [left; reflexivity|]. split; [exact T2|congruence].
        -- destruct (IH A) as (y & ky & Y1 & Y2). exists y, ky. split; [right; exact Y1|exact Y2].
      * intros (x & kx & A & B & C). revert A. induction F as [|a b la lb TW F IH]; intros A; [destruct A|]. destruct A as [->|A].
        -- destruct TW as (k1 & k2 & T1 & T2 & T3). exists a, k1. split; [left; reflexivity|]. split; [exact T1|congruence].
        -- destruct (IH A) as (y & ky & Y1 & Y2). exists y, ky. split; [right; exact Y1|exact Y2].
  - intros (id & I1 & I2). destruct (decipher U (set_keys i ks') m t) as [[[i2 m2] r] t2] eqn:D.
    destruct (decipher_total U _ _ _ _ _ _ _ Hid D) as ([->|(e & ->)] & Q & _).
    + elim I2. destruct (decipher_refines U (set_keys i ks') m t i2 m2 t2 Hg Hs' Hl Hid Ht D) as (j' & js' & k' & p' & Nj' & Kj' & M' & _).
      cbn [set_keys i_keys i_groupsize] in Nj', M'.
      assert (k' = k) as ->.
      { apply (store_same (i_groupsize i) (i_keys i) k' k Hs (IN _ (nth_error_In _ _ Nj')) (nth_error_In _ _ Nj)). congruence. }
      destruct (transfer (i_groupsize i) ks' (i_keys i) _ _ _ M') with (j := j') (j' := j) as (js2 & M2 & F).
      * intros x kx _ X. exists kx. split; [exact (IN _ (nth_error_In _ _ X))|auto].
      * reflexivity.
      * exists k, k. auto.
      * exact (proj1 Hs).
      * destruct (message_unique U (i_groupsize i) (i_keys i) j js2 js _ _ _ Hg Hs M2 M) as (-> & _).
        apply NE in I1. destruct I1 as (x & kx & A & B & C). clear - F A B C. revert A.
        induction F as [|a b la lb TW F IH]; intros A; [destruct A|]. destruct A as [->|A]; [|auto].
        destruct TW as (k1 & k2 & T1 & T2 & T3). assert (k2 = kx) as -> by congruence. rewrite <- C, T3. apply in_map. exact (nth_error_In _ _ T1).
    + rewrite (Q ltac:(discriminate)). eauto.
Qed.

Lemma deleted_keys i m t i' m1 t1 : 0 < i_groupsize i -> store_ok (i_groupsize i) (i_keys i) -> letters (mkeyid m) -> mid m <> [] ->
  (length (mplain m) <= length t)%nat -> decipher U i m t = (i', m1, Ok tt, t1) ->
  exists needed, In (mkeyid m) needed /\ incl needed (map kid (i_keys i)) /\
    (forall x, nth_error (i_keys i') x =
      option_map (fun k => if in_dec (list_eq_dec Z.eq_dec) (kid k) needed then set_used k true else k) (nth_error (i_keys i) x)) /\
    forall ids ks' n, delete_key U (i_keys i) ids = (ks', n) ->
      ((forall a b, In a needed -> In b ids -> ~ same_text (to_upper U) a b) ->
         exists ks1, decipher U (set_keys i ks') m t = (set_keys i ks1, m1, Ok tt, t1) /\
         forall x, nth_error ks1 x =
           option_map (fun k => if in_dec (list_eq_dec Z.eq_dec) (kid k) needed then set_used k true else k) (nth_error ks' x)) /\
      ((exists a b, In a needed /\ In b ids /\ same_text (to_upper U) a b) ->
         exists m' e t2, decipher U (set_keys i ks') m t = (set_keys i ks', m', Err e, t2)).
Proof.
  intros Hg Hs Hl Hid Ht H. destruct (fewer_keys i m t i' m1 t1 Hg Hs Hl Hid Ht H) as (needed & A & B & C & D).
  exists needed. split; [exact A|]. split; [exact B|]. split; [exact C|]. intros ids ks' n DK.
  destruct (c21_exact_lemma U (i_keys i) ids ks' n (Proofs_EndToEnd.store_distinct U _ _ Hs) DK) as (DI & _ & IFF).
  assert (ND : NoDup (map kid ks')).
  { unfold distinct_ids, distinct_texts in DI. exact (NoDup_map_inv _ _ DI). }
  destruct (D ks' ND) as (P & Q). { intros k I. apply IFF in I. apply I. }
  split.
  - intros F. apply P. intros id I. pose proof (B id I) as J. apply in_map_iff in J. destruct J as (k & <- & J).
    apply in_map. apply IFF. split; [exact J|]. intros b Ib. exact (F _ b I Ib).
  - intros (a & b & Ia & Ib & S). apply Q. exists a. split; [exact Ia|]. intros J. apply in_map_iff in J. destruct J as (k & <- & J).
    apply IFF in J. destruct J as (_ & J). exact (J b Ib S).
Qed.
End Deleted.
