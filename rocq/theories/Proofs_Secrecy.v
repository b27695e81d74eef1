(** Lemmas: what Encipher does does not depend on the letters of the keys, but
    for the ciphertext. *)
From Verif Require Import Base Spec Spec_Secrecy Model_Unicode Model_Diana Model_Codec Model_Crand Model_Functions Model_Types
  Model_Cipher Proofs_Diana Proofs_Codec Proofs_Keys Proofs_Encipher.

Notation R := (Forall2 other_letters).
Lemma ol_fields : forall k k', other_letters k k' -> kid k' = kid k /\ kkeepers k' = kkeepers k /\ kused k' = kused k /\
  kcompromised k' = kcompromised k /\ len (krunes k') = len (krunes k).
Proof. intros k k' (E & _ & L). rewrite E. unfold len. rewrite E in L. rewrite L. auto 6. Qed.

Section U.
Context (U : Uni).

Lemma R_nth : forall ks ks' j, R ks ks' ->
  (nth_error ks j = None /\ nth_error ks' j = None) \/
  exists k k', nth_error ks j = Some k /\ nth_error ks' j = Some k' /\ other_letters k k'.
Proof.
  intros ks ks' j H. revert j. induction H as [|k k' ks ks' K H IH]; intros [|j]; cbn [nth_error].
  - auto.
  - auto.
  - right. exists k, k'. auto.
  - apply IH.
Qed.
Lemma R_set : forall k k' b, other_letters k k' -> other_letters (set_used k b) (set_used k' b).
Proof. intros k k' b (A & B & C). split; [|split; assumption]. rewrite A. reflexivity. Qed.
Lemma R_update : forall ks ks' j k k', R ks ks' -> other_letters k k' -> R (list_update ks j k) (list_update ks' j k').
Proof.
  intros ks ks' j k k' H K. revert j. induction H as [|x x' ks ks' X H IH]; intros [|j]; cbn [list_update]; constructor; auto.
Qed.
Lemma R_mark : forall ks ks' j b, R ks ks' -> R (mark ks j b) (mark ks' j b).
Proof.
  intros ks ks' j b H. unfold mark. destruct (R_nth ks ks' j H) as [(-> & ->)|(k & k' & -> & -> & K)]; [exact H|].
  apply R_update; [exact H|apply R_set; exact K].
Qed.
Lemma R_find : forall gs rs ks ks' i, R ks ks' -> find_key_loop U gs rs ks' i = find_key_loop U gs rs ks i.
Proof.
  intros gs rs ks ks' i H. revert i. induction H as [|k k' ks ks' K H IH]; intros i; [reflexivity|].
  destruct (ol_fields k k' K) as (A & C & D & _). cbn [find_key_loop]. rewrite A, C, D. rewrite !IH. reflexivity.
Qed.
Lemma R_get_loop : forall q ks ks' i, R ks ks' -> get_key_loop q ks' i = get_key_loop q ks i.
Proof.
  intros q ks ks' i H. revert i. induction H as [|k k' ks ks' K H IH]; intros i; [reflexivity|].
  destruct (ol_fields k k' K) as (A & _). cbn [get_key_loop]. rewrite A, IH. reflexivity.
Qed.
Lemma R_get : forall id ks ks', R ks ks' -> get_key U id ks' = get_key U id ks.
Proof. intros. unfold get_key. apply R_get_loop. assumption. Qed.
Lemma R_check : forall id ks ks', R ks ks' -> check_given_key id ks' = check_given_key id ks.
Proof.
  intros id ks ks' H. induction H as [|k k' ks ks' K H IH]; [reflexivity|].
  destruct (ol_fields k k' K) as (A & C & D & E & _).
  cbn [check_given_key]. rewrite A, D, E, IH. reflexivity.
Qed.
Lemma R_enrich : forall gs ks ks' m, R ks ks' ->
  exists k1 k1' m1 r, enrich_with_key U gs ks m = (k1, m1, r) /\ enrich_with_key U gs ks' m = (k1', m1, r) /\ R k1 k1'.
Proof.
  intros gs ks ks' m H. unfold enrich_with_key, find_key. rewrite (R_check (mkeyid m) ks ks' H), (R_find gs _ ks ks' 0 H).
  destruct (len (mplain m) =? 0); [do 4 eexists; auto|]. destruct (0 <? len (mkeyid m)).
  { destruct (negb _); do 4 eexists; auto. }
  destruct (0 <? len (mcipher m)); [destruct (negb _); do 4 eexists; auto|].
  destruct (find_key_loop U gs (mrecipients m) ks 0) as [j|]; [|do 4 eexists; auto].
  destruct (R_nth ks ks' j H) as [(-> & ->)|(k & k' & -> & -> & K)]; [do 4 eexists; auto|].
  destruct (ol_fields k k' K) as (A & _). rewrite A. do 4 eexists. split; [reflexivity|]. split; [reflexivity|]. apply R_mark. exact H.
Qed.

(** States of Encipher that differ so. *)
Definition RE (e e' : enc_state) : Prop := R (es_keys e) (es_keys e') /\
  e' = mkES (es_keys e') (es_st e) (es_chunks e) (es_cur e).
Lemma RE_change : forall gs rs e e', RE e e' ->
  exists x x' r, maybe_change_key U gs rs e = (x, r) /\ maybe_change_key U gs rs e' = (x', r) /\ RE x x'.
Proof.
  intros gs rs [ks st ch cu] [ks' st' ch' cu'] (H & E). cbn [es_keys es_st es_chunks es_cur] in *. injection E as -> -> ->.
  assert (SAME : RE (mkES ks st ch cu) (mkES ks' st ch cu)) by (split; [exact H|reflexivity]).
  unfold maybe_change_key, find_key. cbn [es_keys es_st es_chunks es_cur].
  destruct (R_nth ks ks' (ch_key cu) H) as [(-> & ->)|(k & k' & -> & -> & K)]; [do 3 eexists; auto|].
  destruct (ol_fields k k' K) as (_ & _ & _ & _ & B). rewrite B.
  destruct (len (krunes k) - gs - ControlCharactersNeededToChangeKey <=? cs_charCounter st); [|do 3 eexists; auto].
  rewrite (R_find gs rs ks ks' 0 H). destruct (find_key_loop U gs rs ks 0) as [j|]; [|do 3 eexists; auto].
  destruct (R_nth ks ks' j H) as [(-> & ->)|(nk & nk' & -> & -> & NK)]; [do 3 eexists; auto|].
  destruct (ol_fields nk nk' NK) as (A & _). rewrite A.
  destruct (change_key st (kid nk) (Some (ch_text cu))) as [[st1 o1]|?| |]; try (do 3 eexists; auto; fail).
  do 3 eexists. split; [reflexivity|]. split; [reflexivity|]. split; [apply R_mark; exact H|reflexivity].
Qed.
Lemma RE_loop : forall gs rs text e e', RE e e' ->
  exists x x' r, encode_loop U gs rs text e = (x, r) /\ encode_loop U gs rs text e' = (x', r) /\ RE x x'.
Proof.
  intros gs rs. induction text as [|c text IH]; intros e e' H; cbn [encode_loop]; [do 3 eexists; auto|].
  destruct (RE_change gs rs e e' H) as (x & x' & r & -> & -> & X). destruct r as [[]|?| |]; try (do 3 eexists; auto; fail).
  destruct X as (XK & XE). pose proof XE as XE'. apply (f_equal es_st) in XE'. cbn [es_st] in XE'.
  pose proof (f_equal es_cur XE) as XC. cbn [es_cur] in XC. pose proof (f_equal es_chunks XE) as XH. cbn [es_chunks] in XH.
  rewrite XE', XC, XH. assert (SAME : RE x x') by (split; assumption).
  destruct (encode_character U (es_st x) c (Some (ch_text (es_cur x)))) as [[st1 o1]|?| |]; try (do 3 eexists; auto; fail).
  apply IH. split; [exact XK|reflexivity].
Qed.

(** The chunks are the same; with enough letters they are enciphered. *)
Lemma R_chunks : forall ks ks' cs out, R ks ks' ->
  (forall c, In c cs -> letters (ch_text c) /\
     exists k, nth_error ks (ch_key c) = Some k /\ (length (ch_text c) <= length (krunes k))%nat) ->
  encipher_chunks ks' cs out = (out ++ flat_map (chunk_cipher ks') cs, Ok tt).
Proof.
  intros ks ks' cs out H. revert out. induction cs as [|c cs IH]; intros out F.
  { cbn. rewrite app_nil_r. reflexivity. }
  cbn [encipher_chunks flat_map]. unfold chunk_cipher at 1.
  destruct (F c (or_introl eq_refl)) as (LT & k & N & LE).
  destruct (R_nth ks ks' (ch_key c) H) as [(X & _)|(k0 & k' & X & -> & K)]; [congruence|].
  assert (k0 = k) as -> by congruence. destruct K as (_ & LK & EL).
  replace (len (krunes k') <? len (ch_text c)) with false by (unfold len; lia).
  rewrite encipher_runes_spec by (assumption || lia). rewrite IH, app_assoc by (intros d D; apply F; right; exact D). reflexivity.
Qed.
Lemma R_body : forall gs rs text ks ks' k0 c0, R ks ks' ->
  let b := encipher_body U gs rs text ks k0 c0 in let b' := encipher_body U gs rs text ks' k0 c0 in
  er_res b = Ok tt ->
  (forall c, In c (er_chunks b) -> letters (ch_text c) /\
     exists k, nth_error ks (ch_key c) = Some k /\ (length (ch_text c) <= length (krunes k))%nat) ->
  same_but_used ks (er_keys b) ->
  R (er_keys b) (er_keys b') /\ er_res b' = Ok tt /\
  er_cipher b' = c0 ++ flat_map (chunk_cipher (er_keys b')) (er_chunks b).
Proof.
  intros gs rs text ks ks' k0 c0 H. cbv zeta. unfold encipher_body.
  destruct (RE_loop gs rs text (mkES ks new_state [] (mkChunk [] k0)) (mkES ks' new_state [] (mkChunk [] k0)))
    as (x & x' & r & -> & -> & (XK & XE)); [split; [exact H|reflexivity]|].
  destruct x as [k1 st ch cu], x' as [k1' st' ch' cu']. cbn [es_keys es_st es_chunks es_cur] in *. injection XE as -> -> ->.
  destruct r as [[]|?| |]; try (intros; discriminate).
  destruct (pad_count gs (len (ch_text cu) + total_len ch)) as [n|?| |]; try (intros; discriminate).
  destruct (pad st n (Some (ch_text cu))) as [[st1 o1]|?| |]; try (intros; discriminate). cbv zeta.
  destruct (encipher_chunks k1 (ch ++ [mkChunk (unoutput o1) (ch_key cu)]) c0) as [out r] eqn:EC.
  cbn [er_res er_chunks er_keys]. intros -> F SB.
  rewrite (R_chunks k1 k1' _ c0 XK). { cbn [er_res er_keys er_cipher]. auto. }
  intros c IC. destruct (F c IC) as (LT & k & N & LE). split; [exact LT|].
  destruct (same_but_used_nth _ _ _ _ SB N) as (k' & N' & Q). exists k'. split; [exact N'|].
  apply set_used_fields in Q. destruct Q as (_ & Q & _). rewrite Q. exact LE.
Qed.

Section Ok.
Context (HU : uni_ok U).

Lemma R_store : forall gs ks ks', R ks ks' -> store_ok gs ks -> store_ok gs ks'.
Proof.
  intros gs ks ks' H (N & F). split.
  - replace (map kid ks') with (map kid ks); [exact N|]. clear N F.
    induction H as [|k k' ks ks' K H IH]; [reflexivity|]. cbn [map]. destruct (ol_fields k k' K) as (-> & _). congruence.
  - intros k' I. destruct (In_nth_error _ _ I) as (j & J).
    destruct (R_nth ks ks' j H) as [(_ & X)|(k & k2 & X & Y & K)]; [congruence|]. assert (k2 = k') as -> by congruence.
    destruct (F k (nth_error_In _ _ X)) as (F1 & F2 & F3). destruct (ol_fields k k' K) as (-> & _). destruct K as (_ & K & _). auto.
Qed.

(** Everything about one message whose key is left to Encipher. *)
Definition part_ok (ks : list key) (c : chunk) : Prop := letters (ch_text c) /\
  exists k, nth_error ks (ch_key c) = Some k /\ kused k = false /\ (length (ch_text c) <= length (krunes k))%nat.
Lemma encipher_letters : forall i m t i' m' t', 0 < i_groupsize i -> store_ok (i_groupsize i) (i_keys i) -> mkeyid m = [] ->
  encipher U i m t = (i', m', Ok tt, t') ->
  exists cs, NoDup (map ch_key cs) /\ (forall c, In c cs -> part_ok (i_keys i) c) /\
    mcipher m' = flat_map (chunk_cipher (i_keys i)) cs /\ marked_used (map ch_key cs) (i_keys i) (i_keys i') /\
    forall ks, R (i_keys i) ks -> exists i2 t2,
      encipher U (set_keys i ks) m t = (i2, set_mcipher m' (flat_map (chunk_cipher ks) cs), Ok tt, t2) /\
      R (i_keys i') (i_keys i2) /\ same_but_used (i_keys i2) ks.
Proof.
  intros i m t i' m' t' Hg Hs Hk H. unfold encipher, encipher_full in *. cbn [i_groupsize i_keys set_keys].
  destruct (ensure_id i m t) as [[m1 t1]|e| |] eqn:Eid; try (cbn in H; discriminate).
  assert (EID : forall ks, ensure_id (set_keys i ks) m t = Ok (m1, t1)) by (intros ks; exact Eid).
  apply ensure_id_spec in Eid. destruct Eid as (I1 & I2 & I3 & I4 & I5 & I6 & I7 & I8 & I9).
  pose proof (enrich_spec U (i_groupsize i) (i_keys i) m1 Hg) as ER.
  assert (RE1 := fun ks K => R_enrich (i_groupsize i) (i_keys i) ks m1 K).
  destruct (enrich_with_key U (i_groupsize i) (i_keys i) m1) as [[ks1 m2] r1] eqn:EE.
  destruct r1 as [u|e| |]; try (cbn in H; discriminate).
  destruct ER as (k0 & k & K1 & K2 & K3 & K4 & K5 & K6).
  assert (KN : mkeyid m1 = []) by congruence.
  destruct K6 as [(_ & C1 & EL & FK & KS)|K6].
  2:{ exfalso. destruct (proj2 Hs k (nth_error_In _ _ K1)) as (_ & L & _). destruct K6 as (K6 & _).
      rewrite K6 in KN. rewrite KN in L. unfold len in L. cbn in L. lia. }
  assert (C2 : mcipher m2 = []) by (rewrite K3; exact C1).
  assert (W : forall t, wipe_value (mcipher m2) t = ([], t)).
  { intros t0. rewrite C2. unfold wipe_value, read_runes. cbn. reflexivity. }
  rewrite W in H.
  assert (SB1 : same_but_used (i_keys i) ks1) by (rewrite KS; apply same_but_used_sym, same_but_used_mark).
  assert (Hs1 : store_ok (i_groupsize i) ks1) by (apply (same_but_used_store _ _ _ SB1 Hs)).
  destruct (same_but_used_nth _ _ _ _ SB1 K1) as (k1 & N1 & Q1).
  pose proof (set_used_fields _ _ Q1) as (Qid & _).
  assert (G : get_key U (mkeyid m2) ks1 = Some k0).
  { rewrite K3. cbn [mkeyid set_mkeyid]. rewrite <- Qid. apply (get_key_found U _ _ _ _ Hs1 N1). }
  rewrite G in H.
  assert (N0 : nth_error ks1 k0 <> None) by congruence.
  pose proof (encipher_body_spec U HU (i_groupsize i) (mrecipients m2) (mplain m2) ks1 k0 [] Hg Hs1 N0) as B.
  assert (RB := fun ks K => R_body (i_groupsize i) (mrecipients m2) (mplain m2) ks1 ks k0 [] K).
  cbv zeta in B, H, RB.
  set (b := encipher_body U (i_groupsize i) (mrecipients m2) (mplain m2) ks1 k0 []) in *.
  destruct (er_res b) as [[]|e| |] eqn:Eb; try (destruct (wipe_value (mkeyid m2) t1); cbn in H; discriminate).
  cbn [fst] in H. injection H as <- <- <-. cbn [i_keys set_keys mcipher set_mcipher].
  destruct B as (picked & chunks & last & w & p1 & p2 & st & n & B1 & B2 & B3 & B4 & B5 & B6 & B7 & B8 & B9 & B10 & B11 & B12 & B13).
  assert (MK : map ch_key (er_chunks b) = k0 :: picked) by (rewrite B10, map_app; exact B1).
  assert (NK : nth_error ks1 k0 = Some (set_used k true)) by (rewrite KS, nth_error_mark, Nat.eqb_refl, K1; reflexivity).
  assert (UN : forall x, In x picked -> exists kx, nth_error (i_keys i) x = Some kx /\ kused kx = false).
  { intros x X. destruct (proj2 B2 x X) as (kx & X1 & X2 & _). rewrite KS, nth_error_mark in X1.
    destruct (Nat.eqb k0 x); [|eauto]. destruct (nth_error (i_keys i) x); [|discriminate]. injection X1 as <-. discriminate. }
  assert (NI : ~ In k0 picked).
  { intros X. destruct (proj2 B2 k0 X) as (kx & X1 & X2 & _). rewrite NK in X1. injection X1 as <-. discriminate. }
  assert (SBE : same_but_used ks1 (er_keys b)) by (apply same_but_used_sym, (after_picking_same ks1 picked); exact B3).
  exists (er_chunks b). split; [rewrite MK; constructor; [exact NI|apply B2]|]. split.
  { intros c IC. destruct (B12 c IC) as (X1 & kc & X2 & X3). split; [exact X1|].
    destruct (same_but_used_nth _ _ _ _ (same_but_used_sym _ _ SB1) X2) as (k' & Y1 & Y2).
    exists k'. split; [exact Y1|]. apply set_used_fields in Y2. destruct Y2 as (_ & Y2 & _). rewrite Y2. split; [|exact X3].
    assert (IK : In (ch_key c) (k0 :: picked)) by (rewrite <- MK; apply in_map; exact IC).
    destruct IK as [E|IK]; [rewrite <- E in Y1; congruence|]. destruct (UN _ IK) as (kx & Z1 & Z2). congruence. }
  split.
  { rewrite B11. cbn [app]. apply flat_map_ext_in. intros c _. apply chunk_cipher_same. apply same_but_used_sym. exact SB1. }
  split.
  { rewrite MK. intros x. rewrite B3, KS, nth_error_mark. cbn [existsb]. rewrite (Nat.eqb_sym x k0).
    destruct (Nat.eqb k0 x); [|reflexivity]. cbn [orb]. destruct (nth_error (i_keys i) x); [|reflexivity].
    cbn. destruct (existsb (Nat.eqb x) picked); reflexivity. }
  intros ks K. rewrite EID. destruct (RE1 ks K) as (a & a' & m3 & r & A1 & A0 & A2). injection A1 as <- <- <-.
  pose proof (enrich_spec U (i_groupsize i) ks m1 Hg) as EK. rewrite A0 in EK |- *.
  assert (SK : same_but_used a' ks).
  { destruct EK as (q0 & q & _ & _ & _ & _ & _ & [(_ & _ & _ & _ & ->)|(_ & _ & ->)]); [apply same_but_used_mark|reflexivity]. }
  rewrite W, (R_get (mkeyid m2) ks1 a' A2), G.
  assert (Sa : store_ok (i_groupsize i) a') by exact (R_store _ _ _ A2 Hs1).
  assert (Na : nth_error a' k0 <> None) by (destruct (R_nth ks1 a' k0 A2) as [(X & _)|(x & x' & _ & X & _)]; congruence).
  pose proof (encipher_body_spec U HU (i_groupsize i) (mrecipients m2) (mplain m2) a' k0 [] Hg Sa Na) as B'. cbv zeta in B'.
  destruct (RB a' A2 eq_refl B12 SBE) as (D1 & D2 & D3). rewrite D2 in B' |- *. rewrite D3.
  destruct B' as (picked' & _ & _ & _ & _ & _ & _ & _ & _ & _ & P3 & _). cbn [app fst].
  exists (set_keys (set_keys i ks) (er_keys (encipher_body U (i_groupsize i) (mrecipients m2) (mplain m2) a' k0 []))), t1.
  split; [|cbn [i_keys set_keys]; split;
    [exact D1|transitivity (map (fun k => set_used k false) a'); [exact (after_picking_same _ _ _ P3)|exact SK]]]. f_equal. f_equal. f_equal.
  unfold set_mcipher. cbn [mid mrecipients mfrom mdtg mkeyid mplain mbinary mradiogram]. f_equal.
  apply flat_map_ext_in. intros c _.
  rewrite (chunk_cipher_same _ _ c (after_picking_same _ _ _ P3)). 
  exact (chunk_cipher_same _ _ c SK).
Qed.

(** Everything about messages enciphered one after the other. *)
Lemma marked_nth : forall js ks ks' j k, marked_used js ks ks' -> nth_error ks' j = Some k -> kused k = false ->
  ~ In j js /\ nth_error ks j = Some k.
Proof.
  intros js ks ks' j k H N F. rewrite H in N. destruct (nth_error ks j) as [k1|]; [|discriminate]. cbn [option_map] in N.
  destruct (existsb (Nat.eqb j) js) eqn:E; injection N as <-.
  - cbn in F. discriminate.
  - split; [|reflexivity]. intros I. assert (X : existsb (Nat.eqb j) js = true); [|congruence].
    apply existsb_exists. exists j. split; [exact I|apply Nat.eqb_refl].
Qed.
Lemma nodup_app : forall (A : Type) (l l' : list A), NoDup l -> NoDup l' -> (forall x, In x l -> ~ In x l') -> NoDup (l ++ l').
Proof.
  intros A l l' N N' H. induction N as [|x l X N IH]; [exact N'|]. cbn [app]. constructor.
  - rewrite in_app_iff. intros [I|I]; [contradiction|]. exact (H x (or_introl eq_refl) I).
  - apply IH. intros y Y. apply H. right. exact Y.
Qed.
Lemma sent_spec : forall gs calls ks out, 0 < gs -> store_ok gs ks -> Forall (automatic gs) calls -> sent U ks calls = Some out ->
  exists css, NoDup (map ch_key (concat css)) /\ (forall c, In c (concat css) -> part_ok ks c) /\
    map mcipher out = map (flat_map (chunk_cipher ks)) css /\
    forall ks2, R ks ks2 -> exists out2, sent U ks2 calls = Some out2 /\ Forall2 same_but_cipher out out2 /\
      map mcipher out2 = map (flat_map (chunk_cipher ks2)) css.
Proof.
  intros gs calls. induction calls as [|[[i m] t] calls IH]; intros ks out Hg Hs A H.
  { cbn [sent] in H. injection H as <-. exists []. split; [constructor|]. split; [intros c []|]. split; [reflexivity|].
    intros ks2 _. exists []. repeat split; constructor. }
  apply Forall_cons_iff in A. destruct A as ((G & K) & A). cbn [sent] in H.
  destruct (encipher U (set_keys i ks) m t) as [[[i' m'] r] t'] eqn:E. destruct r as [[]|?| |]; try discriminate.
  destruct (sent U (i_keys i') calls) as [out1|] eqn:S1; [|discriminate]. cbn [option_map] in H. injection H as <-.
  destruct (encipher_letters (set_keys i ks) m t i' m' t') as (cs & N1 & P1 & C1 & M1 & D1); cbn [i_groupsize i_keys set_keys];
    [lia|rewrite G; exact Hs|exact K|exact E|]. cbn [i_keys set_keys] in P1, C1, M1, D1.
  assert (SB : same_but_used ks (i_keys i')) by (apply same_but_used_sym, (after_picking_same ks (map ch_key cs)); exact M1).
  destruct (IH (i_keys i') out1 Hg (same_but_used_store _ _ _ SB Hs) A S1) as (css & N2 & P2 & C2 & D2).
  assert (P3 : forall c, In c (concat css) -> ~ In (ch_key c) (map ch_key cs) /\ part_ok ks c).
  { intros c I. destruct (P2 c I) as (L & k & X & F & LE). destruct (marked_nth _ _ _ _ _ M1 X F) as (Y & Z).
    split; [exact Y|]. split; [exact L|]. exists k. auto. }
  exists (cs :: css). cbn [concat map]. rewrite map_app. split.
  { apply nodup_app; [exact N1|exact N2|]. intros x X1 X2. apply in_map_iff in X2. destruct X2 as (c & <- & I).
    exact (proj1 (P3 c I) X1). }
  split.
  { intros c I. apply in_app_iff in I. destruct I as [I|I]; [apply P1; exact I|apply (proj2 (P3 c I))]. }
  split.
  { f_equal; [exact C1|]. rewrite C2. apply map_ext. intros l. apply flat_map_ext_in. intros c _.
    symmetry. apply chunk_cipher_same. exact SB. }
  intros ks2 K2. destruct (D1 ks2 K2) as (i2 & t2 & E2 & R2 & SB2). cbn [sent].
  replace (set_keys (set_keys i ks) ks2) with (set_keys i ks2) in E2 by reflexivity. rewrite E2.
  destruct (D2 (i_keys i2) R2) as (out2 & -> & F2 & M2). exists (set_mcipher m' (flat_map (chunk_cipher ks2) cs) :: out2).
  split; [reflexivity|]. split; [constructor; [unfold same_but_cipher; reflexivity|exact F2]|].
  cbn [map]. f_equal. rewrite M2. apply map_ext. intros l. apply flat_map_ext_in. intros c _.
  apply chunk_cipher_same. exact SB2.
Qed.
End Ok.
End U.
