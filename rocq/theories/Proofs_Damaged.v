(** Proofs for C142: Encipher with keys that are not letters only. *)
From Verif Require Import Base Spec Spec_Damaged Model_Unicode Model_Diana Model_Codec Model_Crand
  Model_Functions Model_Types Model_Cipher Proofs_Diana Proofs_Codec Proofs_Keys Proofs_Encipher.

(** The same key with other, proper letters: nothing but enciphering sees the
    difference. *)
Definition mend (k : key) : key :=
  mkKey (kid k) (repeat 65 (length (krunes k))) (kkeepers k) (kcreated k) (kexpires k) (kused k) (kcompromised k) (kcomment k).

Section S.
Context (U : Uni) (HU : uni_ok U).

Lemma mend_store gs ks : ids_ok gs ks -> store_ok gs (map mend ks).
Proof.
  intros (ND & F). split.
  - rewrite map_map. exact ND.
  - intros k I. apply in_map_iff in I. destruct I as (k1 & <- & I). destruct (F k1 I) as (L & N). split; [exact L|]. split; [exact N|].
    cbn [mend krunes]. clear. unfold letters. induction (length (krunes k1)); cbn [repeat]; constructor; [unfold is_letter; lia|assumption].
Qed.
Lemma mend_get q ks i : get_key_loop q (map mend ks) i = get_key_loop q ks i.
Proof. revert i. induction ks as [|k ks IH]; intros i; [reflexivity|]. cbn [map get_key_loop]. rewrite IH. reflexivity. Qed.
Lemma mend_mark ks j b : mark (map mend ks) j b = map mend (mark ks j b).
Proof.
  apply nth_error_ext. intros n. rewrite nth_error_mark, !nth_error_map, nth_error_mark.
  destruct (nth_error ks n); destruct (Nat.eqb j n); reflexivity.
Qed.
Lemma mend_mark_id q b ks : mark_key_used U q b (map mend ks) = (map mend (fst (mark_key_used U q b ks)), snd (mark_key_used U q b ks)).
Proof. unfold mark_key_used. rewrite mend_get. destruct (get_key_loop _ ks 0); [|reflexivity]. cbn [fst snd]. rewrite mend_mark. reflexivity. Qed.
Lemma mend_release q cur chunks ks : release_keys U q cur chunks (map mend ks) = map mend (release_keys U q cur chunks ks).
Proof.
  unfold release_keys. rewrite mend_mark_id. cbn [fst]. rewrite mend_mark.
  generalize (mark (fst (mark_key_used U q false ks)) (ch_key cur) false). clear.
  induction chunks as [|c chunks IH]; intros ks; [reflexivity|]. cbn [fold_left]. rewrite mend_mark. apply IH.
Qed.
Lemma mend_found gs ks j k : ids_ok gs ks -> nth_error ks j = Some k -> get_key U (kid k) ks = Some j.
Proof.
  intros H N. pose proof (get_key_found U gs (map mend ks) j (mend k) (mend_store gs ks H)) as G.
  rewrite nth_error_map, N in G. specialize (G eq_refl). unfold get_key in *. rewrite mend_get in G. exact G.
Qed.
Lemma release_same q cur chunks ks : same_but_used (release_keys U q cur chunks ks) ks.
Proof.
  unfold release_keys.
  assert (A : same_but_used (mark (fst (mark_key_used U q false ks)) (ch_key cur) false) ks).
  { apply (same_but_used_trans _ (fst (mark_key_used U q false ks))); [apply same_but_used_mark|].
    unfold mark_key_used. destruct (get_key_loop _ ks 0); [apply same_but_used_mark|apply same_but_used_refl]. }
  revert A. generalize (mark (fst (mark_key_used U q false ks)) (ch_key cur) false). clear.
  induction chunks as [|c chunks IH]; intros a A; [exact A|]. cbn [fold_left]. apply IH.
  apply (same_but_used_trans _ a); [apply same_but_used_mark|exact A].
Qed.
Lemma mend_eq a b : same_but_used a b -> map mend a = map mend b -> a = b.
Proof.
  revert b. induction a as [|x a IH]; intros [|y b] SB M; try discriminate; [reflexivity|].
  unfold same_but_used in SB. cbn [map] in *.
  assert (SB1 : set_used x false = set_used y false) by congruence.
  assert (SB2 : map (fun k => set_used k false) a = map (fun k => set_used k false) b) by congruence.
  assert (M1 : mend x = mend y) by congruence. assert (M2 : map mend a = map mend b) by congruence.
  f_equal; [|apply IH; assumption]. apply set_used_eq; [exact SB1|exact (f_equal kused M1)].
Qed.

Lemma mend_eligible gs rs k : eligible gs rs (mend k) <-> eligible gs rs k.
Proof. unfold eligible, for_recipients. reflexivity. Qed.
Lemma mend_pick gs rs ks picked : pick_ok gs rs ks picked -> pick_ok gs rs (map mend ks) picked.
Proof.
  intros (A & B). split; [exact A|]. intros j I. destruct (B j I) as (k & N & E). exists (mend k).
  rewrite nth_error_map, N. split; [reflexivity|]. apply mend_eligible. exact E.
Qed.
Lemma mend_picking ks picked ks' : after_picking ks picked ks' -> after_picking (map mend ks) picked (map mend ks').
Proof.
  intros A j. rewrite !nth_error_map, (A j). destruct (nth_error ks j); [|reflexivity]. cbn [option_map].
  destruct (existsb (Nat.eqb j) picked); reflexivity.
Qed.
Lemma restores gs recips ks ks1 k0 k picked ks2 cur chunks :
  ids_ok gs ks -> nth_error ks k0 = Some k -> kused k = false ->
  ks1 = mark ks k0 true \/ ks1 = ks ->
  pick_ok gs recips ks1 picked -> after_picking ks1 picked ks2 ->
  (forall j, In j (k0 :: picked) <-> j = ch_key cur \/ In j (map ch_key chunks)) ->
  release_keys U (kid k) cur chunks ks2 = ks.
Proof.
  intros Hs N Un K P A J. apply mend_eq.
  - apply (same_but_used_trans _ ks2); [apply release_same|]. apply (same_but_used_trans _ ks1); [apply (after_picking_same _ _ _ A)|].
    destruct K as [->| ->]; [apply same_but_used_mark|apply same_but_used_refl].
  - rewrite <- mend_release.
    apply (release_restores U gs recips (map mend ks) (map mend ks1) k0 (mend k) picked (map mend ks2) cur chunks).
    + apply mend_store. exact Hs.
    + rewrite nth_error_map, N. reflexivity.
    + exact Un.
    + destruct K as [->| ->]; [left; symmetry; apply mend_mark|right; reflexivity].
    + apply mend_pick. exact P.
    + apply mend_picking. exact A.
    + exact J.
Qed.

(** Enciphering with any key. *)
Lemma runes_any : forall text kr out, (length text <= length kr)%nat ->
  match encipher_runes kr text out with
  | (out', Ok _) => exists p, out' = out ++ p /\ length p = length text /\ letters p /\ letters (firstn (length p) kr)
  | (_, Err _) => True
  | _ => False
  end.
Proof.
  induction text as [|c text IH]; intros kr out L.
  - destruct kr; cbn [encipher_runes]; (exists []; rewrite app_nil_r; repeat split; try constructor).
  - destruct kr as [|k kr]; [cbn in L; lia|]. cbn [encipher_runes]. destruct (trigraph k c) as [r|e| |] eqn:T.
    + apply trigraph_ok_inv in T. destruct T as (T1 & T2 & ->).
      specialize (IH kr (out ++ [diana_letter k c]) ltac:(cbn in L; lia)).
      destruct (encipher_runes kr text (out ++ [diana_letter k c])) as [out' r]. destruct r as [u|e| |]; try exact IH.
      destruct IH as (p & -> & P1 & P2 & P3). exists (diana_letter k c :: p). rewrite <- app_assoc. split; [reflexivity|].
      split; [cbn [length]; congruence|]. split; [constructor; [apply diana_letter_letter; assumption|exact P2]|].
      cbn [length firstn]. constructor; assumption.
    + exact I.
    + unfold trigraph in T. destruct (trigraph_rune (Some 0) (Some k) (Some c)) as [[x|] [e|]] eqn:Q; try discriminate.
      unfold trigraph_rune in Q. destruct (_ || _); discriminate.
    + unfold trigraph in T. destruct (trigraph_rune (Some 0) (Some k) (Some c)) as [[x|] [e|]]; discriminate.
Qed.

Lemma chunks_any : forall ks chunks out, (forall c, In c chunks -> nth_error ks (ch_key c) <> None) ->
  match encipher_chunks ks chunks out with
  | (out', Ok _) => exists ps, out' = out ++ concat ps /\
      Forall2 (fun c p => length p = length (ch_text c) /\ made_with ks (ch_key c) p) chunks ps
  | (_, Err _) => True
  | _ => False
  end.
Proof.
  intros ks chunks. induction chunks as [|c chunks IH]; intros out H.
  - cbn [encipher_chunks]. exists []. cbn [concat]. rewrite app_nil_r. split; [reflexivity|constructor].
  - cbn [encipher_chunks]. pose proof (H c (or_introl eq_refl)) as Hc. destruct (nth_error ks (ch_key c)) as [k|] eqn:N; [|congruence].
    destruct (len (krunes k) <? len (ch_text c)) eqn:L; [exact I|]. unfold len in L.
    pose proof (runes_any (ch_text c) (krunes k) out ltac:(lia)) as R.
    destruct (encipher_runes (krunes k) (ch_text c) out) as [out1 r]. destruct r as [u|e| |]; try exact R.
    destruct R as (p & -> & P1 & P2 & P3). specialize (IH (out ++ p) (fun c0 I0 => H c0 (or_intror I0))).
    destruct (encipher_chunks ks chunks (out ++ p)) as [out' r]. destruct r as [u'|e| |]; try exact IH.
    destruct IH as (ps & -> & F). exists (p :: ps). cbn [concat]. rewrite app_assoc. split; [reflexivity|].
    constructor; [|exact F]. split; [exact P1|]. exists k. split; [exact N|]. split; [exact P2|]. split; [lia|exact P3].
Qed.

Lemma body_any : forall gs recips text ks k0 c0, 0 < gs -> nth_error ks k0 <> None -> text <> [] ->
  let b := encipher_body U gs recips text ks k0 c0 in
  match er_res b with
  | Ok _ => exists j p ps, er_cipher b = c0 ++ concat (map snd ((j, p) :: ps)) /\ j = k0 /\ p <> [] /\
      Forall (fun x => made_with ks (fst x) (snd x)) ((j, p) :: ps) /\ exists picked, after_picking ks picked (er_keys b)
  | r => (exists picked, pick_ok gs recips ks picked /\ after_picking ks picked (er_keys b) /\
           (forall j, In j (k0 :: picked) <-> j = ch_key (er_cur b) \/ In j (map ch_key (er_chunks b)))) /\
         ((exists e, r = Err e) \/ r = Panic /\ exists c, In c text /\ ~ accepted c)
  end.
Proof.
  intros gs recips text ks k0 c0 Hg Hk0 NE. unfold encipher_body.
  pose proof (encode_loop_inv U HU gs recips ks k0 text _ _ (inv_init U gs recips ks k0)) as L.
  destruct (encode_loop U gs recips text (mkES ks new_state [] (mkChunk [] k0))) as [e r].
  assert (FK : forall p, inv U gs recips ks k0 e p -> exists picked, pick_ok gs recips ks picked /\
     after_picking ks picked (es_keys e) /\ (forall j, In j (k0 :: picked) <->
                   j = ch_key (es_cur e) \/ In j (map ch_key (es_chunks e)))).
  { intros p I. destruct (inv_picked _ _ _ _ _ e p I) as (picked & P1 & P2 & P3).
    exists picked. split; [exact P2|]. split; [exact P3|]. intros j. rewrite <- P1, in_app_iff.
    cbn. split; [intros [H|[H|[]]]; auto|intros [H|H]; auto]. }
  destruct r as [u|er| |].
  - destruct L as (I & A). cbn [app] in I.
    assert (T0 : 0 <= len (ch_text (es_cur e)) + total_len (es_chunks e)).
    { pose proof (total_len_nonneg (es_chunks e)). unfold len. lia. }
    destruct (pad_count_spec gs _ Hg T0) as (n & N1 & N2 & N3). rewrite N1.
    unfold pad. cbn [out_nil out_app unoutput]. unfold nextTableChar.
    destruct (inv_picked _ _ _ _ _ e _ I) as (picked & P1 & P2 & P3).
    destruct (inv_text _ _ _ _ _ e _ I) as (p1 & p2 & E1 & Ch & D).
    set (cur := mkChunk (ch_text (es_cur e) ++ repeat 90 (Z.to_nat n)) (ch_key (es_cur e))).
    destruct (chain_keys U ks k0 _ _ _ Ch Hk0) as (CK1 & CK2).
    assert (Sw : forall j, nth_error ks j <> None -> nth_error (es_keys e) j <> None).
    { intros j Hj. rewrite (P3 j). destruct (nth_error ks j); [discriminate|congruence]. }
    assert (Hall : forall c, In c (es_chunks e ++ [cur]) -> nth_error (es_keys e) (ch_key c) <> None).
    { intros c Hc. apply Sw. apply in_app_iff in Hc. destruct Hc as [Hc|[<-|[]]]; [auto|exact CK1]. }
    pose proof (chunks_any (es_keys e) (es_chunks e ++ [cur]) c0 Hall) as ES.
    destruct (encipher_chunks (es_keys e) (es_chunks e ++ [cur]) c0) as [out r].
    cbn [er_res er_keys er_chunks er_cur er_cipher]. destruct r as [u'|er| |].
    + destruct ES as (ps & -> & F).
      assert (MW : forall j p, made_with (es_keys e) j p -> made_with ks j p).
      { intros j p (k & K1 & K2 & K3 & K4). rewrite (P3 j) in K1. destruct (nth_error ks j) as [k1|] eqn:E; [|discriminate].
        cbn [option_map] in K1. assert (krunes k = krunes k1) as Q.
        { destruct (existsb (Nat.eqb j) picked); assert (Q : Some (krunes k) = Some (krunes k1)) by
            (apply (f_equal (option_map krunes)) in K1; cbn [option_map] in K1; rewrite <- K1; reflexivity); congruence. }
        rewrite Q in *. exists k1. repeat split; assumption. }
      assert (FST : exists c rest, es_chunks e ++ [cur] = c :: rest /\ ch_key c = k0 /\ ch_text c <> []).
      { destruct (es_chunks e) as [|c l] eqn:EC.
        - exists cur, []. split; [reflexivity|]. cbn [map app] in P1. split; [cbn [cur ch_key]; congruence|].
          assert (p1 = []) as -> by (inversion Ch; [reflexivity|subst; match goal with H : _ ++ [_] = [] |- _ => destruct (app_eq_nil _ _ H); discriminate end]).
          cbn [app] in E1. assert (ch_text (es_cur e) <> []).
          { apply (decodes_to_nonempty U _ _ _ D). rewrite <- E1. destruct text; [congruence|discriminate]. }
          cbn [cur ch_text]. destruct (ch_text (es_cur e)); [congruence|discriminate].
        - exists c, (l ++ [cur]). split; [reflexivity|]. cbn [map app] in P1. split; [congruence|].
          assert (TX : forall l k p, chain U ks k0 l k p -> forall c, In c l -> ch_text c <> []).
          { clear. intros l k p Ch. induction Ch as [|chunks k p w p1 st k' kk Hch IH Hd Hst Hw Hn]; intros c I; [destruct I|].
            apply in_app_iff in I. destruct I as [I|[<-|[]]]; [apply IH; exact I|]. cbn [ch_text].
            intros E. apply app_eq_nil in E. destruct E as (_ & E). apply app_eq_nil in E. destruct E as (_ & E). discriminate. }
          apply (TX _ _ _ Ch c). left. reflexivity. }
      destruct FST as (c & rest & E & EK & ET). rewrite E in F. inversion F as [|? p ? ps' (LP & MP) F']; subst.
      exists (ch_key c), p, (combine (map ch_key rest) ps').
      assert (CB : map snd (combine (map ch_key rest) ps') = ps' /\
        Forall (fun x => made_with ks (fst x) (snd x)) (combine (map ch_key rest) ps')).
      { clear - F' MW. induction F' as [|c p rest ps (_ & M) F IH]; [split; constructor|]. destruct IH as (I1 & I2).
        cbn [map combine snd]. split; [f_equal; exact I1|]. constructor; [apply MW; exact M|exact I2]. }
      destruct CB as (CB1 & CB2). cbn [map snd]. rewrite CB1. split; [reflexivity|]. split; [reflexivity|].
      split; [intros ->; destruct (ch_text c); [congruence|discriminate]|]. split; [constructor; [apply MW; exact MP|exact CB2]|].
      exists picked. exact P3.
    + split; [|left; eexists; reflexivity]. exists picked. split; [exact P2|]. split; [exact P3|]. intros j. rewrite <- P1.
      rewrite map_app. cbn [map cur ch_key]. rewrite in_app_iff. cbn.
      split; [intros [H|[H|[]]]; auto|intros [H|[H|[H|[]]]]; auto].
    + contradiction.
    + contradiction.
  - destruct L as (-> & p & I & _). cbn [er_res er_keys er_chunks er_cur]. split; [apply (FK p I)|left; eexists; reflexivity].
  - destruct L as ((p & I) & [N|C]); [contradiction|].
    cbn [er_res er_keys er_chunks er_cur]. split; [apply (FK p I)|]. right. auto.
  - contradiction.
Qed.

Lemma whole_any : forall i m t i' m' r t', 0 < i_groupsize i -> ids_ok (i_groupsize i) (i_keys i) -> mid m <> [] ->
  encipher U i m t = (i', m', r, t') ->
  match r with
  | Ok _ => exists k0 k p ps c0, nth_error (i_keys i) k0 = Some k /\ mkeyid m' = kid k /\ p <> [] /\
      (mkeyid m = [] -> find_key U (i_groupsize i) (mrecipients m) (i_keys i) = Some k0) /\
      mcipher m' = c0 ++ concat (map snd ((k0, p) :: ps)) /\ (mcipher m = [] \/ (length (mcipher m) <= length t)%nat -> c0 = []) /\
      Forall (fun x => made_with (i_keys i) (fst x) (snd x)) ((k0, p) :: ps)
  | _ => i' = i /\ ((exists e, r = Err e) \/ r = Panic /\ exists c, In c (mplain m) /\ ~ accepted c)
  end.
Proof.
  intros i m t i' m' r t' Hg Hs Hm H. unfold encipher, encipher_full in H.
  assert (Eid : ensure_id i m t = Ok (m, t)).
  { unfold ensure_id. replace (len (mid m) =? 0) with false; [reflexivity|]. destruct (mid m); [congruence|]. unfold len. cbn [length]. lia. }
  rewrite Eid in H. pose proof (enrich_spec U (i_groupsize i) (i_keys i) m Hg) as ER.
  destruct (enrich_with_key U (i_groupsize i) (i_keys i) m) as [[ks1 m2] r1].
  destruct r1 as [u|e| |]; [| |contradiction|contradiction].
  2: { destruct ER as (-> & ->). cbn [fst] in H. assert (r = Err e /\ i' = set_keys i (i_keys i)) as (-> & ->) by (split; congruence).
       split; [apply set_keys_same|left; eexists; reflexivity]. }
  destruct ER as (k0 & k & K1 & K2 & K3 & K4 & K5 & K6).
  destruct (wipe_value (mcipher m2) t) as [c0 t2] eqn:W.
  assert (H1 : ks1 = mark (i_keys i) k0 true \/ ks1 = i_keys i) by tauto.
  assert (SB1 : same_but_used (i_keys i) ks1).
  { destruct H1 as [->| ->]; [apply same_but_used_sym, same_but_used_mark|apply same_but_used_refl]. }
  destruct (same_but_used_nth _ _ _ _ SB1 K1) as (k1 & N1 & Q1).
  pose proof (set_used_fields _ _ Q1) as (Qid & _).
  assert (Hs1 : ids_ok (i_groupsize i) ks1).
  { destruct H1 as [->| ->]; [|exact Hs]. destruct Hs as (S1 & S2). split.
    - replace (map kid (mark (i_keys i) k0 true)) with (map kid (i_keys i)); [exact S1|].
      apply nth_error_ext. intros j. rewrite !nth_error_map, nth_error_mark. destruct (nth_error (i_keys i) j), (Nat.eqb k0 j); reflexivity.
    - intros x I. apply In_nth_error in I. destruct I as (j & N). rewrite nth_error_mark in N. destruct (nth_error (i_keys i) j) as [y|] eqn:Y.
      + apply nth_error_In in Y. destruct (Nat.eqb k0 j); cbn [option_map] in N; assert (kid x = kid y) as -> by
          (apply (f_equal (option_map kid)) in N; cbn [option_map] in N; cbn [set_used kid] in N; congruence); apply S2; exact Y.
      + destruct (Nat.eqb k0 j); discriminate. }
  assert (G : get_key U (mkeyid m2) ks1 = Some k0).
  { rewrite K3. cbn [mkeyid set_mkeyid]. rewrite <- Qid. apply (mend_found _ _ _ _ Hs1 N1). }
  rewrite G in H.
  assert (N0 : nth_error ks1 k0 <> None) by congruence.
  assert (NE : mplain m2 <> []) by (rewrite K3; exact K4).
  pose proof (body_any (i_groupsize i) (mrecipients m2) (mplain m2) ks1 k0 c0 Hg N0 NE) as B.
  cbv zeta in B, H.
  set (b := encipher_body U (i_groupsize i) (mrecipients m2) (mplain m2) ks1 k0 c0) in *.
  assert (MW : forall j p, made_with ks1 j p -> made_with (i_keys i) j p).
  { intros j p (x & X1 & X2 & X3 & X4). destruct (same_but_used_nth _ _ _ _ (same_but_used_sym _ _ SB1) X1) as (y & Y1 & Y2).
    apply set_used_fields in Y2. destruct Y2 as (_ & Y2 & _). exists y. split; [exact Y1|]. rewrite Y2 in *. repeat split; assumption. }
  assert (RR : er_res b <> Ok tt -> release_keys U (mkeyid m2) (er_cur b) (er_chunks b) (er_keys b) = i_keys i).
  { intros Nok. rewrite K3. cbn [mkeyid set_mkeyid].
    destruct (er_res b) as [[]|e| |]; [congruence| | |];
    destruct B as ((picked & B1 & B2 & B3) & _);
    apply (restores (i_groupsize i) (mrecipients m2) (i_keys i) ks1 k0 k picked); auto. }
  assert (PL : mplain m2 = mplain m) by (rewrite K3; reflexivity).
  destruct (er_res b) as [[]|e| |] eqn:Eb.
  - cbn [fst] in H. assert (r = Ok tt) as -> by congruence.
    assert (EM : m' = set_mcipher m2 (er_cipher b)) by congruence. clear H.
    destruct B as (j & p & ps & B1 & -> & B2 & B3 & _). exists k0, k, p, ps, c0. split; [exact K1|].
    split; [rewrite EM, K3; reflexivity|]. split; [exact B2|]. split.
    { intros E0. destruct K6 as [(_ & _ & _ & F & _)|(E & _)]; [exact F|]. rewrite E0 in E. rewrite <- E in K5. cbn in K5. lia. }
    split; [rewrite EM; exact B1|]. split.
    { intros C. pose proof (wipe_value_nil (mcipher m2) t) as WN. rewrite W in WN. apply WN. rewrite K3. exact C. }
    eapply Forall_impl; [|exact B3]. intros x X. apply MW. exact X.
  - destruct (wipe_value (mkeyid m2) t2) as [kid' t3]. cbn [fst] in H. rewrite RR in H by discriminate. rewrite set_keys_same in H.
    assert (r = Err e /\ i' = i) as (-> & ->) by (split; congruence). split; [reflexivity|]. rewrite <- PL. apply B.
  - destruct (wipe_value (mkeyid m2) t2) as [kid' t3]. cbn [fst] in H. rewrite RR in H by discriminate. rewrite set_keys_same in H.
    assert (r = Panic /\ i' = i) as (-> & ->) by (split; congruence). split; [reflexivity|]. rewrite <- PL. apply B.
  - destruct (wipe_value (mkeyid m2) t2) as [kid' t3]. cbn [fst] in H. rewrite RR in H by discriminate. rewrite set_keys_same in H.
    assert (r = Diverge /\ i' = i) as (-> & ->) by (split; congruence). split; [reflexivity|]. rewrite <- PL. apply B.
Qed.

Lemma outcome_lemma : forall i m t i' m' r t', 0 < i_groupsize i -> ids_ok (i_groupsize i) (i_keys i) -> mid m <> [] ->
  encipher U i m t = (i', m', r, t') ->
  (r = Ok tt \/ (exists e, r = Err e) \/ r = Panic /\ exists c, In c (mplain m) /\ ~ accepted c) /\ (r <> Ok tt -> i' = i).
Proof.
  intros i m t i' m' r t' Hg Hs Hm H. pose proof (whole_any i m t i' m' r t' Hg Hs Hm H) as W. destruct r as [[]|e| |].
  - split; [left; reflexivity|congruence].
  - destruct W as (W1 & W2). split; [right; exact W2|intros _; exact W1].
  - destruct W as (W1 & W2). split; [right; exact W2|intros _; exact W1].
  - destruct W as (W1 & W2). split; [right; exact W2|intros _; exact W1].
Qed.
Lemma sound_lemma : forall i m t i' m' t', 0 < i_groupsize i -> ids_ok (i_groupsize i) (i_keys i) -> mid m <> [] ->
  mcipher m = [] \/ (length (mcipher m) <= length t)%nat ->
  encipher U i m t = (i', m', Ok tt, t') ->
  letters (mcipher m') /\ mcipher m' <> [] /\
  exists pieces, mcipher m' = concat (map snd pieces) /\ Forall (fun x => made_with (i_keys i) (fst x) (snd x)) pieces.
Proof.
  intros i m t i' m' t' Hg Hs Hm C H. pose proof (whole_any i m t i' m' (Ok tt) t' Hg Hs Hm H) as W.
  destruct W as (k0 & k & p & ps & c0 & W1 & W2 & W3 & W4 & W5 & W6 & W7). rewrite (W6 C) in W5. cbn [app] in W5. split; [|split].
  - rewrite W5. clear - W7. revert W7. generalize ((k0, p) :: ps). intros l W. unfold letters. apply Forall_concat. apply Forall_map.
    eapply Forall_impl; [|exact W]. intros x (k1 & _ & L & _). exact L.
  - rewrite W5. cbn [map snd concat]. destruct p; [congruence|discriminate].
  - exists ((k0, p) :: ps). split; assumption.
Qed.
Lemma stuck_lemma : forall i m t i' m' r t' j k c l, 0 < i_groupsize i -> ids_ok (i_groupsize i) (i_keys i) -> mid m <> [] -> mkeyid m = [] ->
  nth_error (i_keys i) j = Some k -> eligible (i_groupsize i) (mrecipients m) k ->
  (forall j' k', (j' < j)%nat -> nth_error (i_keys i) j' = Some k' -> ~ eligible (i_groupsize i) (mrecipients m) k') ->
  krunes k = c :: l -> ~ is_letter c ->
  encipher U i m t = (i', m', r, t') -> r <> Ok tt /\ i' = i.
Proof.
  intros i m t i' m' r t' j k c l Hg Hs Hm K0 N E F KR NL H.
  assert (R : r <> Ok tt).
  { intros ->. pose proof (whole_any i m t i' m' (Ok tt) t' Hg Hs Hm H) as W.
    destruct W as (k0 & k1 & p & ps & c0 & W1 & W2 & W3 & W4 & W5 & W6 & W7). specialize (W4 K0).
    destruct (find_key_some U _ _ _ _ W4) as (k2 & N2 & E2 & F2).
    assert (j = k0) as ->.
    { destruct (lt_eq_lt_dec j k0) as [[L|L]|L]; [|exact L|].
      - exfalso. exact (F2 j k L N E).
      - exfalso. exact (F k0 k2 L N2 E2). }
    inversion W7 as [|? ? (k3 & X1 & X2 & X3 & X4) _]; subst. cbn [fst snd] in *. assert (k3 = k) as -> by congruence.
    rewrite KR in X4. destruct p as [|x p]; [congruence|]. cbn [length firstn] in X4. inversion X4; subst. contradiction. }
  split; [exact R|]. apply (outcome_lemma i m t i' m' r t' Hg Hs Hm H). exact R.
Qed.
End S.
