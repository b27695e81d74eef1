(** Lemmas behind C13: when Encipher succeeds. *)
From Verif Require Import Base Spec Model_Unicode Model_Diana Model_Codec Model_Crand
  Model_Functions Model_Types Model_Cipher Proofs_Diana Proofs_Codec Proofs_Keys Proofs_Encipher
  Proofs_Decipher Proofs_Read Proofs_Cipher.

Section N.
Context (U : Uni) (HU : uni_ok U).

(** The body succeeds if the encoding loop does and every chunk fits. *)
Lemma body_ok : forall gs recips text ks k0 c0 e,
  0 < gs -> store_ok gs ks -> nth_error ks k0 <> None ->
  encode_loop U gs recips text (mkES ks new_state [] (mkChunk [] k0)) = (e, Ok tt) ->
  (forall c, In c (es_chunks e) -> exists k, nth_error ks (ch_key c) = Some k /\
     len (ch_text c) <= len (krunes k)) ->
  (exists k, nth_error ks (ch_key (es_cur e)) = Some k /\
     len (ch_text (es_cur e)) + gs - 1 <= len (krunes k)) ->
  er_res (encipher_body U gs recips text ks k0 c0) = Ok tt.
Proof.
  intros gs recips text ks k0 c0 e Hg Hs Hk0 L Hch Hcur.
  pose proof (encode_loop_inv U HU gs recips ks k0 text _ _ (inv_init U gs recips ks k0)) as I.
  unfold encipher_body. rewrite L in *. destruct I as (I & _).
  assert (T0 : 0 <= len (ch_text (es_cur e)) + total_len (es_chunks e)).
  { pose proof (total_len_nonneg (es_chunks e)). unfold len. lia. }
  destruct (pad_count_spec gs _ Hg T0) as (n & N1 & N2 & N3). rewrite N1.
  unfold pad. cbn [out_nil out_app unoutput]. unfold nextTableChar.
  destruct (inv_picked _ _ _ _ _ e _ I) as (picked & P1 & P2 & P3).
  destruct (inv_text _ _ _ _ _ e _ I) as (p1 & p2 & E1 & Ch & D).
  pose proof (after_picking_same ks picked (es_keys e) P3) as SB.
  set (cur := mkChunk (ch_text (es_cur e) ++ repeat 90 (Z.to_nat n)) (ch_key (es_cur e))).
  destruct (chain_keys U ks k0 _ _ _ Ch Hk0) as (CK1 & CK2).
  assert (Sw : forall j k, nth_error ks j = Some k ->
    exists k', nth_error (es_keys e) j = Some k' /\ krunes k' = krunes k).
  { intros j k Hj. rewrite (P3 j), Hj. cbn. eexists. split; [reflexivity|].
    destruct (existsb (Nat.eqb j) picked); reflexivity. }
  assert (Hall : forall c, In c (es_chunks e ++ [cur]) ->
     letters (ch_text c) /\ nth_error (es_keys e) (ch_key c) <> None).
  { intros c Hc. apply in_app_iff in Hc. destruct Hc as [Hc|[<-|[]]].
    - split.
      + apply (chain_texts U ks k0 _ _ _ Ch); [|exact Hc]. intros kk Hkk. apply (proj2 Hs kk Hkk).
      + destruct (Hch c Hc) as (k & K1 & _). destruct (Sw _ _ K1) as (k' & K2 & _). congruence.
    - cbn [ch_text ch_key cur]. split.
      + apply letters_app. split; [apply (inv_letters _ _ _ _ _ e _ I)|apply letters_repeat_z].
      + destruct Hcur as (k & K1 & _). destruct (Sw _ _ K1) as (k' & K2 & _). congruence. }
  assert (HL : forall k, In k (es_keys e) -> letters (krunes k)).
  { intros k Hk. apply (proj2 (same_but_used_store gs ks _ (same_but_used_sym _ _ SB) Hs) k Hk). }
  pose proof (encipher_chunks_spec (es_keys e) (es_chunks e ++ [cur]) c0 HL Hall) as ES.
  destruct (encipher_chunks (es_keys e) (es_chunks e ++ [cur]) c0) as [out r].
  cbn [er_res]. destruct r as [[]|er| |]; try contradiction; [reflexivity|].
  exfalso. destruct ES as (_ & c & k & C1 & C2 & C3).
  apply in_app_iff in C1. destruct C1 as [C1|[<-|[]]].
  - destruct (Hch c C1) as (k1 & K1 & K2). destruct (Sw _ _ K1) as (k' & K3 & K4).
    rewrite K3 in C2. injection C2 as <-. rewrite K4 in C3. lia.
  - destruct Hcur as (k1 & K1 & K2). destruct (Sw _ _ K1) as (k' & K3 & K4).
    cbn [ch_key ch_text cur] in C2, C3.
    rewrite K3 in C2. injection C2 as <-. rewrite K4 in C3.
    unfold len in *. rewrite app_length, repeat_length in C3. lia.
Qed.

(** Encipher without preset key, from the body. *)
Lemma encipher_of_body : forall i m t j k, 0 < i_groupsize i ->
  store_ok (i_groupsize i) (i_keys i) -> mid m <> [] -> mkeyid m = [] -> mcipher m = [] ->
  mplain m <> [] ->
  find_key U (i_groupsize i) (mrecipients m) (i_keys i) = Some j ->
  nth_error (i_keys i) j = Some k ->
  er_res (encipher_body U (i_groupsize i) (mrecipients m) (mplain m) (mark (i_keys i) j true) j []) = Ok tt ->
  exists i' m' t', encipher U i m t = (i', m', Ok tt, t').
Proof.
  intros i m t j k Hg Hs Hm Hk0 Hc0 Hp F K B.
  unfold encipher, encipher_full. rewrite (ensure_id_has i m t Hm).
  unfold enrich_with_key. rewrite Hk0, Hc0.
  replace (len (mplain m) =? 0) with false.
  2: { symmetry. apply not_true_is_false. intros Q. apply len_nil in Q. auto. }
  change (0 <? len []) with false. cbn iota. rewrite F, K. cbn iota.
  change (mcipher (set_mkeyid m (kid k))) with (mcipher m). rewrite Hc0.
  assert (W : wipe_value [] t = ([], t)) by reflexivity. rewrite W.
  change (mkeyid (set_mkeyid m (kid k))) with (kid k).
  assert (Hs1 : store_ok (i_groupsize i) (mark (i_keys i) j true)).
  { apply (same_but_used_store _ (i_keys i)); [apply same_but_used_sym, same_but_used_mark|exact Hs]. }
  assert (K1 : nth_error (mark (i_keys i) j true) j = Some (set_used k true)).
  { rewrite nth_error_mark, Nat.eqb_refl, K. reflexivity. }
  change (kid k) with (kid (set_used k true)).
  rewrite (get_key_found U _ _ _ _ Hs1 K1).
  change (mrecipients (set_mkeyid m (kid (set_used k true)))) with (mrecipients m).
  change (mplain (set_mkeyid m (kid (set_used k true)))) with (mplain m).
  rewrite B. cbn. eexists. eexists. eexists. reflexivity.
Qed.

(** *** One key *)
Lemma loop_single : forall gs recips ks k0 k text st s,
  nth_error ks k0 = Some k -> Forall accepted text -> st_ok st -> text <> [] ->
  cs_charCounter st = len s ->
  len s + 4 * (len text - 1) < len (krunes k) - gs - 2 ->
  exists st' s', encode_loop U gs recips text (mkES ks st [] (mkChunk s k0))
    = (mkES ks st' [] (mkChunk s' k0), Ok tt) /\ len s' < len (krunes k) - gs - 2 + 4.
Proof.
  intros gs recips ks k0 k text. induction text as [|c text IH]; intros st s Hk Ha Hst Hne Hc Hl; [congruence|].
  inversion Ha as [|? ? Hc1 Ha']; subst.
  cbn [encode_loop]. unfold maybe_change_key. cbn [es_keys es_cur ch_key es_st]. rewrite Hk.
  unfold ControlCharactersNeededToChangeKey. unfold len in Hl. cbn [length] in Hl.
  replace (len (krunes k) - gs - 2 <=? cs_charCounter st) with false by (unfold len in *; lia).
  cbn [es_st es_cur ch_text es_keys es_chunks ch_key].
  destruct (encode_step U HU st c s Hst Hc1) as (w & st' & E1 & E2 & E3 & E4 & E5 & _).
  rewrite E1. cbn [unoutput].
  destruct text as [|c' text'].
  - cbn [encode_loop]. eexists. eexists. split; [reflexivity|].
    unfold len in *. rewrite app_length. cbn [length] in *. lia.
  - apply IH; auto; try discriminate.
    + unfold len in *. rewrite app_length. lia.
    + unfold len in *. rewrite app_length. cbn [length] in *. lia.
Qed.

Lemma encipher_one_key : forall i m t KL, 0 < i_groupsize i ->
  store_ok (i_groupsize i) (i_keys i) -> mid m <> [] -> mkeyid m = [] -> mcipher m = [] ->
  mplain m <> [] -> Forall accepted (mplain m) ->
  (exists k, In k (i_keys i) /\ eligible (i_groupsize i) (mrecipients m) k) ->
  (forall k, In k (i_keys i) -> eligible (i_groupsize i) (mrecipients m) k -> KL <= len (krunes k)) ->
  4 * (len (mplain m) - 1) < KL - i_groupsize i - 2 ->
  exists i' m' t', encipher U i m t = (i', m', Ok tt, t').
Proof.
  intros i m t KL Hg Hs Hm Hk0 Hc0 Hp Ha (ke & Ke1 & Ke2) HKL Hl.
  destruct (find_key U (i_groupsize i) (mrecipients m) (i_keys i)) as [j|] eqn:F.
  2: { exfalso. apply (find_key_none _ _ _ _ F ke Ke1 Ke2). }
  destruct (find_key_some _ _ _ _ _ F) as (k & K1 & K2 & _).
  specialize (HKL k (nth_error_In _ _ K1) K2).
  assert (Hs1 : store_ok (i_groupsize i) (mark (i_keys i) j true)).
  { apply (same_but_used_store _ (i_keys i)); [apply same_but_used_sym, same_but_used_mark|exact Hs]. }
  assert (K3 : nth_error (mark (i_keys i) j true) j = Some (set_used k true)).
  { rewrite nth_error_mark, Nat.eqb_refl, K1. reflexivity. }
  apply (encipher_of_body i m t j k); auto.
  destruct (loop_single (i_groupsize i) (mrecipients m) _ j _ (mplain m) new_state [] K3 Ha (proj1 new_state_ok) Hp)
    as (st' & s' & L1 & L2).
  { reflexivity. }
  { change (krunes (set_used k true)) with (krunes k). change (len (@nil Z)) with 0. lia. }
  eapply body_ok; [exact Hg|exact Hs1|congruence|exact L1| |].
  - intros c Hc. contradiction.
  - cbn [es_cur ch_key ch_text]. exists (set_used k true). split; [exact K3|]. lia.
Qed.

(** *** Texts of the primary table *)
Lemma primary_step : forall st c o, st_ok st -> cs_table st = 0 -> cs_shift st = false ->
  In c primary_chars ->
  exists w st', encode_character U st c (Some o) = Ok (st', Some (o ++ w)) /\ st_ok st' /\
    cs_table st' = 0 /\ cs_shift st' = false /\ len w = 1 /\
    cs_charCounter st' = cs_charCounter st + 1.
Proof.
  intros st c o Hst Ht Hsh Hc.
  assert (G : forallb (fun c => match find_char character_tables (to_upper U c) 0 with
     | Some (t, i) => (t =? 0) && negb (need_case U false c) | None => false end) primary_chars = true)
    by (vm_compute; reflexivity).
  rewrite forallb_forall in G. specialize (G c Hc).
  pose proof (encode_character_spec U st c o Hst) as E.
  destruct (find_char character_tables (to_upper U c) 0) as [[t i]|]; [|discriminate].
  apply andb_true_iff in G. destruct G as (G1 & G2). apply Z.eqb_eq in G1. subst t.
  apply negb_true_iff in G2.
  destruct E as (st' & E1 & E2 & E3 & E4 & E5). rewrite Ht, Hsh in *.
  assert (W : char_word U 0 false c 0 i = [i + 65]).
  { unfold char_word. rewrite G2. reflexivity. }
  rewrite W in *. exists [i + 65], st'. split; [exact E1|]. split; [exact E2|]. split; [exact E3|].
  split; [rewrite E4, G2; reflexivity|]. split; [reflexivity|]. rewrite E5. reflexivity.
Qed.

(** [n] distinct eligible keys are left. *)
Definition left (gs : Z) (recips : list (list rune)) (ks : list key) (n : Z) : Prop :=
  exists js, NoDup js /\ len js = n /\
    forall j, In j js -> exists k, nth_error ks j = Some k /\ eligible gs recips k.

Lemma left_pick : forall gs recips ks n j, left gs recips ks n -> 0 < n ->
  left gs recips (mark ks j true) (n - 1).
Proof.
  intros gs recips ks n j (js & ND & L & E) Hn.
  assert (Keep : forall x, In x js -> x <> j ->
    exists k, nth_error (mark ks j true) x = Some k /\ eligible gs recips k).
  { intros x Hx Nx. rewrite nth_error_mark. replace (Nat.eqb j x) with false by (symmetry; apply Nat.eqb_neq; auto).
    apply E. exact Hx. }
  destruct (in_dec Nat.eq_dec j js) as [Hj|Hj].
  - apply in_split in Hj. destruct Hj as (a & b & ->). apply NoDup_remove in ND. destruct ND as (ND & Nj).
    exists (a ++ b). split; [exact ND|]. split.
    + unfold len in *. rewrite app_length in *. cbn [length] in L. lia.
    + intros x Hx. apply Keep.
      * apply in_app_iff in Hx. apply in_app_iff. cbn. tauto.
      * intros ->. contradiction.
  - destruct js as [|x js]; [unfold len in L; cbn in L; lia|].
    inversion ND as [|? ? N1 N2]; subst. exists js. split; [exact N2|].
    split; [unfold len; cbn [length]; lia|].
    intros y Hy. apply Keep; [right; exact Hy|]. intros ->. apply Hj. right. exact Hy.
Qed.

Definition uniform (gs : Z) (recips : list (list rune)) (KL : Z) (ks : list key) : Prop :=
  forall k, In k ks -> eligible gs recips k -> len (krunes k) = KL.

Lemma loop_primary : forall gs recips KL ks0 text ks st chunks s k0 n,
  0 < gs -> gs + 2 < KL -> uniform gs recips KL ks -> same_but_used ks0 ks ->
  (forall k, In k ks0 -> len (kid k) = gs) ->
  st_ok st -> cs_table st = 0 -> cs_shift st = false -> cs_charCounter st = len s ->
  Forall (fun c => In c primary_chars) text ->
  (exists k, nth_error ks k0 = Some k /\ len (krunes k) = KL) ->
  (forall c, In c chunks -> exists k, nth_error ks0 (ch_key c) = Some k /\ len (ch_text c) <= len (krunes k)) ->
  left gs recips ks n -> 0 <= n -> len s <= KL - gs - 2 ->
  len text <= (KL - gs - 2 - len s) + n * (KL - gs - 2) ->
  exists ks' st' chunks' s' k', encode_loop U gs recips text (mkES ks st chunks (mkChunk s k0))
    = (mkES ks' st' chunks' (mkChunk s' k'), Ok tt) /\ len s' <= KL - gs - 2 /\
    (exists k, nth_error ks0 k' = Some k /\ len (krunes k) = KL) /\
    (forall c, In c chunks' -> exists k, nth_error ks0 (ch_key c) = Some k /\ len (ch_text c) <= len (krunes k)).
Proof.
  intros gs recips KL ks0 text. induction text as [|c text IH];
    intros ks st chunks s k0 n Hg HKL HU0 SB Hid Hst Ht Hsh Hcc Hp (k & K1 & K2) Hch HL Hn Hs Hlen.
  - cbn [encode_loop]. exists ks, st, chunks, s, k0. split; [reflexivity|]. split; [exact Hs|]. split; [|exact Hch].
    destruct (same_but_used_nth _ _ _ _ (same_but_used_sym _ _ SB) K1) as (k' & N & Q).
    exists k'. split; [exact N|]. apply set_used_fields in Q. destruct Q as (_ & Q & _). congruence.
  - pose proof (Forall_inv Hp) as Hc. pose proof (Forall_inv_tail Hp) as Hp'. cbn beta in Hc.
    cbn [encode_loop]. unfold maybe_change_key. cbn [es_keys es_cur ch_key es_st ch_text]. rewrite K1.
    unfold ControlCharactersNeededToChangeKey. rewrite Hcc.
    unfold len in Hlen at 1. cbn [length] in Hlen.
    destruct (len (krunes k) - gs - 2 <=? len s) eqn:Full.
    + assert (0 < n) by nia.
      destruct (find_key U gs recips ks) as [j|] eqn:F.
      2: { exfalso. destruct HL as (js & _ & L & E). destruct js as [|x js]; [unfold len in L; cbn in L; lia|].
           destruct (E x (or_introl eq_refl)) as (kx & E1 & E2).
           apply (find_key_none _ _ _ _ F kx (nth_error_In _ _ E1) E2). }
      destruct (find_key_some _ _ _ _ _ F) as (k' & K3 & K4 & _). rewrite K3.
      assert (CK : change_key st (kid k') (Some s) =
        Ok (add_count (add_count (fst (next_table st (Some s))) 1) (len (kid k')), Some (s ++ [90] ++ [89] ++ kid k'))).
      { destruct st as [ki tb nt cc g kc sh bi ln]. destruct Hst as (_ & Hnt & Hb).
        cbn in Ht, Hsh, Hnt, Hb. subst. unfold change_key. cbn [out_nil].
        assert (GT : forall o, goto_table (mkCS ki 0 2 cc g kc false false ln) secondaryTable (Some o)
          = Ok (fst (next_table (mkCS ki 0 2 cc g kc false false ln) (Some o)), Some (o ++ [90]))) by reflexivity.
        rewrite GT. cbn. rewrite <- !app_assoc. reflexivity. }
      rewrite CK. cbn [unoutput es_st es_cur ch_text es_keys es_chunks ch_key].
      destruct (primary_step (cs_reset (add_count (add_count (fst (next_table st (Some s))) 1) (len (kid k')))) c [])
        as (w & st' & E1 & E2 & E3 & E4 & E5 & E6); auto.
      { unfold st_ok. cbn. auto. }
      rewrite E1. cbn [unoutput app].
      destruct (same_but_used_nth _ _ _ _ (same_but_used_sym _ _ SB) K3) as (k3 & N3 & Q3).
      apply set_used_fields in Q3. destruct Q3 as (Q31 & Q32 & _).
      assert (KL' : len (krunes k') = KL) by (apply HU0; [apply (nth_error_In _ _ K3)|exact K4]).
      eapply IH with (n := n - 1); auto.
      * intros kk Hkk He. apply In_nth_error in Hkk. destruct Hkk as (x & Hx).
        rewrite nth_error_mark in Hx. destruct (Nat.eqb j x).
        -- destruct (nth_error ks x); [|discriminate]. injection Hx as <-. destruct He as (He & _). discriminate.
        -- apply HU0; [apply (nth_error_In _ _ Hx)|exact He].
      * apply (same_but_used_trans _ _ _ SB). apply same_but_used_sym, same_but_used_mark.
      * rewrite E5, E6. reflexivity.
      * exists (set_used k' true). split; [|exact KL']. rewrite nth_error_mark, Nat.eqb_refl, K3. reflexivity.
      * intros cc Hcc0. apply in_app_iff in Hcc0. destruct Hcc0 as [Hcc0|[<-|[]]]; [auto|].
        cbn [ch_key ch_text].
        destruct (same_but_used_nth _ _ _ _ (same_but_used_sym _ _ SB) K1) as (kk & N & Q).
        apply set_used_fields in Q. destruct Q as (_ & Q & _).
        exists kk. split; [exact N|]. rewrite Q.
        assert (I3 : len (kid k') = gs) by (rewrite <- Q31; apply (Hid k3); apply (nth_error_In _ _ N3)).
        unfold len in *. rewrite !app_length. cbn [length]. lia.
      * apply left_pick; [exact HL|lia].
      * lia.
      * lia.
      * assert (LS : len s = KL - gs - 2) by lia. unfold len in *. nia.
    + cbn [unoutput es_st es_cur ch_text es_keys es_chunks ch_key].
      destruct (primary_step st c s Hst Ht Hsh Hc) as (w & st' & E1 & E2 & E3 & E4 & E5 & E6).
      rewrite E1. cbn [unoutput].
      eapply IH with (n := n); eauto.
      * unfold len in *. rewrite app_length. lia.
      * unfold len in *. rewrite app_length. lia.
      * unfold len in *. rewrite app_length. lia.
Qed.

Lemma encipher_primary : forall i m t KL js, 0 < i_groupsize i -> i_groupsize i + 2 < KL ->
  store_ok (i_groupsize i) (i_keys i) -> mid m <> [] -> mkeyid m = [] -> mcipher m = [] ->
  mplain m <> [] -> Forall (fun c => In c primary_chars) (mplain m) ->
  (forall k, In k (i_keys i) -> eligible (i_groupsize i) (mrecipients m) k -> len (krunes k) = KL) ->
  NoDup js ->
  (forall j, In j js -> exists k, nth_error (i_keys i) j = Some k /\ eligible (i_groupsize i) (mrecipients m) k) ->
  len (mplain m) <= len js * (KL - i_groupsize i - 2) ->
  exists i' m' t', encipher U i m t = (i', m', Ok tt, t').
Proof.
  intros i m t KL js Hg HKL Hs Hm Hk0 Hc0 Hp Ha Huni ND Hjs Hl.
  assert (Pos : 0 < len js).
  { assert (0 < len (mplain m)). { destruct (mplain m); [congruence|]. unfold len. cbn [length]. lia. }
    nia. }
  assert (L0 : left (i_groupsize i) (mrecipients m) (i_keys i) (len js)) by (exists js; auto).
  destruct (find_key U (i_groupsize i) (mrecipients m) (i_keys i)) as [j|] eqn:F.
  2: { exfalso. destruct js as [|x js]; [unfold len in Pos; cbn in Pos; lia|].
       destruct (Hjs x (or_introl eq_refl)) as (kx & E1 & E2).
       apply (find_key_none _ _ _ _ F kx (nth_error_In _ _ E1) E2). }
  destruct (find_key_some _ _ _ _ _ F) as (k & K1 & K2 & _).
  assert (LK : len (krunes k) = KL) by (apply Huni; [apply (nth_error_In _ _ K1)|exact K2]).
  set (ks1 := mark (i_keys i) j true).
  assert (Hs1 : store_ok (i_groupsize i) ks1).
  { apply (same_but_used_store _ (i_keys i)); [apply same_but_used_sym, same_but_used_mark|exact Hs]. }
  assert (K3 : nth_error ks1 j = Some (set_used k true)).
  { unfold ks1. rewrite nth_error_mark, Nat.eqb_refl, K1. reflexivity. }
  apply (encipher_of_body i m t j k); auto. fold ks1.
  destruct (loop_primary (i_groupsize i) (mrecipients m) KL ks1 (mplain m) ks1 new_state [] [] j (len js - 1))
    as (ks' & st' & chunks' & s' & k' & L1 & L2 & L3 & L4); auto.
  - intros kk Hkk He. apply In_nth_error in Hkk. destruct Hkk as (x & Hx). unfold ks1 in Hx.
    rewrite nth_error_mark in Hx. destruct (Nat.eqb j x).
    + destruct (nth_error (i_keys i) x); [|discriminate]. injection Hx as <-. destruct He as (He & _). discriminate.
    + apply Huni; [apply (nth_error_In _ _ Hx)|exact He].
  - apply same_but_used_refl.
  - intros kk Hkk. apply (proj2 Hs1 kk Hkk).
  - apply new_state_ok.
  - exists (set_used k true). split; [exact K3|exact LK].
  - intros c Hc. contradiction.
  - apply left_pick; assumption.
  - lia.
  - change (len (@nil Z)) with 0. lia.
  - change (len (@nil Z)) with 0. lia.
  - eapply body_ok; [exact Hg|exact Hs1|congruence|exact L1| |].
    + exact L4.
    + cbn [es_cur ch_key ch_text]. destruct L3 as (kk & N1 & N2). exists kk. split; [exact N1|]. lia.
Qed.

(** *** How Encipher can fail *)
Lemma encipher_failures : forall i m t i' m' r t', 0 < i_groupsize i ->
  store_ok (i_groupsize i) (i_keys i) -> mid m <> [] -> mkeyid m = [] -> mcipher m = [] ->
  mplain m <> [] -> encipher U i m t = (i', m', r, t') ->
  r = Ok tt /\ Forall accepted (mplain m) \/
  r = Panic /\ (exists c, In c (mplain m) /\ ~ accepted c) \/
  r = Err ErrNoEligibleKey /\ (forall k, In k (i_keys i) -> ~ eligible (i_groupsize i) (mrecipients m) k) \/
  r = Err ErrOutOfKeys \/ r = Err ErrChunkKeyTooShort /\ Forall accepted (mplain m).
Proof.
  intros i m t i' m' r t' Hg Hs Hm Hk0 Hc0 Hp H.
  unfold encipher, encipher_full in H. rewrite (ensure_id_has i m t Hm) in H.
  unfold enrich_with_key in H. rewrite Hk0, Hc0 in H.
  replace (len (mplain m) =? 0) with false in H.
  2: { symmetry. apply not_true_is_false. intros Q. apply len_nil in Q. auto. }
  change (0 <? len []) with false in H. cbn iota in H.
  destruct (find_key U (i_groupsize i) (mrecipients m) (i_keys i)) as [j|] eqn:F.
  2: { cbn in H. injection H as <- <- <- <-. right. right. left. split; [reflexivity|].
       apply (find_key_none _ _ _ _ F). }
  destruct (find_key_some _ _ _ _ _ F) as (k & K & _). rewrite K in H. cbn iota in H.
  change (mcipher (set_mkeyid m (kid k))) with (mcipher m) in H. rewrite Hc0 in H.
  assert (W : wipe_value [] t = ([], t)) by reflexivity. rewrite W in H.
  change (mkeyid (set_mkeyid m (kid k))) with (kid k) in H.
  assert (Hs1 : store_ok (i_groupsize i) (mark (i_keys i) j true)).
  { apply (same_but_used_store _ (i_keys i)); [apply same_but_used_sym, same_but_used_mark|exact Hs]. }
  assert (K1 : nth_error (mark (i_keys i) j true) j = Some (set_used k true)).
  { rewrite nth_error_mark, Nat.eqb_refl, K. reflexivity. }
  change (get_key U (kid k)) with (get_key U (kid (set_used k true))) in H.
  rewrite (get_key_found U _ _ _ _ Hs1 K1) in H.
  change (mrecipients (set_mkeyid m (kid k))) with (mrecipients m) in H.
  change (mplain (set_mkeyid m (kid k))) with (mplain m) in H.
  pose proof (encipher_body_spec U HU (i_groupsize i) (mrecipients m) (mplain m)
    (mark (i_keys i) j true) j [] Hg Hs1 ltac:(congruence)) as B. cbv zeta in B.
  destruct (er_res (encipher_body U (i_groupsize i) (mrecipients m) (mplain m) (mark (i_keys i) j true) j [])) as [[]|er| |].
  - injection H as <- <- <- <-. left. split; [reflexivity|].
    destruct B as (picked & chunks & last & w & p1 & p2 & st & n & B). apply B.
  - destruct (wipe_value (kid k) t) as [x y]. cbn in H. injection H as <- <- <- <-.
    destruct B as (_ & [(B & _)|[(B & _)|[(B & _)|(B & B2)]]]); try discriminate; injection B as ->; auto 10.
  - destruct (wipe_value (kid k) t) as [x y]. cbn in H. injection H as <- <- <- <-.
    destruct B as (_ & [(B & B2)|[(B & _)|[(B & _)|(B & B2)]]]); try discriminate; auto.
  - destruct (wipe_value (kid k) t) as [x y]. cbn in H. injection H as <- <- <- <-.
    destruct B as (_ & [(B & _)|[(B & _)|[(B & _)|(B & B2)]]]); discriminate.
Qed.
End N.
