(** Lemmas behind C13 and C130: the exact outcome of Encipher. *)
From Verif Require Import Base Spec Spec_Enough Model_Unicode Model_Diana Model_Codec Model_Crand
  Model_Functions Model_Types Model_Cipher Proofs_Diana Proofs_Codec Proofs_Keys Proofs_Encipher
  Proofs_Decipher Proofs_Read Proofs_Cipher Proofs_Enough.
From Verif Require Spec_Enough.

Lemma eligibleb_ok : forall gs recips k,
  Spec_Enough.eligibleb gs recips k = true <-> eligible gs recips k.
Proof.
  intros gs recips k. unfold Spec_Enough.eligibleb, eligible, for_recipients.
  rewrite !andb_true_iff, negb_true_iff, Z.eqb_eq.
  destruct recips as [|r recips].
  - destruct (kkeepers k); split; intros H; repeat split; try tauto; try discriminate.
    destruct H as (_ & H); discriminate.
    destruct H as (_ & _ & H); discriminate.
  - rewrite forallb_forall. split.
    + intros ((A & B) & C). split; [exact A|]. split; [exact B|]. intros x Hx. specialize (C x Hx).
      apply existsb_exists in C. destruct C as (y & Y1 & Y2).
      destruct (list_eq_dec Z.eq_dec y x); [congruence|discriminate].
    + intros (A & B & C). split; [auto|]. intros x Hx. apply existsb_exists. exists x. split; [apply C, Hx|].
      destruct (list_eq_dec Z.eq_dec x x); congruence.
Qed.

Section E.
Context (U : Uni) (HU : uni_ok U).

Lemma rooms_none : forall gs recips ks, find_key U gs recips ks = None -> rooms gs recips ks = [].
Proof.
  intros gs recips ks F. unfold rooms.
  pose proof (find_key_none _ _ _ _ F) as N. clear F.
  induction ks as [|k ks IH]; [reflexivity|]. cbn [filter].
  destruct (Spec_Enough.eligibleb gs recips k) eqn:E.
  - exfalso. apply (N k (or_introl eq_refl)). apply eligibleb_ok. exact E.
  - apply IH. intros k' H'. apply N. right. exact H'.
Qed.

Lemma rooms_some : forall gs recips ks j k, find_key U gs recips ks = Some j ->
  nth_error ks j = Some k ->
  rooms gs recips ks = len (krunes k) :: rooms gs recips (mark ks j true).
Proof.
  intros gs recips ks j k F K. destruct (find_key_some _ _ _ _ _ F) as (k' & K1 & K2 & K3).
  rewrite K in K1. injection K1 as <-. clear F. unfold rooms. revert j K K3.
  induction ks as [|a ks IH]; intros j K K3; [destruct j; discriminate|].
  destruct j as [|j].
  - cbn [nth_error] in K. injection K as ->.
    assert (E : Spec_Enough.eligibleb gs recips k = true) by (apply eligibleb_ok; exact K2).
    unfold mark. cbn. rewrite E. reflexivity.
  - cbn [nth_error] in K.
    assert (E : Spec_Enough.eligibleb gs recips a = false).
    { apply not_true_is_false. intros Q. apply eligibleb_ok in Q. apply (K3 0%nat a); [lia|reflexivity|exact Q]. }
    assert (M : mark (a :: ks) (S j) true = a :: mark ks j true).
    { unfold mark. cbn [nth_error]. rewrite K. reflexivity. }
    rewrite M. cbn [filter]. rewrite E. apply IH; [exact K|].
    intros j' k' L N. apply (K3 (S j') k'); [lia|exact N].
Qed.

(** *** Letters for a character *)
Lemma codable_ok : forall c, codable c = true <-> accepted c.
Proof.
  intros c. rewrite <- acceptedb_ok.
  assert (G : forallb (fun c => Bool.eqb (codable c) (acceptedb c)) (map Z.of_nat (seq 0 256)) = true)
    by (vm_compute; reflexivity).
  destruct (in_latin1 c) eqn:L.
  - pose proof (latin1_fin _ G c L) as E. cbn beta in E. apply Bool.eqb_prop in E. rewrite E. tauto.
  - destruct (Z.eq_dec c 305) as [->|N1]; [split; reflexivity|].
    destruct (Z.eq_dec c 383) as [->|N2]; [split; reflexivity|].
    split; intros H.
    + exfalso. unfold codable, capital, canon in H. unfold in_latin1 in L.
      replace (c =? 305) with false in H by lia. replace (c =? 383) with false in H by lia.
      apply existsb_exists in H. destruct H as (x & Hx & E). apply Z.eqb_eq in E.
      assert (B : forallb (fun x => (0 <=? x) && (x <=? 223)) (primary_chars ++ secondary_chars) = true)
        by (vm_compute; reflexivity).
      rewrite forallb_forall in B. specialize (B x Hx).
      destruct ((97 <=? c) && (c <=? 122) || existsb (Z.eqb c) [229; 228; 246]); lia.
    + apply acceptedb_latin1 in H. destruct H as [H|[H|H]]; congruence.
Qed.

Definition first_or (o : option (Z * Z)) : Z := match o with Some (t, _) => t | None => -1 end.
Lemma first_or_some : forall o z, first_or o = z -> z <> -1 -> exists i, o = Some (z, i).
Proof. intros [[t i]|] z E P; cbn in E; [|congruence]. subst t. exists i. reflexivity. Qed.
Definition figure_no (c : rune) : Z := if figure c then 1 else 0.
Definition turns (sh : bool) (c : rune) : bool :=
  (is_upper uni_id c && sh) || (is_lower uni_id c && negb sh).

Lemma implb_elim : forall a b, implb a b = true -> a = true -> b = true.
Proof. intros [] b; cbn; congruence. Qed.

Lemma accepted_fin : forall P, forallb (fun c => implb (acceptedb c) (P c)) (map Z.of_nat (seq 0 256)) = true ->
  P 305 = true -> P 383 = true -> forall c, acceptedb c = true -> P c = true.
Proof.
  intros P G H1 H2 c Hc. destruct (acceptedb_latin1 c Hc) as [D|[D|D]]; [|congruence|congruence].
  apply (implb_elim (acceptedb c)); [|exact Hc]. exact (latin1_fin _ G c D).
Qed.

Lemma turns_ok : forall sh c, acceptedb c = true -> turns sh c = turn sh c.
Proof.
  intros sh c Hc. apply Bool.eqb_prop.
  apply (accepted_fin (fun c => Bool.eqb (turns sh c) (turn sh c))); [destruct sh; vm_compute; reflexivity
    |destruct sh; vm_compute; reflexivity|destruct sh; vm_compute; reflexivity|exact Hc].
Qed.

Lemma table_no_ok : forall c, acceptedb c = true -> first_or (find_char character_tables (to_upper uni_id c) 0) = figure_no c.
Proof.
  intros c Hc. apply Z.eqb_eq.
  apply (accepted_fin (fun c => first_or (find_char character_tables (to_upper uni_id c) 0) =? figure_no c)); [vm_compute; reflexivity
    |vm_compute; reflexivity|vm_compute; reflexivity|exact Hc].
Qed.

Lemma turn_ok : forall c, accepted c -> forall sh, need_case U sh c = turn sh c.
Proof.
  intros c Hc sh. apply acceptedb_ok in Hc. pose proof (acceptedb_latin1 c Hc) as D.
  destruct (upper_id U c D) as (_ & _ & U3 & U4 & _).
  rewrite <- (turns_ok sh c Hc). unfold need_case, turns. rewrite U3, U4. reflexivity.
Qed.

Lemma table_ok : forall c, accepted c -> exists i,
  find_char character_tables (to_upper U c) 0 = Some (if figure c then 1 else 0, i).
Proof.
  intros c Hc. apply acceptedb_ok in Hc. pose proof (acceptedb_latin1 c Hc) as D.
  destruct (upper_id U c D) as (U1 & _). rewrite U1.
  apply (first_or_some _ (figure_no c)); [exact (table_no_ok c Hc)|].
  unfold figure_no; destruct (figure c); discriminate.
Qed.

Lemma char_facts : forall c, accepted c -> exists i,
  find_char character_tables (to_upper U c) 0 = Some (if figure c then 1 else 0, i) /\
  forall sh, need_case U sh c = turn sh c.
Proof.
  intros c Hc. destruct (table_ok c Hc) as (i & E). exists i. split; [exact E|exact (turn_ok c Hc)].
Qed.

Definition secb (st : codec_state) : bool := cs_table st =? 1.

Lemma cost_step : forall st c o, st_ok st -> accepted c ->
  exists w st', encode_character U st c (Some o) = Ok (st', Some (o ++ w)) /\ st_ok st' /\
    len w = cost (secb st) (cs_shift st) c /\ secb st' = figure c /\
    cs_shift st' = xorb (cs_shift st) (turn (cs_shift st) c) /\
    cs_charCounter st' = cs_charCounter st + len w.
Proof.
  intros st c o Hst Hc. destruct (char_facts c Hc) as (i & F & N).
  pose proof (encode_character_spec U st c o Hst) as E. rewrite F in E.
  destruct E as (st' & E1 & E2 & E3 & E4 & E5).
  eexists. exists st'. split; [exact E1|]. split; [exact E2|].
  split; [|split; [|split; [|exact E5]]].
  - unfold char_word, cost. rewrite N. unfold secb.
    assert (T : cs_table st = 0 \/ cs_table st = 1) by apply Hst.
    destruct (turn (cs_shift st) c), (figure c), T as [->| ->]; reflexivity.
  - unfold secb. rewrite E3. destruct (figure c); reflexivity.
  - rewrite E4, N. apply xorb_comm.
Qed.

Lemma cost_bound : forall sec sh c, 1 <= cost sec sh c <= 4.
Proof.
  intros sec sh c. unfold cost.
  destruct (turn sh c), sec, (figure c); cbn; lia.
Qed.

Lemma change_key_len : forall st id o, st_ok st ->
  exists st', change_key st id (Some o) = Ok (st', Some (o ++ goto_word (cs_table st) 1 ++ [89] ++ id)) /\
  len (o ++ goto_word (cs_table st) 1 ++ [89] ++ id) = len o + (if secb st then 0 else 1) + 1 + len id.
Proof.
  intros st id o Hst. destruct (change_key_spec st id o Hst) as (st' & E). exists st'. split; [exact E|].
  unfold secb, goto_word, len. rewrite !app_length. cbn [length].
  destruct (cs_table st =? 1); cbn [length]; lia.
Qed.

(** *** The loop *)
Definition overlong (ks : list key) (chunks : list chunk) : Prop :=
  exists c k, In c chunks /\ nth_error ks (ch_key c) = Some k /\ len (krunes k) < len (ch_text c).

Lemma loop_plan : forall gs recips ks0 (B : Prop) text ks st chunks s k0 kk over,
  0 < gs -> same_but_used ks0 ks -> (forall k, In k ks0 -> len (kid k) = gs) ->
  (B -> forall k, In k ks -> eligible gs recips k -> gs + 2 < len (krunes k)) ->
  st_ok st -> cs_charCounter st = len s -> nth_error ks k0 = Some kk ->
  (B -> len s + gs - 1 <= len (krunes kk)) ->
  (over = true <-> overlong ks0 chunks) ->
  let p := plan gs (len (krunes kk)) (rooms gs recips ks) (secb st) (cs_shift st) (len s) over text in
  match encode_loop U gs recips text (mkES ks st chunks (mkChunk s k0)) with
  | (e, Ok _) =>
      (p = Ok tt /\ ~ overlong ks0 (es_chunks e) \/ p = Err ErrChunkKeyTooShort /\ overlong ks0 (es_chunks e)) /\
      (exists k, nth_error ks0 (ch_key (es_cur e)) = Some k /\
         (B -> len (ch_text (es_cur e)) + gs - 1 <= len (krunes k)))
  | (_, r) => p = r /\ (r = Panic \/ r = Err ErrOutOfKeys)
  end.
Proof.
  intros gs recips ks0 B text. induction text as [|c text IH];
    intros ks st chunks s k0 kk over Hg SB Hid HB Hst Hcc K1 Hroom Hov; cbv zeta.
  - cbn [encode_loop plan es_chunks es_cur ch_key ch_text]. split.
    + destruct over.
      * right. split; [reflexivity|]. apply Hov. reflexivity.
      * left. split; [reflexivity|]. intros Q. apply Hov in Q. discriminate.
    + destruct (same_but_used_nth _ _ _ _ (same_but_used_sym _ _ SB) K1) as (k' & N & Q).
      exists k'. split; [exact N|]. apply set_used_fields in Q. destruct Q as (_ & Q & _). rewrite Q. exact Hroom.
  - cbn [encode_loop plan]. unfold maybe_change_key. cbn [es_keys es_cur ch_key es_st ch_text]. rewrite K1.
    unfold ControlCharactersNeededToChangeKey. rewrite Hcc.
    destruct (len (krunes kk) - gs - 2 <=? len s) eqn:Full.
    + destruct (find_key U gs recips ks) as [j|] eqn:F.
      2: { rewrite (rooms_none _ _ _ F). auto. }
      destruct (find_key_some _ _ _ _ _ F) as (k' & K3 & K4 & _). rewrite K3.
      rewrite (rooms_some _ _ _ _ _ F K3).
      destruct (change_key_len st (kid k') s Hst) as (st1 & C1 & C2). rewrite C1.
      cbn [unoutput es_st es_cur ch_text es_keys es_chunks ch_key].
      destruct (codable c) eqn:A.
      2: { assert (NA : ~ accepted c) by (rewrite <- codable_ok; congruence).
           rewrite (encode_reject U HU (cs_reset st1) c [] ltac:(apply new_state_ok) NA). auto. }
      apply codable_ok in A.
      destruct (cost_step (cs_reset st1) c [] ltac:(apply new_state_ok) A) as (w & st' & E1 & E2 & E3 & E4 & E5 & E6).
      rewrite E1. cbn [unoutput app].
      assert (D1 : secb (cs_reset st1) = false) by reflexivity.
      assert (D2 : cs_shift (cs_reset st1) = false) by reflexivity.
      rewrite D1, D2 in *. rewrite xorb_false_l in E5.
      destruct (same_but_used_nth _ _ _ _ (same_but_used_sym _ _ SB) K3) as (k3 & N3 & Q3).
      apply set_used_fields in Q3. destruct Q3 as (Q31 & Q32 & _).
      assert (I3 : len (kid k') = gs) by (rewrite <- Q31; apply (Hid k3); apply (nth_error_In _ _ N3)).
      assert (K5 : nth_error (mark ks j true) j = Some (set_used k' true)).
      { rewrite nth_error_mark, Nat.eqb_refl, K3. reflexivity. }
      specialize (IH (mark ks j true) st' (chunks ++ [mkChunk (s ++ goto_word (cs_table st) 1 ++ [89] ++ kid k') k0])
        w j (set_used k' true) (over || (len (krunes kk) <? len s + (if secb st then 0 else 1) + 1 + gs)) Hg).
      cbv zeta in IH. change (krunes (set_used k' true)) with (krunes k') in IH.
      rewrite E4, E5, E3 in IH. apply IH; auto.
      * apply (same_but_used_trans _ _ _ SB). apply same_but_used_sym, same_but_used_mark.
      * intros b ka Hka He. apply In_nth_error in Hka. destruct Hka as (x & Hx).
        rewrite nth_error_mark in Hx. destruct (Nat.eqb j x).
        -- destruct (nth_error ks x); [|discriminate]. injection Hx as <-. destruct He as (He & _). discriminate.
        -- apply (HB b); [apply (nth_error_In _ _ Hx)|exact He].
      * rewrite E6. cbn. lia.
      * intros b. specialize (HB b k' (nth_error_In _ _ K3) K4). pose proof (cost_bound false false c). lia.
      * rewrite orb_true_iff, Hov.
        destruct (same_but_used_nth _ _ _ _ (same_but_used_sym _ _ SB) K1) as (kz & N & Q).
        apply set_used_fields in Q. destruct Q as (_ & Q & _).
        assert (LL : (len (krunes kk) <? len s + (if secb st then 0 else 1) + 1 + gs) = true <->
          len (krunes kz) < len (s ++ goto_word (cs_table st) 1 ++ [89] ++ kid k')) by (rewrite C2, I3, Q; lia).
        rewrite LL. split.
        -- intros [(x & y & X1 & X2)|X].
           ++ exists x, y. split; [apply in_app_iff; left; exact X1|exact X2].
           ++ eexists. exists kz. split; [apply in_app_iff; right; left; reflexivity|]. auto.
        -- intros (x & y & X1 & X2 & X3). apply in_app_iff in X1. destruct X1 as [X1|[<-|[]]].
           ++ left. exists x, y. auto.
           ++ right. cbn [ch_key ch_text] in X2, X3. rewrite N in X2. injection X2 as <-. exact X3.
    + cbn [unoutput es_st es_cur ch_text es_keys es_chunks ch_key].
      destruct (codable c) eqn:A.
      2: { assert (NA : ~ accepted c) by (rewrite <- codable_ok; congruence).
           rewrite (encode_reject U HU st c s Hst NA). auto. }
      apply codable_ok in A.
      destruct (cost_step st c s Hst A) as (w & st' & E1 & E2 & E3 & E4 & E5 & E6).
      rewrite E1. cbn [unoutput].
      assert (L : len (s ++ w) = len s + cost (secb st) (cs_shift st) c).
      { unfold len in *. rewrite app_length. lia. }
      specialize (IH ks st' chunks (s ++ w) k0 kk over Hg). cbv zeta in IH.
      rewrite E4, E5, L in IH. apply IH; auto.
      * lia.
      * intros b. pose proof (cost_bound (secb st) (cs_shift st) c). lia.
Qed.

(** *** The body and Encipher *)
Lemma body_outcome : forall gs recips text ks k0 k c0, 0 < gs -> store_ok gs ks ->
  nth_error ks k0 = Some k -> text <> [] ->
  let p := plan gs (len (krunes k)) (rooms gs recips ks) false false 0 false text in
  let r := er_res (encipher_body U gs recips text ks k0 c0) in
  (r = Err ErrOutOfKeys <-> p = Err ErrOutOfKeys) /\
  (r = Panic <-> p = Panic) /\
  (gs + 2 < len (krunes k) -> (forall k, In k ks -> eligible gs recips k -> gs + 2 < len (krunes k)) -> r = p).
Proof.
  intros gs recips text ks k0 k c0 Hg Hs K Ht p r.
  set (B := gs + 2 < len (krunes k) /\ (forall k, In k ks -> eligible gs recips k -> gs + 2 < len (krunes k))).
  pose proof (loop_plan gs recips ks B text ks new_state [] [] k0 k false Hg (same_but_used_refl _)
    (fun x Hx => proj1 (proj2 (proj2 Hs x Hx))) (fun b => proj2 b) (proj1 new_state_ok) eq_refl K) as L.
  cbv zeta in L. change (secb new_state) with false in L. change (cs_shift new_state) with false in L.
  change (len (@nil Z)) with 0 in L. fold p in L.
  specialize (L ltac:(intros (b & _); lia)).
  assert (Ov : false = true <-> overlong ks []).
  { split; [discriminate|]. intros (x & y & X & _). contradiction. }
  specialize (L Ov).
  pose proof (encode_loop_inv U HU gs recips ks k0 text _ _ (inv_init U gs recips ks k0)) as I.
  pose proof (body_ok U HU gs recips text ks k0 c0) as BO.
  assert (R : r = er_res (encipher_body U gs recips text ks k0 c0)) by reflexivity. clearbody r. subst r.
  unfold encipher_body in *.
  destruct (encode_loop U gs recips text (mkES ks new_state [] (mkChunk [] k0))) as [e rr].
  destruct rr as [u|er| |].
  2-4: cbn [er_res]; destruct L as (L1 & [L2|L2]); rewrite L1 in *; try discriminate L2;
       try (injection L2 as ->); (split; [tauto|]; split; [tauto|]; intros; reflexivity).
  destruct u. destruct L as (L1 & kc & L2 & L3). destruct I as (I & _).
  assert (T0 : 0 <= len (ch_text (es_cur e)) + total_len (es_chunks e)).
  { pose proof (total_len_nonneg (es_chunks e)). unfold len. lia. }
  destruct (pad_count_spec gs _ Hg T0) as (n & N1 & N2 & N3). rewrite N1 in *.
  unfold pad in *. cbn [out_nil out_app unoutput] in *. unfold nextTableChar in *.
  destruct (inv_picked _ _ _ _ _ e _ I) as (picked & P1 & P2 & P3).
  destruct (inv_text _ _ _ _ _ e _ I) as (p1 & p2 & E1 & Ch & D).
  pose proof (after_picking_same ks picked (es_keys e) P3) as SB.
  set (cur := mkChunk (ch_text (es_cur e) ++ repeat 90 (Z.to_nat n)) (ch_key (es_cur e))) in *.
  assert (Hk0 : nth_error ks k0 <> None) by congruence.
  destruct (chain_keys U ks k0 _ _ _ Ch Hk0) as (CK1 & CK2).
  assert (Hall : forall c, In c (es_chunks e ++ [cur]) ->
     letters (ch_text c) /\ nth_error (es_keys e) (ch_key c) <> None).
  { intros c Hc. apply in_app_iff in Hc. destruct Hc as [Hc|[<-|[]]].
    - split.
      + apply (chain_texts U ks k0 _ _ _ Ch); [|exact Hc]. intros kk Hkk. apply (proj2 Hs kk Hkk).
      + specialize (CK2 c Hc). rewrite (P3 (ch_key c)). destruct (nth_error ks (ch_key c)); [discriminate|congruence].
    - cbn [ch_text ch_key cur]. split.
      + apply letters_app. split; [apply (inv_letters _ _ _ _ _ e _ I)|apply letters_repeat_z].
      + rewrite (P3 (ch_key (es_cur e))), L2. discriminate. }
  assert (HL : forall k, In k (es_keys e) -> letters (krunes k)).
  { intros k1 Hk. apply (proj2 (same_but_used_store gs ks _ (same_but_used_sym _ _ SB) Hs) k1 Hk). }
  pose proof (encipher_chunks_spec (es_keys e) (es_chunks e ++ [cur]) c0 HL Hall) as ES.
  assert (P : p = Ok tt \/ p = Err ErrChunkKeyTooShort) by tauto.
  destruct (encipher_chunks (es_keys e) (es_chunks e ++ [cur]) c0) as [out r].
  cbn [er_res] in *.
  assert (R : r = Ok tt \/ r = Err ErrChunkKeyTooShort).
  { destruct r as [[]|er| |]; [auto|destruct ES as (-> & _); auto|contradiction|contradiction]. }
  split; [destruct P as [P|P], R as [R|R]; rewrite P, R; split; intros; discriminate|].
  split; [destruct P as [P|P], R as [R|R]; rewrite P, R; split; intros; discriminate|].
  intros B1 B2.
  destruct L1 as [(-> & L1)|(-> & x & y & X1 & X2 & X3)].
  - apply (BO e Hg Hs Hk0 eq_refl).
    + intros c Hc. specialize (CK2 c Hc). destruct (nth_error ks (ch_key c)) as [kk|] eqn:Q; [|congruence].
      exists kk. split; [reflexivity|]. apply Z.nlt_ge. intros W. apply L1. exists c, kk. auto.
    + exists kc. split; [exact L2|]. apply L3. split; assumption.
  - destruct R as [->|R]; [|exact R]. exfalso. destruct ES as (_ & ES).
    destruct (ES x ltac:(apply in_app_iff; left; exact X1)) as (kx & Z1 & Z2).
    rewrite (P3 (ch_key x)), X2 in Z1. cbn [option_map] in Z1. injection Z1 as <-.
    replace (krunes (if existsb (Nat.eqb (ch_key x)) picked then set_used y true else y)) with (krunes y) in Z2
      by (destruct (existsb (Nat.eqb (ch_key x)) picked); reflexivity).
    unfold len in X3. lia.
Qed.

Lemma plan_some_key : forall text gs room rest sec sh n over,
  plan gs room rest sec sh n over text <> Err ErrNoEligibleKey.
Proof.
  induction text as [|c text IH]; intros; cbn [plan].
  - destruct over; discriminate.
  - destruct (room - gs - 2 <=? n); [destruct rest as [|x rest]; [discriminate|]|];
      (destruct (codable c); [apply IH|discriminate]).
Qed.

Lemma encipher_outcome : forall i m t i' m' r t', 0 < i_groupsize i ->
  store_ok (i_groupsize i) (i_keys i) -> mid m <> [] -> mkeyid m = [] -> mcipher m = [] ->
  mplain m <> [] -> encipher U i m t = (i', m', r, t') ->
  let p := outcome (i_groupsize i) (rooms (i_groupsize i) (mrecipients m) (i_keys i)) (mplain m) in
  (r = Err ErrNoEligibleKey <-> p = Err ErrNoEligibleKey) /\
  (r = Err ErrOutOfKeys <-> p = Err ErrOutOfKeys) /\
  (r = Panic <-> p = Panic) /\
  ((forall l, In l (rooms (i_groupsize i) (mrecipients m) (i_keys i)) -> i_groupsize i + 2 < l) -> r = p).
Proof.
  intros i m t i' m' r t' Hg Hs Hm Hk0 Hc0 Hp H p.
  unfold encipher, encipher_full in H. rewrite (ensure_id_has i m t Hm) in H.
  unfold enrich_with_key in H. rewrite Hk0, Hc0 in H.
  replace (len (mplain m) =? 0) with false in H.
  2: { symmetry. apply not_true_is_false. intros Q. apply len_nil in Q. auto. }
  change (0 <? len []) with false in H. cbn iota in H.
  destruct (find_key U (i_groupsize i) (mrecipients m) (i_keys i)) as [j|] eqn:F.
  2: { cbn in H. unfold p. rewrite (rooms_none _ _ _ F). assert (r = Err ErrNoEligibleKey) by congruence.
       subst r. cbn [outcome]. split; [tauto|]. split; [split; discriminate|]. split; [split; discriminate|]. auto. }
  destruct (find_key_some _ _ _ _ _ F) as (k & K & KE & _). rewrite K in H. cbn iota in H.
  change (mcipher (set_mkeyid m (kid k))) with (mcipher m) in H. rewrite Hc0 in H.
  assert (W : wipe_value [] t = ([], t)) by reflexivity. rewrite W in H.
  change (mkeyid (set_mkeyid m (kid k))) with (kid k) in H.
  assert (Hs1 : store_ok (i_groupsize i) (mark (i_keys i) j true)).
  { apply (same_but_used_store _ (i_keys i)); [apply same_but_used_sym, same_but_used_mark|exact Hs]. }
  assert (K1 : nth_error (mark (i_keys i) j true) j = Some (set_used k true)).
  { rewrite nth_error_mark, Nat.eqb_refl, K. reflexivity. }
  change (get_key U (kid k)) with (get_key U (kid (set_used k true))) in H.
  rewrite (get_key_found U _ _ _ _ Hs1 K1) in H.
  change (mrecipients (set_mkeyid m (kid k))) with (mrecipients m) in H.
  change (mplain (set_mkeyid m (kid k))) with (mplain m) in H.
  pose proof (body_outcome (i_groupsize i) (mrecipients m) (mplain m)
    (mark (i_keys i) j true) j (set_used k true) [] Hg Hs1 K1 Hp) as B. cbv zeta in B.
  change (krunes (set_used k true)) with (krunes k) in B.
  assert (EP : p = plan (i_groupsize i) (len (krunes k)) (rooms (i_groupsize i) (mrecipients m) (mark (i_keys i) j true))
      false false 0 false (mplain m)).
  { unfold p. rewrite (rooms_some _ _ _ _ _ F K). reflexivity. }
  rewrite <- EP in B.
  assert (ER : r = er_res (encipher_body U (i_groupsize i) (mrecipients m) (mplain m) (mark (i_keys i) j true) j [])).
  { destruct (er_res (encipher_body U (i_groupsize i) (mrecipients m) (mplain m) (mark (i_keys i) j true) j [])) as [[]|er| |].
    1: injection H as _ _ H _; congruence.
    all: destruct (wipe_value (kid k) t) as [x y]; cbn in H; injection H as _ _ H _; congruence. }
  rewrite <- ER in B. destruct B as (B1 & B2 & B3).
  assert (NE : p <> Err ErrNoEligibleKey /\ r <> Err ErrNoEligibleKey).
  { split.
    - rewrite EP. apply plan_some_key.
    - pose proof (encipher_failures U HU i m t i' m' r t' Hg Hs Hm Hk0 Hc0 Hp) as Q.
      intros ->. rewrite ER in *.
      pose proof (encipher_body_spec U HU (i_groupsize i) (mrecipients m) (mplain m)
        (mark (i_keys i) j true) j [] Hg Hs1 ltac:(congruence)) as Z. cbv zeta in Z. rewrite <- ER in Z.
      destruct Z as (_ & [(Z & _)|[(Z & _)|[(Z & _)|(Z & _)]]]); discriminate. }
  split; [tauto|]. split; [exact B1|]. split; [exact B2|].
  intros HR. apply B3.
  - apply HR. rewrite (rooms_some _ _ _ _ _ F K). left. reflexivity.
  - intros k1 Hk1 He1. apply HR. rewrite (rooms_some _ _ _ _ _ F K). right.
    unfold rooms. apply in_map_iff. exists k1. split; [reflexivity|]. apply filter_In.
    split; [exact Hk1|apply eligibleb_ok; exact He1].
Qed.
End E.

(** *** What the plan tells *)
Lemma total_cons : forall x l, total (x :: l) = x + total l.
Proof. reflexivity. Qed.

Lemma plan_out : forall gs text room rest sec sh n over, 0 <= n ->
  plan gs room rest sec sh n over text = Err ErrOutOfKeys ->
  Z.max 0 (room - gs - 2) + total (map (fun l => Z.max 0 (l - gs - 2)) rest) <= n + 4 * (len text - 1).
Proof.
  intros gs text. induction text as [|c text IH]; intros room rest sec sh n over Hn H; cbn [plan] in H.
  - destruct over; discriminate.
  - assert (L : len (c :: text) = 1 + len text) by (unfold len; cbn [length]; lia).
    assert (0 <= len text) by (unfold len; lia).
    destruct (room - gs - 2 <=? n) eqn:Full.
    + destruct rest as [|r rest].
      * change (total (map (fun l => Z.max 0 (l - gs - 2)) [])) with 0. lia.
      * destruct (codable c); [|discriminate]. pose proof (cost_bound false false c).
        apply IH in H; [|lia]. cbn [map]. rewrite total_cons. lia.
    + destruct (codable c); [|discriminate]. pose proof (cost_bound sec sh c).
      apply IH in H; [|lia]. lia.
Qed.

Lemma outcome_out : forall gs ls text, outcome gs ls text = Err ErrOutOfKeys ->
  total (map (fun l => Z.max 0 (l - gs - 2)) ls) <= 4 * (len text - 1).
Proof.
  intros gs [|l ls] text H; [discriminate|]. cbn [outcome] in H. apply plan_out in H; [|lia].
  cbn [map]. rewrite total_cons. lia.
Qed.

Lemma small_not_large : forall c, accepted c -> small c = true -> large c = false.
Proof.
  intros c Hc Hs. apply acceptedb_ok in Hc.
  assert (E : implb (small c) (negb (large c)) = true).
  { apply (accepted_fin (fun c => implb (small c) (negb (large c)))); [vm_compute; reflexivity
      |vm_compute; reflexivity|vm_compute; reflexivity|exact Hc]. }
  apply negb_true_iff. apply (implb_elim _ _ E Hs).
Qed.

Definition surcharge (sec low : bool) : Z :=
  if low then (if sec then 2 else 3) else (if sec then 1 else 0).

Lemma plan_steady : forall gs sec low text room rest n,
  Forall (fun c => codable c = true /\ figure c = sec /\ turn low c = false /\ turn false c = low) text ->
  0 <= n <= room - gs - 2 -> Forall (fun l => gs + 2 + surcharge sec low < l) rest ->
  len text <= (room - gs - 2 - n) + total (map (fun l => l - gs - 2 - surcharge sec low) rest) ->
  plan gs room rest sec low n false text = Ok tt.
Proof.
  intros gs sec low text. induction text as [|c text IH]; intros room rest n Ht Hn Hr Hl; [reflexivity|].
  cbn [plan]. pose proof (Forall_inv Ht) as (C1 & C2 & C3 & C4). apply Forall_inv_tail in Ht.
  rewrite C1, C2. rewrite C3, C4.
  assert (L : len (c :: text) = 1 + len text) by (unfold len; cbn [length]; lia).
  assert (0 <= len text) by (unfold len; lia).
  destruct (room - gs - 2 <=? n) eqn:Full.
  - destruct rest as [|r rest]; [change (total (map (fun l => l - gs - 2 - surcharge sec low) [])) with 0 in Hl; lia|].
    pose proof (Forall_inv Hr) as R1. cbn beta in R1. apply Forall_inv_tail in Hr. cbn [map] in Hl. rewrite total_cons in Hl.
    replace (false || (room <? n + (if sec then 0 else 1) + 1 + gs)) with false
      by (symmetry; destruct sec; cbn [orb]; lia).
    assert (K : cost false false c = 1 + surcharge sec low).
    { unfold cost, surcharge. rewrite C4, C2. destruct low, sec; reflexivity. }
    rewrite K. apply IH; auto; [|lia].
    assert (0 <= surcharge sec low) by (unfold surcharge; destruct low, sec; lia). lia.
  - replace (xorb low false) with low by (destruct low; reflexivity).
    assert (K : cost sec low c = 1).
    { unfold cost. rewrite C3, C2, eqb_reflx. reflexivity. }
    rewrite K. apply IH; auto; lia.
Qed.

Lemma outcome_steady : forall gs sec low ls text, text <> [] ->
  Forall (fun c => supported c /\ figure c = sec /\ small c = low) text ->
  Forall (fun l => gs + 2 + surcharge sec low < l) ls ->
  len text <= total (map (fun l => l - gs - 2 - surcharge sec low) ls) ->
  outcome gs ls text = Ok tt.
Proof.
  intros gs sec low ls text Hne Ht Hr Hl.
  assert (T : Forall (fun c => codable c = true /\ figure c = sec /\ turn low c = false /\ turn false c = low) text).
  { revert Ht. apply Forall_impl. intros c (A1 & A2 & A3).
    assert (A : accepted c) by (left; exact A1).
    split; [apply codable_ok, A|]. split; [exact A2|]. split; [|exact A3].
    destruct low; [|exact A3]. apply small_not_large; assumption. }
  assert (P : 0 < len text) by (destruct text; [congruence|unfold len; cbn [length]; lia]).
  destruct ls as [|l ls]; [cbn in Hl; lia|].
  pose proof (Forall_inv Hr) as R1. cbn beta in R1. apply Forall_inv_tail in Hr. cbn [map] in Hl. rewrite total_cons in Hl.
  cbn [outcome]. destruct text as [|c text]; [congruence|]. cbn [plan].
  pose proof (Forall_inv T) as (C1 & C2 & C3 & C4). apply Forall_inv_tail in T.
  assert (0 <= surcharge sec low) by (unfold surcharge; destruct low, sec; lia).
  replace (l - gs - 2 <=? 0) with false by lia. rewrite C1, C2, C4.
  assert (K : cost false false c = 1 + surcharge sec low).
  { unfold cost, surcharge. rewrite C4, C2. destruct low, sec; reflexivity. }
  rewrite xorb_false_l, K.
  assert (L : len (c :: text) = 1 + len text) by (unfold len; cbn [length]; lia).
  apply plan_steady; auto; lia.
Qed.

Lemma rooms_in : forall gs recips ks l, In l (rooms gs recips ks) <->
  exists k, In k ks /\ eligible gs recips k /\ len (krunes k) = l.
Proof.
  intros gs recips ks l. unfold rooms. rewrite in_map_iff. split.
  - intros (k & E & H). apply filter_In in H. destruct H as (H1 & H2). apply eligibleb_ok in H2. eauto.
  - intros (k & H1 & H2 & E). exists k. split; [exact E|]. apply filter_In. split; [exact H1|apply eligibleb_ok; exact H2].
Qed.

(** *** Consequences for Encipher *)
Lemma c13_out_lemma : forall U i m t i' m' t', uni_ok U -> 0 < i_groupsize i ->
  store_ok (i_groupsize i) (i_keys i) -> mid m <> [] -> mkeyid m = [] -> mcipher m = [] ->
  mplain m <> [] -> encipher U i m t = (i', m', Err ErrOutOfKeys, t') ->
  total (map (fun l => Z.max 0 (l - i_groupsize i - 2))
    (rooms (i_groupsize i) (mrecipients m) (i_keys i))) <= 4 * (len (mplain m) - 1).
Proof.
  intros U i m t i' m' t' HU Hg Hs Hm Hk Hc Hp H.
  apply outcome_out. apply (encipher_outcome U HU i m t i' m' _ t' Hg Hs Hm Hk Hc Hp H). reflexivity.
Qed.

Lemma c13_steady_lemma : forall U i m t sec low, uni_ok U -> 0 < i_groupsize i ->
  store_ok (i_groupsize i) (i_keys i) -> mid m <> [] -> mkeyid m = [] -> mcipher m = [] ->
  mplain m <> [] -> Forall (fun c => supported c /\ figure c = sec /\ small c = low) (mplain m) ->
  let lost := if low then (if sec then 2 else 3) else (if sec then 1 else 0) in
  (forall k, In k (i_keys i) -> eligible (i_groupsize i) (mrecipients m) k ->
     i_groupsize i + 2 + lost < len (krunes k)) ->
  len (mplain m) <= total (map (fun l => l - i_groupsize i - 2 - lost)
    (rooms (i_groupsize i) (mrecipients m) (i_keys i))) ->
  exists i' m' t', encipher U i m t = (i', m', Ok tt, t').
Proof.
  intros U i m t sec low HU Hg Hs Hm Hk Hc Hp Ht lost HL Hl. fold (surcharge sec low) in lost.
  destruct (encipher U i m t) as [[[i' m'] r] t'] eqn:H. exists i', m', t'.
  destruct (encipher_outcome U HU i m t i' m' r t' Hg Hs Hm Hk Hc Hp H) as (_ & _ & _ & E).
  assert (P : 0 <= lost) by (unfold lost, surcharge; destruct low, sec; lia).
  rewrite E.
  - f_equal. f_equal. apply (outcome_steady _ sec low); auto. apply Forall_forall. intros l Hi.
    apply rooms_in in Hi. destruct Hi as (k & K1 & K2 & <-). apply HL; assumption.
  - intros l Hi. apply rooms_in in Hi. destruct Hi as (k & K1 & K2 & <-). specialize (HL k K1 K2). lia.
Qed.

Lemma c130_lengths_lemma : forall U i m t i' m' r t' i1 m1 t1 i1' m1' r1 t1', uni_ok U ->
  0 < i_groupsize i -> i_groupsize i1 = i_groupsize i ->
  store_ok (i_groupsize i) (i_keys i) -> store_ok (i_groupsize i1) (i_keys i1) ->
  mid m <> [] -> mkeyid m = [] -> mcipher m = [] -> mplain m <> [] ->
  mid m1 <> [] -> mkeyid m1 = [] -> mcipher m1 = [] -> mplain m1 = mplain m ->
  rooms (i_groupsize i) (mrecipients m) (i_keys i) = rooms (i_groupsize i1) (mrecipients m1) (i_keys i1) ->
  (forall l, In l (rooms (i_groupsize i) (mrecipients m) (i_keys i)) -> i_groupsize i + 2 < l) ->
  encipher U i m t = (i', m', r, t') -> encipher U i1 m1 t1 = (i1', m1', r1, t1') -> r1 = r.
Proof.
  intros U i m t i' m' r t' i1 m1 t1 i1' m1' r1 t1' HU Hg Eg Hs Hs1 Hm Hk Hc Hp Hm1 Hk1 Hc1 Ep ER HR H H1.
  destruct (encipher_outcome U HU i m t i' m' r t' Hg Hs Hm Hk Hc Hp H) as (_ & _ & _ & E).
  destruct (encipher_outcome U HU i1 m1 t1 i1' m1' r1 t1' ltac:(lia) Hs1 Hm1 Hk1 Hc1 ltac:(congruence) H1)
    as (_ & _ & _ & E1).
  rewrite (E HR), E1.
  - rewrite <- ER, Ep, Eg. reflexivity.
  - rewrite <- ER. rewrite Eg. exact HR.
Qed.
