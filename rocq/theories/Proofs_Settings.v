(** Which settings make usable keys (C49, C72). *)
From Verif Require Import Base Spec Model_Unicode Model_Crand Model_Functions Model_Types Model_Codec
  Model_Cipher Model_Keys Model_Station Proofs_Codec Proofs_Keys Proofs_Encipher Proofs_Cipher Proofs_Enough
  Proofs_Cipher2 Proofs_KeyOps Proofs_KeyProps Proofs_HeapText.

Section WithUnicode.
Context (U : Uni).

Lemma maybe_change_key_chunks : forall gs rs e e' r, maybe_change_key U gs rs e = (e', r) ->
  exists l, es_chunks e' = es_chunks e ++ l.
Proof.
  intros gs rs e e' r H. unfold maybe_change_key in H.
  assert (Z : exists l, es_chunks e = es_chunks e ++ l) by (exists []; rewrite app_nil_r; reflexivity).
  destruct (nth_error (es_keys e) (ch_key (es_cur e))); [|injection H as <- _; exact Z].
  destruct (_ <=? _); [|injection H as <- _; exact Z].
  destruct (find_key U gs rs (es_keys e)) as [j|]; [|injection H as <- _; exact Z].
  destruct (nth_error (es_keys e) j); [|injection H as <- _; exact Z].
  destruct (change_key _ _ _) as [[st1 o1]| | |]; injection H as <- _; try exact Z.
  eexists. reflexivity.
Qed.

Lemma encode_loop_chunks : forall gs rs text e e' r, encode_loop U gs rs text e = (e', r) ->
  exists l, es_chunks e' = es_chunks e ++ l.
Proof.
  intros gs rs text. induction text as [|c text IH]; intros e e' r H; cbn [encode_loop] in H.
  - injection H as <- _. exists []. rewrite app_nil_r. reflexivity.
  - destruct (maybe_change_key U gs rs e) as [e1 r1] eqn:M.
    destruct (maybe_change_key_chunks _ _ _ _ _ M) as [l1 Q1].
    destruct r1; try (injection H as <- _; exists l1; exact Q1).
    destruct (encode_character _ _ _ _) as [[st1 o1]| | |]; try (injection H as <- _; exists l1; exact Q1).
    apply IH in H. destruct H as [l2 Q2]. exists (l1 ++ l2). rewrite Q2. cbn [es_chunks].
    rewrite Q1, app_assoc. reflexivity.
Qed.

Lemma same_but_used_runes : forall a b j k, same_but_used a b -> nth_error a j = Some k ->
  exists k', nth_error b j = Some k' /\ krunes k' = krunes k.
Proof.
  intros a b j k H N. destruct (same_but_used_nth _ _ _ _ H N) as (k' & N' & Q).
  exists k'. split; [exact N'|]. unfold set_used in Q. injection Q as _ Q. exact Q.
Qed.

(** With keys of a single group (or less) the first part already overruns. *)
Lemma one_group_body : forall gs rs text ks k0 c0, 0 < gs -> text <> [] ->
  (forall j k, nth_error ks j = Some k -> len (krunes k) <= gs) ->
  er_res (encipher_body U gs rs text ks k0 c0) <> Ok tt.
Proof.
  intros gs rs text ks k0 c0 Hg Ht HK. unfold encipher_body.
  destruct text as [|c text]; [destruct (Ht eq_refl)|].
  destruct (encode_loop U gs rs (c :: text) (mkES ks new_state [] (mkChunk [] k0))) as [e r] eqn:E.
  destruct r as [u| | |]; try (cbn [er_res]; discriminate).
  assert (C : exists t l, es_chunks e = mkChunk t k0 :: l /\ gs < len t).
  { cbn [encode_loop] in E. destruct (maybe_change_key _ _ _ _) as [e1 r1] eqn:M.
    unfold maybe_change_key in M. cbn [es_keys es_cur ch_key es_st ch_text es_chunks] in M.
    destruct (nth_error ks k0) as [ck|] eqn:N; [|injection M as _ <-; discriminate].
    pose proof (HK _ _ N) as L. unfold ControlCharactersNeededToChangeKey in M.
    replace (len (krunes ck) - gs - 2 <=? cs_charCounter new_state) with true in M
      by (unfold new_state; cbn [cs_charCounter]; lia).
    destruct (find_key U gs rs ks) as [j|] eqn:F; [|injection M as _ <-; discriminate].
    destruct (find_key_some _ _ _ _ _ F) as (nk & NJ & (_ & LI & _) & _). rewrite NJ in M.
    destruct (change_key_spec new_state (kid nk) [] (proj1 new_state_ok)) as [st1 CK]. rewrite CK in M.
    injection M as <- <-.
    destruct (encode_character _ _ _ _) as [[st2 o2]| | |]; try discriminate.
    apply encode_loop_chunks in E. destruct E as [l E]. rewrite E. cbn [es_chunks].
    exists (goto_word (cs_table new_state) 1 ++ [89] ++ kid nk), l. split; [reflexivity|].
    unfold len in *. rewrite !app_length. cbn [length]. lia. }
  destruct C as (t0 & l & C & LT).
  destruct (pad_count _ _) as [n| | |]; try (cbn [er_res]; discriminate).
  destruct (pad _ _ _) as [[st1 o1]| | |]; try (cbn [er_res]; discriminate).
  cbv zeta. rewrite C. cbn [app encipher_chunks ch_key ch_text].
  destruct (nth_error (es_keys e) k0) as [k|] eqn:N; [|cbn [er_res]; discriminate].
  pose proof (encode_loop_keys U gs rs (c :: text) (mkES ks new_state [] (mkChunk [] k0))) as S.
  rewrite E in S. cbn [fst es_keys] in S.
  destruct (same_but_used_runes _ _ _ _ S N) as (k' & N' & Q).
  pose proof (HK _ _ N') as L. rewrite Q in L.
  replace (len (krunes k) <? len t0) with true by lia. cbn [er_res]. discriminate.
Qed.

Lemma one_group_lemma : forall i m t i' m' r t', 0 < i_groupsize i ->
  (forall k, In k (i_keys i) -> len (krunes k) <= i_groupsize i) ->
  encipher U i m t = (i', m', r, t') -> r <> Ok tt.
Proof.
  intros i m t i' m' r t' Hg HK H. unfold encipher, encipher_full in H.
  destruct (ensure_id i m t) as [[m1 t1]| | |]; try (injection H as _ _ <- _; discriminate).
  destruct (enrich_with_key U (i_groupsize i) (i_keys i) m1) as [[ks m2] r1] eqn:E.
  assert (TX : mplain m2 = mplain m1 /\ (r1 = Ok tt -> mplain m1 <> []) /\ same_but_used ks (i_keys i)).
  { unfold enrich_with_key in E. destruct (len (mplain m1) =? 0) eqn:L0.
    { injection E as <- <- <-. split; [reflexivity|]. split; [discriminate|apply same_but_used_refl]. }
    assert (NE : mplain m1 <> []) by (intros Q; rewrite Q in L0; discriminate).
    destruct (0 <? len (mkeyid m1)).
    { destruct (negb _); injection E as <- <- <-; split; try reflexivity; split; auto; apply same_but_used_refl. }
    destruct (0 <? len (mcipher m1)).
    { destruct (negb _); injection E as <- <- <-; split; try reflexivity; split; auto; apply same_but_used_refl. }
    destruct (find_key _ _ _ _) as [j|].
    2: { injection E as <- <- <-; split; try reflexivity; split; auto; apply same_but_used_refl. }
    destruct (nth_error _ _); injection E as <- <- <-; (split; [reflexivity|]); (split; [auto|]);
      [apply same_but_used_mark|apply same_but_used_refl]. }
  destruct TX as (TX & NE & SB).
  destruct r1 as [u| | |]; try (injection H as _ _ <- _; discriminate). destruct u.
  destruct (wipe_value _ _) as [c0 t2].
  destruct (get_key _ _ _) as [k0|]; [|injection H as _ _ <- _; discriminate].
  assert (NB : er_res (encipher_body U (i_groupsize i) (mrecipients m2) (mplain m2) ks k0 c0) <> Ok tt).
  { apply one_group_body; [exact Hg|rewrite TX; exact (NE eq_refl)|].
    intros j k N. destruct (same_but_used_runes _ _ _ _ SB N) as (k' & N' & Q). rewrite <- Q.
    apply HK. eapply nth_error_In; eassumption. }
  destruct (er_res _) as [u| | |].
  - destruct u. destruct (NB eq_refl).
  - destruct (wipe_value _ _). injection H as _ _ <- _. discriminate.
  - destruct (wipe_value _ _). injection H as _ _ <- _. discriminate.
  - destruct (wipe_value _ _). injection H as _ _ <- _. discriminate.
Qed.

Lemma assert_bounds : forall s, assert_settings s = Ok tt ->
  st_path s <> [] /\ 1 <= i_groupsize (st_inst s) /\ 20 <= i_keylength (st_inst s) /\
  85 <= i_columns (st_inst s) /\ i_groupsize (st_inst s) <= i_keycolumns (st_inst s).
Proof.
  intros s H. unfold assert_settings in H.
  destruct (len (st_path s) =? 0) eqn:A; [discriminate|].
  destruct (i_groupsize _ <? 1) eqn:B; [discriminate|].
  destruct (i_keylength _ <? 20) eqn:C; [discriminate|].
  destruct (i_columns _ <? 85) eqn:D; [discriminate|].
  destruct (i_keycolumns _ <? _) eqn:E; [discriminate|].
  split; [intros Q; rewrite Q in A; discriminate|]. lia.
Qed.
Lemma assert_iff : forall s, assert_settings s = Ok tt <->
  st_path s <> [] /\ 1 <= i_groupsize (st_inst s) /\ 20 <= i_keylength (st_inst s) /\
  85 <= i_columns (st_inst s) /\ i_groupsize (st_inst s) <= i_keycolumns (st_inst s).
Proof.
  intros s. split; [apply assert_bounds|]. intros (A & B & C & D & E). unfold assert_settings.
  replace (len (st_path s) =? 0) with false
    by (destruct (st_path s); [destruct (A eq_refl)|unfold len; cbn [length]; lia]).
  replace (i_groupsize (st_inst s) <? 1) with false by lia.
  replace (i_keylength (st_inst s) <? 20) with false by lia.
  replace (i_columns (st_inst s) <? 85) with false by lia.
  replace (i_keycolumns (st_inst s) <? i_groupsize (st_inst s)) with false by lia. reflexivity.
Qed.

Lemma fresh_key_usable : forall s now e keepers t i' k t' m t2, uni_ok U ->
  assert_settings s = Ok tt -> i_groupsize (st_inst s) < i_keylength (st_inst s) ->
  i_keys (st_inst s) = [] ->
  new_key U (st_inst s) now e keepers t = Ok (i', k, t') ->
  mid m <> [] -> mkeyid m = [] -> mcipher m = [] -> mrecipients m = kkeepers k ->
  (exists c, mplain m = [c] /\ supported c) ->
  exists i2 m2 t3, encipher U i' m t2 = (i2, m2, Ok tt, t3).
Proof.
  intros s now e keepers t i' k t' m t2 HU A L EK NK Hid Hkid Hc Hr (c & Hp & Hsup).
  apply assert_bounds in A. destruct A as (_ & G & KL & _).
  destruct (c18_new_key_lemma U (st_inst s) now e keepers t i' k t' ltac:(lia) ltac:(lia) NK)
    as (EI & LI & LL & _ & LR & (q & Q) & B & KU & _).
  rewrite EK in EI. cbn [app] in EI.
  assert (GI : i_groupsize i' = i_groupsize (st_inst s)) by (rewrite EI; reflexivity).
  assert (KI : i_keys i' = [k]) by (rewrite EI; reflexivity).
  assert (LK : i_groupsize (st_inst s) + 2 < len (krunes k)).
  { set (g := i_groupsize (st_inst s)) in *. set (n := i_keylength (st_inst s)) in *.
    assert (2 <= q) by nia.
    assert (2 * g <= q * g) by (apply Z.mul_le_mono_nonneg_r; lia). lia. }
  apply (c13_one_key_lemma U i' m t2 (len (krunes k)) HU).
  - lia.
  - rewrite KI, GI. split; [constructor; [intros []|constructor]|].
    intros k1 [<-|[]]. auto.
  - exact Hid.
  - exact Hkid.
  - exact Hc.
  - rewrite Hp. discriminate.
  - rewrite Hp. constructor; [exact Hsup|constructor].
  - exists k. rewrite KI, GI. split; [left; reflexivity|]. split; [exact KU|]. split; [exact LL|].
    rewrite Hr. unfold for_recipients. destruct (kkeepers k) as [|x l] eqn:E; [reflexivity|]. apply incl_refl.
  - rewrite KI. intros k1 [<-|[]] _. lia.
  - rewrite Hp, GI. unfold len in *. cbn [length]. lia.
Qed.

Lemma fresh_keys_unusable : forall s n now expire keepers t i' t' m t2 i2 m2 r t3,
  assert_settings s = Ok tt -> i_keylength (st_inst s) <= i_groupsize (st_inst s) ->
  i_keys (st_inst s) = [] ->
  generate_keys U (st_inst s) n now expire keepers t = Ok (i', t') ->
  encipher U i' m t2 = (i2, m2, r, t3) -> r <> Ok tt.
Proof.
  intros s n now expire keepers t i' t' m t2 i2 m2 r t3 A L EK GK H.
  apply assert_bounds in A. destruct A as (_ & G & KL & _).
  destruct (c18_generate_lemma U (st_inst s) n now expire keepers t i' t' ltac:(lia) ltac:(lia) GK) as (new & EI & _ & P & _).
  rewrite EK in EI. cbn [app] in EI.
  apply (one_group_lemma i' m t2 i2 m2 r t3); [rewrite EI; cbn [set_keys i_groupsize]; lia| |exact H].
  rewrite EI. cbn [set_keys i_groupsize i_keys]. intros k J.
  destruct (P k J) as (_ & _ & _ & (q & Q) & B & _).
  set (g := i_groupsize (st_inst s)) in *. assert (q <= 1) by nia. nia.
Qed.
End WithUnicode.
