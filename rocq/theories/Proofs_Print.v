(** The traffic example, the coding legend and the pages of a PDF. *)
From Coq Require Import Permutation.
From Verif Require Import Base Spec Model_Unicode Model_Crand Model_Functions Model_Regex Model_Types Model_Cipher
  Model_Messages Model_Codec Model_Print Proofs_Functions Proofs_Regex Proofs_Radiogram Proofs_Traffic
  Proofs_Diana Proofs_Codec Proofs_Keys Proofs_Encipher Proofs_Decipher Proofs_Read Proofs_Cipher Proofs_Cipher2
  Proofs_Summary Proofs_KeyOps Proofs_Messages Proofs_MsgProps.

Lemma some_inj : forall A (x y : A), Some x = Some y -> x = y.
Proof. intros A x y H. congruence. Qed.

Section U.
Variable U : Uni.

Lemma letter_nospace : forall c, is_letter c -> is_space U c = false.
Proof. intros c H. destruct (case_letter U c c H (or_introl eq_refl)) as (Q & _). exact Q. Qed.

Lemma fields_words : forall l, Forall (fun w => w <> [] /\ letters w) l -> fields U (join [32] l) = l.
Proof.
  unfold fields, fields_func. induction l as [|w l IH]; intros H; [reflexivity|]. inversion H as [|? ? (N & L) H']; subst.
  assert (W : forall c, In c w -> is_space U c = false).
  { intros c Hc. apply letter_nospace. unfold letters in L. rewrite Forall_forall in L. apply L. exact Hc. }
  destruct l as [|v l].
  - cbn [join]. rewrite fields_aux_nosep by exact W. cbn [rev app]. destruct w; [congruence|reflexivity].
  - change (join [32] (w :: v :: l)) with (w ++ 32 :: join [32] (v :: l)).
    rewrite fields_aux_app by reflexivity. rewrite IH by exact H'.
    rewrite fields_aux_nosep by exact W. cbn [rev app]. destruct w; [congruence|reflexivity].
Qed.

Lemma group_letters : forall (l : list (list rune)) s, concat l = s -> letters s -> Forall letters l.
Proof.
  intros l s <- H. unfold letters in *. rewrite Forall_forall in H. apply Forall_forall. intros w Hw.
  apply Forall_forall. intros c Hc. apply H. apply in_concat. exists w. auto.
Qed.

Lemma join_words_valid : forall l, Forall letters l -> go_string (join [32] l) = join [32] l.
Proof.
  intros l H. apply go_string_valid. induction H as [|w l W _ IH]; [constructor|].
  assert (V : Forall (fun c => valid_rune c = true) w).
  { eapply Forall_impl; [|exact W]. intros c Hc. apply (case_letter U c c Hc). left. reflexivity. }
  destruct l as [|v l]; [exact V|]. change (join [32] (w :: v :: l)) with (w ++ [32] ++ join [32] (v :: l)).
  apply Forall_app. split; [exact V|]. constructor; [reflexivity|exact IH].
Qed.

Lemma exact_groups : forall (gl : list (list rune)) g gs, 0 < gs -> (forall x, In x gl -> len x = gs) ->
  1 <= len g <= gs -> len (concat (gl ++ [g])) mod gs = 0 -> len g = gs.
Proof.
  intros gl g gs Hg H1 H2 H. rewrite concat_app, len_app in H. cbn [concat] in H. rewrite app_nil_r in H.
  assert (E : len (concat gl) = gs * len gl).
  { clear -H1. induction gl as [|x gl IH]; [cbn; lia|]. cbn [concat]. rewrite len_app, IH by (intros; apply H1; right; assumption).
    rewrite (H1 x) by (left; reflexivity). unfold len. cbn [length]. lia. }
  rewrite E in H. rewrite Z.add_comm, Z.mul_comm, Z_mod_plus_full in H.
  destruct (Z.eq_dec (len g) gs) as [Q|Q]; [exact Q|]. rewrite Z.mod_small in H; lia.
Qed.

(** The groups of a message. *)
Lemma groups_of : forall lb gs m, 0 < gs -> mcipher m <> [] -> letters (mcipher m) -> len (mcipher m) mod gs = 0 ->
  exists l, message_groups lb gs m = join [32] l /\ concat l = mcipher m /\ l <> [] /\ Forall (fun g => len g = gs) l.
Proof.
  intros lb gs m Hg N L M. unfold message_groups.
  destruct (groups lb (Some (mcipher m)) gs 0) as [out|e| |] eqn:E.
  - destruct (c27_lemma lb gs 0 _ out N E) as (lines & O & C & _ & (gl & g & G1 & G2 & G3) & _ & One & _).
    assert (LL : len lines = 1) by (apply One; lia).
    destruct lines as [|l [|? ?]]; [discriminate| |unfold len in LL; cbn [length] in LL; lia].
    exists l. cbn [map join] in O. cbn [concat] in C, G1. rewrite app_nil_r in C, G1.
    split; [exact O|]. split; [exact C|]. subst l. split; [destruct gl; discriminate|].
    apply Forall_app. split; [apply Forall_forall; exact G2|]. constructor; [|constructor].
    apply (exact_groups gl); [exact Hg|exact G2|exact G3|]. rewrite C. exact M.
  - unfold groups in E. replace (gs <=? 0) with false in E by lia. discriminate.
  - unfold groups in E. replace (gs <=? 0) with false in E by lia. discriminate.
  - unfold groups in E. replace (gs <=? 0) with false in E by lia. discriminate.
Qed.

Lemma join_runes_call : forall R, Forall call_sign R -> join_runes R [32] = join [32] R.
Proof.
  intros R H. unfold join_runes. rewrite str_join_eq. f_equal. unfold runes_to_strings.
  induction H as [|x R (N & Hx) _ IH]; [reflexivity|]. cbn [map]. rewrite IH. f_equal.
  apply go_string_valid. eapply Forall_impl; [|exact Hx]. intros c Hc.
  unfold call_char, is_letter, digit in Hc. unfold valid_rune. lia.
Qed.

Hypothesis HK : uni_kelvin U.
Hypothesis HU : uni_ok U.

Lemma trim_line : forall R F D N B, Forall call_sign R ->
  trim_space U (join [32] R ++ [32; 68; 69; 32] ++ F ++ [32] ++ D ++ [32] ++ N ++ [32; 61; 32] ++ B ++ [32; 61; 32; 75]) =
  short_radiogram R F D N B.
Proof.
  intros R F D N B HR. unfold short_radiogram.
  pose (X := F ++ [32] ++ D ++ [32] ++ N ++ [32; 61; 32] ++ B ++ [32; 61; 32]).
  assert (E : forall p, p ++ F ++ [32] ++ D ++ [32] ++ N ++ [32; 61; 32] ++ B ++ [32; 61; 32; 75] = p ++ X ++ [75]).
  { intros p. unfold X. rewrite <- !app_assoc. reflexivity. }
  rewrite !E. destruct R as [|x R].
  - cbn [join app]. pose proof (trim_exact U [32] (68 :: 69 :: 32 :: X ++ [75]) []) as T. rewrite app_nil_r in T.
    apply T; [constructor; [reflexivity|constructor]|constructor|].
    intros [Q|Q]; [discriminate|]. change (68 :: 69 :: 32 :: X ++ [75]) with ((68 :: 69 :: 32 :: X) ++ [75]) in Q.
    rewrite rev_app_distr in Q. discriminate.
  - pose proof (trim_exact U [] (join [32] (x :: R) ++ [32; 68; 69; 32] ++ X ++ [75]) []) as T.
    cbn [app] in T. rewrite app_nil_r in T. cbn [app]. rewrite T; [rewrite <- app_assoc; reflexivity|constructor|constructor|].
    intros [Q|Q].
    + assert (J : exists c r, join [32] (x :: R) = c :: r /\ call_char c).
      { inversion HR as [|? ? (N0 & C) _]; subst. destruct x as [|c x]; [congruence|]. inversion C; subst.
        exists c. destruct R; eexists; (split; [reflexivity|assumption]). }
      destruct J as (c & r & J & Hc). rewrite J in Q. cbn [app] in Q.
      rewrite (call_not_space U HK) in Q; [discriminate|]. apply call_c. exact Hc.
    + change (32 :: 68 :: 69 :: 32 :: X ++ [75]) with ((32 :: 68 :: 69 :: 32 :: X) ++ [75]) in Q.
      rewrite app_assoc, rev_app_distr in Q. discriminate.
Qed.

Variable dtg_string : Z -> list rune.
Variable wrap : list rune -> list rune.

Lemma traffic_form : forall lb gs m, 0 < gs -> mcipher m <> [] -> letters (mcipher m) -> len (mcipher m) mod gs = 0 ->
  letters (mkeyid m) -> len (mkeyid m) = gs ->
  Forall call_sign (mrecipients m) -> call_sign (mfrom m) ->
  (forall ws, Forall (fun w => letters w /\ len w = gs) ws -> fields U (wrap (join [32] ws)) = ws) ->
  exists gl count,
    traffic U dtg_string wrap lb gs m =
      Some (short_radiogram (mrecipients m) (mfrom m) (dtg_string (mdtg m)) count (join [32] (mkeyid m :: gl))) /\
    concat gl = mcipher m /\ gl <> [] /\ Forall (fun g => letters g /\ len g = gs) gl /\ decimal count (1 + len gl).
Proof.
  intros lb gs m Hg N L M KL KN HR HF HW.
  destruct (groups_of lb gs m Hg N L M) as (gl & G1 & G2 & G3 & G4).
  assert (GL : Forall letters gl) by (apply (group_letters gl _ G2 L)).
  assert (GA : Forall (fun w => letters w /\ len w = gs) (mkeyid m :: gl)).
  { constructor; [auto|]. apply Forall_forall. intros w Hw. rewrite Forall_forall in GL, G4. auto. }
  exists gl, (itoa (1 + len gl)). split; [|split; [exact G2|split; [exact G3|split; [inversion GA; assumption|]]]].
  2: { apply itoa_spec. unfold len. lia. }
  assert (K : with_key lb gs m = join [32] (mkeyid m :: gl)).
  { unfold with_key. rewrite G1. destruct gl as [|g gl]; [congruence|].
    replace (0 <? len (join [32] (g :: gl))) with true.
    - rewrite join_words_valid by exact GL. rewrite go_string_valid; [reflexivity|].
      eapply Forall_impl; [|exact KL]. intros c Hc. apply (case_letter U c c Hc). left. reflexivity.
    - symmetry. apply Z.ltb_lt. inversion G4 as [|? ? Lg _]; subst.
      assert (len g <= len (join [32] (g :: gl))); [|lia].
      destruct gl; [cbn [join]; lia|]. change (join [32] (g :: l :: gl)) with (g ++ [32] ++ join [32] (l :: gl)).
      rewrite len_app. unfold len. lia. }
  unfold traffic. rewrite K. cbv zeta. rewrite (HW _ GA).
  replace (0 <? len (wrap (join [32] (mkeyid m :: gl)))) with true.
  2: { symmetry. apply Z.ltb_lt. specialize (HW _ GA). destruct (wrap (join [32] (mkeyid m :: gl))) eqn:W; [discriminate|].
       unfold len. cbn [length]. lia. }
  f_equal. rewrite join_runes_call by exact HR.
  rewrite (go_string_valid (mfrom m)).
  2: { destruct HF as (_ & HF). eapply Forall_impl; [|exact HF]. intros c Hc.
       unfold call_char, is_letter, digit in Hc. unfold valid_rune. lia. }
  replace (len (mkeyid m :: gl)) with (1 + len gl) by (unfold len; cbn [length]; lia).
  apply trim_line. exact HR.
Qed.

Lemma letters_layout : forall s, letters s -> forall s2 t2, layout s2 t2 -> layout (s ++ s2) (s ++ t2).
Proof.
  induction 1 as [|c s Hc _ IH]; intros s2 t2 H; [exact H|]. cbn [app]. apply layout_letter; [exact Hc|auto|apply IH; exact H].
Qed.
Lemma join_layout : forall l, Forall letters l -> layout (join [32] l) (concat l).
Proof.
  induction l as [|w l IH]; intros H; [constructor|]. inversion H; subst. destruct l as [|v l].
  - cbn [join concat]. rewrite <- (app_nil_r w) at 1. apply letters_layout; [assumption|constructor].
  - change (join [32] (w :: v :: l)) with (w ++ 32 :: join [32] (v :: l)). cbn [concat].
    apply letters_layout; [assumption|]. apply layout_sep; [cbn; tauto|]. apply IH. assumption.
Qed.
Lemma join_hd_last : forall (x : list rune) l, x <> [] -> Forall (fun w => w <> []) l ->
  exists c r B e, join [32] (x :: l) = c :: r /\ In c x /\ join [32] (x :: l) = B ++ [e] /\
    In e (concat (x :: l)).
Proof.
  intros x l. revert x. induction l as [|v l IH]; intros x Nx H.
  - cbn [join concat]. rewrite app_nil_r. destruct (exists_last Nx) as (B & e & E). destruct x as [|c x]; [congruence|].
    exists c, x, B, e. split; [reflexivity|]. split; [left; reflexivity|]. split; [exact E|].
    rewrite E. apply in_app_iff. right. left. reflexivity.
  - inversion H as [|? ? Nv H']; subst. destruct (IH v Nv H') as (c & r & B & e & _ & _ & E & I).
    destruct x as [|c' x]; [congruence|].
    change (join [32] ((c' :: x) :: v :: l)) with ((c' :: x) ++ [32] ++ join [32] (v :: l)).
    exists c', (x ++ [32] ++ join [32] (v :: l)), ((c' :: x) ++ [32] ++ B), e.
    split; [reflexivity|]. split; [left; reflexivity|]. split; [rewrite E, <- !app_assoc; reflexivity|].
    change (concat ((c' :: x) :: v :: l)) with ((c' :: x) ++ concat (v :: l)). apply in_app_iff. right. exact I.
Qed.

Lemma c60_form_lemma_aux : forall lbk i m t i' m' t',
  0 < i_groupsize i -> store_ok (i_groupsize i) (i_keys i) ->
  mcipher m = [] \/ (mid m <> [] /\ (length (mcipher m) <= length t)%nat) ->
  encipher U i m t = (i', m', Ok tt, t') ->
  Forall call_sign (mrecipients m) -> call_sign (mfrom m) ->
  (forall ws, Forall (fun w => letters w /\ len w = i_groupsize i) ws ->
     fields U (wrap (join [32] ws)) = ws) ->
  exists groups count,
    traffic U dtg_string wrap lbk (i_groupsize i) m' =
      Some (short_radiogram (mrecipients m) (mfrom m) (dtg_string (mdtg m)) count (join [32] (mkeyid m' :: groups))) /\
    concat groups = mcipher m' /\ Forall (fun g => len g = i_groupsize i) groups /\
    decimal count (1 + len groups).
Proof.
  intros lb si m t si' m' t' Hg Hs Hc H HR HF HW.
  destruct (encipher_message U HU si m t si' m' t' Hg Hs Hc H) as
    (j & js & k & _ & _ & _ & A3 & A4 & _ & _ & _ & _ & _ & A10 & A11 & (B1 & B2 & B3 & B4 & B5 & B6)).
  destruct (c08_lemma U si m t si' m' t' HU Hg Hs Hc H) as (_ & CL & _).
  destruct (proj2 Hs k (nth_error_In _ _ A3)) as (KL1 & KL2 & _). rewrite <- A4 in KL1, KL2.
  rewrite <- B2 in HR |- *. rewrite <- B3 in HF |- *. rewrite <- B4.
  destruct (traffic_form lb (i_groupsize si) m' Hg A11 CL A10 KL1 KL2 HR HF HW) as (gl & count & T & G1 & G2 & G3 & G4).
  exists gl, count. split; [exact T|]. split; [exact G1|]. split; [|exact G4].
  eapply Forall_impl; [|exact G3]. intros g Q. apply Q.
Qed.

Variable lbr : list rune -> list rune.
Variable dp : list rune -> option Z.

(** A station that receives a radiogram in the short form. *)
Lemma parse_short : forall i raw now t R F D N c0 r0 B l id t1,
  Forall call_sign R -> call_sign F -> F <> [68; 69] -> dtg_text D ->
  Forall digit N -> N <> [] -> (length N <= 4)%nat ->
  c0 :: r0 = B ++ [l] -> is_space U c0 = false -> is_space U l = false -> l <> 43 -> l <> 61 ->
  Forall (fun c => c <> 10) (B ++ [l]) -> no_ee (B ++ [l]) ->
  lbr raw = short_radiogram R F D N (B ++ [l]) ->
  new_unique_message_id (i_messages i) t = Ok (id, t1) ->
  parse_radiogram U lbr dp i raw now t =
    match dp D with None => Err ErrDTG
    | Some w => Ok (mkMsg id R F w [] (B ++ [l]) [] [] (lbr raw), t1) end.
Proof.
  intros i raw now t R F D N c0 r0 B l id t1 H1 H2 H3 H4 H5 H6 H7 H8 H9 H10 H11 H12 H13 H14 Raw Id.
  unfold parse_radiogram. rewrite Id. cbn [bind].
  rewrite Raw, (short_split U HK R F D N c0 r0 B l) by assumption.
  destruct (dtg_hd D H4) as (c & r & -> & _). reflexivity.
Qed.

Lemma c44_lemma : forall lb si m t si' m' t' ri raw now tr id t1,
  0 < i_groupsize si -> i_groupsize ri = i_groupsize si ->
  store_ok (i_groupsize si) (i_keys si) -> store_ok (i_groupsize si) (i_keys ri) ->
  (forall k, In k (i_keys si) -> eligible (i_groupsize si) (mrecipients m) k \/ kid k = mkeyid m' ->
     holds (i_keys ri) k) ->
  mcipher m = [] \/ (mid m <> [] /\ (length (mcipher m) <= length t)%nat) ->
  encipher U si m t = (si', m', Ok tt, t') ->
  Forall call_sign (mrecipients m) -> call_sign (mfrom m) -> mfrom m <> [68; 69] ->
  dtg_text (dtg_string (mdtg m)) -> dp (dtg_string (mdtg m)) = Some (mdtg m) ->
  (forall ws, Forall (fun w => letters w /\ len w = i_groupsize si) ws -> fields U (wrap (join [32] ws)) = ws) ->
  len (mcipher m') / i_groupsize si < 9999 ->
  ~ same_text (to_upper U) (mfrom m) (i_callsign ri) ->
  traffic U dtg_string wrap lb (i_groupsize si) m' = Some (lbr raw) ->
  new_unique_message_id (i_messages ri) tr = Ok (id, t1) -> (length (lbr raw) <= length t1)%nat ->
  exists ri' m2 t2, new_text_message U lbr dp ri [raw] now tr = (ri', Ok (m2, t2)) /\
    mplain m2 = map canon (mplain m) /\ mfrom m2 = mfrom m /\ mdtg m2 = mdtg m /\
    mrecipients m2 = (match mrecipients m with [] => [i_callsign ri] | l => l end) /\
    mkeyid m2 = mkeyid m' /\ mcipher m2 = mcipher m'.
Proof.
  intros lb si m t si' m' t' ri raw now tr id t1 Hg Hgr Hs Hr Hh Hc H HR HF NF HD HD2 HW Hn My Tr Id Tape.
  destruct (encipher_message U HU si m t si' m' t' Hg Hs Hc H) as
    (j & js & k & _ & _ & _ & A3 & A4 & _ & _ & _ & _ & _ & A10 & A11 & (B1 & B2 & B3 & B4 & B5 & B6)).
  destruct (c08_lemma U si m t si' m' t' HU Hg Hs Hc H) as (_ & CL & _).
  destruct (proj2 Hs k (nth_error_In _ _ A3)) as (KL1 & KL2 & _). rewrite <- A4 in KL1, KL2.
  rewrite <- B2 in HR. rewrite <- B3 in HF. rewrite <- B4 in HD. rewrite <- B4 in HD2.
  destruct (traffic_form lb (i_groupsize si) m' Hg A11 CL A10 KL1 KL2 HR HF HW) as (gl & count & T & G1 & G2 & G3 & G4).
  assert (Tr' := eq_trans (eq_sym Tr) T). clear Tr. apply some_inj in Tr'. rename Tr' into Tr.
  assert (GL : Forall letters (mkeyid m' :: gl)).
  { constructor; [exact KL1|]. eapply Forall_impl; [|exact G3]. intros w Hw. apply Hw. }
  assert (NE : forall w : list rune, len w = i_groupsize si -> w <> []).
  { intros w Hw ->. unfold len in Hw. cbn in Hw. lia. }
  destruct (join_hd_last (mkeyid m') gl (NE _ KL2)) as (c0 & r0 & B & e & J1 & J2 & J3 & J4).
  { eapply Forall_impl; [|exact G3]. intros w Hw. apply NE, Hw. }
  assert (LC : letters (concat (mkeyid m' :: gl))).
  { cbn [concat]. rewrite G1. apply Forall_app. auto. }
  assert (JC : Forall (fun c => is_letter c \/ c = 32) (join [32] (mkeyid m' :: gl))).
  { clear -GL. induction GL as [|w l W GL IH]; [constructor|]. assert (W' : Forall (fun c => is_letter c \/ c = 32) w).
    { eapply Forall_impl; [|exact W]. auto. }
    destruct l as [|v l]; [exact W'|]. change (join [32] (w :: v :: l)) with (w ++ [32] ++ join [32] (v :: l)).
    apply Forall_app. split; [exact W'|]. constructor; [auto|exact IH]. }
  assert (Lc0 : is_letter c0). { unfold letters in KL1. rewrite Forall_forall in KL1. apply KL1. exact J2. }
  assert (Le : is_letter e). { unfold letters in LC. rewrite Forall_forall in LC. apply LC. exact J4. }
  rewrite J3 in JC.
  assert (CN : 1 + len gl <= 9999).
  { assert (Lg : len (mcipher m') = i_groupsize si * len gl).
    { rewrite <- G1. clear -G3. induction G3 as [|x gl (_ & Hx) _ IH]; [cbn; lia|]. cbn [concat]. rewrite len_app, IH, Hx.
      unfold len. cbn [length]. lia. }
    rewrite Lg, Z.mul_comm, Z.div_mul in Hn by lia. lia. }
  assert (C4 : (length count <= 4)%nat) by (apply (decimal_short count (1 + len gl) G4); unfold len in *; lia).
  destruct G4 as (D1 & D2 & _).
  assert (P : parse_radiogram U lbr dp ri raw now tr =
     Ok (mkMsg id (mrecipients m') (mfrom m') (mdtg m') [] (join [32] (mkeyid m' :: gl)) [] [] (lbr raw), t1)).
  { pose proof (parse_short ri raw now tr (mrecipients m') (mfrom m') (dtg_string (mdtg m')) count c0 r0 B e id t1) as P.
    rewrite HD2 in P. rewrite J3. apply P; try assumption.
    - rewrite B3. exact NF.
    - congruence.
    - apply letter_nospace. exact Lc0.
    - apply letter_nospace. exact Le.
    - unfold is_letter in Le. lia.
    - unfold is_letter in Le. lia.
    - eapply Forall_impl; [|exact JC]. intros c [Q| ->]; [unfold is_letter in Q; lia|lia].
    - intros x y Q. rewrite Q in JC. apply Forall_app in JC. destruct JC as (_ & JC). inversion JC as [|? ? Hx _]; subst.
      unfold is_letter in Hx. lia.
    - rewrite <- J3. exact Tr. }
  unfold new_text_message. rewrite P. cbn [mrecipients mfrom].
  assert (MC : is_my_call U ri (mkMsg id (mrecipients m') (mfrom m') (mdtg m') [] (join [32] (mkeyid m' :: gl)) [] [] (lbr raw)) = false).
  { apply not_true_is_false. rewrite my_call_spec. cbn [mfrom]. rewrite B3. exact My. }
  rewrite MC.
  pose (mr := if len (mrecipients m') =? 0
              then set_mrecipients (mkMsg id (mrecipients m') (mfrom m') (mdtg m') [] (join [32] (mkeyid m' :: gl)) [] [] (lbr raw))
                     (add_recipient U (mrecipients m') [i_callsign ri])
              else mkMsg id (mrecipients m') (mfrom m') (mdtg m') [] (join [32] (mkeyid m' :: gl)) [] [] (lbr raw)).
  assert (MR : mplain mr = join [32] (mkeyid m' :: gl) /\ mkeyid mr = [] /\ mid mr = id /\ mfrom mr = mfrom m' /\ mdtg mr = mdtg m' /\
     mrecipients mr = match mrecipients m' with [] => [i_callsign ri] | l => l end).
  { unfold mr. destruct (mrecipients m') as [|x R]; [repeat split; reflexivity|].
    replace (len (x :: R) =? 0) with false; [repeat split; reflexivity|]. unfold len. cbn [length]. lia. }
  destruct MR as (M1 & M2 & M3 & M4 & M5 & M6).
  fold mr.
  assert (Mid : mid mr <> []).
  { rewrite M3. destruct (new_message_id_ok _ _ _ _ Id) as (Q & _). intros E. rewrite E in Q. discriminate. }
  assert (Lay : layout (mplain mr) (mkeyid m' ++ mcipher m')).
  { rewrite M1, <- G1. exact (join_layout (mkeyid m' :: gl) GL). }
  assert (Tp : (length (mplain mr) <= length t1)%nat).
  { rewrite M1. rewrite Tr in Tape. unfold short_radiogram in Tape. rewrite !app_length in Tape. lia. }
  destruct (try_decipher_layout U HU si m t si' m' t' ri mr t1 Hg Hgr Hs Hr Hh Hc H Lay M2 Mid Tp)
    as (ri' & mr' & tr' & TD & TP & TK & TC).
  rewrite TD. exists (store_message ri' mr'), mr', tr'. split; [reflexivity|].
  destruct (try_frame U ri mr false t1 ri' mr' _ _ Mid ltac:(lia) TD) as (_ & _ & _ & _ & F1 & F2 & F3 & _).
  split; [exact TP|]. rewrite F1, F2, F3, M4, M5, M6, B2, B3, B4. auto.
Qed.
End U.

(** ** Pages *)
Section Pages.
Variable lb : list rune.
Variable line_count : list rune -> Z.
Variable maxRows : Z.
Variable extra : nat.
Notation rows1 t := (line_count t + Z.of_nat extra).
Definition render (p : list (list rune)) : list rune := page_text (concat (repeat lb extra)) p.
Definition rows (p : list (list rune)) : Z := page_rows line_count (Z.of_nat extra) p.
Lemma render_app : forall a b, render (a ++ b) = render a ++ render b.
Proof. intros. unfold render, page_text. rewrite map_app, concat_app. reflexivity. Qed.
Lemma rows_app : forall a b, rows (a ++ b) = rows a + rows b.
Proof. unfold rows, page_rows. induction a as [|x a IH]; intros b; cbn [app fold_right]; [lia|]. rewrite IH. lia. Qed.

Lemma pages_all : forall texts rc p0,
  exists ps, Forall2 (fun p out => out = render p \/ exists t, p = [t] /\ out = t /\ maxRows < rows1 t) ps
      (pages_loop lb line_count maxRows extra texts rc (render p0)) /\
    Permutation (concat ps) (p0 ++ texts).
Proof.
  induction texts as [|t texts IH]; intros rc p0; cbn [pages_loop]; cbv zeta.
  - exists [p0]. split; [constructor; [left; reflexivity|constructor]|]. cbn [concat]. reflexivity.
  - destruct (maxRows <? rows1 t) eqn:O.
    + destruct (IH 0 p0) as (ps & P1 & P2). exists ([t] :: ps). split.
      * constructor; [right; exists t; split; [reflexivity|split; [reflexivity|lia]]|exact P1].
      * cbn [concat app]. rewrite P2. apply Permutation_middle.
    + destruct (maxRows <? rc + rows1 t) eqn:O2.
      * destruct (IH (rows1 t) [t]) as (ps & P1 & P2). exists (p0 :: ps). split.
        -- constructor; [left; reflexivity|]. replace ([] ++ t ++ concat (repeat lb extra)) with (render [t]); [exact P1|].
           unfold render, page_text. cbn [map concat]. apply app_nil_r.
        -- cbn [concat]. rewrite P2. reflexivity.
      * destruct (IH (rc + rows1 t) (p0 ++ [t])) as (ps & P1 & P2). exists ps. split.
        -- replace (render p0 ++ t ++ concat (repeat lb extra)) with (render (p0 ++ [t])); [exact P1|].
           rewrite render_app. f_equal. unfold render, page_text. cbn [map concat]. apply app_nil_r.
        -- rewrite P2, <- app_assoc. reflexivity.
Qed.

Lemma pages_fit : forall texts p0, Forall (fun t => rows1 t <= maxRows) texts -> rows p0 <= maxRows ->
  (p0 = [] -> 0 <= maxRows) ->
  exists ps, pages_loop lb line_count maxRows extra texts (rows p0) (render p0) = map render ps /\
    concat ps = p0 ++ texts /\ Forall (fun p => rows p <= maxRows) ps /\
    (p0 <> [] \/ texts <> [] -> Forall (fun p => p <> []) ps).
Proof.
  induction texts as [|t texts IH]; intros p0 F R0 Z0; cbn [pages_loop]; cbv zeta.
  - exists [p0]. cbn [map concat]. rewrite !app_nil_r. repeat (split; [auto|]). intros [Q|Q]; [auto|congruence].
  - inversion F as [|? ? Ft F']; subst. replace (maxRows <? rows1 t) with false by lia.
    assert (R1 : rows [t] = rows1 t) by (unfold rows, page_rows; cbn [fold_right]; lia).
    destruct (maxRows <? rows p0 + rows1 t) eqn:O2.
    + destruct (IH [t] F' ltac:(lia) ltac:(discriminate)) as (ps & P1 & P2 & P3 & P4). exists (p0 :: ps).
      rewrite R1 in P1. replace (render [t]) with ([] ++ t ++ concat (repeat lb extra)) in P1.
      2: { unfold render, page_text. cbn [map concat app]. symmetry. apply app_nil_r. }
      rewrite P1. split; [reflexivity|]. split; [cbn [concat]; rewrite P2; reflexivity|]. split; [constructor; assumption|].
      intros _. constructor; [intros ->; unfold rows, page_rows in O2; cbn [fold_right] in O2; lia|]. apply P4. left. discriminate.
    + destruct (IH (p0 ++ [t]) F') as (ps & P1 & P2 & P3 & P4).
      { rewrite rows_app. lia. }
      { intros Q. destruct p0; discriminate. }
      exists ps. rewrite rows_app, R1, render_app in P1.
      replace (render [t]) with (t ++ concat (repeat lb extra)) in P1.
      2: { unfold render, page_text. cbn [map concat]. symmetry. apply app_nil_r. }
      rewrite P1. split; [reflexivity|]. split; [rewrite P2, <- app_assoc; reflexivity|]. split; [exact P3|].
      intros _. apply P4. left. destruct p0; discriminate.
Qed.

Lemma as_text_spec : forall A (text : A -> list rune) f xs,
  as_text lb text f xs = concat (map (fun x => text x ++ lb) (filter f xs)).
Proof.
  intros A text f xs. unfold as_text.
  assert (G : forall l acc, fold_left (fun out x => out ++ text x ++ lb) l acc = acc ++ concat (map (fun x => text x ++ lb) l)).
  { induction l as [|x l IH]; intros acc; cbn [fold_left map concat]; [rewrite app_nil_r; reflexivity|].
    rewrite IH, <- !app_assoc. reflexivity. }
  rewrite G. reflexivity.
Qed.
End Pages.

Lemma c60_form_lemma : forall U dtg wrap lbk, uni_kelvin U -> uni_ok U -> forall i m t i' m' t',
  0 < i_groupsize i -> store_ok (i_groupsize i) (i_keys i) ->
  mcipher m = [] \/ (mid m <> [] /\ (length (mcipher m) <= length t)%nat) ->
  encipher U i m t = (i', m', Ok tt, t') ->
  Forall call_sign (mrecipients m) -> call_sign (mfrom m) ->
  (forall ws, Forall (fun w => letters w /\ len w = i_groupsize i) ws ->
     fields U (wrap (join [32] ws)) = ws) ->
  exists groups count,
    traffic U dtg wrap lbk (i_groupsize i) m' =
      Some (short_radiogram (mrecipients m) (mfrom m) (dtg (mdtg m)) count (join [32] (mkeyid m' :: groups))) /\
    concat groups = mcipher m' /\ Forall (fun g => len g = i_groupsize i) groups /\
    decimal count (1 + len groups).
Proof. intros U dtg wrap lbk HK HU. exact (c60_form_lemma_aux U HK HU dtg wrap lbk). Qed.

Lemma c58_lemma : forall U lb dp, uni_kelvin U ->
  forall i raw now t to from d count text id t1,
  Forall call_sign to -> call_sign from -> from <> [68; 69] -> dtg_text d ->
  Forall digit count -> (1 <= length count <= 4)%nat ->
  (exists c r, text = c :: r /\ is_space U c = false) ->
  (exists r c, text = r ++ [c] /\ is_space U c = false /\ c <> 43 /\ c <> 61) ->
  ~ In 10 text -> (forall a b, text <> a ++ 61 :: 61 :: b) ->
  lb raw = short_radiogram to from d count text ->
  new_unique_message_id (i_messages i) t = Ok (id, t1) ->
  parse_radiogram U lb dp i raw now t =
    match dp d with
    | None => Err ErrDTG
    | Some w => Ok (mkMsg id to from w [] text [] [] (lb raw), t1)
    end.
Proof.
  intros U lb dp HK i raw now t to from d count text id t1 H1 H2 H3 H4 H5 (L1 & L2) (c0 & r0 & E0 & S0)
    (r & c & -> & S1 & N1 & N2) NL NE Raw Id.
  apply (parse_short U HK lb dp i raw now t to from d count c0 r0 r c id t1); auto.
  - intros ->. cbn in L1. lia.
  - apply Forall_forall. intros x Hx ->. exact (NL Hx).
Qed.

(** ** The coding legend *)
Notation column line n := (nth (4 + 2 * n) line 0).
Lemma below26 : forall (P : nat -> Prop), (forall n, In n (seq 0 26) -> P n) -> forall n, (n < 26)%nat -> P n.
Proof. intros P H n L. apply H. apply in_seq. lia. Qed.
Ltac each26 H := cbn [seq In] in H; repeat (destruct H as [<-|H]); [..|destruct H].

Lemma legend_lemma : forall n, (n < 26)%nat ->
  column legend_idx n = 65 + Z.of_nat n /\
  nth n table_primary 0 = (if existsb (fun p => fst p =? column legend_ct1 n) legend_signs
    then specialOpChar else column legend_ct1 n) /\
  nth n table_secondary 0 = (if existsb (fun p => fst p =? column legend_ct2 n) legend_signs
    then specialOpChar else column legend_ct2 n) /\
  (forall l, In (column legend_ct1 n, l) legend_signs -> l = 65 + Z.of_nat n) /\
  (forall l, In (column legend_ct2 n, l) legend_signs -> l = 65 + Z.of_nat n).
Proof.
  apply below26. intros n H. each26 H;
    (split; [reflexivity|split; [reflexivity|split; [reflexivity|split; intros l Q; vm_compute in Q |- *;
      repeat (destruct Q as [Q|Q]; [try discriminate; injection Q as <-; reflexivity|]); contradiction]]]).
Qed.

Lemma signs_lemma : forall sign l, In (sign, l) legend_signs ->
  (sign = 62 /\ forall sec sh s, read_part sec sh (l :: s) = read_part (negb sec) sh s) \/
  (sign = 8597 /\ forall sh s, read_part true sh (l :: s) = read_part true (negb sh) s) \/
  (sign = 8594 /\ forall sh s, read_part true sh (l :: s) = Some ([], Some s)) \/
  (sign = 164 /\ forall sh, read_part true sh [l] = Some ([], None)).
Proof.
  intros sign l H. unfold legend_signs in H. cbn [In] in H.
  destruct H as [H|[H|[H|[H|[]]]]]; injection H as <- <-.
  - left. split; [reflexivity|]. reflexivity.
  - right. right. right. split; [reflexivity|]. reflexivity.
  - right. left. split; [reflexivity|]. reflexivity.
  - right. right. left. split; [reflexivity|]. reflexivity.
Qed.

Lemma characters_lemma : forall n sh s, (n < 26)%nat ->
  (~ In (column legend_ct1 n) (map fst legend_signs) ->
   read_part false sh (65 + Z.of_nat n :: s) =
     match read_part false sh s with
     | Some (p, tl) => Some ((if sh then lower_case (column legend_ct1 n) else column legend_ct1 n) :: p, tl)
     | None => None end) /\
  (~ In (column legend_ct2 n) (map fst legend_signs) ->
   read_part true sh (65 + Z.of_nat n :: s) =
     match read_part true sh s with
     | Some (p, tl) => Some ((if sh then lower_case (column legend_ct2 n) else column legend_ct2 n) :: p, tl)
     | None => None end).
Proof.
  intros n sh s L. revert n L. apply below26. intros n H. each26 H;
    (split; intros N; [try reflexivity|try reflexivity]; exfalso; apply N; vm_compute; tauto).
Qed.

(** ** PDF output *)
Lemma once_lemma : forall lb lc mx extra texts,
  exists ps, Forall2 (fun p out => out = page_text (concat (repeat lb extra)) p \/ p = [out]) ps
      (pages_loop lb lc mx extra texts 0 []) /\ Permutation (concat ps) texts.
Proof.
  intros lb lc mx extra texts. destruct (pages_all lb lc mx extra texts 0 []) as (ps & P1 & P2).
  exists ps. split; [|exact P2]. unfold render at 2 in P1. cbn [page_text map concat] in P1.
  clear P2. induction P1 as [|p out ps l [Q|(t & -> & -> & _)] _ IH]; constructor; auto.
Qed.
Lemma concat5 : forall lb : list rune, concat (repeat lb 5) = lb ++ lb ++ lb ++ lb ++ lb.
Proof. intros lb. cbn [repeat concat]. rewrite app_nil_r. reflexivity. Qed.
Lemma concat2 : forall lb : list rune, concat (repeat lb 2) = lb ++ lb.
Proof. intros lb. cbn [repeat concat]. rewrite app_nil_r. reflexivity. Qed.

Lemma keys_once_lemma : forall lbk lines text f ks,
  exists ps, Forall2 (fun p out => out = page_text (lbk ++ lbk ++ lbk ++ lbk ++ lbk) p \/ p = [out])
      ps (keys_pdf lbk lines text f ks) /\
    Permutation (concat ps) (map text (filter f ks)).
Proof.
  intros lbk lines text f ks. unfold keys_pdf. cbv zeta. rewrite <- concat5.
  destruct (filter f ks) as [|k l]; [exists []; split; constructor|].
  replace (len (k :: l) =? 0) with false by (unfold len; cbn [length]; lia). apply once_lemma.
Qed.
Lemma messages_once_lemma : forall lbk lines text f ms,
  exists ps, Forall2 (fun p out => out = page_text (lbk ++ lbk) p \/ p = [out])
      ps (messages_pdf lbk lines text f ms) /\
    Permutation (concat ps) (map text (filter f ms)).
Proof.
  intros lbk lines text f ms. unfold messages_pdf. cbv zeta. rewrite <- concat2.
  destruct (filter f ms) as [|k l]; [exists []; split; constructor|].
  replace (len (k :: l) =? 0) with false by (unfold len; cbn [length]; lia). apply once_lemma.
Qed.
Lemma fit_lemma : forall lb lc mx extra texts, 0 <= mx -> texts <> [] ->
  Forall (fun t => lc t + Z.of_nat extra <= mx) texts ->
  exists ps, pages_loop lb lc mx extra texts 0 [] = map (page_text (concat (repeat lb extra))) ps /\
    concat ps = texts /\ Forall (fun p => page_rows lc (Z.of_nat extra) p <= mx /\ p <> []) ps.
Proof.
  intros lb lc mx extra texts M N F.
  destruct (pages_fit lb lc mx extra texts [] F M (fun _ => M)) as (ps & P1 & P2 & P3 & P4).
  exists ps. split; [exact P1|]. split; [exact P2|]. specialize (P4 (or_intror N)).
  rewrite Forall_forall in P3, P4 |- *. intros p Hp. split; [apply P3|apply P4]; exact Hp.
Qed.
Lemma keys_pages_lemma : forall lbk lines text f ks,
  (forall k, In k ks -> f k = true -> lines (text k) + 5 <= 87) ->
  exists ps, keys_pdf lbk lines text f ks = map (page_text (lbk ++ lbk ++ lbk ++ lbk ++ lbk)) ps /\
    concat ps = map text (filter f ks) /\
    Forall (fun p => page_rows lines 5 p <= 87 /\ p <> []) ps.
Proof.
  intros lbk lines text f ks H. unfold keys_pdf. cbv zeta. rewrite <- concat5.
  destruct (filter f ks) as [|k l] eqn:E; [exists []; repeat split; constructor|].
  replace (len (k :: l) =? 0) with false by (unfold len; cbn [length]; lia).
  apply fit_lemma; [lia|discriminate|]. rewrite <- E. apply Forall_forall. intros t Ht. apply in_map_iff in Ht.
  destruct Ht as (x & <- & Hx). apply filter_In in Hx. apply H; apply Hx.
Qed.
Lemma messages_pages_lemma : forall lbk lines text f ms,
  (forall m, In m ms -> f m = true -> lines (text m) + 2 <= 65) ->
  exists ps, messages_pdf lbk lines text f ms = map (page_text (lbk ++ lbk)) ps /\
    concat ps = map text (filter f ms) /\
    Forall (fun p => page_rows lines 2 p <= 65 /\ p <> []) ps.
Proof.
  intros lbk lines text f ks H. unfold messages_pdf. cbv zeta. rewrite <- concat2.
  destruct (filter f ks) as [|k l] eqn:E; [exists []; repeat split; constructor|].
  replace (len (k :: l) =? 0) with false by (unfold len; cbn [length]; lia).
  apply fit_lemma; [lia|discriminate|]. rewrite <- E. apply Forall_forall. intros t Ht. apply in_map_iff in Ht.
  destruct Ht as (x & <- & Hx). apply filter_In in Hx. apply H; apply Hx.
Qed.
Lemma as_text_lemma : forall (A : Type) lbk (text : A -> list rune) f xs,
  as_text lbk text f xs = page_text lbk (map text (filter f xs)).
Proof. intros A lbk text f xs. rewrite as_text_spec. unfold page_text. rewrite map_map. reflexivity. Qed.
