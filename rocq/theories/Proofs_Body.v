(** Lemmas behind C138: the body of a printed message. *)
From Verif Require Import Base Spec Spec_Body Model_Unicode Model_Crand Model_Functions Model_Types Model_Cipher
  Model_Messages Model_Print Model_Body Proofs_Functions Proofs_Traffic Proofs_Diana Proofs_Encipher Proofs_Decipher Proofs_Read Proofs_Cipher
  Proofs_Cipher2 Proofs_Print.

Lemma app_same_len : forall A (a b c d : list A), length a = length c -> a ++ b = c ++ d -> a = c /\ b = d.
Proof.
  intros A a. induction a as [|x a IH]; intros b [|y c] d L E; try discriminate; [auto|]. cbn [app length] in *.
  assert (x = y) by congruence. subst y. destruct (IH b c d) as (-> & ->); [lia|congruence|auto].
Qed.

Section U.
Context (U : Uni).
Lemma white_space : forall c, white c -> is_space U c = true.
Proof. intros c H. unfold white in H. cbn [In] in H. decompose [or] H; subst; try reflexivity; contradiction. Qed.
Lemma fields_skip : forall sep s, Forall white sep -> fields U (sep ++ s) = fields U s.
Proof.
  intros sep s H. induction H as [|c sep C _ IH]; [reflexivity|]. cbn [app]. rewrite <- IH. unfold fields, fields_func.
  cbn [fields_func_aux]. rewrite (white_space c C). reflexivity.
Qed.
Lemma broken_fields : forall ws s, broken ws s -> Forall (fun w => w <> [] /\ letters w) ws -> fields U s = ws.
Proof.
  intros ws s B. induction B as [|w|w ws sep s N SN SW B IH]; intros F.
  - reflexivity.
  - pose proof (fields_words U [w] F) as X. exact X.
  - inversion F as [|? ? (Nw & Lw) F']; subst. destruct sep as [|c sep]; [congruence|]. inversion SW as [|? ? C SW']; subst.
    assert (W : forall x, In x w -> is_space U x = false).
    { intros x Hx. apply letter_nospace. unfold letters in Lw. rewrite Forall_forall in Lw. apply Lw. exact Hx. }
    cbn [app]. unfold fields, fields_func. rewrite fields_aux_app by (apply white_space; exact C).
    rewrite fields_aux_nosep by exact W. cbn [rev app].
    change (fields_func_aux (is_space U) (sep ++ s) []) with (fields U (sep ++ s)). rewrite fields_skip, IH by assumption.
    destruct w; [congruence|reflexivity].
Qed.
Lemma broken_layout : forall ws s, broken ws s -> Forall letters ws -> layout s (concat ws).
Proof.
  intros ws s B. induction B as [|w|w ws sep s N SN SW B IH]; intros F.
  - constructor.
  - inversion F; subst. cbn [concat]. rewrite <- (app_nil_r w) at 1. apply letters_layout; [assumption|constructor].
  - inversion F; subst. cbn [concat]. apply letters_layout; [assumption|]. specialize (IH H2). clear - SW IH.
    induction SW as [|c sep C _ IHs]; [exact IH|]. cbn [app]. apply layout_sep; [|exact IHs]. unfold white in C. cbn [In] in *. tauto.
Qed.

Lemma with_key_form : forall lb gs m, 0 < gs -> mcipher m <> [] -> letters (mcipher m) -> len (mcipher m) mod gs = 0 ->
  letters (mkeyid m) -> len (mkeyid m) = gs ->
  exists gl, with_key lb gs m = join [32] (mkeyid m :: gl) /\ concat gl = mcipher m /\ gl <> [] /\
    Forall (fun g => letters g /\ len g = gs) gl.
Proof.
  intros lb gs m Hg N L M KL KN. destruct (groups_of lb gs m Hg N L M) as (gl & G1 & G2 & G3 & G4).
  assert (GL : Forall letters gl) by (apply (group_letters gl _ G2 L)).
  exists gl. split; [|split; [exact G2|split; [exact G3|]]].
  - unfold with_key. rewrite G1. destruct gl as [|g gl]; [congruence|].
    replace (0 <? len (join [32] (g :: gl))) with true.
    + rewrite (join_words_valid U) by exact GL. rewrite go_string_valid; [reflexivity|].
      eapply Forall_impl; [|exact KL]. intros c Hc. apply (case_letter U c c Hc). left. reflexivity.
    + symmetry. apply Z.ltb_lt. inversion G4 as [|? ? Lg _]; subst.
      assert (len g <= len (join [32] (g :: gl))); [|lia].
      destruct gl; [cbn [join]; lia|]. change (join [32] (g :: l :: gl)) with (g ++ [32] ++ join [32] (l :: gl)).
      rewrite len_app. unfold len. lia.
  - apply Forall_forall. intros w Hw. rewrite Forall_forall in GL, G4. auto.
Qed.

Context (HK : uni_kelvin U) (HU : uni_ok U).
Context (dtg : Z -> list rune) (wrap unbreak : list rune -> list rune) (lb : list rune) (head : msg -> list rune).
Definition text_part (m : msg) : list rune := part lb TEXT (wrap (unbreak (go_string (mplain m)))).
Lemma text_part_eq : forall m,
  (if 0 <? len (wrap (unbreak (go_string (mplain m)))) then w_text ++ lb ++ wrap (unbreak (go_string (mplain m))) ++ lb else []) = text_part m.
Proof.
  intros m. unfold text_part, part. destruct (wrap (unbreak (go_string (mplain m)))) as [|c r]; [reflexivity|].
  replace (0 <? len (c :: r)) with true by (unfold len; cbn [length]; lia). reflexivity.
Qed.
Lemma sent_lemma : forall i m t i' m' t',
  0 < i_groupsize i -> store_ok (i_groupsize i) (i_keys i) ->
  mcipher m = [] \/ (mid m <> [] /\ (length (mcipher m) <= length t)%nat) ->
  encipher U i m t = (i', m', Ok tt, t') ->
  Forall call_sign (mrecipients m) -> call_sign (mfrom m) -> wraps_groups (i_groupsize i) wrap ->
  exists groups count cipher, message_string U dtg wrap unbreak lb head (i_groupsize i) m' =
      head m' ++ text_part m' ++ section lb CIPHER cipher ++
      section lb TRAFFIC_EXAMPLE (wrap (short_radiogram (mrecipients m) (mfrom m) (dtg (mdtg m)) count (join [32] (mkeyid m' :: groups)))) /\
    broken (mkeyid m' :: groups) cipher /\ layout cipher (mkeyid m' ++ mcipher m') /\
    concat groups = mcipher m' /\ Forall (fun g => len g = i_groupsize i) groups /\ decimal count (1 + len groups).
Proof.
  intros i m t i' m' t' Hg Hs Hc H HR HF HW.
  destruct (encipher_message U HU i m t i' m' t' Hg Hs Hc H) as
    (j & js & k & _ & _ & _ & A3 & A4 & _ & _ & _ & _ & _ & A10 & A11 & (B1 & B2 & B3 & B4 & B5 & B6)).
  destruct (c08_lemma U i m t i' m' t' HU Hg Hs Hc H) as (_ & CL & _).
  destruct (proj2 Hs k (nth_error_In _ _ A3)) as (KL1 & KL2 & _). rewrite <- A4 in KL1, KL2.
  rewrite <- B2 in HR |- *. rewrite <- B3 in HF |- *. rewrite <- B4.
  assert (HW' : forall ws, Forall (fun w => letters w /\ len w = i_groupsize i) ws -> fields U (wrap (join [32] ws)) = ws).
  { intros ws F. apply broken_fields; [apply HW; exact F|]. eapply Forall_impl; [|exact F]. intros w (L & E). split; [|exact L].
    intros ->. cbn in E. lia. }
  destruct (with_key_form lb (i_groupsize i) m' Hg A11 CL A10 KL1 KL2) as (gl & W1 & W2 & W3 & W4).
  destruct (traffic_form U HK dtg wrap lb (i_groupsize i) m' Hg A11 CL A10 KL1 KL2 HR HF HW') as (gl' & count & T & G1 & G2 & G3 & G4).
  assert (GE : gl' = gl).
  { destruct (groups_of lb (i_groupsize i) m' Hg A11 CL A10) as (g0 & X1 & X2 & X3 & X4).
    assert (UQ : forall a b : list (list rune), concat a = concat b -> Forall (fun g => letters g /\ len g = i_groupsize i) a ->
      Forall (fun g => letters g /\ len g = i_groupsize i) b -> a = b).
    { clear - Hg. induction a as [|x a IH]; intros [|y b] E FA FB.
      - reflexivity.
      - exfalso. inversion FB as [|? ? (_ & L) _]; subst. cbn [concat] in E. destruct y; [cbn in L; lia|discriminate E].
      - exfalso. inversion FA as [|? ? (_ & L) _]; subst. cbn [concat] in E. destruct x; [cbn in L; lia|discriminate E].
      - inversion FA as [|? ? (_ & L1) FA']; inversion FB as [|? ? (_ & L2) FB']; subst. cbn [concat] in E.
        assert (E1 : x = y /\ concat a = concat b).
        { apply app_same_len; [|exact E]. unfold len in *. lia. }
        destruct E1 as (-> & E1). f_equal. apply IH; assumption. }
    apply UQ; [congruence|exact G3|exact W4]. }
  subst gl'. exists gl, count, (wrap (with_key lb (i_groupsize i) m')).
  assert (ALL : Forall (fun w => letters w /\ len w = i_groupsize i) (mkeyid m' :: gl)) by (constructor; [split; assumption|exact W4]).
  split; [|split; [|split; [|split; [exact W2|split; [|exact G4]]]]].
  - unfold message_string. cbv zeta. rewrite T, text_part_eq. unfold section, title, TEXT, CIPHER, TRAFFIC_EXAMPLE, w_cipher, w_traffic.
    rewrite <- !app_assoc. reflexivity.
  - rewrite W1. apply HW. exact ALL.
  - rewrite W1. rewrite <- W2. change (mkeyid m' ++ concat gl) with (concat (mkeyid m' :: gl)). apply broken_layout; [apply HW; exact ALL|].
    eapply Forall_impl; [|exact ALL]. intros g Q. apply Q.
  - eapply Forall_impl; [|exact W4]. intros g Q. apply Q.
Qed.
Lemma unsent_lemma : forall gs m, 0 < gs -> mcipher m = [] -> wrap [] = [] ->
  message_string U dtg wrap unbreak lb head gs m = head m ++ text_part m.
Proof.
  intros gs m Hg C W. unfold message_string. cbv zeta. rewrite text_part_eq.
  assert (K : with_key lb gs m = []).
  { unfold with_key, message_groups. rewrite C. unfold groups. replace (gs <=? 0) with false by lia. reflexivity. }
  unfold traffic. rewrite K, W. reflexivity.
Qed.
Lemma read_lemma : forall i m t i' m' t',
  0 < i_groupsize i -> store_ok (i_groupsize i) (i_keys i) ->
  mcipher m = [] \/ (mid m <> [] /\ (length (mcipher m) <= length t)%nat) ->
  encipher U i m t = (i', m', Ok tt, t') ->
  Forall call_sign (mrecipients m) -> call_sign (mfrom m) -> wraps_groups (i_groupsize i) wrap ->
  exists cipher rest, message_string U dtg wrap unbreak lb head (i_groupsize i) m' =
      head m' ++ part lb TEXT (wrap (unbreak (go_string (mplain m)))) ++ section lb CIPHER cipher ++ rest /\
    layout cipher (mkeyid m' ++ mcipher m') /\
    forall ri mr tr, i_groupsize ri = i_groupsize i -> store_ok (i_groupsize i) (i_keys ri) ->
     (forall k, In k (i_keys i) -> eligible (i_groupsize i) (mrecipients m) k \/ kid k = mkeyid m' -> holds (i_keys ri) k) ->
     mplain mr = cipher -> mkeyid mr = [] -> mid mr <> [] -> (length (mplain mr) <= length tr)%nat ->
     exists ri' mr' tr', try_decipher U ri mr false tr = (ri', mr', Ok tt, tr') /\
       mplain mr' = map canon (mplain m) /\ mkeyid mr' = mkeyid m' /\ mcipher mr' = mcipher m'.
Proof.
  intros i m t i' m' t' Hg Hs Hc H HR HF HW.
  destruct (encipher_message U HU i m t i' m' t' Hg Hs Hc H) as
    (j & js & k & _ & _ & _ & _ & _ & _ & _ & _ & _ & _ & _ & _ & (B1 & B2 & B3 & B4 & B5 & B6)).
  destruct (sent_lemma i m t i' m' t' Hg Hs Hc H HR HF HW) as (gl & count & cipher & E & _ & Y & _).
  exists cipher. eexists. split; [rewrite E; unfold text_part; rewrite B1; reflexivity|]. split; [exact Y|].
  intros ri mr tr Hr Hs2 Hh Q1 Q2 Q3 Q4. apply (try_decipher_layout U HU i m t i' m' t' ri mr tr Hg Hr Hs Hs2 Hh Hc H); try assumption.
  rewrite Q1. exact Y.
Qed.
End U.
