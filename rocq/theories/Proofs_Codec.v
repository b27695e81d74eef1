(** Lemmas about the encoder and decoder (cipher.go:13-382). *)
From Verif Require Import Base Spec Model_Unicode Model_Codec.

Section WithU.
Context (U : Uni) (HU : uni_ok U).

(** States in which characters are encoded: two tables, no binary mode. *)
Definition st_ok (st : codec_state) : Prop :=
  (cs_table st = 0 \/ cs_table st = 1) /\ cs_numberOfTables st = 2 /\ cs_binary st = false.

(** Decoder states outside a key change. *)
Definition dst_ok (st : codec_state) : Prop :=
  st_ok st /\ cs_gotChangeKeyChar st = false /\ cs_keyChange st = false.

(** Same table and case. *)
Definition sim (st dst : codec_state) : Prop :=
  cs_table st = cs_table dst /\ cs_shift st = cs_shift dst.

Lemma new_state_ok : dst_ok new_state.
Proof. unfold dst_ok, st_ok. cbn. auto. Qed.

Lemma reset_new : forall st, cs_reset st = new_state.
Proof. reflexivity. Qed.

(** *** goto_table *)
Definition goto_word (t0 t : Z) : list rune := if t0 =? t then [] else [90].

Lemma goto_table_spec : forall st t o, st_ok st -> t = 0 \/ t = 1 ->
  exists st', goto_table st t (Some o) = Ok (st', Some (o ++ goto_word (cs_table st) t))
    /\ st_ok st' /\ cs_table st' = t /\ cs_shift st' = cs_shift st
    /\ cs_charCounter st' = cs_charCounter st + len (goto_word (cs_table st) t)
    /\ (cs_gotChangeKeyChar st' = cs_gotChangeKeyChar st /\ cs_keyChange st' = cs_keyChange st).
Proof.
  intros [ki tb nt cc g kc sh bi ln] t o ([Ht|Ht] & Hn & Hb) H;
  cbn in Ht, Hn, Hb; subst tb nt bi; destruct H; subst t;
  (eexists; split; [cbn; unfold goto_word; cbn; rewrite ?app_nil_r; reflexivity|]);
  unfold st_ok, goto_word; cbn; repeat split; auto; lia.
Qed.

(** *** find_char *)
Lemma find_col_spec : forall t c i j, find_col t c i = Some j ->
  i <= j < i + len t /\ nth_error t (Z.to_nat (j - i)) = Some c /\ c <> specialOpChar.
Proof.
  induction t as [|tc t IH]; intros c i j H; [discriminate|].
  cbn [find_col] in H. unfold len in *. cbn [length].
  destruct (tc =? specialOpChar) eqn:E1.
  - apply IH in H. destruct H as (H1 & H2 & H3). split; [lia|]. split; [|assumption].
    replace (Z.to_nat (j - i)) with (S (Z.to_nat (j - (i + 1)))) by lia. exact H2.
  - destruct (c =? tc) eqn:E2.
    + injection H as <-. split; [lia|]. replace (Z.to_nat (i - i)) with 0%nat by lia.
      split; [cbn; f_equal; lia|]. intros ->. lia.
    + apply IH in H. destruct H as (H1 & H2 & H3). split; [lia|]. split; [|assumption].
      replace (Z.to_nat (j - i)) with (S (Z.to_nat (j - (i + 1)))) by lia. exact H2.
Qed.

Lemma find_char_cons : forall tab ts c t, find_char (tab :: ts) c t =
  match find_col tab c 0 with Some i => Some (t, i) | None => find_char ts c (t + 1) end.
Proof. reflexivity. Qed.

Lemma find_char_spec : forall c t i, find_char character_tables c 0 = Some (t, i) ->
  (t = 0 \/ t = 1) /\ 0 <= i < 26 /\ c <> specialOpChar /\
  exists tab, nth_error character_tables (Z.to_nat t) = Some tab /\
    nth_error tab (Z.to_nat i) = Some c.
Proof.
  intros c t i H. unfold character_tables in *. rewrite !find_char_cons in H.
  destruct (find_col table_primary c 0) as [j|] eqn:E1.
  - injection H as <- <-. apply find_col_spec in E1. destruct E1 as (E1 & E2 & E3).
    assert (L : len table_primary = 26) by (vm_compute; reflexivity). rewrite L in E1.
    split; [auto|]. split; [lia|]. split; [assumption|].
    exists table_primary. split; [reflexivity|]. rewrite Z.sub_0_r in E2. exact E2.
  - destruct (find_col table_secondary c 0) as [j|] eqn:E2; [|discriminate].
    injection H as <- <-. apply find_col_spec in E2. destruct E2 as (E2 & E3 & E4).
    assert (L : len table_secondary = 26) by (vm_compute; reflexivity). rewrite L in E2.
    split; [auto|]. split; [lia|]. split; [assumption|].
    exists table_secondary. split; [reflexivity|]. rewrite Z.sub_0_r in E3. exact E3.
Qed.

Definition all_table_chars : list rune :=
  [65;66;67;68;69;70;71;72;73;74;75;76;77;78;79;80;81;82;83;84;85;86;87;88;89;90;
   48;49;50;51;52;53;54;55;56;57; 32; 63; 45; 197; 196; 214; 46; 44; 58; 43; 47].

Lemma find_char_table : forall c t i, find_char character_tables c 0 = Some (t, i) ->
  In c all_table_chars.
Proof.
  intros c t i H. apply find_char_spec in H.
  destruct H as (Ht & Hi & Hn & tab & H1 & H2).
  assert (G : forallb (fun x => (x =? 164) || existsb (Z.eqb x) all_table_chars)
                (table_primary ++ table_secondary) = true) by (vm_compute; reflexivity).
  rewrite forallb_forall in G.
  assert (Hin : In c (table_primary ++ table_secondary)).
  { apply nth_error_In in H2. apply in_app_iff.
    destruct Ht; subst t; cbn in H1; injection H1 as <-; auto. }
  specialize (G c Hin). unfold specialOpChar in Hn.
  apply orb_true_iff in G. destruct G as [G|G]; [lia|].
  apply existsb_exists in G. destruct G as (y & G1 & G2).
  apply Z.eqb_eq in G2. subst y. exact G1.
Qed.

(** Finite check over Latin-1. *)
Lemma latin1_fin : forall P : Z -> bool, forallb P (map Z.of_nat (seq 0 256)) = true ->
  forall c, in_latin1 c = true -> P c = true.
Proof.
  intros P H c D. rewrite forallb_forall in H. apply H.
  apply in_map_iff. exists (Z.to_nat c). unfold in_latin1 in D. rewrite in_seq. split; lia.
Qed.

Definition table_charb (c : rune) : bool :=
  ((65 <=? c) && (c <=? 90)) || ((48 <=? c) && (c <=? 57)) ||
  existsb (Z.eqb c) [32; 63; 45; 197; 196; 214; 46; 44; 58; 43; 47].
Definition lower_charb (c : rune) : bool :=
  ((97 <=? c) && (c <=? 122)) || existsb (Z.eqb c) [229; 228; 246].

Lemma existsb_In : forall (c : Z) l, existsb (Z.eqb c) l = true <-> In c l.
Proof.
  intros c l. rewrite existsb_exists. split.
  - intros (x & H1 & H2). apply Z.eqb_eq in H2. subst x. exact H1.
  - intros H. exists c. split; [exact H|apply Z.eqb_refl].
Qed.

Lemma table_charb_ok : forall c, table_charb c = true <-> table_char c.
Proof.
  intros c. unfold table_charb, table_char. rewrite !orb_true_iff, !andb_true_iff, existsb_In.
  rewrite !Z.leb_le. tauto.
Qed.
Lemma lower_charb_ok : forall c, lower_charb c = true <-> lower_char c.
Proof.
  intros c. unfold lower_charb, lower_char. rewrite !orb_true_iff, !andb_true_iff, existsb_In.
  rewrite !Z.leb_le. tauto.
Qed.

Definition acceptedb (c : rune) : bool :=
  table_charb c || lower_charb c || (c =? 305) || (c =? 383).
Lemma acceptedb_ok : forall c, acceptedb c = true <-> accepted c.
Proof.
  intros c. unfold acceptedb, accepted, supported.
  rewrite !orb_true_iff, table_charb_ok, lower_charb_ok, !Z.eqb_eq. tauto.
Qed.

Lemma table_charb_latin1 : forall c, table_charb c = true -> in_latin1 c = true.
Proof.
  intros c H. apply table_charb_ok in H. unfold table_char in H. cbn [In] in H.
  unfold in_latin1. lia.
Qed.
Lemma acceptedb_latin1 : forall c, acceptedb c = true -> in_latin1 c = true \/ c = 305 \/ c = 383.
Proof.
  intros c H. apply acceptedb_ok in H. unfold accepted, supported, table_char, lower_char in H.
  cbn [In] in H. unfold in_latin1. lia.
Qed.

Lemma table_char_all : forall c, table_char c <-> In c all_table_chars.
Proof.
  intros c. rewrite <- table_charb_ok, <- existsb_In.
  assert (G : forallb (fun c => Bool.eqb (table_charb c) (existsb (Z.eqb c) all_table_chars))
    (map Z.of_nat (seq 0 256)) = true) by (vm_compute; reflexivity).
  split; intros H.
  - pose proof (latin1_fin _ G c (table_charb_latin1 c H)) as E. cbn beta in E.
    apply Bool.eqb_prop in E. congruence.
  - assert (L : in_latin1 c = true).
    { assert (G2 : forallb in_latin1 all_table_chars = true) by (vm_compute; reflexivity).
      rewrite forallb_forall in G2. apply G2. apply existsb_In. exact H. }
    pose proof (latin1_fin _ G c L) as E. cbn beta in E. apply Bool.eqb_prop in E. congruence.
Qed.

(** On Latin-1 (and the two special runes) the oracle plays no role. *)
Lemma upper_id : forall c, in_latin1 c = true \/ c = 305 \/ c = 383 ->
  to_upper U c = to_upper uni_id c /\ to_lower U c = to_lower uni_id c /\
  is_upper U c = is_upper uni_id c /\ is_lower U c = is_lower uni_id c /\
  is_space U c = is_space uni_id c.
Proof.
  intros c [H|[->| ->]]; [|cbn; auto 10|cbn; auto 10].
  unfold to_upper, to_lower, is_upper, is_lower, is_space. rewrite H. auto 10.
Qed.

Lemma find_char_some : forall c, In c all_table_chars ->
  exists t i, find_char character_tables c 0 = Some (t, i).
Proof.
  assert (G : forallb (fun c => match find_char character_tables c 0 with
    Some _ => true | None => false end) all_table_chars = true) by (vm_compute; reflexivity).
  intros c Hc. rewrite forallb_forall in G. specialize (G c Hc).
  destruct (find_char character_tables c 0) as [[t i]|]; [eauto|discriminate].
Qed.

(** The accepted characters are exactly those whose upper case is in a table. *)
Lemma accepted_upper : forall c, accepted c <-> In (to_upper U c) all_table_chars.
Proof.
  intros c. rewrite <- table_char_all, <- table_charb_ok, <- acceptedb_ok.
  assert (G : forallb (fun c => Bool.eqb (acceptedb c) (table_charb (to_upper uni_id c)))
    (map Z.of_nat (seq 0 256)) = true) by (vm_compute; reflexivity).
  destruct (in_latin1 c) eqn:L.
  - rewrite (proj1 (upper_id c (or_introl L))).
    pose proof (latin1_fin _ G c L) as E. cbn beta in E. apply Bool.eqb_prop in E.
    rewrite E. tauto.
  - destruct (Z.eq_dec c 305) as [->|N1]; [cbn; tauto|].
    destruct (Z.eq_dec c 383) as [->|N2]; [cbn; tauto|].
    split; intros H.
    + apply acceptedb_latin1 in H. destruct H as [H|[H|H]]; congruence.
    + apply table_charb_latin1 in H. unfold to_upper in H. rewrite L in H.
      replace (c =? 305) with false in H by lia. replace (c =? 383) with false in H by lia.
      rewrite HU in H by (assumption || lia). discriminate.
Qed.

(** *** The words the encoder writes *)
Definition need_case (sh : bool) (c : rune) : bool :=
  (is_upper U c && sh) || (is_lower U c && negb sh).

Definition char_word (t0 : Z) (sh : bool) (c : rune) (t i : Z) : list rune :=
  (if need_case sh c then goto_word t0 1 ++ [88] ++ goto_word 1 t
   else goto_word t0 t) ++ [i + 65].

Lemma encode_character_spec : forall st c o, st_ok st ->
  match find_char character_tables (to_upper U c) 0 with
  | None => encode_character U st c (Some o) = Panic
  | Some (t, i) =>
      exists st', encode_character U st c (Some o) =
          Ok (st', Some (o ++ char_word (cs_table st) (cs_shift st) c t i))
        /\ st_ok st' /\ cs_table st' = t
        /\ cs_shift st' = xorb (need_case (cs_shift st) c) (cs_shift st)
        /\ cs_charCounter st' =
             cs_charCounter st + len (char_word (cs_table st) (cs_shift st) c t i)
  end.
Proof.
  intros st c o Hst. unfold encode_character.
  assert (Hb : cs_binary st = false) by apply Hst. rewrite Hb.
  fold (need_case (cs_shift st) c).
  destruct (find_char character_tables (to_upper U c) 0) as [[t i]|] eqn:F.
  - destruct (find_char_spec _ _ _ F) as (Ht & Hi & _ & _).
    unfold char_word. destruct (need_case (cs_shift st) c) eqn:N.
    + unfold toggle_case. cbn [out_nil].
      destruct (goto_table_spec st secondaryTable o Hst (or_intror eq_refl))
        as (s1 & G1 & G2 & G3 & G4 & G5 & G6).
      rewrite G1. cbn [bind].
      set (s2 := set_shift (add_count s1 1) (negb (cs_shift (add_count s1 1)))).
      assert (Hs2 : st_ok s2).
      { destruct G2 as (Q1 & Q2 & Q3). unfold s2, st_ok. cbn. auto. }
      cbn [out_app]. unfold caseToggleChar.
      destruct (goto_table_spec s2 t ((o ++ goto_word (cs_table st) secondaryTable) ++ [88]) Hs2 Ht)
        as (s3 & K1 & K2 & K3 & K4 & K5 & K6).
      rewrite K1. cbn [bind out_app].
      assert (T2 : cs_table s2 = 1) by exact G3.
      rewrite T2. eexists. split.
      { rewrite <- !app_assoc. reflexivity. }
      split. { destruct K2 as (Q1 & Q2 & Q3). unfold st_ok. cbn. auto. }
      split; [exact K3|]. split.
      { cbn. rewrite K4. unfold s2. cbn. rewrite G4. destruct (cs_shift st); reflexivity. }
      { cbn. rewrite K5, T2. unfold s2. cbn. rewrite G5.
        unfold len. rewrite !app_length. cbn [length]. unfold secondaryTable. clear. lia. }
    + cbn [bind].
      destruct (goto_table_spec st t o Hst Ht) as (s3 & K1 & K2 & K3 & K4 & K5 & K6).
      rewrite K1. cbn [bind out_app]. eexists. split.
      { rewrite <- !app_assoc. reflexivity. }
      split. { destruct K2 as (Q1 & Q2 & Q3). unfold st_ok. cbn. auto. }
      split; [exact K3|]. split.
      { cbn. rewrite K4. destruct (cs_shift st); reflexivity. }
      { cbn. rewrite K5. unfold len. rewrite !app_length. cbn [length]. clear. lia. }
  - destruct (need_case (cs_shift st) c) eqn:N; [|reflexivity].
    unfold toggle_case. cbn [out_nil].
    destruct (goto_table_spec st secondaryTable o Hst (or_intror eq_refl))
        as (s1 & G1 & G2 & G3 & G4 & G5 & G6).
    rewrite G1. reflexivity.
Qed.

Lemma goto_word_len : forall a b, 0 <= len (goto_word a b) <= 1.
Proof. intros a b. unfold goto_word. destruct (a =? b); cbn; lia. Qed.

Lemma char_word_len : forall t0 sh c t i, 1 <= len (char_word t0 sh c t i) <= 4.
Proof.
  intros. unfold char_word.
  pose proof (goto_word_len t0 1). pose proof (goto_word_len 1 t). pose proof (goto_word_len t0 t).
  unfold len in *. destruct (need_case sh c); rewrite !app_length; cbn [length]; lia.
Qed.

Lemma goto_word_letters : forall a b, letters (goto_word a b).
Proof. intros a b. unfold goto_word. destruct (a =? b); repeat constructor; unfold is_letter; lia. Qed.

Lemma letters_app : forall a b, letters (a ++ b) <-> letters a /\ letters b.
Proof. intros. apply Forall_app. Qed.

Lemma char_word_letters : forall t0 sh c t i, 0 <= i < 26 -> letters (char_word t0 sh c t i).
Proof.
  intros. unfold char_word. apply letters_app. split.
  - destruct (need_case sh c).
    + apply letters_app. split; [apply goto_word_letters|]. apply letters_app.
      split; [|apply goto_word_letters]. repeat constructor; unfold is_letter; lia.
    + apply goto_word_letters.
  - repeat constructor; unfold is_letter; lia.
Qed.

(** *** Decoding a word without key change *)
Fixpoint decode_list (st : codec_state) (w out : list rune) : option (codec_state * list rune) :=
  match w with
  | [] => Some (st, out)
  | c :: w' =>
      match decode_character U st c out with
      | Ok (st1, out1) => if cs_keyChange st1 then None else decode_list st1 w' out1
      | _ => None
      end
  end.

Lemma decode_list_app : forall w1 w2 st out,
  decode_list st (w1 ++ w2) out =
  match decode_list st w1 out with
  | Some (st1, out1) => decode_list st1 w2 out1
  | None => None
  end.
Proof.
  induction w1 as [|c w1 IH]; intros w2 st out; [reflexivity|].
  cbn [app decode_list].
  destruct (decode_character U st c out) as [[st1 out1]| | |]; try reflexivity.
  destruct (cs_keyChange st1); [reflexivity|]. apply IH.
Qed.

(** Decoding 'Z' switches the table. *)
Lemma decode_z : forall st out, dst_ok st ->
  exists st', decode_character U st 90 out = Ok (st', out) /\ dst_ok st' /\
    cs_table st' = 1 - cs_table st /\ cs_shift st' = cs_shift st.
Proof.
  intros [ki tb nt cc g kc sh bi ln] out (([Ht|Ht] & Hn & Hb) & Hg & Hk);
  cbn in Ht, Hn, Hb, Hg, Hk; subst tb nt bi g kc;
  (eexists; split; [reflexivity|]; unfold dst_ok, st_ok; cbn; auto 10).
Qed.

Lemma decode_goto : forall st t out, dst_ok st -> t = 0 \/ t = 1 ->
  exists st', decode_list st (goto_word (cs_table st) t) out = Some (st', out) /\ dst_ok st' /\
    cs_table st' = t /\ cs_shift st' = cs_shift st.
Proof.
  intros st t out Hst Ht. unfold goto_word. destruct (cs_table st =? t) eqn:E.
  - exists st. cbn. repeat split; try apply Hst; lia.
  - destruct (decode_z st out Hst) as (st' & D1 & D2 & D3 & D4).
    exists st'. cbn [decode_list]. rewrite D1.
    assert (K : cs_keyChange st' = false) by apply D2. rewrite K.
    repeat split; try apply D2; try assumption.
    destruct Hst as ((Q & _) & _). lia.
Qed.

(** Decoding 'X' in the secondary table changes case. *)
Lemma decode_x : forall st out, dst_ok st -> cs_table st = 1 ->
  exists st', decode_character U st 88 out = Ok (st', out) /\ dst_ok st' /\
    cs_table st' = 1 /\ cs_shift st' = negb (cs_shift st).
Proof.
  intros [ki tb nt cc g kc sh bi ln] out ((_ & Hn & Hb) & Hg & Hk) Ht;
  cbn in Ht, Hn, Hb, Hg, Hk; subst tb nt bi g kc;
  (eexists; split; [reflexivity|]; unfold dst_ok, st_ok; cbn; auto 10).
Qed.

(** Decoding a table letter writes the character. *)
Definition shown (sh : bool) (c : rune) : rune :=
  if sh && negb (c =? spaceChar) then to_lower U c else c.

Lemma decode_letter : forall st c t i out, dst_ok st ->
  find_char character_tables c 0 = Some (t, i) -> cs_table st = t ->
  exists st', decode_character U st (i + 65) out = Ok (st', out ++ [shown (cs_shift st) c]) /\
    dst_ok st' /\ cs_table st' = t /\ cs_shift st' = cs_shift st.
Proof.
  intros st c t i out Hst F Ht.
  destruct (find_char_spec _ _ _ F) as (Hti & Hi & Hs & tab & T1 & T2).
  destruct st as [ki tb nt cc g kc sh bi ln].
  destruct Hst as ((H1 & H2 & H3) & H4 & H5).
  cbn in Ht, H1, H2, H3, H4, H5. subst tb nt bi g kc.
  unfold decode_character. cbn [cs_binary cs_gotChangeKeyChar cs_keyChange cs_table cs_shift].
  replace ((i + 65 <? 65) || (90 <? i + 65)) with false by lia.
  rewrite T1. replace (i + 65 - 65) with i by lia. rewrite T2.
  replace (c =? specialOpChar) with false by lia.
  eexists. split; [reflexivity|]. unfold dst_ok, st_ok. cbn. auto 10.
Qed.

Lemma shown_ok : forall sh c, accepted c ->
  shown (xorb (need_case sh c) sh) (to_upper U c) = canon c.
Proof.
  intros sh c Hc. apply acceptedb_ok in Hc.
  pose proof (acceptedb_latin1 c Hc) as D.
  assert (T : in_latin1 (to_upper U c) = true).
  { apply table_charb_latin1, table_charb_ok, table_char_all, accepted_upper, acceptedb_ok, Hc. }
  unfold shown, need_case.
  rewrite (proj1 (proj2 (upper_id (to_upper U c) (or_introl T)))).
  destruct (upper_id c D) as (U1 & U2 & U3 & U4 & _). rewrite U1, U3, U4.
  destruct D as [D|[D|D]]; [|subst c; destruct sh; reflexivity|subst c; destruct sh; reflexivity].
  assert (G : forallb (fun c => negb (acceptedb c) ||
     forallb (fun sh => (if xorb ((is_upper uni_id c && sh) || (is_lower uni_id c && negb sh)) sh
       && negb (to_upper uni_id c =? spaceChar) then to_lower uni_id (to_upper uni_id c)
       else to_upper uni_id c) =? canon c) [true; false])
    (map Z.of_nat (seq 0 256)) = true) by (vm_compute; reflexivity).
  pose proof (latin1_fin _ G c D) as E. cbn beta in E. rewrite Hc in E. cbn [negb orb] in E.
  rewrite forallb_forall in E. apply Z.eqb_eq. apply E. destruct sh; cbn; auto.
Qed.

Lemma decode_char_word : forall dst c t i out, dst_ok dst -> accepted c ->
  find_char character_tables (to_upper U c) 0 = Some (t, i) ->
  exists dst', decode_list dst (char_word (cs_table dst) (cs_shift dst) c t i) out
      = Some (dst', out ++ [canon c])
    /\ dst_ok dst' /\ cs_table dst' = t
    /\ cs_shift dst' = xorb (need_case (cs_shift dst) c) (cs_shift dst).
Proof.
  intros dst c t i out Hd Ha F.
  destruct (find_char_spec _ _ _ F) as (Hti & Hi & _ & _).
  unfold char_word.
  assert (P : exists d1, decode_list dst
      (if need_case (cs_shift dst) c then goto_word (cs_table dst) 1 ++ [88] ++ goto_word 1 t
       else goto_word (cs_table dst) t) out = Some (d1, out)
      /\ dst_ok d1 /\ cs_table d1 = t
      /\ cs_shift d1 = xorb (need_case (cs_shift dst) c) (cs_shift dst)).
  { destruct (need_case (cs_shift dst) c) eqn:N.
    - destruct (decode_goto dst 1 out Hd (or_intror eq_refl)) as (s1 & A1 & A2 & A3 & A4).
      destruct (decode_x s1 out A2 A3) as (s2 & B1 & B2 & B3 & B4).
      destruct (decode_goto s2 t out B2 Hti) as (s3 & C1 & C2 & C3 & C4).
      exists s3. rewrite decode_list_app, A1. cbn [app decode_list]. rewrite B1.
      assert (K : cs_keyChange s2 = false) by apply B2. rewrite K.
      rewrite B3 in C1. rewrite C1. repeat split; try apply C2; try assumption.
      rewrite C4, B4, A4. destruct (cs_shift dst); reflexivity.
    - destruct (decode_goto dst t out Hd Hti) as (s1 & A1 & A2 & A3 & A4).
      exists s1. rewrite A1. repeat split; try apply A2; try assumption.
      rewrite A4. destruct (cs_shift dst); reflexivity. }
  destruct P as (d1 & P1 & P2 & P3 & P4).
  rewrite decode_list_app, P1. cbn [decode_list].
  destruct (decode_letter d1 (to_upper U c) t i out P2 F P3) as (d2 & L1 & L2 & L3 & L4).
  rewrite L1. assert (K : cs_keyChange d2 = false) by apply L2. rewrite K.
  exists d2. split.
  { rewrite P4. rewrite shown_ok by assumption. reflexivity. }
  split; [assumption|]. split; [assumption|]. rewrite L4. exact P4.
Qed.

(** One character, encoder and decoder in step. *)
Lemma encode_step : forall st c o, st_ok st -> accepted c ->
  exists w st', encode_character U st c (Some o) = Ok (st', Some (o ++ w))
    /\ st_ok st' /\ cs_charCounter st' = cs_charCounter st + len w
    /\ 1 <= len w <= 4 /\ letters w
    /\ forall dst out, dst_ok dst -> sim st dst ->
         exists dst', decode_list dst w out = Some (dst', out ++ [canon c])
           /\ dst_ok dst' /\ sim st' dst'.
Proof.
  intros st c o Hst Ha.
  destruct (find_char_some _ (proj1 (accepted_upper c) Ha)) as (t & i & F).
  pose proof (encode_character_spec st c o Hst) as E. rewrite F in E.
  destruct E as (st' & E1 & E2 & E3 & E4 & E5).
  destruct (find_char_spec _ _ _ F) as (Hti & Hi & _ & _).
  exists (char_word (cs_table st) (cs_shift st) c t i), st'.
  split; [exact E1|]. split; [exact E2|]. split; [exact E5|].
  split; [apply char_word_len|]. split; [apply char_word_letters; exact Hi|].
  intros dst out Hd (S1 & S2). rewrite S1, S2.
  destruct (decode_char_word dst c t i out Hd Ha F) as (dst' & D1 & D2 & D3 & D4).
  exists dst'. split; [exact D1|]. split; [exact D2|].
  split; [congruence|]. rewrite E4, D4, S2. reflexivity.
Qed.

Lemma encode_reject : forall st c o, st_ok st -> ~ accepted c ->
  encode_character U st c (Some o) = Panic.
Proof.
  intros st c o Hst Ha. pose proof (encode_character_spec st c o Hst) as E.
  destruct (find_char character_tables (to_upper U c) 0) as [[t i]|] eqn:F; [|exact E].
  exfalso. apply Ha. apply accepted_upper. apply (find_char_table _ _ _ F).
Qed.

End WithU.
