(** The decoder implements the printed coding scheme; Decipher implements
    [message]. *)
From Verif Require Import Base Spec Model_Unicode Model_Diana Model_Codec Model_Crand
  Model_Functions Model_Types Model_Cipher Proofs_Diana Proofs_Codec Proofs_Keys Proofs_Encipher
  Proofs_Decipher.

Section R.
Context (U : Uni).

Definition sec_of (st : codec_state) : bool := cs_table st =? 1.

Lemma tables_same : forall (sec : bool) n tab, (n < 26)%nat ->
  nth_error character_tables (if sec then 1%nat else 0%nat) = Some tab ->
  match nth_error tab n with
  | Some ch => if ch =? specialOpChar
               then nth_error (if sec then secondary_chars else primary_chars) n = None
               else nth_error (if sec then secondary_chars else primary_chars) n = Some ch
  | None => False
  end.
Proof.
  intros sec n tab Hn H.
  assert (G : forallb (fun n => match nth_error (if sec then table_secondary else table_primary) n with
     | Some ch => if ch =? specialOpChar
          then match nth_error (if sec then secondary_chars else primary_chars) n with None => true | _ => false end
          else match nth_error (if sec then secondary_chars else primary_chars) n with Some x => x =? ch | _ => false end
     | None => false end) (seq 0 26) = true) by (destruct sec; vm_compute; reflexivity).
  rewrite forallb_forall in G. specialize (G n).
  assert (Hin : In n (seq 0 26)) by (apply in_seq; lia). specialize (G Hin).
  assert (T : tab = if sec then table_secondary else table_primary).
  { destruct sec; cbn in H; injection H as <-; reflexivity. }
  rewrite T. destruct (nth_error (if sec then table_secondary else table_primary) n) as [ch|]; [|discriminate].
  destruct (ch =? specialOpChar).
  - destruct (nth_error _ n); [discriminate|reflexivity].
  - destruct (nth_error _ n); [|discriminate]. f_equal. lia.
Qed.

Lemma lower_case_ok : forall c, In c all_table_chars -> forall sh : bool,
  (if sh && negb (c =? spaceChar) then to_lower U c else c) = (if sh then lower_case c else c).
Proof.
  intros c Hc [|]; cbn [andb]; [|reflexivity].
  assert (L : in_latin1 c = true).
  { apply table_charb_latin1, table_charb_ok, table_char_all. exact Hc. }
  rewrite (proj1 (proj2 (upper_id U c (or_introl L)))).
  assert (G : forallb (fun c => (if negb (c =? spaceChar) then to_lower uni_id c else c) =? lower_case c)
     all_table_chars = true) by (vm_compute; reflexivity).
  rewrite forallb_forall in G. apply Z.eqb_eq. apply (G c Hc).
Qed.

Lemma table_in_all : forall (sec : bool) n ch,
  nth_error (if sec then secondary_chars else primary_chars) n = Some ch -> In ch all_table_chars.
Proof.
  intros sec n ch H. apply nth_error_In in H.
  assert (G : forallb (fun c => existsb (Z.eqb c) all_table_chars)
    (secondary_chars ++ primary_chars) = true) by (vm_compute; reflexivity).
  rewrite forallb_forall in G. apply existsb_In. apply G. apply in_app_iff.
  destruct sec; auto.
Qed.

(** One decoding step outside a key change, compared with the specification. *)
Lemma decode_step : forall st c out, dst_ok st -> is_letter c ->
  (exists st', decode_character U st c out = Ok (st', out) /\ dst_ok st' /\
     forall s, read_part (sec_of st) (cs_shift st) (c :: s) = read_part (sec_of st') (cs_shift st') s) \/
  (exists st' ch, decode_character U st c out = Ok (st', out ++ [ch]) /\ dst_ok st' /\
     forall s, read_part (sec_of st) (cs_shift st) (c :: s) =
       match read_part (sec_of st') (cs_shift st') s with
       | Some (p, tl) => Some (ch :: p, tl) | None => None end) \/
  (exists st', decode_character U st c out = Ok (st', out) /\ cs_gotChangeKeyChar st' = true /\
     cs_keyChange st' = false /\ cs_binary st' = false /\
     forall s, read_part (sec_of st) (cs_shift st) (c :: s) = Some ([], Some s)) \/
  (exists st', decode_character U st c out = Ok (st', out) /\ cs_binary st' = true /\
     cs_keyChange st' = false /\ cs_gotChangeKeyChar st' = false /\
     forall s, read_part (sec_of st) (cs_shift st) (c :: s) =
       match s with [] => Some ([], None) | _ => None end).
Proof.
  intros st c out Hst Hc.
  destruct (Z.eq_dec c 90) as [->|N90].
  { left. destruct (decode_z U st out Hst) as (st' & D1 & D2 & D3 & D4).
    exists st'. split; [exact D1|]. split; [exact D2|]. intros s. cbn [read_part].
    rewrite D4. unfold sec_of. rewrite D3. destruct Hst as (([T|T] & _) & _); rewrite T; reflexivity. }
  destruct (sec_of st) eqn:Sec.
  - assert (T1 : cs_table st = 1) by (unfold sec_of in Sec; lia).
    destruct (Z.eq_dec c 88) as [->|N88].
    { left. destruct (decode_x U st out Hst T1) as (st' & D1 & D2 & D3 & D4).
      exists st'. split; [exact D1|]. split; [exact D2|]. intros s. cbn [read_part].
      unfold sec_of. rewrite D3, D4. reflexivity. }
    destruct (Z.eq_dec c 89) as [->|N89].
    { right. right. left. destruct (decode_y U st out Hst T1) as (st' & D1 & D2 & D3 & D4).
      exists st'. split; [exact D1|]. split; [exact D3|]. split; [exact D4|]. split; [exact D2|].
      intros s. reflexivity. }
    destruct (Z.eq_dec c 87) as [->|N87].
    { right. right. right. destruct st as [ki tb nt cc g kc sh bi ln].
      destruct Hst as ((_ & Hn & Hb) & Hg & Hk). cbn in T1, Hn, Hb, Hg, Hk. subst tb nt bi g kc.
      eexists. split; [reflexivity|]. cbn. auto. }
    right. left.
    pose proof (tables_same true (Z.to_nat (c - 65)) table_secondary) as T.
    unfold is_letter in Hc. specialize (T ltac:(lia) eq_refl).
    destruct (nth_error table_secondary (Z.to_nat (c - 65))) as [ch|] eqn:E; [|contradiction].
    destruct (ch =? specialOpChar) eqn:Es.
    { exfalso. assert (Q : (Z.to_nat (c - 65) < length secondary_chars)%nat) by (cbn [secondary_chars length]; lia).
      apply nth_error_Some in Q. congruence. }
    destruct st as [ki tb nt cc g kc sh bi ln].
    destruct Hst as ((_ & Hn & Hb) & Hg & Hk). cbn in T1, Hn, Hb, Hg, Hk. subst tb nt bi g kc.
    unfold decode_character. cbn [cs_binary cs_gotChangeKeyChar cs_keyChange cs_table cs_shift].
    replace ((c <? 65) || (90 <? c)) with false by lia.
    change (nth_error character_tables (Z.to_nat 1)) with (Some table_secondary). cbn iota.
    rewrite E, Es. eexists. exists (if sh then lower_case ch else ch).
    split; [rewrite (lower_case_ok ch (table_in_all true _ _ T)); reflexivity|].
    split; [unfold dst_ok, st_ok; cbn; auto 10|].
    intros s. cbn [read_part]. replace (c =? 90) with false by lia.
    replace (c =? 88) with false by lia. replace (c =? 89) with false by lia.
    replace (c =? 87) with false by lia.
    replace (c <? 65) with false by lia. cbn [andb]. rewrite T.
    cbn [cs_table cs_shift sec_of add_count]. reflexivity.
  - assert (T1 : cs_table st = 0).
    { destruct Hst as (([T|T] & _) & _); [exact T|]. unfold sec_of in Sec. lia. }
    right. left.
    pose proof (tables_same false (Z.to_nat (c - 65)) table_primary) as T.
    unfold is_letter in Hc. specialize (T ltac:(lia) eq_refl).
    destruct (nth_error table_primary (Z.to_nat (c - 65))) as [ch|] eqn:E; [|contradiction].
    destruct (ch =? specialOpChar) eqn:Es.
    { exfalso. assert (Q : (Z.to_nat (c - 65) < length primary_chars)%nat) by (cbn [primary_chars length]; lia).
      apply nth_error_Some in Q. congruence. }
    destruct st as [ki tb nt cc g kc sh bi ln].
    destruct Hst as ((_ & Hn & Hb) & Hg & Hk). cbn in T1, Hn, Hb, Hg, Hk. subst tb nt bi g kc.
    unfold decode_character. cbn [cs_binary cs_gotChangeKeyChar cs_keyChange cs_table cs_shift].
    replace ((c <? 65) || (90 <? c)) with false by lia.
    change (nth_error character_tables (Z.to_nat 0)) with (Some table_primary). cbn iota.
    rewrite E, Es. eexists. exists (if sh then lower_case ch else ch).
    split; [rewrite (lower_case_ok ch (table_in_all false _ _ T)); reflexivity|].
    split; [unfold dst_ok, st_ok; cbn; auto 10|].
    intros s. cbn [read_part]. replace (c =? 90) with false by lia.
    replace (c <? 65) with false by lia. cbn [andb]. rewrite T.
    cbn [cs_table cs_shift sec_of add_count]. reflexivity.
Qed.

(** Words decoded without key change. *)
Lemma decode_list_read : forall w st out st' out', dst_ok st -> letters w ->
  decode_list U st w out = Some (st', out') -> dst_ok st' ->
  exists p, out' = out ++ p /\
    forall rest, read_part (sec_of st) (cs_shift st) (w ++ rest) =
      match read_part (sec_of st') (cs_shift st') rest with
      | Some (p', tl) => Some (p ++ p', tl) | None => None end.
Proof.
  induction w as [|c w IH]; intros st out st' out' Hst Hw D Hst'.
  - cbn in D. injection D as <- <-. exists []. split; [rewrite app_nil_r; reflexivity|].
    intros rest. cbn [app]. destruct (read_part _ _ rest) as [[p tl]|]; reflexivity.
  - inversion Hw as [|? ? Hc Hw']; subst. cbn [decode_list] in D.
    destruct (decode_step st c out Hst Hc) as
      [(s1 & D1 & D2 & D3)|[(s1 & ch & D1 & D2 & D3)|[(s1 & D1 & D2 & D3 & D4 & D5)|(s1 & D1 & D2 & D3 & D4 & D5)]]];
      rewrite D1 in D.
    + assert (K : cs_keyChange s1 = false) by apply D2. rewrite K in D.
      destruct (IH _ _ _ _ D2 Hw' D Hst') as (p & P1 & P2). exists p. split; [exact P1|].
      intros rest. cbn [app]. rewrite D3. apply P2.
    + assert (K : cs_keyChange s1 = false) by apply D2. rewrite K in D.
      destruct (IH _ _ _ _ D2 Hw' D Hst') as (p & P1 & P2). exists (ch :: p).
      split; [rewrite P1, <- app_assoc; reflexivity|].
      intros rest. cbn [app]. rewrite D3, P2.
      destruct (read_part (sec_of st') (cs_shift st') rest) as [[p' tl]|]; reflexivity.
    + exfalso. rewrite D3 in D. destruct w as [|c' w'].
      * cbn in D. injection D as <- <-. destruct Hst' as (_ & Q & _). congruence.
      * cbn [decode_list] in D. inversion Hw' as [|? ? Hc' _]; subst.
        unfold decode_character in D. unfold is_letter in Hc'.
        replace ((c' <? 65) || (90 <? c')) with false in D by lia.
        rewrite D4, D2 in D. cbn in D. discriminate.
    + exfalso. rewrite D3 in D. destruct w as [|c' w'].
      * cbn in D. injection D as <- <-. destruct Hst' as ((_ & _ & Q) & _). congruence.
      * cbn [decode_list] in D. inversion Hw' as [|? ? Hc' _]; subst.
        unfold decode_character in D. unfold is_letter in Hc'.
        replace ((c' <? 65) || (90 <? c')) with false in D by lia.
        rewrite D2 in D. cbn in D. discriminate.
Qed.

Lemma decodes_to_read : forall w p st, decodes_to U w p st -> letters w ->
  forall rest, read_part false false (w ++ rest) =
    match read_part (sec_of st) (cs_shift st) rest with
    | Some (p', tl) => Some (p ++ p', tl) | None => None end.
Proof.
  intros w p st D Hw rest. destruct (D []) as (dst & D1 & D2 & D3 & D4).
  destruct (decode_list_read w new_state [] dst ([] ++ p) new_state_ok Hw D1 D2) as (p' & P1 & P2).
  cbn [app] in P1. subst p'. specialize (P2 rest).
  change (sec_of new_state) with false in P2. change (cs_shift new_state) with false in P2.
  rewrite P2. unfold sec_of. rewrite D3, D4. reflexivity.
Qed.

Lemma read_zs : forall n sec sh, read_part sec sh (repeat 90 n) = Some ([], None).
Proof. induction n as [|n IH]; intros sec sh; [reflexivity|]. cbn. apply IH. Qed.

Lemma read_last : forall w p st n, decodes_to U w p st -> letters w ->
  read_part false false (w ++ repeat 90 n) = Some (p, None).
Proof.
  intros w p st n D Hw. rewrite (decodes_to_read w p st D Hw), read_zs, app_nil_r. reflexivity.
Qed.

Lemma read_change : forall w p st id, decodes_to U w p st -> letters w -> st_ok st ->
  read_part false false (w ++ goto_word (cs_table st) 1 ++ [89] ++ id) = Some (p, Some id).
Proof.
  intros w p st id D Hw Hst. rewrite (decodes_to_read w p st D Hw).
  unfold sec_of, goto_word. destruct Hst as ([T|T] & _); rewrite T; cbn [Z.eqb app read_part];
  cbn; rewrite app_nil_r; reflexivity.
Qed.

(** A chain followed by a last chunk is a message. *)
Lemma chain_message : forall gs ks k0 chunks k p, chain U ks k0 chunks k p ->
  (forall kk, In kk ks -> letters (kid kk)) ->
  (forall c, In c chunks -> exists kc, nth_error ks (ch_key c) = Some kc /\
      (length (ch_text c) <= length (krunes kc))%nat) ->
  forall js p' c', message gs ks (k :: js) p' c' ->
  message gs ks (map ch_key chunks ++ k :: js) (p ++ p') (flat_map (chunk_cipher ks) chunks ++ c').
Proof.
  induction 1 as [|chunks k p w p1 st k' kk Hch IH Hd Hst Hw Hn]; intros Hks Hlen js p' c' M.
  - exact M.
  - rewrite map_app, flat_map_app, <- !app_assoc. cbn [map ch_key app flat_map].
    rewrite app_nil_r.
    apply IH; [exact Hks| |].
    { intros c Hc. apply Hlen. apply in_app_iff. left. exact Hc. }
    destruct (Hlen (mkChunk (w ++ goto_word (cs_table st) 1 ++ [89] ++ kid kk) k)) as (kc & L1 & L2).
    { apply in_app_iff. right. left. reflexivity. }
    unfold chunk_cipher. cbn [ch_key ch_text] in *. rewrite L1.
    apply message_next with (k' := kk); auto.
    + apply letters_app. split; [exact Hw|]. apply letters_app. split; [apply goto_word_letters|].
      constructor; [unfold is_letter; lia|].
      apply Hks. apply (nth_error_In _ _ Hn).
    + apply read_change; assumption.
Qed.

(** *** Decipher against [message] *)
Section Loop.
Context (gs : Z) (ks : list key) (Hgs : 0 < gs) (Hks : store_ok gs ks).

(** Forward: the loop follows the parts. *)
Lemma loop_read : forall s st kp k ki plain stack rest p tl,
  nth_error ks kp = Some k -> letters (krunes k) -> letters s -> dst_ok st ->
  (ki + length s <= length (krunes k))%nat ->
  read_part (sec_of st) (cs_shift st) s = Some (p, tl) ->
  match tl with
  | None =>
      decipher_loop U gs ks (diana_text (skipn ki (krunes k)) s) kp ki st [] plain stack =
      (plain ++ p, stack, Ok tt)
  | Some id =>
      (forall kp1, len id = gs -> get_key U id ks = Some kp1 ->
        decipher_loop U gs ks (diana_text (skipn ki (krunes k)) s ++ rest) kp ki st [] plain stack =
        decipher_loop U gs ks rest kp1 0 new_state [] (plain ++ p) (stack ++ [kp1])) /\
      (len id < gs -> 
        decipher_loop U gs ks (diana_text (skipn ki (krunes k)) s) kp ki st [] plain stack =
        (plain ++ p, stack, Ok tt))
  end.
Proof.
  induction s as [|c s IH]; intros st kp k ki plain stack rest p tl Hk Hl Hs Hst L R.
  - cbn in R. injection R as <- <-.
    rewrite app_nil_r. destruct (skipn ki (krunes k)); reflexivity.
  - cbn [length] in L. inversion Hs as [|? ? Hc Hs']; subst.
    destruct (nth_error (krunes k) ki) as [kr|] eqn:E.
    2: { apply nth_error_None in E. lia. }
    rewrite (skipn_nth _ _ _ _ E). cbn [diana_text app decipher_loop].
    rewrite Hk, E.
    pose proof (letters_nth _ _ _ Hl E) as Lk.
    rewrite !(trigraph_ok kr (diana_letter kr c)) by (assumption || apply diana_letter_letter).
    rewrite !diana_letter_invol by assumption.
    destruct (decode_step st c plain Hst Hc) as
      [(s1 & D1 & D2 & D3)|[(s1 & ch & D1 & D2 & D3)|[(s1 & D1 & D2 & D3 & D4 & D5)|(s1 & D1 & D2 & D3 & D4 & D5)]]];
      rewrite D1.
    + assert (K : cs_keyChange s1 = false) by apply D2. rewrite K.
      rewrite D3 in R.
      apply IH; auto. lia.
    + assert (K : cs_keyChange s1 = false) by apply D2. rewrite K.
      rewrite D3 in R. destruct (read_part (sec_of s1) (cs_shift s1) s) as [[p1 tl1]|] eqn:R1; [|discriminate].
      injection R as <- <-.
      specialize (IH s1 kp k (S ki) (plain ++ [ch]) stack rest p1 tl1 Hk Hl Hs' D2 ltac:(lia) R1).
      rewrite <- !app_assoc in IH. cbn [app] in IH. exact IH.
    + rewrite D3. rewrite D5 in R. injection R as <- <-. rewrite app_nil_r. split.
      * intros kp1 Hid G. apply decipher_keyid; auto; try lia.
        -- intros ->. unfold len in Hid. cbn in Hid. lia.
        -- rewrite D2. reflexivity.
      * intros Hid.
        assert (Gen : forall s1 nk ki, letters s -> (ki + length s <= length (krunes k))%nat ->
          cs_binary s1 = false -> cs_gotChangeKeyChar s1 || cs_keyChange s1 = true ->
          len nk + len s < gs ->
          decipher_loop U gs ks (diana_text (skipn ki (krunes k)) s) kp ki s1 nk plain stack
            = (plain, stack, Ok tt)).
        { clear -Hk Hl. induction s as [|c s IH]; intros s1 nk ki Hs L Hb Hg Hn.
          - destruct (skipn ki (krunes k)); reflexivity.
          - cbn [length] in L. inversion Hs as [|? ? Hc Hs']; subst.
            destruct (nth_error (krunes k) ki) as [kr|] eqn:E.
            2: { apply nth_error_None in E. lia. }
            rewrite (skipn_nth _ _ _ _ E). cbn [diana_text decipher_loop]. rewrite Hk, E.
            pose proof (letters_nth _ _ _ Hl E) as Lk.
            rewrite (trigraph_ok kr (diana_letter kr c)) by (assumption || apply diana_letter_letter).
            rewrite diana_letter_invol by assumption.
            assert (D : exists st1, decode_character U s1 c plain = Ok (st1, plain) /\
              cs_keyChange st1 = true /\ cs_binary st1 = false).
            { unfold decode_character. unfold is_letter in Hc.
              replace ((c <? 65) || (90 <? c)) with false by lia. rewrite Hb.
              destruct (cs_gotChangeKeyChar s1) eqn:Eg.
              - eexists. split; [reflexivity|]. cbn. auto.
              - cbn in Hg. rewrite Hg. exists s1. auto. }
            destruct D as (st1 & D1 & D2 & D3). rewrite D1, D2.
            unfold len in *. rewrite app_length. cbn [length] in *.
            replace (gs <=? Z.of_nat (length nk + 1)) with false by lia.
            apply IH; auto; try lia.
            + rewrite D2. apply orb_true_r.
            + rewrite app_length. cbn [length]. lia. }
        apply Gen; auto; try lia.
        -- rewrite D2. reflexivity.
    + rewrite D5 in R. destruct s as [|c' s']; [|discriminate]. injection R as <- <-.
      rewrite D3, app_nil_r. destruct (skipn (S ki) (krunes k)); reflexivity.
Qed.

Lemma message_loop : forall js p c, message gs ks js p c ->
  forall j js', js = j :: js' -> forall plain stack,
  decipher_loop U gs ks c j 0 new_state [] plain stack = (plain ++ p, stack ++ js', Ok tt).
Proof.
  induction 1 as [j k s p tl Hk Hs L R T|j k s p j' k' js p' c' Hk Hs L Hk' R M IH];
    intros j0 js0 E plain stack.
  - injection E as <- <-. rewrite app_nil_r.
    destruct (proj2 Hks k (nth_error_In _ _ Hk)) as (_ & _ & Lr).
    pose proof (loop_read s new_state j k 0 plain stack [] p tl Hk Lr Hs new_state_ok L R) as F.
    cbn [skipn] in F. destruct tl as [id|].
    + apply F. exact T.
    + exact F.
  - injection E as <- <-.
    destruct (proj2 Hks k (nth_error_In _ _ Hk)) as (_ & _ & Lr).
    destruct (proj2 Hks k' (nth_error_In _ _ Hk')) as (_ & Lk' & _).
    pose proof (loop_read s new_state j k 0 plain stack c' p (Some (kid k')) Hk Lr Hs new_state_ok L R) as F.
    cbn [skipn] in F. rewrite (proj1 F j' Lk' (get_key_found U gs ks j' k' Hks Hk')).
    rewrite (IH j' js eq_refl). rewrite <- !app_assoc. reflexivity.
Qed.

(** Backward: whatever the loop accepts is a message. *)
Lemma trigraph_inv : forall x y r, trigraph x y = Ok r ->
  is_letter x /\ is_letter y /\ r = diana_letter x y.
Proof.
  intros x y r H. destruct (is_letter_dec x) as [Hx|Hx]; [destruct (is_letter_dec y) as [Hy|Hy]|].
  - rewrite trigraph_ok in H by assumption. injection H as <-. auto.
  - unfold trigraph in H. rewrite trigraph_rune_err in H by tauto. discriminate.
  - unfold trigraph in H. rewrite trigraph_rune_err in H by tauto. discriminate.
Qed.

(** What has been read of the current part: [spre] letters giving [ppre]. *)
Definition reading (spre ppre nk : list rune) (st : codec_state) : Prop :=
  (dst_ok st /\ nk = [] /\ forall rest, read_part false false (spre ++ rest) =
     match read_part (sec_of st) (cs_shift st) rest with
     | Some (p', tl) => Some (ppre ++ p', tl) | None => None end)
  \/ (cs_binary st = false /\ cs_gotChangeKeyChar st || cs_keyChange st = true /\ len nk < gs /\
      forall rest, read_part false false (spre ++ rest) = Some (ppre, Some (nk ++ rest)))
  \/ (cs_binary st = true /\ nk = [] /\ read_part false false spre = Some (ppre, None)).

Lemma diana_text_snoc : forall key s c kr, nth_error key (length s) = Some kr ->
  diana_text key (s ++ [c]) = diana_text key s ++ [diana_letter kr c].
Proof.
  intros key s c kr H. rewrite diana_text_app.
  - f_equal. rewrite (skipn_nth _ _ _ _ H). cbn [diana_text]. destruct (skipn _ key); reflexivity.
  - assert (Q : nth_error key (length s) <> None) by congruence. apply nth_error_Some in Q. lia.
Qed.

Lemma loop_message : forall ct kp k st nk plain0 ppre spre stack pf sf,
  nth_error ks kp = Some k -> letters spre -> letters nk -> (length spre <= length (krunes k))%nat ->
  reading spre ppre nk st ->
  decipher_loop U gs ks ct kp (length spre) st nk (plain0 ++ ppre) stack = (pf, sf, Ok tt) ->
  exists p js, message gs ks (kp :: js) p (diana_text (krunes k) spre ++ ct) /\
    pf = plain0 ++ p /\ sf = stack ++ js.
Proof.
  induction ct as [|c ct IH]; intros kp k st nk plain0 ppre spre stack pf sf Hk Hs Hnk L R D.
  - cbn in D. injection D as <- <-. exists ppre, []. rewrite !app_nil_r. split; [|auto].
    destruct R as [(_ & _ & R)|[(_ & _ & Rn & R)|(_ & _ & R)]].
    + specialize (R []). cbn in R. rewrite !app_nil_r in R.
      apply message_last with (tl := None); auto.
    + specialize (R []). rewrite !app_nil_r in R. apply message_last with (tl := Some nk); auto.
    + apply message_last with (tl := None); auto.
  - cbn [decipher_loop] in D. rewrite Hk in D.
    destruct (nth_error (krunes k) (length spre)) as [kr|] eqn:E; [|discriminate].
    destruct (trigraph kr c) as [ec|e| |] eqn:T; try discriminate.
    apply trigraph_inv in T. destruct T as (Lk & Lc & T).
    assert (Le : is_letter ec) by (rewrite T; apply diana_letter_letter).
    assert (Ec : diana_text (krunes k) spre ++ c :: ct = diana_text (krunes k) (spre ++ [ec]) ++ ct).
    { rewrite (diana_text_snoc _ _ _ _ E), T, diana_letter_invol by assumption.
      rewrite <- app_assoc. reflexivity. }
    rewrite Ec.
    assert (L' : (length (spre ++ [ec]) <= length (krunes k))%nat).
    { assert (Q : nth_error (krunes k) (length spre) <> None) by congruence.
      apply nth_error_Some in Q. rewrite app_length. cbn [length]. lia. }
    assert (Ls : S (length spre) = length (spre ++ [ec])) by (rewrite app_length; cbn [length]; lia).
    assert (Hs' : letters (spre ++ [ec])) by (apply letters_app; split; [exact Hs|constructor; auto]).
    rewrite Ls in D.
    destruct R as [(Hst & -> & R)|[(Rb & Rg & Rn & R)|(Rb & -> & R)]].
    + destruct (decode_step st ec (plain0 ++ ppre) Hst Le) as
        [(s1 & D1 & D2 & D3)|[(s1 & ch & D1 & D2 & D3)|[(s1 & D1 & D2 & D3 & D4 & D5)|(s1 & D1 & D2 & D3 & D4 & D5)]]];
        rewrite D1 in D.
      * assert (K : cs_keyChange s1 = false) by apply D2. rewrite K in D.
        apply (IH kp k s1 [] plain0 ppre (spre ++ [ec]) stack pf sf); auto.
        left. split; [exact D2|]. split; [reflexivity|].
        intros rest. rewrite <- app_assoc. cbn [app]. rewrite R, D3. reflexivity.
      * assert (K : cs_keyChange s1 = false) by apply D2. rewrite K in D.
        rewrite <- app_assoc in D.
        apply (IH kp k s1 [] plain0 (ppre ++ [ch]) (spre ++ [ec]) stack pf sf); auto.
        left. split; [exact D2|]. split; [reflexivity|].
        intros rest. rewrite <- app_assoc. cbn [app]. rewrite R, D3.
        destruct (read_part (sec_of s1) (cs_shift s1) rest) as [[p' tl]|]; [|reflexivity].
        rewrite <- app_assoc. reflexivity.
      * rewrite D3 in D.
        apply (IH kp k s1 [] plain0 ppre (spre ++ [ec]) stack pf sf); auto.
        right. left. split; [exact D4|]. split; [rewrite D2; reflexivity|].
        split; [unfold len; cbn; lia|].
        intros rest. rewrite <- app_assoc. cbn [app]. rewrite R, D5, app_nil_r. reflexivity.
      * rewrite D3 in D.
        apply (IH kp k s1 [] plain0 ppre (spre ++ [ec]) stack pf sf); auto.
        right. right. split; [exact D2|]. split; [reflexivity|].
        rewrite R, D5, app_nil_r. reflexivity.
    + assert (Dc : exists st1, decode_character U st ec (plain0 ++ ppre) = Ok (st1, plain0 ++ ppre) /\
              cs_keyChange st1 = true /\ cs_binary st1 = false).
      { unfold decode_character. unfold is_letter in Le.
        replace ((ec <? 65) || (90 <? ec)) with false by lia. rewrite Rb.
        destruct (cs_gotChangeKeyChar st) eqn:Eg.
        - eexists. split; [reflexivity|]. cbn. auto.
        - cbn in Rg. rewrite Rg. exists st. auto. }
      destruct Dc as (st1 & D1 & D2 & D3). rewrite D1, D2 in D.
      assert (Hnk' : letters (nk ++ [ec])) by (apply letters_app; split; [exact Hnk|constructor; auto]).
      destruct (gs <=? len (nk ++ [ec])) eqn:Eg.
      * destruct (get_key U (nk ++ [ec]) ks) as [kp1|] eqn:G; [|discriminate].
        destruct (get_key_letters U gs ks _ kp1 Hks Hnk' G) as (k' & Hk' & Hid).
        rewrite <- (app_nil_r (plain0 ++ ppre)) in D.
        destruct (IH kp1 k' (cs_reset st1) [] (plain0 ++ ppre) [] [] (stack ++ [kp1]) pf sf)
          as (p & js & M & P1 & P2); auto.
        { constructor. } { constructor. } { cbn. lia. }
        { left. split; [apply new_state_ok|]. split; [reflexivity|]. intros rest. cbn [app].
          change (sec_of (cs_reset st1)) with false. change (cs_shift (cs_reset st1)) with false.
          destruct (read_part false false rest) as [[p' tl]|]; reflexivity. }
        exists (ppre ++ p), (kp1 :: js). split.
        { apply message_next with (k' := k'); auto.
          - specialize (R [ec]). rewrite Hid. exact R.
          - replace ct with (diana_text (krunes k') [] ++ ct); [exact M|].
            destruct (krunes k'); reflexivity. }
        rewrite P1, P2, <- !app_assoc. auto.
      * apply (IH kp k st1 (nk ++ [ec]) plain0 ppre (spre ++ [ec]) stack pf sf); auto.
        right. left. split; [exact D3|]. split; [rewrite D2; apply orb_true_r|]. split; [lia|].
        intros rest. rewrite <- !app_assoc. cbn [app]. apply R.
    + exfalso. unfold decode_character in D. unfold is_letter in Le.
      replace ((ec <? 65) || (90 <? ec)) with false in D by lia. rewrite Rb in D. discriminate.
Qed.
End Loop.

(** *** Decipher *)
Lemma mark_stack_marked : forall ks stack, marked_used stack ks (mark_stack ks stack).
Proof.
  intros ks stack j. rewrite mark_stack_nth.
  destruct (existsb (Nat.eqb j) stack), (nth_error ks j); reflexivity.
Qed.

Lemma wipe_value_enough : forall s t, (length s <= length t)%nat -> exists t', wipe_value s t = ([], t').
Proof.
  intros s t H. pose proof (wipe_value_nil s t (or_intror H)) as W.
  destruct (wipe_value s t) as [p t']. cbn in W. subst p. eauto.
Qed.

Lemma set_keys_fields : forall i ks, i_groupsize (set_keys i ks) = i_groupsize i.
Proof. intros [] ks. reflexivity. Qed.

Lemma decipher_refines : forall i m t i' m' t', 0 < i_groupsize i ->
  store_ok (i_groupsize i) (i_keys i) -> letters (mkeyid m) -> mid m <> [] ->
  (length (mplain m) <= length t)%nat ->
  decipher U i m t = (i', m', Ok tt, t') ->
  exists j js k p, nth_error (i_keys i) j = Some k /\ kid k = mkeyid m /\
    message (i_groupsize i) (i_keys i) (j :: js) p (mcipher m) /\
    m' = set_mplain m p /\ i' = set_keys i (i_keys i') /\ marked_used (j :: js) (i_keys i) (i_keys i').
Proof.
  intros i m t i' m' t' Hg Hs Hl Hid Ht H. unfold decipher, ensure_id in H.
  replace (len (mid m) =? 0) with false in H.
  2: { symmetry. apply not_true_is_false. intros Q. apply len_nil in Q. auto. }
  destruct (negb (len (mkeyid m) =? i_groupsize i)) eqn:E1; [discriminate|].
  destruct (len (mcipher m) <? i_groupsize i) eqn:E2; [discriminate|].
  destruct (get_key U (mkeyid m) (i_keys i)) as [j|] eqn:G; [|discriminate].
  destruct (get_key_letters U _ _ _ j Hs Hl G) as (k & Hk & Hid').
  destruct (wipe_value_enough (mplain m) t Ht) as (t1 & W). rewrite W in H.
  destruct (decipher_loop U (i_groupsize i) (i_keys i) (mcipher m) j 0 new_state [] [] [j])
    as [[p stack] r] eqn:D.
  destruct r as [u|e| |]; try discriminate. destruct u. injection H as <- <- <-.
  destruct (loop_message _ _ Hg Hs (mcipher m) j k new_state [] [] [] [] [j] p stack)
    as (p' & js & M & P1 & P2); auto.
  { constructor. } { constructor. } { cbn. lia. }
  { left. split; [apply new_state_ok|]. split; [reflexivity|]. intros rest. cbn [app].
    change (sec_of new_state) with false. change (cs_shift new_state) with false.
    destruct (read_part false false rest) as [[p' tl]|]; reflexivity. }
  exists j, js, k, p. cbn [app] in P1. subst p'. split; [exact Hk|]. split; [exact Hid'|].
  split. { replace (mcipher m) with (diana_text (krunes k) [] ++ mcipher m); [exact M|].
           destruct (krunes k); reflexivity. }
  split; [reflexivity|]. split; [destruct i; reflexivity|].
  replace (i_keys (set_keys i (mark_stack (i_keys i) stack))) with (mark_stack (i_keys i) stack)
    by (destruct i; reflexivity).
  cbn [app] in P2. subst stack. apply mark_stack_marked.
Qed.

Lemma decipher_complete : forall i m t j js k p, 0 < i_groupsize i ->
  store_ok (i_groupsize i) (i_keys i) -> mid m <> [] -> (length (mplain m) <= length t)%nat ->
  nth_error (i_keys i) j = Some k -> kid k = mkeyid m ->
  i_groupsize i <= len (mcipher m) ->
  message (i_groupsize i) (i_keys i) (j :: js) p (mcipher m) ->
  exists i' t', decipher U i m t = (i', set_mplain m p, Ok tt, t') /\
    i' = set_keys i (i_keys i') /\ marked_used (j :: js) (i_keys i) (i_keys i').
Proof.
  intros i m t j js k p Hg Hs Hid Ht Hk Hkid Hc M. unfold decipher, ensure_id.
  replace (len (mid m) =? 0) with false.
  2: { symmetry. apply not_true_is_false. intros Q. apply len_nil in Q. auto. }
  destruct (proj2 Hs k (nth_error_In _ _ Hk)) as (_ & Lk & _).
  rewrite <- Hkid, Lk, Z.eqb_refl. cbn [negb].
  replace (len (mcipher m) <? i_groupsize i) with false by lia.
  rewrite (get_key_found U _ _ _ _ Hs Hk).
  destruct (wipe_value_enough (mplain m) t Ht) as (t1 & W). rewrite W.
  rewrite (message_loop _ _ Hg Hs _ _ _ M j js eq_refl).
  eexists. exists t1. split; [reflexivity|]. split; [destruct i; reflexivity|].
  replace (i_keys (set_keys i (mark_stack (i_keys i) ([j] ++ js)))) with (mark_stack (i_keys i) ([j] ++ js))
    by (destruct i; reflexivity).
  apply mark_stack_marked.
Qed.
End R.
