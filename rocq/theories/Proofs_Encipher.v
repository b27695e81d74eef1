(** Loop invariant of Encipher (cipher.go:548-661). *)
From Verif Require Import Base Spec Model_Unicode Model_Diana Model_Codec Model_Crand
  Model_Functions Model_Types Model_Cipher Proofs_Diana Proofs_Codec Proofs_Keys.

Section Enc.
Context (U : Uni) (HU : uni_ok U) (gs : Z) (recips : list (list rune)).
Context (ks0 : list key) (k0 : nat).

(** [w] decodes, from the initial state, to [p]; encoder state [st] and decoder
    state agree afterwards. *)
Definition decodes_to (w p : list rune) (st : codec_state) : Prop :=
  forall out, exists dst, decode_list U new_state w out = Some (dst, out ++ p)
    /\ dst_ok dst /\ sim st dst.

(** Finished chunks, the key of the next chunk, the text they decode to. *)
Inductive chain : list chunk -> nat -> list rune -> Prop :=
| chain_nil : chain [] k0 []
| chain_snoc : forall chunks k p w p1 st k' kk,
    chain chunks k p -> decodes_to w p1 st -> st_ok st -> letters w ->
    nth_error ks0 k' = Some kk ->
    chain (chunks ++ [mkChunk (w ++ goto_word (cs_table st) 1 ++ [89] ++ kid kk) k]) k' (p ++ p1).

(** Key list after the keys [picked] have been marked used. *)
Definition after_picking (picked : list nat) (ks : list key) : Prop :=
  forall j, nth_error ks j =
    option_map (fun k => if existsb (Nat.eqb j) picked then set_used k true else k)
               (nth_error ks0 j).

Definition pick_ok (picked : list nat) : Prop :=
  NoDup picked /\
  forall j, In j picked -> exists k, nth_error ks0 j = Some k /\ eligible gs recips k.

Record inv (e : enc_state) (p : list rune) : Prop := mkInv {
  inv_picked : exists picked,
    map ch_key (es_chunks e) ++ [ch_key (es_cur e)] = k0 :: picked /\
    pick_ok picked /\ after_picking picked (es_keys e);
  inv_text : exists p1 p2, p = p1 ++ p2 /\ chain (es_chunks e) (ch_key (es_cur e)) p1 /\
    decodes_to (ch_text (es_cur e)) p2 (es_st e);
  inv_st : st_ok (es_st e);
  inv_count : cs_charCounter (es_st e) = len (ch_text (es_cur e));
  inv_letters : letters (ch_text (es_cur e))
}.

Lemma existsb_nat_In : forall j l, existsb (Nat.eqb j) l = true <-> In j l.
Proof.
  intros j l. rewrite existsb_exists. split.
  - intros (x & H1 & H2). apply Nat.eqb_eq in H2. subst x. exact H1.
  - intros H. exists j. split; [exact H|apply Nat.eqb_refl].
Qed.

Lemma decodes_to_nil : decodes_to [] [] new_state.
Proof.
  intros out. exists new_state. cbn [decode_list]. rewrite app_nil_r.
  split; [reflexivity|]. split; [apply new_state_ok|]. split; reflexivity.
Qed.

Lemma inv_init : inv (mkES ks0 new_state [] (mkChunk [] k0)) [].
Proof.
  constructor; cbn.
  - exists []. split; [reflexivity|]. split; [split; [constructor|contradiction]|].
    intros j. cbn. destruct (nth_error ks0 j); reflexivity.
  - exists [], []. split; [reflexivity|]. split; [constructor|]. exact decodes_to_nil.
  - apply new_state_ok.
  - reflexivity.
  - constructor.
Qed.

Lemma after_picking_unused : forall picked ks j k, after_picking picked ks ->
  nth_error ks j = Some k -> kused k = false ->
  ~ In j picked /\ nth_error ks0 j = Some k.
Proof.
  intros picked ks j k A N Hu. rewrite (A j) in N.
  destruct (nth_error ks0 j) as [k1|]; [|discriminate]. cbn in N.
  destruct (existsb (Nat.eqb j) picked) eqn:E.
  - injection N as <-. cbn in Hu. discriminate.
  - injection N as <-. split; [|reflexivity]. intros I. apply existsb_nat_In in I. congruence.
Qed.

Lemma after_picking_mark : forall picked ks j, after_picking picked ks ->
  after_picking (picked ++ [j]) (mark ks j true).
Proof.
  intros picked ks j A i. rewrite nth_error_mark, (A i).
  rewrite existsb_app. cbn [existsb]. rewrite orb_false_r, (Nat.eqb_sym i j).
  destruct (nth_error ks0 i) as [k|]; cbn.
  - destruct (Nat.eqb j i); cbn; [|rewrite orb_false_r; reflexivity].
    rewrite orb_true_r. destruct (existsb (Nat.eqb i) picked); reflexivity.
  - destruct (Nat.eqb j i); reflexivity.
Qed.

Lemma after_picking_same : forall picked ks, after_picking picked ks -> same_but_used ks ks0.
Proof.
  intros picked ks A. apply nth_error_ext. intros j. rewrite !nth_error_map, (A j).
  destruct (nth_error ks0 j) as [k|]; [|reflexivity]. cbn.
  destruct (existsb (Nat.eqb j) picked); reflexivity.
Qed.

Lemma change_key_spec : forall st id o, st_ok st ->
  exists st', change_key st id (Some o) =
    Ok (st', Some (o ++ goto_word (cs_table st) 1 ++ [89] ++ id)).
Proof.
  intros st id o Hst. unfold change_key. cbn [out_nil].
  destruct (goto_table_spec st secondaryTable o Hst (or_intror eq_refl))
    as (s1 & G1 & _). rewrite G1. cbn [bind out_app]. eexists.
  rewrite <- !app_assoc. reflexivity.
Qed.

(** Outcome of the key-change step. *)
Lemma maybe_change_key_inv : forall e p, inv e p ->
  match maybe_change_key U gs recips e with
  | (e', Ok _) => inv e' p
  | (e', Err er) => e' = e /\ er = ErrOutOfKeys /\
      (forall k, In k (es_keys e) -> ~ eligible gs recips k) /\
      exists ck, nth_error (es_keys e) (ch_key (es_cur e)) = Some ck /\
        len (krunes ck) - gs - 2 <= len (ch_text (es_cur e))
  | (e', Panic) => e' = e /\ nth_error ks0 k0 = None
  | (e', Diverge) => False
  end.
Proof.
  intros e p I. unfold maybe_change_key.
  destruct (inv_picked e p I) as (picked & P1 & (P2 & P3) & P4).
  destruct (nth_error (es_keys e) (ch_key (es_cur e))) as [ck|] eqn:Eck.
  2: { split; [reflexivity|]. rewrite (P4 (ch_key (es_cur e))) in Eck.
       assert (Hin : In (ch_key (es_cur e)) (k0 :: picked)).
       { rewrite <- P1. apply in_app_iff. right. left. reflexivity. }
       destruct Hin as [Hin|Hin].
       - rewrite <- Hin in Eck. destruct (nth_error ks0 k0); [discriminate|reflexivity].
       - destruct (P3 _ Hin) as (k & N & _). rewrite N in Eck. discriminate. }
  unfold ControlCharactersNeededToChangeKey.
  destruct (len (krunes ck) - gs - 2 <=? cs_charCounter (es_st e)) eqn:Efull; [|exact I].
  destruct (find_key U gs recips (es_keys e)) as [j|] eqn:F.
  2: { split; [reflexivity|]. split; [reflexivity|].
       split; [apply (find_key_none U gs recips _ F)|].
       exists ck. split; [reflexivity|]. rewrite <- (inv_count e p I). lia. }
  destruct (find_key_some U gs recips _ _ F) as (nk & N1 & N2 & _).
  rewrite N1.
  destruct (change_key_spec (es_st e) (kid nk) (ch_text (es_cur e)) (inv_st e p I)) as (st1 & C1).
  rewrite C1. cbn [unoutput].
  destruct (after_picking_unused picked _ j nk P4 N1 (proj1 N2)) as (Q1 & Q2).
  constructor; cbn [es_keys es_st es_chunks es_cur ch_text ch_key].
  - exists (picked ++ [j]). split.
    { rewrite map_app. cbn [map ch_key]. rewrite P1. reflexivity. }
    split.
    { split.
      - clear -P2 Q1. induction picked as [|x l IH]; cbn.
        + constructor; [intros []|constructor].
        + inversion P2; subst. constructor.
          * rewrite in_app_iff. intros [H|[H|[]]]; [contradiction|]. subst x. apply Q1. left. reflexivity.
          * apply IH; [assumption|]. intros H. apply Q1. right. exact H.
      - intros i Hi. apply in_app_iff in Hi. destruct Hi as [Hi|[Hi|[]]]; [apply P3; exact Hi|].
        subst i. exists nk. auto. }
    apply after_picking_mark. exact P4.
  - destruct (inv_text e p I) as (p1 & p2 & E & Ch & D).
    exists p, []. split; [rewrite app_nil_r; reflexivity|]. split.
    + rewrite E. eapply chain_snoc; eauto using inv_st, inv_letters.
    + exact decodes_to_nil.
  - apply new_state_ok.
  - reflexivity.
  - constructor.
Qed.

Lemma decodes_to_step : forall w p st c o,
  o = w -> decodes_to w p st -> st_ok st -> accepted c ->
  exists w1 st', encode_character U st c (Some o) = Ok (st', Some (o ++ w1)) /\
    st_ok st' /\ cs_charCounter st' = cs_charCounter st + len w1 /\ 1 <= len w1 <= 4 /\
    letters w1 /\ decodes_to (w ++ w1) (p ++ [canon c]) st'.
Proof.
  intros w p st c o -> D Hst Ha.
  destruct (encode_step U HU st c w Hst Ha) as (w1 & st' & E1 & E2 & E3 & E4 & E5 & E6).
  exists w1, st'. repeat (split; [assumption|]).
  intros out. destruct (D out) as (dst & D1 & D2 & D3).
  destruct (E6 dst (out ++ p) D2 D3) as (dst' & F1 & F2 & F3).
  exists dst'. rewrite decode_list_app, D1, F1, <- app_assoc. auto.
Qed.

Lemma encode_loop_inv : forall text e p, inv e p ->
  match encode_loop U gs recips text e with
  | (e', Ok _) => inv e' (p ++ map canon text) /\ Forall accepted text
  | (e', Err er) => er = ErrOutOfKeys /\ exists p', inv e' p' /\
      (forall k, In k (es_keys e') -> ~ eligible gs recips k)
  | (e', Panic) => (exists p', inv e' p') /\
      (nth_error ks0 k0 = None \/ exists c, In c text /\ ~ accepted c)
  | (e', Diverge) => False
  end.
Proof.
  induction text as [|c text IH]; intros e p I.
  - cbn. rewrite app_nil_r. auto.
  - cbn [encode_loop]. pose proof (maybe_change_key_inv e p I) as M.
    destruct (maybe_change_key U gs recips e) as [e1 r]. destruct r as [[]| | |].
    + destruct (acceptedb c) eqn:A.
      * apply acceptedb_ok in A.
        destruct (inv_text e1 p M) as (p1 & p2 & E & Ch & D).
        destruct (decodes_to_step _ p2 (es_st e1) c (ch_text (es_cur e1)) eq_refl D (inv_st e1 p M) A)
          as (w1 & st' & S1 & S2 & S3 & S4 & S5 & S6).
        rewrite S1. cbn [unoutput].
        assert (I1 : inv (mkES (es_keys e1) st' (es_chunks e1)
                  (mkChunk (ch_text (es_cur e1) ++ w1) (ch_key (es_cur e1)))) (p ++ [canon c])).
        { constructor; cbn [es_keys es_st es_chunks es_cur ch_text ch_key].
          - exact (inv_picked e1 p M).
          - exists p1, (p2 ++ [canon c]). split; [rewrite E, app_assoc; reflexivity|]. auto.
          - exact S2.
          - rewrite S3, (inv_count e1 p M). unfold len. rewrite app_length. lia.
          - apply letters_app. split; [apply (inv_letters e1 p M)|exact S5]. }
        specialize (IH _ _ I1).
        destruct (encode_loop U gs recips text _) as [e' r']. destruct r' as [u| | |].
        -- destruct IH as (IH1 & IH2). rewrite <- app_assoc in IH1. split; [exact IH1|].
           constructor; assumption.
        -- exact IH.
        -- destruct IH as (IH1 & [IH2|(c' & IH2 & IH3)]); split; auto.
           right. exists c'. split; [right; exact IH2|exact IH3].
        -- exact IH.
      * assert (NA : ~ accepted c) by (rewrite <- acceptedb_ok; congruence).
        rewrite (encode_reject U HU _ _ _ (inv_st e1 p M) NA).
        split; [exists p; exact M|]. right. exists c. split; [left; reflexivity|exact NA].
    + destruct M as (-> & -> & M & _). split; [reflexivity|]. exists p. auto.
    + destruct M as (-> & M). split; [exists p; exact I|]. left. exact M.
    + exact M.
Qed.

(** *** Padding and the second loop *)
Lemma pad_count_spec : forall total, 0 < gs -> 0 <= total ->
  exists n, pad_count gs total = Ok n /\ 0 <= n < gs /\ (total + n) mod gs = 0.
Proof.
  intros total Hg Ht. unfold pad_count. replace (gs =? 0) with false by lia.
  eexists. split; [reflexivity|].
  rewrite (Z.rem_mod_nonneg total gs) by lia.
  pose proof (Z.mod_pos_bound total gs Hg) as B.
  rewrite Z.rem_mod_nonneg by lia.
  split; [apply Z.mod_pos_bound; lia|].
  rewrite Zplus_mod_idemp_r.
  replace (total + (gs - total mod gs)) with ((total / gs + 1) * gs).
  - apply Z_mod_mult.
  - pose proof (Z_div_mod_eq_full total gs). lia.
Qed.

(** Enciphering one chunk. *)
Lemma encipher_runes_spec : forall text kr out, letters kr -> letters text ->
  (length text <= length kr)%nat ->
  encipher_runes kr text out = (out ++ diana_text kr text, Ok tt).
Proof.
  induction text as [|c text IH]; intros [|k kr] out Hk Ht L.
  - cbn. rewrite app_nil_r. reflexivity.
  - cbn. rewrite app_nil_r. reflexivity.
  - cbn in L. lia.
  - cbn [encipher_runes diana_text]. inversion Hk; subst. inversion Ht; subst.
    rewrite trigraph_ok by assumption. rewrite IH by (assumption || (cbn in L; lia)).
    rewrite <- app_assoc. reflexivity.
Qed.

(** What [encipher_chunks] writes: the concatenation of the chunks, each
    enciphered with the beginning of its own key. *)
Definition chunk_cipher (ks : list key) (c : chunk) : list rune :=
  match nth_error ks (ch_key c) with
  | Some k => diana_text (krunes k) (ch_text c)
  | None => []
  end.

Lemma encipher_chunks_spec : forall ks chunks out,
  (forall k, In k ks -> letters (krunes k)) ->
  (forall c, In c chunks -> letters (ch_text c) /\ nth_error ks (ch_key c) <> None) ->
  match encipher_chunks ks chunks out with
  | (out', Ok _) => out' = out ++ flat_map (chunk_cipher ks) chunks /\
      forall c, In c chunks -> exists k, nth_error ks (ch_key c) = Some k /\
        (length (ch_text c) <= length (krunes k))%nat
  | (_, Err er) => er = ErrChunkKeyTooShort /\ exists c k, In c chunks /\
      nth_error ks (ch_key c) = Some k /\ len (krunes k) < len (ch_text c)
  | _ => False
  end.
Proof.
  intros ks chunks out Hk. revert out.
  induction chunks as [|c chunks IH]; intros out H.
  - cbn. rewrite app_nil_r. split; [reflexivity|contradiction].
  - cbn [encipher_chunks flat_map]. unfold chunk_cipher at 1.
    destruct (H c (or_introl eq_refl)) as (H1 & H2).
    destruct (nth_error ks (ch_key c)) as [k|] eqn:E; [|congruence].
    destruct (len (krunes k) <? len (ch_text c)) eqn:L.
    + split; [reflexivity|]. exists c, k. split; [left; reflexivity|]. split; [exact E|]. lia.
    + assert (Hin : In k ks) by (apply nth_error_In in E; exact E).
      unfold len in L.
      rewrite encipher_runes_spec by (auto; lia).
      specialize (IH (out ++ diana_text (krunes k) (ch_text c))).
      assert (H' : forall c0, In c0 chunks -> letters (ch_text c0) /\ nth_error ks (ch_key c0) <> None)
        by (intros c0 Hc0; apply H; right; exact Hc0).
      specialize (IH H').
      destruct (encipher_chunks ks chunks _) as [out' r]. destruct r as [u| | |].
      * destruct IH as (IH1 & IH2). split.
        { rewrite IH1, <- app_assoc. reflexivity. }
        intros c' [<-|Hc']; [|apply IH2; exact Hc'].
        exists k. split; [exact E|lia].
      * destruct IH as (IH1 & c' & k' & IH2 & IH3 & IH4). split; [exact IH1|].
        exists c', k'. split; [right; exact IH2|auto].
      * exact IH.
      * exact IH.
Qed.

(** *** Facts about chains *)
Lemma chain_texts : forall chunks k p, chain chunks k p ->
  (forall kk, In kk ks0 -> letters (kid kk)) ->
  forall c, In c chunks -> letters (ch_text c).
Proof.
  induction 1 as [|chunks k p w p1 st k' kk Hch IH Hd Hst Hw Hn]; intros Hl c Hin; [contradiction|].
  apply in_app_iff in Hin. destruct Hin as [Hin|[<-|[]]]; [apply IH; assumption|].
  cbn [ch_text]. apply letters_app. split; [assumption|].
  apply letters_app. split; [apply goto_word_letters|].
  apply letters_app. split; [repeat constructor; unfold is_letter; lia|].
  apply Hl. apply nth_error_In in Hn. exact Hn.
Qed.

Lemma chain_keys : forall chunks k p, chain chunks k p -> nth_error ks0 k0 <> None ->
  nth_error ks0 k <> None /\ forall c, In c chunks -> nth_error ks0 (ch_key c) <> None.
Proof.
  induction 1 as [|chunks k p w p1 st k' kk Hch IH Hd Hst Hw Hn]; intros H0.
  - split; [exact H0|contradiction].
  - destruct (IH H0) as (IH1 & IH2). split; [congruence|].
    intros c Hin. apply in_app_iff in Hin. destruct Hin as [Hin|[<-|[]]]; [auto|exact IH1].
Qed.

Lemma decodes_to_nonempty : forall w p st, decodes_to w p st -> p <> [] -> w <> [].
Proof.
  intros w p st D Hp ->. destruct (D []) as (dst & D1 & _). cbn in D1.
  injection D1. intros. congruence.
Qed.

End Enc.

(** *** The whole function *)
Section Whole.
Context (U : Uni) (HU : uni_ok U).

Lemma ensure_id_spec : forall i m t m1 t1, ensure_id i m t = Ok (m1, t1) ->
  mrecipients m1 = mrecipients m /\ mfrom m1 = mfrom m /\ mdtg m1 = mdtg m /\
  mkeyid m1 = mkeyid m /\ mplain m1 = mplain m /\ mbinary m1 = mbinary m /\
  mcipher m1 = mcipher m /\ mradiogram m1 = mradiogram m /\
  (mid m <> [] -> m1 = m /\ t1 = t).
Proof.
  intros i m t m1 t1 H. unfold ensure_id in H.
  destruct (len (mid m) =? 0) eqn:E.
  - destruct (new_unique_message_id (i_messages i) t) as [[id t2]| | |]; try discriminate.
    cbn in H. injection H as <- <-. cbn. repeat (split; [reflexivity|]).
    intros N; apply len_nil in E; contradiction.
  - injection H as <- <-. repeat split; auto.
Qed.

Lemma check_given_key_spec : forall id ks, check_given_key id ks = Ok tt ->
  exists j k, nth_error ks j = Some k /\ kid k = id /\ kused k = false /\ kcompromised k = false.
Proof.
  intros id ks. induction ks as [|k ks IH]; intros H; [discriminate|].
  cbn [check_given_key] in H.
  destruct (equal_runes (Some (kid k)) (Some id)) eqn:E.
  - apply equal_runes_spec in E. destruct (kused k) eqn:Eu; [discriminate|].
    destruct (kcompromised k) eqn:Ec; [discriminate|].
    exists 0%nat, k. auto.
  - destruct (IH H) as (j & k' & H1 & H2). exists (S j), k'. auto.
Qed.

Lemma check_given_key_res : forall id ks,
  check_given_key id ks = Ok tt \/ exists e, check_given_key id ks = Err e.
Proof.
  intros id ks. induction ks as [|k ks IH]; [right; eexists; reflexivity|].
  cbn [check_given_key]. destruct (equal_runes (Some (kid k)) (Some id)); [|exact IH].
  destruct (kused k); [right; eexists; reflexivity|].
  destruct (kcompromised k); [right; eexists; reflexivity|]. left. reflexivity.
Qed.

(** EnrichWithKey: an error changes nothing; success names an unused key. *)
Lemma enrich_spec : forall gs ks m, 0 < gs ->
  match enrich_with_key U gs ks m with
  | (ks1, m1, Ok _) =>
      exists k0 k, nth_error ks k0 = Some k /\ kused k = false /\
        m1 = set_mkeyid m (kid k) /\ mplain m <> [] /\ len (kid k) = gs /\
        ((mkeyid m = [] /\ mcipher m = [] /\ eligible gs (mrecipients m) k /\
          find_key U gs (mrecipients m) ks = Some k0 /\ ks1 = mark ks k0 true)
         \/ (mkeyid m = kid k /\ kcompromised k = false /\ ks1 = ks))
  | (ks1, m1, Err _) => ks1 = ks /\ m1 = m
  | _ => False
  end.
Proof.
  intros gs ks m Hg. unfold enrich_with_key.
  destruct (len (mplain m) =? 0) eqn:E0; [auto|].
  assert (Hp : mplain m <> []) by (intros N; apply len_nil in N; congruence).
  destruct (0 <? len (mkeyid m)) eqn:E1.
  - destruct (len (mkeyid m) =? gs) eqn:E2; cbn [negb]; [|auto].
    destruct (check_given_key_res (mkeyid m) ks) as [R|(e & R)]; rewrite R; [|auto].
    destruct (check_given_key_spec _ _ R) as (j & k & H1 & H2 & H3 & H4).
    exists j, k. repeat split; auto; try (rewrite H2; lia).
    rewrite H2. destruct m; reflexivity.
  - assert (Hk : mkeyid m = []).
    { apply len_nil. unfold len in *. lia. }
    destruct (0 <? len (mcipher m)) eqn:E2.
    + rewrite Hk. unfold len at 1. cbn [length].
      replace (Z.of_nat 0 =? gs) with false by lia. cbn [negb]. auto.
    + destruct (find_key U gs (mrecipients m) ks) as [j|] eqn:F; [|auto].
      destruct (find_key_some U gs _ _ _ F) as (k & N1 & N2 & N3). rewrite N1.
      exists j, k. repeat split; auto; try apply N2.
      left. repeat split; auto; try apply N2.
      apply len_nil. unfold len in *. lia.
Qed.

Lemma wipe_value_nil : forall s t, s = [] \/ (length s <= length t)%nat ->
  fst (wipe_value s t) = [].
Proof.
  intros s t H. unfold wipe_value, read_runes.
  destruct (Nat.leb (length s) (length t)) eqn:E; [reflexivity|].
  apply Nat.leb_gt in E. destruct H as [->|H]; [cbn in E; lia|lia].
Qed.

Lemma flat_map_ext_in : forall A B (f g : A -> list B) l,
  (forall x, In x l -> f x = g x) -> flat_map f l = flat_map g l.
Proof.
  intros A B f g l. induction l as [|x l IH]; intros H; [reflexivity|].
  cbn. rewrite (H x (or_introl eq_refl)), IH; [reflexivity|].
  intros y Hy. apply H. right. exact Hy.
Qed.

Lemma chunk_cipher_same : forall ks ks' c, same_but_used ks ks' ->
  chunk_cipher ks c = chunk_cipher ks' c.
Proof.
  intros ks ks' c H. unfold chunk_cipher.
  destruct (nth_error ks (ch_key c)) as [k|] eqn:E.
  - destruct (same_but_used_nth _ _ _ _ H E) as (k' & N & Q). rewrite N.
    apply set_used_fields in Q. destruct Q as (_ & Q & _). rewrite Q. reflexivity.
  - destruct (nth_error ks' (ch_key c)) as [k'|] eqn:E'; [|reflexivity].
    destruct (same_but_used_nth _ _ _ _ (same_but_used_sym _ _ H) E') as (k & N & _). congruence.
Qed.

Lemma total_len_app : forall a b, total_len (a ++ b) = total_len a + total_len b.
Proof.
  induction a as [|c a IH]; intros b; [reflexivity|].
  cbn [app total_len fold_right] in *. unfold total_len in *. rewrite IH. lia.
Qed.
Lemma total_len_nonneg : forall a, 0 <= total_len a.
Proof.
  induction a as [|c a IH]; [cbn; lia|]. unfold total_len in *. cbn [fold_right].
  assert (0 <= len (ch_text c)) by (unfold len; lia). lia.
Qed.

Lemma letters_repeat_z : forall n, letters (repeat 90 n).
Proof. induction n; cbn; constructor; [unfold is_letter; lia|assumption]. Qed.

(** Everything a successful body did. *)
Lemma encipher_body_spec : forall gs recips text ks k0 c0,
  0 < gs -> store_ok gs ks -> nth_error ks k0 <> None ->
  let b := encipher_body U gs recips text ks k0 c0 in
  match er_res b with
  | Ok _ =>
      exists picked chunks last w p1 p2 st n,
        map ch_key chunks ++ [last] = k0 :: picked /\
        pick_ok gs recips ks picked /\ after_picking ks picked (er_keys b) /\
        chain U ks k0 chunks last p1 /\ decodes_to U w p2 st /\ st_ok st /\ letters w /\
        map canon text = p1 ++ p2 /\ Forall accepted text /\
        er_chunks b = chunks ++ [mkChunk (w ++ repeat 90 n) last] /\
        er_cipher b = c0 ++ flat_map (chunk_cipher ks) (er_chunks b) /\
        (forall c, In c (er_chunks b) -> letters (ch_text c) /\
           exists k, nth_error ks (ch_key c) = Some k /\
                     (length (ch_text c) <= length (krunes k))%nat) /\
        (total_len (er_chunks b)) mod gs = 0
  | r =>
      (exists picked, pick_ok gs recips ks picked /\ after_picking ks picked (er_keys b) /\
        (forall j, In j (k0 :: picked) <->
                   j = ch_key (er_cur b) \/ In j (map ch_key (er_chunks b))))
      /\ (r = Panic /\ (exists c, In c text /\ ~ accepted c)
          \/ r = Err ErrOutOfKeys /\ Forall accepted text
          \/ r = Err ErrOutOfKeys /\ (exists c, In c text /\ ~ accepted c)
          \/ r = Err ErrChunkKeyTooShort /\ Forall accepted text)
  end.
Proof.
  intros gs recips text ks k0 c0 Hg Hs Hk0.
  unfold encipher_body.
  pose proof (encode_loop_inv U HU gs recips ks k0 text _ _ (inv_init U gs recips ks k0)) as L.
  destruct (encode_loop U gs recips text (mkES ks new_state [] (mkChunk [] k0))) as [e r].
  assert (FK : forall p, inv U gs recips ks k0 e p -> exists picked, pick_ok gs recips ks picked /\
     after_picking ks picked (es_keys e) /\ (forall j, In j (k0 :: picked) <->
                   j = ch_key (es_cur e) \/ In j (map ch_key (es_chunks e)))).
  { intros p I. destruct (inv_picked _ _ _ _ _ e p I) as (picked & P1 & P2 & P3).
    exists picked. split; [exact P2|]. split; [exact P3|]. intros j. rewrite <- P1, in_app_iff.
    cbn. split; [intros [H|[H|[]]]; auto|intros [H|H]; auto]. }
  assert (DA : Forall accepted text \/ exists c, In c text /\ ~ accepted c).
  { clear. induction text as [|c text IH]; [left; constructor|].
    destruct (acceptedb c) eqn:A.
    - apply acceptedb_ok in A. destruct IH as [IH|(c' & H1 & H2)]; [left; constructor; assumption|].
      right. exists c'. split; [right|]; assumption.
    - right. exists c. split; [left; reflexivity|]. rewrite <- acceptedb_ok. congruence. }
  destruct r as [u|er| |].
  - destruct L as (I & A). cbn [app] in I.
    assert (T0 : 0 <= len (ch_text (es_cur e)) + total_len (es_chunks e)).
    { pose proof (total_len_nonneg (es_chunks e)). unfold len. lia. }
    destruct (pad_count_spec gs _ Hg T0) as (n & N1 & N2 & N3). rewrite N1.
    unfold pad. cbn [out_nil out_app unoutput]. unfold nextTableChar.
    destruct (inv_picked _ _ _ _ _ e _ I) as (picked & P1 & P2 & P3).
    destruct (inv_text _ _ _ _ _ e _ I) as (p1 & p2 & E1 & Ch & D).
    pose proof (after_picking_same ks picked (es_keys e) P3) as SB.
    set (cur := mkChunk (ch_text (es_cur e) ++ repeat 90 (Z.to_nat n)) (ch_key (es_cur e))).
    destruct (chain_keys U ks k0 _ _ _ Ch Hk0) as (CK1 & CK2).
    assert (CT : forall c, In c (es_chunks e) -> letters (ch_text c)).
    { apply (chain_texts U ks k0 _ _ _ Ch). intros kk Hkk. apply (proj2 Hs kk Hkk). }
    assert (Hall : forall c, In c (es_chunks e ++ [cur]) ->
       letters (ch_text c) /\ nth_error ks (ch_key c) <> None).
    { intros c Hc. apply in_app_iff in Hc. destruct Hc as [Hc|[<-|[]]]; [split; auto|].
      cbn [ch_text ch_key cur]. split; [|exact CK1].
      apply letters_app. split; [apply (inv_letters _ _ _ _ _ e _ I)|apply letters_repeat_z]. }
    assert (Sw : forall j, nth_error ks j <> None -> nth_error (es_keys e) j <> None).
    { intros j Hj. rewrite (P3 j). destruct (nth_error ks j); [discriminate|congruence]. }
    pose proof (encipher_chunks_spec (es_keys e) (es_chunks e ++ [cur]) c0) as ES.
    assert (HL : forall k, In k (es_keys e) -> letters (krunes k)).
    { intros k Hk. apply (proj2 (same_but_used_store gs ks _ (same_but_used_sym _ _ SB) Hs) k Hk). }
    specialize (ES HL (fun c Hc => conj (proj1 (Hall c Hc)) (Sw _ (proj2 (Hall c Hc))))).
    destruct (encipher_chunks (es_keys e) (es_chunks e ++ [cur]) c0) as [out r].
    cbn [er_res er_keys er_chunks er_cur er_cipher]. destruct r as [u'|er| |].
    + destruct ES as (ES1 & ES2).
      exists picked, (es_chunks e), (ch_key (es_cur e)), (ch_text (es_cur e)), p1, p2, (es_st e), (Z.to_nat n).
      split; [exact P1|]. split; [exact P2|]. split; [exact P3|]. split; [exact Ch|].
      split; [exact D|]. split; [apply (inv_st _ _ _ _ _ e _ I)|].
      split; [apply (inv_letters _ _ _ _ _ e _ I)|]. split; [exact E1|]. split; [exact A|].
      split; [reflexivity|]. split.
      { rewrite ES1. f_equal. apply flat_map_ext_in. intros c _. apply chunk_cipher_same. exact SB. }
      split.
      { intros c Hc. split; [apply (Hall c Hc)|].
        destruct (ES2 c Hc) as (k & K1 & K2).
        destruct (same_but_used_nth _ _ _ _ SB K1) as (k' & Q1 & Q2).
        exists k'. split; [exact Q1|]. apply set_used_fields in Q2. destruct Q2 as (_ & Q2 & _).
        rewrite Q2. exact K2. }
      { rewrite total_len_app. unfold total_len at 2. cbn [fold_right cur ch_text].
        unfold len. rewrite app_length, repeat_length.
        replace (total_len (es_chunks e) + (Z.of_nat (length (ch_text (es_cur e)) + Z.to_nat n) + 0))
          with (len (ch_text (es_cur e)) + total_len (es_chunks e) + n) by (unfold len; lia).
        exact N3. }
    + destruct ES as (-> & _). split.
      * exists picked. split; [exact P2|]. split; [exact P3|]. intros j. rewrite <- P1.
        rewrite map_app. cbn [map cur ch_key]. rewrite in_app_iff. cbn.
        split; [intros [H|[H|[]]]; auto|intros [H|[H|[H|[]]]]; auto].
      * right. right. right. auto.
    + contradiction.
    + contradiction.
  - destruct L as (-> & p & I & _). cbn [er_res er_keys er_chunks er_cur]. split; [apply (FK p I)|].
    destruct DA; [right; left; auto|right; right; left; auto].
  - destruct L as ((p & I) & [N|C]); [contradiction|].
    cbn [er_res er_keys er_chunks er_cur]. split; [apply (FK p I)|]. left. auto.
  - contradiction.
Qed.

(** *** Release *)
Lemma nth_mark_list : forall l ks j,
  nth_error (fold_left (fun a c => mark a (ch_key c) false) l ks) j =
  if existsb (Nat.eqb j) (map ch_key l)
  then option_map (fun k => set_used k false) (nth_error ks j) else nth_error ks j.
Proof.
  induction l as [|c l IH]; intros ks j; [reflexivity|].
  cbn [fold_left map existsb]. rewrite IH, nth_error_mark, (Nat.eqb_sym j).
  destruct (Nat.eqb (ch_key c) j); cbn [orb]; [|reflexivity].
  destruct (existsb (Nat.eqb j) (map ch_key l)); [|reflexivity].
  destruct (nth_error ks j); reflexivity.
Qed.

Lemma release_restores : forall gs recips ks ks1 k0 k picked ks2 cur chunks,
  store_ok gs ks -> nth_error ks k0 = Some k -> kused k = false ->
  ks1 = mark ks k0 true \/ ks1 = ks ->
  pick_ok gs recips ks1 picked -> after_picking ks1 picked ks2 ->
  (forall j, In j (k0 :: picked) <-> j = ch_key cur \/ In j (map ch_key chunks)) ->
  release_keys U (kid k) cur chunks ks2 = ks.
Proof.
  intros gs recips ks ks1 k0 k picked ks2 cur chunks Hs Hk Hu H1 (P1 & P2) A J.
  assert (SB1 : same_but_used ks ks1).
  { destruct H1 as [->| ->]; [apply same_but_used_sym, same_but_used_mark|apply same_but_used_refl]. }
  assert (SB2 : same_but_used ks2 ks1) by (apply (after_picking_same _ _ _ A)).
  assert (Hs2 : store_ok gs ks2).
  { apply (same_but_used_store gs ks); [|exact Hs].
    apply (same_but_used_trans _ _ _ SB1). apply same_but_used_sym. exact SB2. }
  assert (SB : same_but_used ks ks2).
  { apply (same_but_used_trans _ _ _ SB1). apply same_but_used_sym. exact SB2. }
  destruct (same_but_used_nth _ _ _ _ SB Hk) as (k2 & N2 & Q2).
  pose proof (set_used_fields _ _ Q2) as (Qid & _).
  unfold release_keys. rewrite <- Qid. rewrite (mark_key_used_found U gs ks2 k0 k2 false Hs2 N2).
  cbn [fst]. apply nth_error_ext. intros j. rewrite nth_mark_list, !nth_error_mark, (A j).
  (* the key at j *)
  assert (Hin : In j (k0 :: picked) \/ ~ In j (k0 :: picked)).
  { destruct (in_dec Nat.eq_dec j (k0 :: picked)); auto. }
  destruct Hin as [Hin|Hin].
  - (* released *)
    assert (E : exists kj, nth_error ks j = Some kj /\ kused kj = false).
    { destruct (Nat.eq_dec k0 j) as [->|Ne]; [exists k; auto|].
      destruct Hin as [Hin|Hin]; [congruence|]. destruct (P2 j Hin) as (kj & K1 & K2 & _).
      exists kj. split; [|exact K2].
      destruct H1 as [->| ->]; [|exact K1]. rewrite nth_error_mark in K1.
      apply Nat.eqb_neq in Ne. rewrite Ne in K1. exact K1. }
    destruct E as (kj & E1 & E2).
    assert (E3 : exists b, nth_error ks1 j = Some (set_used kj b)).
    { destruct H1 as [->| ->].
      - rewrite nth_error_mark, E1. destruct (Nat.eqb k0 j); [exists true; reflexivity|].
        exists (kused kj). rewrite set_used_same. reflexivity.
      - exists (kused kj). rewrite set_used_same. exact E1. }
    destruct E3 as (b & E3). rewrite E3, E1.
    assert (R : forall x, set_used x false = set_used kj false -> Some (set_used x false) = Some kj).
    { intros x Hx. f_equal. rewrite Hx. rewrite <- E2. apply set_used_same. }
    apply J in Hin.
    destruct (existsb (Nat.eqb j) (map ch_key chunks)) eqn:Ex.
    + destruct (Nat.eqb (ch_key cur) j), (Nat.eqb k0 j), (existsb (Nat.eqb j) picked); cbn; apply R; reflexivity.
    + destruct Hin as [Hin|Hin].
      * subst j. rewrite Nat.eqb_refl.
        destruct (Nat.eqb k0 (ch_key cur)), (existsb (Nat.eqb (ch_key cur)) picked); cbn; apply R; reflexivity.
      * apply existsb_nat_In in Hin. congruence.
  - (* untouched *)
    assert (Ne : Nat.eqb k0 j = false) by (apply Nat.eqb_neq; intros ->; apply Hin; left; reflexivity).
    assert (Np : existsb (Nat.eqb j) picked = false).
    { destruct (existsb (Nat.eqb j) picked) eqn:E; [|reflexivity].
      apply existsb_nat_In in E. exfalso. apply Hin. right. exact E. }
    rewrite J in Hin.
    assert (Nc : Nat.eqb (ch_key cur) j = false) by (apply Nat.eqb_neq; intros <-; apply Hin; left; reflexivity).
    assert (Nl : existsb (Nat.eqb j) (map ch_key chunks) = false).
    { destruct (existsb (Nat.eqb j) (map ch_key chunks)) eqn:E; [|reflexivity].
      apply existsb_nat_In in E. exfalso. apply Hin. right. exact E. }
    rewrite Ne, Np, Nc, Nl.
    assert (E : nth_error ks1 j = nth_error ks j).
    { destruct H1 as [->| ->]; [|reflexivity]. rewrite nth_error_mark, Ne. reflexivity. }
    rewrite E. destruct (nth_error ks j); reflexivity.
Qed.

Lemma set_keys_same : forall i, set_keys i (i_keys i) = i.
Proof. intros []. reflexivity. Qed.

(** A failing Encipher leaves the store as it was. *)
Lemma encipher_fail : forall i m t i' m' r t', 0 < i_groupsize i ->
  store_ok (i_groupsize i) (i_keys i) ->
  encipher U i m t = (i', m', r, t') -> r <> Ok tt -> i' = i.
Proof.
  intros i m t i' m' r t' Hg Hs H Hr. unfold encipher, encipher_full in H.
  destruct (ensure_id i m t) as [[m1 t1]|e| |];
    try (cbn in H; injection H as <- <- <- <-; reflexivity).
  pose proof (enrich_spec (i_groupsize i) (i_keys i) m1 Hg) as ER.
  destruct (enrich_with_key U (i_groupsize i) (i_keys i) m1) as [[ks1 m2] r1].
  destruct r1 as [u|e| |]; [| |contradiction|contradiction].
  2: { destruct ER as (-> & ->). cbn in H. injection H as <- <- <- <-. apply set_keys_same. }
  destruct ER as (k0 & k & K1 & K2 & K3 & K4 & K5 & K6).
  destruct (wipe_value (mcipher m2) t1) as [c0 t2] eqn:W.
  assert (H1 : ks1 = mark (i_keys i) k0 true \/ ks1 = i_keys i) by tauto.
  assert (SB1 : same_but_used (i_keys i) ks1).
  { destruct H1 as [->| ->]; [apply same_but_used_sym, same_but_used_mark|apply same_but_used_refl]. }
  assert (Hs1 : store_ok (i_groupsize i) ks1) by (apply (same_but_used_store _ _ _ SB1 Hs)).
  destruct (same_but_used_nth _ _ _ _ SB1 K1) as (k1 & N1 & Q1).
  pose proof (set_used_fields _ _ Q1) as (Qid & _).
  assert (G : get_key U (mkeyid m2) ks1 = Some k0).
  { rewrite K3. cbn [mkeyid set_mkeyid]. rewrite <- Qid.
    apply (get_key_found U _ _ _ _ Hs1 N1). }
  rewrite G in H.
  assert (N0 : nth_error ks1 k0 <> None) by congruence.
  pose proof (encipher_body_spec (i_groupsize i) (mrecipients m2) (mplain m2) ks1 k0 c0 Hg Hs1 N0) as B.
  cbv zeta in B, H.
  set (b := encipher_body U (i_groupsize i) (mrecipients m2) (mplain m2) ks1 k0 c0) in *.
  assert (RR : er_res b <> Ok tt -> release_keys U (mkeyid m2) (er_cur b) (er_chunks b) (er_keys b) = i_keys i).
  { intros Nok. rewrite K3. cbn [mkeyid set_mkeyid].
    destruct (er_res b) as [[]|e| |]; [congruence| | |];
    destruct B as ((picked & B1 & B2 & B3) & _);
    apply (release_restores (i_groupsize i) (mrecipients m2) (i_keys i) ks1 k0 k picked); auto. }
  destruct (er_res b) as [[]|e| |] eqn:Eb.
  - cbn in H. injection H as <- <- <- <-. congruence.
  - destruct (wipe_value (mkeyid m2) t2) as [kid' t3].
    cbn in H. injection H as <- <- <- <-. rewrite RR by discriminate. apply set_keys_same.
  - destruct (wipe_value (mkeyid m2) t2) as [kid' t3].
    cbn in H. injection H as <- <- <- <-. rewrite RR by discriminate. apply set_keys_same.
  - destruct (wipe_value (mkeyid m2) t2) as [kid' t3].
    cbn in H. injection H as <- <- <- <-. rewrite RR by discriminate. apply set_keys_same.
Qed.

(** Everything a successful Encipher did. *)
Lemma encipher_ok : forall i m t i' m' t', 0 < i_groupsize i ->
  store_ok (i_groupsize i) (i_keys i) ->
  encipher U i m t = (i', m', Ok tt, t') ->
  exists k0 k ks1 picked chunks last w p1 p2 st n c0 all,
    nth_error (i_keys i) k0 = Some k /\ kused k = false /\
    mkeyid m' = kid k /\ mplain m <> [] /\
    ((mkeyid m = [] /\ mcipher m = [] /\ eligible (i_groupsize i) (mrecipients m) k /\
      ks1 = mark (i_keys i) k0 true)
     \/ (mkeyid m = kid k /\ kcompromised k = false /\ ks1 = i_keys i)) /\
    map ch_key chunks ++ [last] = k0 :: picked /\
    pick_ok (i_groupsize i) (mrecipients m) ks1 picked /\
    after_picking ks1 picked (i_keys i') /\ i' = set_keys i (i_keys i') /\
    chain U ks1 k0 chunks last p1 /\ decodes_to U w p2 st /\ st_ok st /\ letters w /\
    map canon (mplain m) = p1 ++ p2 /\ Forall accepted (mplain m) /\
    all = chunks ++ [mkChunk (w ++ repeat 90 n) last] /\
    mcipher m' = c0 ++ flat_map (chunk_cipher (i_keys i)) all /\
    (forall c, In c all -> letters (ch_text c) /\
       exists kc, nth_error (i_keys i) (ch_key c) = Some kc /\
                  (length (ch_text c) <= length (krunes kc))%nat) /\
    (total_len all) mod (i_groupsize i) = 0 /\
    (mcipher m = [] \/ (mid m <> [] /\ (length (mcipher m) <= length t)%nat) -> c0 = []) /\
    (mplain m' = mplain m /\ mrecipients m' = mrecipients m /\ mfrom m' = mfrom m /\
     mdtg m' = mdtg m /\ mradiogram m' = mradiogram m /\ (mid m <> [] -> mid m' = mid m)).
Proof.
  intros i m t i' m' t' Hg Hs H. unfold encipher, encipher_full in H.
  destruct (ensure_id i m t) as [[m1 t1]|e| |] eqn:Eid;
    try (cbn in H; discriminate).
  apply ensure_id_spec in Eid. destruct Eid as (I1 & I2 & I3 & I4 & I5 & I6 & I7 & I8 & I9).
  pose proof (enrich_spec (i_groupsize i) (i_keys i) m1 Hg) as ER.
  destruct (enrich_with_key U (i_groupsize i) (i_keys i) m1) as [[ks1 m2] r1].
  destruct r1 as [u|e| |]; [| |contradiction|contradiction].
  2: { cbn in H. discriminate. }
  destruct ER as (k0 & k & K1 & K2 & K3 & K4 & K5 & K6).
  destruct (wipe_value (mcipher m2) t1) as [c0 t2] eqn:W.
  assert (H1 : ks1 = mark (i_keys i) k0 true \/ ks1 = i_keys i) by tauto.
  assert (SB1 : same_but_used (i_keys i) ks1).
  { destruct H1 as [->| ->]; [apply same_but_used_sym, same_but_used_mark|apply same_but_used_refl]. }
  assert (Hs1 : store_ok (i_groupsize i) ks1) by (apply (same_but_used_store _ _ _ SB1 Hs)).
  destruct (same_but_used_nth _ _ _ _ SB1 K1) as (k1 & N1 & Q1).
  pose proof (set_used_fields _ _ Q1) as (Qid & _).
  assert (G : get_key U (mkeyid m2) ks1 = Some k0).
  { rewrite K3. cbn [mkeyid set_mkeyid]. rewrite <- Qid.
    apply (get_key_found U _ _ _ _ Hs1 N1). }
  rewrite G in H.
  assert (N0 : nth_error ks1 k0 <> None) by congruence.
  pose proof (encipher_body_spec (i_groupsize i) (mrecipients m2) (mplain m2) ks1 k0 c0 Hg Hs1 N0) as B.
  cbv zeta in B, H.
  set (b := encipher_body U (i_groupsize i) (mrecipients m2) (mplain m2) ks1 k0 c0) in *.
  destruct (er_res b) as [[]|e| |] eqn:Eb;
    try (destruct (wipe_value (mkeyid m2) t2); cbn in H; discriminate).
  cbn in H. injection H as <- <- <-.
  destruct B as (picked & chunks & last & w & p1 & p2 & st & n & B1 & B2 & B3 & B4 & B5 & B6 & B7 & B8 & B9 & B10 & B11 & B12 & B13).
  subst m2. cbn [mrecipients mplain mcipher mkeyid set_mkeyid set_mcipher mid mfrom mdtg mradiogram i_keys set_keys] in *.
  rewrite I1 in *. rewrite I5 in *. rewrite I7 in *. rewrite I4 in *.
  exists k0, k, ks1, picked, chunks, last, w, p1, p2, st, n, c0, (er_chunks b).
  split; [exact K1|]. split; [exact K2|]. split; [reflexivity|]. split; [exact K4|].
  split; [tauto|]. split; [exact B1|]. split; [exact B2|]. split; [exact B3|].
  split; [reflexivity|]. split; [exact B4|]. split; [exact B5|]. split; [exact B6|].
  split; [exact B7|]. split; [exact B8|]. split; [exact B9|]. split; [exact B10|].
  split.
  { rewrite B11. f_equal. apply flat_map_ext_in. intros c _. apply chunk_cipher_same.
    apply same_but_used_sym. exact SB1. }
  split.
  { intros c Hc. destruct (B12 c Hc) as (X1 & kc & X2 & X3). split; [exact X1|].
    destruct (same_but_used_nth _ _ _ _ (same_but_used_sym _ _ SB1) X2) as (k' & Y1 & Y2).
    exists k'. split; [exact Y1|]. apply set_used_fields in Y2. destruct Y2 as (_ & Y2 & _).
    rewrite Y2. exact X3. }
  split; [exact B13|]. split.
  { intros Hc. assert (E : fst (wipe_value (mcipher m) t1) = c0) by (rewrite W; reflexivity).
    rewrite <- E. apply wipe_value_nil. destruct Hc as [Hc|(Hc1 & Hc2)]; [left; exact Hc|].
    right. destruct (I9 Hc1) as (_ & ->). exact Hc2. }
  repeat (split; [auto|]). intros Hm. destruct (I9 Hm) as (-> & _). reflexivity.
Qed.

End Whole.
