(** Decipher undoes Encipher; totality of Decipher. *)
From Verif Require Import Base Spec Model_Unicode Model_Diana Model_Codec Model_Crand
  Model_Functions Model_Types Model_Cipher Proofs_Diana Proofs_Codec Proofs_Keys Proofs_Encipher.

Section Dec.
Context (U : Uni).

Lemma skipn_nth : forall A (l : list A) i x, nth_error l i = Some x ->
  skipn i l = x :: skipn (S i) l.
Proof.
  induction l as [|y l IH]; intros [|i] x H; try discriminate.
  - cbn in *. congruence.
  - cbn [nth_error] in H. cbn [skipn]. apply (IH i x H).
Qed.

Lemma letters_nth : forall l i x, letters l -> nth_error l i = Some x -> is_letter x.
Proof. intros l i x H N. apply nth_error_In in N. unfold letters in H. rewrite Forall_forall in H. auto. Qed.

Section Loop.
Context (gs : Z) (rks : list key).

(** Reading a word that contains no key change. *)
Lemma decipher_word : forall w kp rk ki st nk plain stack rest st' plain',
  nth_error rks kp = Some rk -> letters (krunes rk) -> letters w ->
  (ki + length w <= length (krunes rk))%nat ->
  decode_list U st w plain = Some (st', plain') ->
  decipher_loop U gs rks (diana_text (skipn ki (krunes rk)) w ++ rest) kp ki st nk plain stack =
  decipher_loop U gs rks rest kp (ki + length w) st' nk plain' stack.
Proof.
  induction w as [|c w IH]; intros kp rk ki st nk plain stack rest st' plain' Hk Hl Hw L D.
  - cbn [decode_list] in D. injection D as <- <-.
    destruct (skipn ki (krunes rk)); cbn [diana_text app length]; rewrite Nat.add_0_r; reflexivity.
  - cbn [length] in L.
    destruct (nth_error (krunes rk) ki) as [kr|] eqn:E.
    2: { apply nth_error_None in E. lia. }
    rewrite (skipn_nth _ _ _ _ E). cbn [diana_text app decipher_loop].
    rewrite Hk, E. inversion Hw; subst.
    pose proof (letters_nth _ _ _ Hl E) as Lk.
    rewrite (trigraph_ok kr (diana_letter kr c)) by (assumption || apply diana_letter_letter).
    rewrite diana_letter_invol by assumption.
    cbn [decode_list] in D.
    destruct (decode_character U st c plain) as [[st1 plain1]| | |]; try discriminate.
    destruct (cs_keyChange st1); [discriminate|].
    cbn [length]. replace (ki + S (length w))%nat with (S ki + length w)%nat by lia.
    apply IH; auto. lia.
Qed.

(** Reading the ID of the next key. *)
Lemma decipher_keyid : forall id kp rk ki st nk plain stack rest kp1,
  nth_error rks kp = Some rk -> letters (krunes rk) -> letters id -> id <> [] ->
  (ki + length id <= length (krunes rk))%nat ->
  cs_binary st = false -> cs_gotChangeKeyChar st || cs_keyChange st = true ->
  len nk + len id = gs -> get_key U (nk ++ id) rks = Some kp1 ->
  decipher_loop U gs rks (diana_text (skipn ki (krunes rk)) id ++ rest) kp ki st nk plain stack =
  decipher_loop U gs rks rest kp1 0 new_state [] plain (stack ++ [kp1]).
Proof.
  induction id as [|c id IH]; intros kp rk ki st nk plain stack rest kp1 Hk Hl Hi Hne L Hb Hg Hlen G;
    [congruence|].
  cbn [length] in L.
  destruct (nth_error (krunes rk) ki) as [kr|] eqn:E.
  2: { apply nth_error_None in E. lia. }
  rewrite (skipn_nth _ _ _ _ E). cbn [diana_text app decipher_loop].
  rewrite Hk, E. inversion Hi as [|? ? Hc Hi']; subst.
  pose proof (letters_nth _ _ _ Hl E) as Lk.
  rewrite (trigraph_ok kr (diana_letter kr c)) by (assumption || apply diana_letter_letter).
  rewrite diana_letter_invol by assumption.
  assert (D : exists st1, decode_character U st c plain = Ok (st1, plain) /\
            cs_keyChange st1 = true /\ cs_binary st1 = false).
  { unfold decode_character. unfold is_letter in Hc.
    replace ((c <? 65) || (90 <? c)) with false by lia. rewrite Hb.
    destruct (cs_gotChangeKeyChar st) eqn:Eg.
    - eexists. split; [reflexivity|]. cbn. auto.
    - cbn in Hg. rewrite Hg. exists st. auto. }
  destruct D as (st1 & D1 & D2 & D3). rewrite D1, D2.
  unfold len in *. rewrite app_length in *. cbn [length] in *.
  destruct id as [|c' id'].
  - cbn [length] in *. replace (Z.of_nat (length nk) + Z.of_nat 1 <=? Z.of_nat (length nk + 1)) with true by lia.
    rewrite G. destruct (skipn (S ki) (krunes rk)); reflexivity.
  - replace (Z.of_nat (length nk) + Z.of_nat (S (length (c' :: id'))) <=? Z.of_nat (length nk + 1))
      with false by (cbn [length]; lia).
    apply IH; auto; try discriminate.
    + lia.
    + rewrite D2. apply orb_true_r.
    + rewrite app_length. cbn [length]. lia.
    + rewrite <- app_assoc. exact G.
Qed.

(** Reading the key-change letter. *)
Lemma decode_y : forall st out, dst_ok st -> cs_table st = 1 ->
  exists st', decode_character U st 89 out = Ok (st', out) /\ cs_binary st' = false /\
    cs_gotChangeKeyChar st' = true /\ cs_keyChange st' = false.
Proof.
  intros [ki tb nt cc g kc sh bi ln] out ((_ & Hn & Hb) & Hg & Hk) Ht;
  cbn in Ht, Hn, Hb, Hg, Hk; subst tb nt bi g kc;
  (eexists; split; [reflexivity|]; cbn; auto 10).
Qed.

(** A chunk with its key change. *)
Lemma diana_text_app : forall a b key, (length a <= length key)%nat ->
  diana_text key (a ++ b) = diana_text key a ++ diana_text (skipn (length a) key) b.
Proof.
  induction a as [|x a IH]; intros b key L.
  - cbn [length app skipn]. destruct key; reflexivity.
  - destruct key as [|k key]; [cbn in L; lia|].
    cbn [app diana_text length skipn]. f_equal. apply IH. cbn in L. lia.
Qed.

Lemma decipher_chunk : forall w p st id kp rk plain stack rest kp1,
  nth_error rks kp = Some rk -> letters (krunes rk) -> letters w -> letters id ->
  decodes_to U w p st -> st_ok st -> 0 < gs -> len id = gs ->
  (length (w ++ goto_word (cs_table st) 1 ++ [89%Z] ++ id) <= length (krunes rk))%nat ->
  get_key U id rks = Some kp1 ->
  decipher_loop U gs rks
    (diana_text (krunes rk) (w ++ goto_word (cs_table st) 1 ++ [89] ++ id) ++ rest)
    kp 0 new_state [] plain stack =
  decipher_loop U gs rks rest kp1 0 new_state [] (plain ++ p) (stack ++ [kp1]).
Proof.
  intros w p st id kp rk plain stack rest kp1 Hk Hl Hw Hid D Hst Hg Lid L G.
  destruct (D plain) as (dst & D1 & D2 & D3).
  assert (W : exists dst2, decode_list U new_state (w ++ goto_word (cs_table st) 1 ++ [89]) plain
     = Some (dst2, plain ++ p) /\ cs_binary dst2 = false /\
       cs_gotChangeKeyChar dst2 = true /\ cs_keyChange dst2 = false).
  { rewrite decode_list_app, D1, decode_list_app.
    destruct D3 as (S1 & S2). rewrite S1.
    destruct (decode_goto U dst 1 (plain ++ p) D2 (or_intror eq_refl)) as (d1 & A1 & A2 & A3 & A4).
    rewrite A1. cbn [decode_list].
    destruct (decode_y d1 (plain ++ p) A2 A3) as (d2 & B1 & B2 & B3 & B4).
    rewrite B1, B4. exists d2. auto. }
  destruct W as (dst2 & W1 & W2 & W3 & W4).
  replace (w ++ goto_word (cs_table st) 1 ++ [89] ++ id)
    with ((w ++ goto_word (cs_table st) 1 ++ [89]) ++ id) in * by (rewrite <- !app_assoc; reflexivity).
  set (v := w ++ goto_word (cs_table st) 1 ++ [89]) in *.
  assert (Lv : letters v).
  { unfold v. apply letters_app. split; [exact Hw|]. apply letters_app.
    split; [apply goto_word_letters|]. repeat constructor; unfold is_letter; lia. }
  rewrite app_length in L.
  rewrite diana_text_app by lia. rewrite <- app_assoc.
  change (krunes rk) with (skipn 0 (krunes rk)) at 1.
  rewrite (decipher_word v kp rk 0 new_state [] plain stack _ dst2 (plain ++ p)) by (auto; lia).
  cbn [Nat.add].
  apply decipher_keyid; auto.
  - intros ->. unfold len in Lid. cbn in Lid. lia.
  - rewrite W3. reflexivity.
Qed.

(** The last chunk: padding adds nothing. *)
Lemma decode_zs : forall n st out, dst_ok st ->
  exists st', decode_list U st (repeat 90 n) out = Some (st', out) /\ dst_ok st'.
Proof.
  induction n as [|n IH]; intros st out H.
  - exists st. auto.
  - cbn [repeat decode_list]. destruct (decode_z U st out H) as (st1 & D1 & D2 & _).
    rewrite D1. assert (K : cs_keyChange st1 = false) by apply D2. rewrite K. apply IH. exact D2.
Qed.

Lemma decipher_last : forall w p st n kp rk plain stack,
  nth_error rks kp = Some rk -> letters (krunes rk) -> letters w -> decodes_to U w p st ->
  (length (w ++ repeat 90%Z n) <= length (krunes rk))%nat ->
  decipher_loop U gs rks (diana_text (krunes rk) (w ++ repeat 90 n)) kp 0 new_state [] plain stack =
  (plain ++ p, stack, Ok tt).
Proof.
  intros w p st n kp rk plain stack Hk Hl Hw D L.
  destruct (D plain) as (dst & D1 & D2 & D3).
  destruct (decode_zs n dst (plain ++ p) D2) as (d2 & Z1 & Z2).
  rewrite <- (app_nil_r (diana_text (krunes rk) (w ++ repeat 90 n))).
  change (krunes rk) with (skipn 0 (krunes rk)) at 1.
  rewrite (decipher_word (w ++ repeat 90 n) kp rk 0 new_state [] plain stack [] d2 (plain ++ p));
    auto.
  - apply letters_app. split; [exact Hw|apply letters_repeat_z].
  - rewrite decode_list_app, D1. exact Z1.
Qed.

(** Sender key [j] and receiver key [kp] are the same key. *)
Definition corr (ks : list key) (j kp : nat) : Prop :=
  exists sk rk, nth_error ks j = Some sk /\ nth_error rks kp = Some rk /\
    kid rk = kid sk /\ krunes rk = krunes sk /\ get_key U (kid sk) rks = Some kp.

Lemma decipher_chain : forall ks k0 chunks k p, chain U ks k0 chunks k p ->
  0 < gs -> (forall kk, In kk ks -> letters (kid kk) /\ len (kid kk) = gs /\ letters (krunes kk)) ->
  (forall c, In c chunks -> exists kc, nth_error ks (ch_key c) = Some kc /\
      (length (ch_text c) <= length (krunes kc))%nat) ->
  (forall c, In c chunks -> exists kp, corr ks (ch_key c) kp) -> (exists kp, corr ks k kp) ->
  forall kp0, corr ks k0 kp0 ->
  exists kp stack, corr ks k kp /\
    Forall2 (corr ks) (map ch_key chunks ++ [k]) stack /\
    forall rest plain, decipher_loop U gs rks (flat_map (chunk_cipher ks) chunks ++ rest)
        kp0 0 new_state [] plain [kp0] =
      decipher_loop U gs rks rest kp 0 new_state [] (plain ++ p) stack.
Proof.
  induction 1 as [|chunks k p w p1 st k' kk Hch IH Hd Hst Hw Hn]; intros Hg Hks Hlen Hcorr Hk kp0 H0.
  - exists kp0, [kp0]. split; [exact H0|]. split; [repeat constructor; exact H0|].
    intros rest plain. cbn [flat_map app]. rewrite app_nil_r. reflexivity.
  - assert (Hk1 : exists kp, corr ks k kp).
    { apply (Hcorr (mkChunk (w ++ goto_word (cs_table st) 1 ++ [89] ++ kid kk) k)).
      apply in_app_iff. right. left. reflexivity. }
    destruct (IH Hg Hks (fun c Hc => Hlen c (in_or_app _ _ _ (or_introl Hc)))
                (fun c Hc => Hcorr c (in_or_app _ _ _ (or_introl Hc))) Hk1 kp0 H0)
      as (kp & stack & C1 & C2 & C3).
    destruct Hk as (kp1 & C4).
    exists kp1, (stack ++ [kp1]). split; [exact C4|]. split.
    { rewrite map_app. cbn [map ch_key]. apply Forall2_app; [exact C2|]. repeat constructor. exact C4. }
    intros rest plain. rewrite flat_map_app, <- app_assoc, C3.
    cbn [flat_map]. rewrite app_nil_r. unfold chunk_cipher. cbn [ch_key ch_text].
    destruct C1 as (sk & rk & S1 & S2 & S3 & S4 & S5). rewrite S1.
    destruct C4 as (sk' & rk' & T1 & T2 & T3 & T4 & T5).
    rewrite Hn in T1. injection T1 as <-.
    destruct (Hlen (mkChunk (w ++ goto_word (cs_table st) 1 ++ [89] ++ kid kk) k)) as (kc & L1 & L2).
    { apply in_app_iff. right. left. reflexivity. }
    cbn [ch_key ch_text] in L1, L2. rewrite S1 in L1. injection L1 as <-.
    destruct (Hks sk (nth_error_In _ _ S1)) as (Q1 & Q2 & Q3).
    destruct (Hks kk (nth_error_In _ _ Hn)) as (R1 & R2 & R3).
    rewrite <- S4. rewrite <- S4 in L2, Q3.
    rewrite (decipher_chunk w p1 st (kid kk) kp rk (plain ++ p) stack rest kp1) by assumption.
    rewrite <- app_assoc. reflexivity.
Qed.

End Loop.

Lemma chunk_cipher_length : forall ks c k, nth_error ks (ch_key c) = Some k ->
  (length (ch_text c) <= length (krunes k))%nat ->
  length (chunk_cipher ks c) = length (ch_text c).
Proof.
  intros ks c k H L. unfold chunk_cipher. rewrite H. apply diana_text_length. exact L.
Qed.

Lemma cipher_length : forall ks all,
  (forall c, In c all -> exists kc, nth_error ks (ch_key c) = Some kc /\
                  (length (ch_text c) <= length (krunes kc))%nat) ->
  len (flat_map (chunk_cipher ks) all) = total_len all.
Proof.
  intros ks all. induction all as [|c all IH]; intros H; [reflexivity|].
  cbn [flat_map total_len fold_right]. unfold len at 1. rewrite app_length, Nat2Z.inj_add.
  destruct (H c (or_introl eq_refl)) as (k & H1 & H2).
  rewrite (chunk_cipher_length ks c k H1 H2).
  fold (total_len all). rewrite <- IH; [unfold len; lia|].
  intros c' Hc'. apply H. right. exact Hc'.
Qed.

Lemma cipher_letters : forall ks all, letters (flat_map (chunk_cipher ks) all).
Proof.
  intros ks all. induction all as [|c all IH]; [constructor|].
  cbn [flat_map]. apply letters_app. split; [|exact IH].
  unfold chunk_cipher. destruct (nth_error ks (ch_key c)); [apply diana_text_letters|constructor].
Qed.

Lemma mark_stack_nth : forall stack ks j,
  nth_error (mark_stack ks stack) j =
  if existsb (Nat.eqb j) stack then option_map (fun k => set_used k true) (nth_error ks j)
  else nth_error ks j.
Proof.
  induction stack as [|x l IH]; intros ks j; [reflexivity|].
  cbn [mark_stack fold_left existsb] in *. unfold mark_stack in IH. rewrite IH, nth_error_mark, (Nat.eqb_sym j).
  destruct (Nat.eqb x j); cbn [orb]; [|reflexivity].
  destruct (existsb (Nat.eqb j) l); [|reflexivity].
  destruct (nth_error ks j); reflexivity.
Qed.

(** *** Round trip *)
Definition usable (gs : Z) (m m' : msg) (k : key) : Prop :=
  eligible gs (mrecipients m) k \/ kid k = mkeyid m'.

Lemma roundtrip : forall si m t si' m' t' ri mr tr, uni_ok U ->
  0 < i_groupsize si -> i_groupsize ri = i_groupsize si ->
  store_ok (i_groupsize si) (i_keys si) -> store_ok (i_groupsize si) (i_keys ri) ->
  (forall k, In k (i_keys si) -> usable (i_groupsize si) m m' k -> holds (i_keys ri) k) ->
  mcipher m = [] \/ (mid m <> [] /\ (length (mcipher m) <= length t)%nat) ->
  encipher U si m t = (si', m', Ok tt, t') ->
  mkeyid mr = mkeyid m' -> mcipher mr = mcipher m' ->
  mid mr <> [] -> (length (mplain mr) <= length tr)%nat ->
  exists ri' mr' tr', decipher U ri mr tr = (ri', mr', Ok tt, tr') /\
    mr' = set_mplain mr (map canon (mplain m)).
Proof.
  intros si m t si' m' t' ri mr tr HU Hg Hgr Hs Hr Hhold Hc H Hid Hci Hmid Htr.
  destruct (encipher_ok U HU si m t si' m' t' Hg Hs H) as
    (k0 & k & ks1 & picked & chunks & last & w & p1 & p2 & st & n & c0 & all &
     E1 & E2 & E3 & E4 & E5 & E6 & E7 & E8 & E9 & E10 & E11 & E12 & E13 & E14 & E15 & E16 & E17 & E18 & E19 & E20 & E21).
  specialize (E20 Hc). subst c0. cbn [app] in E17.
  set (gs := i_groupsize si) in *.
  assert (H1 : ks1 = mark (i_keys si) k0 true \/ ks1 = i_keys si) by tauto.
  assert (SB1 : same_but_used (i_keys si) ks1).
  { destruct H1 as [->| ->]; [apply same_but_used_sym, same_but_used_mark|apply same_but_used_refl]. }
  assert (Hs1 : store_ok gs ks1) by (apply (same_but_used_store _ _ _ SB1 Hs)).
  (* every key used is held by the receiver *)
  assert (CORR : forall j, In j (k0 :: picked) -> exists kp, corr (i_keys ri) ks1 j kp).
  { intros j Hj.
    assert (EX : exists kj, nth_error (i_keys si) j = Some kj /\ usable gs m m' kj).
    { destruct Hj as [<-|Hj].
      - exists k. split; [exact E1|]. right. congruence.
      - destruct (proj2 E7 j Hj) as (kj & K1 & K2 & K3 & K4).
        destruct (same_but_used_nth _ _ _ _ (same_but_used_sym _ _ SB1) K1) as (kj' & N & Q).
        exists kj'. split; [exact N|]. left. apply set_used_fields in Q.
        destruct Q as (Qi & _ & Q & _). split; [|split; [congruence|unfold for_recipients in *; rewrite Q; exact K4]].
        destruct H1 as [M1|M1]; rewrite M1 in K1; [|congruence].
        rewrite nth_error_mark, N in K1. destruct (Nat.eqb k0 j); cbn [option_map] in K1; injection K1 as <-; [discriminate K2|exact K2]. }
    destruct EX as (kj & K1 & K2).
    destruct (Hhold kj (nth_error_In _ _ K1) K2) as (rk & R1 & R2 & R3).
    apply In_nth_error in R1. destruct R1 as (kp & R1).
    destruct (same_but_used_nth _ _ _ _ SB1 K1) as (kj1 & N & Q).
    apply set_used_fields in Q. destruct Q as (Q1 & Q2 & _).
    exists kp, kj1, rk. split; [exact N|]. split; [exact R1|]. split; [congruence|].
    split; [congruence|]. rewrite Q1, <- R2. apply (get_key_found U gs _ _ _ Hr R1). }
  assert (ALLK : forall c, In c all -> In (ch_key c) (k0 :: picked)).
  { intros c Hin. rewrite <- E6. rewrite E16 in Hin. apply in_app_iff in Hin. apply in_app_iff.
    destruct Hin as [Hin|[<-|[]]]; [left; apply in_map; exact Hin|right; left; reflexivity]. }
  assert (LEN : forall c, In c all -> exists kc, nth_error ks1 (ch_key c) = Some kc /\
                  (length (ch_text c) <= length (krunes kc))%nat).
  { intros c Hin. destruct (E18 c Hin) as (_ & kc & K1 & K2).
    destruct (same_but_used_nth _ _ _ _ SB1 K1) as (kc' & N & Q). exists kc'. split; [exact N|].
    apply set_used_fields in Q. destruct Q as (_ & Q & _). rewrite Q. exact K2. }
  assert (CI : mcipher m' = flat_map (chunk_cipher ks1) all).
  { rewrite E17. apply flat_map_ext_in. intros c _. apply chunk_cipher_same. exact SB1. }
  assert (CL : len (mcipher m') = total_len all).
  { rewrite CI. apply cipher_length. exact LEN. }
  assert (POS : 0 < total_len all).
  { rewrite E16, total_len_app. cbn [total_len fold_right ch_text].
    pose proof (total_len_nonneg chunks) as NN. unfold len. rewrite app_length.
    destruct chunks as [|c chunks'].
    - inversion E10 as [Hx|]; subst.
      + cbn [app] in E14. assert (W : w <> []).
        { apply (decodes_to_nonempty U w p2 st E11). intros ->.
          destruct (mplain m); [congruence|discriminate]. }
        destruct w; [congruence|]. cbn [length]. lia.
      + destruct chunks; discriminate.
    - assert (0 < len (ch_text c)).
      { clear -E10. remember (c :: chunks') as l eqn:El. revert c chunks' El.
        induction E10 as [|chunks k p w p1 st k' kk Hch IH Hd Hst Hw Hn]; intros c chunks' El; [discriminate|].
        destruct chunks as [|c1 chunks1].
        - cbn [app] in El. injection El as <- _. cbn [ch_text]. unfold len. rewrite !app_length. cbn [length]. lia.
        - cbn [app] in El. injection El as <- _. apply (IH c1 chunks1 eq_refl). }
      unfold total_len in *. cbn [fold_right] in *.
      pose proof (total_len_nonneg chunks') as NN'. unfold total_len in NN'. lia. }
  assert (GE : gs <= total_len all).
  { apply Z.mod_divide in E19; [|lia]. destruct E19 as (q & E19).
    assert (0 < q) by nia. nia. }
  destruct (CORR k0 (or_introl eq_refl)) as (kp0 & C0).
  assert (G0 : get_key U (mkeyid mr) (i_keys ri) = Some kp0).
  { destruct C0 as (sk & rk & S1 & S2 & S3 & S4 & S5). rewrite Hid, E3.
    destruct (same_but_used_nth _ _ _ _ SB1 E1) as (k1 & N & Q).
    rewrite S1 in N. injection N as <-. apply set_used_fields in Q. destruct Q as (Q & _).
    rewrite <- Q. exact S5. }
  assert (LAST : In last (k0 :: picked)).
  { rewrite <- E6. apply in_app_iff. right. left. reflexivity. }
  destruct (decipher_chain gs (i_keys ri) ks1 k0 chunks last p1 E10 Hg (proj2 Hs1)) with (kp0 := kp0)
    as (kp & stack & D1 & D2 & D3).
  { intros c Hin. apply LEN. rewrite E16. apply in_app_iff. left. exact Hin. }
  { intros c Hin. apply CORR. apply ALLK. rewrite E16. apply in_app_iff. left. exact Hin. }
  { apply CORR. exact LAST. }
  { exact C0. }
  unfold decipher, ensure_id.
  replace (len (mid mr) =? 0) with false
    by (destruct (len (mid mr) =? 0) eqn:Q; [apply len_nil in Q; contradiction|reflexivity]).
  rewrite Hgr. fold gs.
  assert (KL : len (mkeyid mr) = gs).
  { rewrite Hid, E3. apply (proj2 Hs k (nth_error_In _ _ E1)). }
  rewrite KL, Z.eqb_refl. cbn [negb]. rewrite Hci, CL.
  replace (total_len all <? gs) with false by lia. rewrite G0.
  destruct (wipe_value (mplain mr) tr) as [q tr'] eqn:W.
  assert (q = []).
  { pose proof (wipe_value_nil (mplain mr) tr (or_intror Htr)) as X. rewrite W in X. exact X. }
  subst q.
  assert (RES : decipher_loop U gs (i_keys ri) (mcipher m') kp0 0 new_state [] [] [kp0]
                = (map canon (mplain m), stack, Ok tt)).
  { rewrite CI, E16, flat_map_app, D3. cbn [flat_map]. rewrite app_nil_r.
    unfold chunk_cipher. cbn [ch_key ch_text].
    destruct D1 as (sk & rk & S1 & S2 & S3 & S4 & S5). rewrite S1, <- S4.
    destruct (LEN (mkChunk (w ++ repeat 90 n) last)) as (kc & L1 & L2).
    { rewrite E16. apply in_app_iff. right. left. reflexivity. }
    cbn [ch_key ch_text] in L1, L2. rewrite S1 in L1. injection L1 as <-.
    destruct (proj2 Hs1 sk (nth_error_In _ _ S1)) as (_ & _ & R3).
    rewrite (decipher_last gs (i_keys ri) w p2 st n kp rk) by (assumption || congruence).
    cbn [app]. rewrite E14. reflexivity. }
  rewrite RES. eexists. eexists. eexists. split; [reflexivity|]. reflexivity.
Qed.

End Dec.
