(** Statements of Props_Cipher derived from the lemmas of Proofs_*. *)
From Verif Require Import Base Spec Model_Unicode Model_Diana Model_Codec Model_Crand
  Model_Functions Model_Types Model_Cipher Proofs_Diana Proofs_Codec Proofs_Keys Proofs_Encipher
  Proofs_Decipher Proofs_Read Proofs_Cipher Proofs_Enough.

Lemma canon_supported : forall s, Forall supported s -> map canon s = s.
Proof.
  induction 1 as [|c s H _ IH]; [reflexivity|]. cbn [map]. f_equal; [|exact IH].
  unfold canon. unfold supported, table_char, lower_char in H. cbn [In] in H.
  destruct (c =? 305) eqn:E1; [exfalso; lia|]. destruct (c =? 383) eqn:E2; [exfalso; lia|]. reflexivity.
Qed.

Lemma c07_roundtrip_lemma : forall U si m t si' m' t' ri mr tr, uni_ok U ->
  0 < i_groupsize si -> i_groupsize ri = i_groupsize si ->
  store_ok (i_groupsize si) (i_keys si) -> store_ok (i_groupsize si) (i_keys ri) ->
  (forall k, In k (i_keys si) -> eligible (i_groupsize si) (mrecipients m) k \/ kid k = mkeyid m' ->
     holds (i_keys ri) k) ->
  mcipher m = [] \/ (mid m <> [] /\ (length (mcipher m) <= length t)%nat) ->
  Forall supported (mplain m) ->
  encipher U si m t = (si', m', Ok tt, t') ->
  mkeyid mr = mkeyid m' -> mcipher mr = mcipher m' ->
  mid mr <> [] -> (length (mplain mr) <= length tr)%nat ->
  exists ri' mr' tr', decipher U ri mr tr = (ri', mr', Ok tt, tr') /\
    mr' = set_mplain mr (mplain m).
Proof.
  intros U si m t si' m' t' ri mr tr HU Hg Hgr Hs Hr Hh Hc Hsup H Hk Hci Hm Ht.
  destruct (roundtrip U si m t si' m' t' ri mr tr HU Hg Hgr Hs Hr Hh Hc H Hk Hci Hm Ht)
    as (ri' & mr' & tr' & D1 & D2).
  rewrite (canon_supported _ Hsup) in D2. eauto.
Qed.

Lemma c08_lemma : forall U i m t i' m' t', uni_ok U -> 0 < i_groupsize i ->
  store_ok (i_groupsize i) (i_keys i) ->
  mcipher m = [] \/ (mid m <> [] /\ (length (mcipher m) <= length t)%nat) ->
  encipher U i m t = (i', m', Ok tt, t') ->
  mcipher m' <> [] /\ letters (mcipher m') /\ (len (mcipher m')) mod (i_groupsize i) = 0.
Proof.
  intros U i m t i' m' t' HU Hg Hs Hc H.
  destruct (encipher_message U HU i m t i' m' t' Hg Hs Hc H) as
    (j & js & k & M & A1 & A2 & A3 & A4 & A5 & A6 & A7 & A8 & A9 & A10 & A11 & A12).
  split; [exact A11|]. split; [apply (message_facts _ _ _ _ _ M)|exact A10].
Qed.

(** Without a preset key Encipher only starts on an empty CipherText. *)
Lemma auto_cipher_nil : forall U, uni_ok U -> forall i m t i' m' t', 0 < i_groupsize i ->
  store_ok (i_groupsize i) (i_keys i) -> mkeyid m = [] ->
  encipher U i m t = (i', m', Ok tt, t') -> mcipher m = [].
Proof.
  intros U HU i m t i' m' t' Hg Hs Hk H.
  destruct (encipher_ok U HU i m t i' m' t' Hg Hs H) as
    (k0 & k & ks1 & picked & chunks & last & w & p1 & p2 & st & n & c0 & all &
     E1 & E2 & E3 & E4 & E5 & _).
  destruct E5 as [(_ & E5 & _)|(E5 & _)]; [exact E5|].
  destruct (proj2 Hs k (nth_error_In _ _ E1)) as (_ & L & _).
  rewrite <- E5, Hk in L. unfold len in L. cbn in L. lia.
Qed.

Lemma c09_lemma : forall U i m t i' m' t', uni_ok U -> 0 < i_groupsize i ->
  store_ok (i_groupsize i) (i_keys i) -> mkeyid m = [] ->
  encipher U i m t = (i', m', Ok tt, t') ->
  exists js, message (i_groupsize i) (i_keys i) js (map canon (mplain m)) (mcipher m') /\
    (exists j k, hd_error js = Some j /\ nth_error (i_keys i) j = Some k /\ mkeyid m' = kid k) /\
    NoDup js /\
    (forall j, In j js -> exists k, nth_error (i_keys i) j = Some k /\
       eligible (i_groupsize i) (mrecipients m) k) /\
    marked_used js (i_keys i) (i_keys i') /\ i' = set_keys i (i_keys i').
Proof.
  intros U i m t i' m' t' HU Hg Hs Hk H.
  pose proof (auto_cipher_nil U HU i m t i' m' t' Hg Hs Hk H) as Hc.
  destruct (encipher_message U HU i m t i' m' t' Hg Hs (or_introl Hc) H) as
    (j & js & k & M & A1 & A2 & A3 & A4 & A5 & A6 & A7 & A8 & A9 & A10 & A11 & A12).
  exists (j :: js). split; [exact M|]. split; [exists j, k; auto|].
  destruct A8 as [(_ & _ & B1 & B2 & B3)|(B & _)].
  - split; [constructor; assumption|]. split; [|split; assumption].
    intros x [<-|Hx]; [exists k; auto|apply A7; exact Hx].
  - exfalso. destruct (proj2 Hs k (nth_error_In _ _ A3)) as (_ & L & _).
    rewrite <- B, Hk in L. unfold len in L. cbn in L. lia.
Qed.

Lemma c10_lemma : forall U i m t i' m' t', uni_ok U -> 0 < i_groupsize i ->
  store_ok (i_groupsize i) (i_keys i) -> mkeyid m <> [] ->
  mcipher m = [] \/ (mid m <> [] /\ (length (mcipher m) <= length t)%nat) ->
  encipher U i m t = (i', m', Ok tt, t') ->
  exists j js k, message (i_groupsize i) (i_keys i) (j :: js) (map canon (mplain m)) (mcipher m') /\
    nth_error (i_keys i) j = Some k /\ kid k = mkeyid m /\ mkeyid m' = mkeyid m /\
    kused k = false /\ kcompromised k = false /\ NoDup js /\
    (forall x, In x js -> exists k, nth_error (i_keys i) x = Some k /\
       eligible (i_groupsize i) (mrecipients m) k) /\
    marked_used js (i_keys i) (i_keys i') /\ i' = set_keys i (i_keys i').
Proof.
  intros U i m t i' m' t' HU Hg Hs Hk Hc H.
  destruct (encipher_message U HU i m t i' m' t' Hg Hs Hc H) as
    (j & js & k & M & A1 & A2 & A3 & A4 & A5 & A6 & A7 & A8 & A9 & A10 & A11 & A12).
  destruct A8 as [(B & _)|(B1 & B2 & B3)]; [contradiction|].
  exists j, js, k. split; [exact M|]. split; [exact A3|]. split; [congruence|]. split; [congruence|]. auto 10.
Qed.

Lemma c11_lemma : forall U i m t i' m' t', uni_ok U -> 0 < i_groupsize i ->
  store_ok (i_groupsize i) (i_keys i) -> mkeyid m <> [] ->
  encipher U i m t = (i', m', Ok tt, t') ->
  exists k, In k (i_keys i) /\ kid k = mkeyid m /\ mkeyid m' = mkeyid m /\
    kcompromised k = false /\ kused k = false.
Proof.
  intros U i m t i' m' t' HU Hg Hs Hk H.
  destruct (encipher_ok U HU i m t i' m' t' Hg Hs H) as
    (k0 & k & ks1 & picked & chunks & last & w & p1 & p2 & st & n & c0 & all &
     E1 & E2 & E3 & E4 & E5 & _).
  destruct E5 as [(E5 & _)|(E5 & E6 & _)]; [contradiction|].
  exists k. split; [apply (nth_error_In _ _ E1)|]. split; [congruence|]. split; [congruence|]. auto.
Qed.

Lemma supported_accepted : forall s, Forall supported s -> Forall accepted s.
Proof. intros s H. apply (Forall_impl _ (fun c (Hc : supported c) => or_introl Hc) H). Qed.

Lemma c13_one_key_lemma : forall U i m t KL, uni_ok U -> 0 < i_groupsize i ->
  store_ok (i_groupsize i) (i_keys i) -> mid m <> [] -> mkeyid m = [] -> mcipher m = [] ->
  mplain m <> [] -> Forall supported (mplain m) ->
  (exists k, In k (i_keys i) /\ eligible (i_groupsize i) (mrecipients m) k) ->
  (forall k, In k (i_keys i) -> eligible (i_groupsize i) (mrecipients m) k -> KL <= len (krunes k)) ->
  4 * (len (mplain m) - 1) < KL - i_groupsize i - 2 ->
  exists i' m' t', encipher U i m t = (i', m', Ok tt, t').
Proof.
  intros U i m t KL HU Hg Hs Hm Hk Hc Hp Ha. apply (encipher_one_key U HU); auto.
  apply supported_accepted. exact Ha.
Qed.

Lemma c14_lemma : forall U i m t i' m' r t' c, uni_ok U ->
  0 < i_groupsize i -> store_ok (i_groupsize i) (i_keys i) ->
  In c (mplain m) -> ~ accepted c -> encipher U i m t = (i', m', r, t') ->
  r <> Ok tt /\ i' = i.
Proof.
  intros U i m t i' m' r t' c HU Hg Hs Hc Ha H.
  assert (N : r <> Ok tt).
  { intros ->. destruct (encipher_ok U HU i m t i' m' t' Hg Hs H) as
    (k0 & k & ks1 & picked & chunks & last & w & p1 & p2 & st & n & c0 & all &
     E1 & E2 & E3 & E4 & E5 & E6 & E7 & E8 & E9 & E10 & E11 & E12 & E13 & E14 & E15 & _).
    rewrite Forall_forall in E15. apply Ha. apply E15. exact Hc. }
  split; [exact N|]. apply (encipher_fail U HU i m t i' m' r t' Hg Hs H N).
Qed.

Lemma c16_lemma : forall U i m d t i' m' r t',
  mid m <> [] -> 0 <= i_groupsize i ->
  (forall k, In k (i_keys i) -> length (mplain m) + length (kid k) <= length t)%nat ->
  try_decipher U i m d t = (i', m', r, t') ->
  (r = Ok tt \/ exists e, r = Err e) /\
  (r <> Ok tt \/ d = true -> i' = i /\ m' = m) /\
  (r = Ok tt -> d = false ->
     let ft := map (to_upper U) (filter (fun c => negb (is_space U c || (c =? 61))) (mplain m)) in
     letters ft /\ 2 * i_groupsize i <= len ft /\ mkeyid m = [] /\
     exists k, In k (i_keys i) /\
       go_string (kid k) = key_query U (firstn (Z.to_nat (i_groupsize i)) ft) /\
       decipher U i (set_mcipher (set_mkeyid m (kid k)) (skipn (Z.to_nat (i_groupsize i)) ft)) t
         = (i', m', Ok tt, t')).
Proof.
  intros U i m d t i' m' r t' Hm Hg Ht H.
  destruct (try_decipher_spec U i m d t i' m' r t' Hm Hg H) as (A & B & C & D).
  split; [exact A|]. split.
  - intros [N|N]; [|apply C; exact N]. destruct (B N) as (B1 & _ & _ & _ & _ & B2). auto.
  - intros R1 R2. destruct (D R1 R2) as (D1 & D2 & D3 & k & D4 & D5 & D6 & D7).
    cbv zeta. split; [exact D1|]. split; [exact D2|]. split; [exact D3|]. exists k. auto.
Qed.

Lemma c16_restore_lemma : forall U i m d t i' m' r t',
  mid m <> [] -> 0 <= i_groupsize i -> try_decipher U i m d t = (i', m', r, t') -> r <> Ok tt ->
  i' = i /\ mplain m' = mplain m /\ mcipher m' = mcipher m.
Proof.
  intros U i m d t i' m' r t' Hm Hg H N.
  destruct (try_decipher_spec U i m d t i' m' r t' Hm Hg H) as (A & B & C & D).
  destruct (B N) as (B1 & B2 & B3 & _). auto.
Qed.

Lemma c24_lemma : forall U gs recips ks,
  match find_key U gs recips ks with
  | Some j => exists k, nth_error ks j = Some k /\ eligible gs recips k /\
      forall j' k', (j' < j)%nat -> nth_error ks j' = Some k' -> ~ eligible gs recips k'
  | None => forall k, In k ks -> ~ eligible gs recips k
  end.
Proof.
  intros U gs recips ks. destruct (find_key U gs recips ks) as [j|] eqn:E.
  - apply (find_key_some U). exact E.
  - apply (find_key_none U). exact E.
Qed.
