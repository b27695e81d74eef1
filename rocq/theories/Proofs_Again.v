(** Messages without an ID, EnrichWithKey, and enciphering a message again. *)
From Verif Require Import Base Spec Spec_Listing Spec_Again Model_Unicode Model_Crand Model_Functions Model_Types Model_Cipher Model_Enrich
  Proofs_Functions Proofs_Keys Proofs_Encipher Proofs_Cipher Proofs_Cipher2 Proofs_Messages Proofs_Draws Proofs_Fresh.

Lemma len_zero {A} (s : list A) : (len s =? 0) = true <-> s = [].
Proof. unfold len. destruct s; [split; reflexivity|]. split; [|discriminate]. cbn [length]. intros. exfalso. lia. Qed.
Lemma len_pos {A} (s : list A) : (0 <? len s) = true <-> s <> [].
Proof. unfold len. destruct s; [split; [discriminate|congruence]|]. split; [discriminate|]. cbn [length]. intros. lia. Qed.

(** ** A message without an ID. *)
Lemma ensure_new i m t : mid m = [] ->
  ensure_id i m t = match new_unique_message_id (i_messages i) t with Ok (id, t1) => Ok (set_mid m id, t1) | _ => Panic end.
Proof.
  intros H. unfold ensure_id. rewrite (proj2 (len_zero _) H).
  destruct (msg_id_panic (i_messages i) t) as [(id & t1 & E)|E]; rewrite E; reflexivity.
Qed.
Lemma new_id_has ms t id t1 m : new_unique_message_id ms t = Ok (id, t1) -> mid (set_mid m id) <> [].
Proof. intros H. destruct (new_message_id_ok _ _ _ _ H) as (L & _). cbn [mid set_mid]. intros ->. discriminate. Qed.
Lemma new_id_lemma ms t :
  (exists id rest, new_unique_message_id ms t = Ok (id, rest) /\ id_ok id /\ ~ In id (map mid ms) /\ exists used, t = used ++ rest /\ (4 <= length used)%nat) \/
  new_unique_message_id ms t = Panic.
Proof.
  destruct (msg_id_panic ms t) as [(id & t1 & E)|E]; [left|right; exact E]. exists id, t1. split; [exact E|].
  destruct (new_message_id_ok _ _ _ _ E) as (L & A & N). split; [split; [unfold len; rewrite L; reflexivity|exact A]|]. split; [exact N|].
  destruct (msg_id_local _ _ _ _ E) as (u & U & F & _). exists u. split; [exact U|exact F].
Qed.
Lemma noid_encipher U i m t : mid m = [] ->
  encipher U i m t = match new_unique_message_id (i_messages i) t with
                     | Ok (id, rest) => encipher U i (set_mid m id) rest | _ => (i, m, Panic, t) end.
Proof.
  intros H. unfold encipher, encipher_full. rewrite (ensure_new i m t H).
  destruct (new_unique_message_id (i_messages i) t) as [[id t1]|e| |] eqn:E; try reflexivity.
  rewrite (ensure_id_has i (set_mid m id) t1 (new_id_has _ _ _ _ m E)). reflexivity.
Qed.
Lemma noid_decipher U i m t : mid m = [] ->
  decipher U i m t = match new_unique_message_id (i_messages i) t with
                     | Ok (id, rest) => decipher U i (set_mid m id) rest | _ => (i, m, Panic, t) end.
Proof.
  intros H. unfold decipher. rewrite (ensure_new i m t H).
  destruct (new_unique_message_id (i_messages i) t) as [[id t1]|e| |] eqn:E; try reflexivity.
  rewrite (ensure_id_has i (set_mid m id) t1 (new_id_has _ _ _ _ m E)). reflexivity.
Qed.
Lemma noid_try U i m d t : mid m = [] ->
  try_decipher U i m d t = match new_unique_message_id (i_messages i) t with
                     | Ok (id, rest) => try_decipher U i (set_mid m id) d rest | _ => (i, m, Panic, t) end.
Proof.
  intros H. unfold try_decipher. rewrite (ensure_new i m t H).
  destruct (new_unique_message_id (i_messages i) t) as [[id t1]|e| |] eqn:E; try reflexivity.
  rewrite (ensure_id_has i (set_mid m id) t1 (new_id_has _ _ _ _ m E)). reflexivity.
Qed.
Lemma noid_enrich U i m t : mid m = [] ->
  enrich U i m t = match new_unique_message_id (i_messages i) t with
                     | Ok (id, rest) => enrich U i (set_mid m id) rest | _ => (i, m, Panic, t) end.
Proof.
  intros H. unfold enrich. rewrite (ensure_new i m t H).
  destruct (new_unique_message_id (i_messages i) t) as [[id t1]|e| |] eqn:E; try reflexivity.
  rewrite (ensure_id_has i (set_mid m id) t1 (new_id_has _ _ _ _ m E)). reflexivity.
Qed.

(** ** A named key. *)
Lemma check_iff id ks : NoDup (map kid ks) -> (check_given_key id ks = Ok tt <-> free_named ks id).
Proof.
  intros N. split.
  - intros H. destruct (check_given_key_spec _ _ H) as (j & k & A & B & C & D). exists k. split; [exact (nth_error_In _ _ A)|auto].
  - intros (k & I & A & B & C). induction ks as [|k0 ks IH]; [contradiction|]. cbn [check_given_key map] in *.
    inversion N as [|? ? N1 N2]; subst. destruct (equal_runes (Some (kid k0)) (Some (kid k))) eqn:E.
    + apply equal_runes_spec in E. destruct I as [<-|I]; [rewrite B, C; reflexivity|]. exfalso. apply N1. rewrite E. apply in_map. exact I.
    + destruct I as [->|I]; [|exact (IH N2 I)]. exfalso. assert (equal_runes (Some (kid k)) (Some (kid k)) = true) by (apply equal_runes_spec; reflexivity). congruence.
Qed.
Lemma check_used id ks : (forall k, In k ks -> kid k = id -> kused k = true) -> exists e, check_given_key id ks = Err e.
Proof.
  intros H. destruct (check_given_key_res id ks) as [R|R]; [|exact R]. exfalso.
  destruct (check_given_key_spec _ _ R) as (j & k & A & B & C & _). specialize (H k (nth_error_In _ _ A) B). congruence.
Qed.

Section U.
Context (U : Uni).
Lemma mark_one ks j : marked_used [j] ks (mark ks j true).
Proof.
  intros x. cbn [existsb]. rewrite Bool.orb_false_r, nth_error_mark. rewrite (Nat.eqb_sym x j). destruct (nth_error ks x); destruct (Nat.eqb j x); reflexivity.
Qed.
Lemma enrich_lemma i m t i' m' r t' : 0 < i_groupsize i -> NoDup (map kid (i_keys i)) -> mid m <> [] ->
  enrich U i m t = (i', m', r, t') -> t' = t /\
  ((r = Ok tt /\ mplain m <> [] /\ mkeyid m <> [] /\ i' = i /\ m' = m /\ len (mkeyid m) = i_groupsize i /\ free_named (i_keys i) (mkeyid m)) \/
   (r = Ok tt /\ mplain m <> [] /\ mkeyid m = [] /\ mcipher m = [] /\ exists j k, nth_error (i_keys i) j = Some k /\
      eligible (i_groupsize i) (mrecipients m) k /\
      (forall j' k', (j' < j)%nat -> nth_error (i_keys i) j' = Some k' -> ~ eligible (i_groupsize i) (mrecipients m) k') /\
      m' = set_mkeyid m (kid k) /\ i' = set_keys i (i_keys i') /\ marked_used [j] (i_keys i) (i_keys i')) \/
   ((exists e, r = Err e) /\ i' = i /\ m' = m /\
     (mplain m = [] \/ (mkeyid m <> [] /\ ~ (len (mkeyid m) = i_groupsize i /\ free_named (i_keys i) (mkeyid m))) \/
      (mkeyid m = [] /\ mcipher m <> []) \/
      (mkeyid m = [] /\ forall k, In k (i_keys i) -> ~ eligible (i_groupsize i) (mrecipients m) k)))).
Proof.
  intros G N M H. unfold enrich in H. rewrite (ensure_id_has i m t M) in H. unfold enrich_with_key in H.
  assert (set_keys i (i_keys i) = i) as SK by (destruct i; reflexivity).
  destruct (len (mplain m) =? 0) eqn:E0.
  { injection H as <- <- <- <-. rewrite SK. split; [reflexivity|]. right. right. split; [eexists; reflexivity|]. split; [reflexivity|].
    split; [reflexivity|]. left. apply len_zero, E0. }
  assert (mplain m <> []) as P by (intros X; apply len_zero in X; congruence).
  destruct (0 <? len (mkeyid m)) eqn:E1.
  - apply len_pos in E1. destruct (len (mkeyid m) =? i_groupsize i) eqn:E2; cbn [negb] in H.
    + assert (len (mkeyid m) = i_groupsize i) as L by lia. injection H as <- <- <- <-. rewrite SK. split; [reflexivity|].
      destruct (check_given_key_res (mkeyid m) (i_keys i)) as [R|(e & R)].
      * left. split; [exact R|]. split; [exact P|]. split; [exact E1|]. split; [reflexivity|]. split; [reflexivity|]. split; [exact L|].
        apply check_iff; [exact N|exact R].
      * right. right. split; [exists e; exact R|]. split; [reflexivity|]. split; [reflexivity|]. right. left. split; [exact E1|].
        intros (_ & F). apply check_iff in F; [congruence|exact N].
    + injection H as <- <- <- <-. rewrite SK. split; [reflexivity|]. right. right. split; [eexists; reflexivity|]. split; [reflexivity|].
      split; [reflexivity|]. right. left. split; [exact E1|]. intros (X & _). lia.
  - assert (mkeyid m = []) as K. { destruct (mkeyid m) eqn:X; [reflexivity|]. unfold len in E1. cbn [length] in E1. exfalso. lia. }
    destruct (0 <? len (mcipher m)) eqn:E2.
    + apply len_pos in E2. replace (len (mkeyid m) =? i_groupsize i) with false in H by (rewrite K; unfold len; cbn [length]; lia). cbn [negb] in H.
      injection H as <- <- <- <-. rewrite SK. split; [reflexivity|]. right. right. split; [eexists; reflexivity|]. split; [reflexivity|].
      split; [reflexivity|]. right. right. left. split; [exact K|exact E2].
    + assert (mcipher m = []) as C. { destruct (mcipher m) eqn:X; [reflexivity|]. unfold len in E2. cbn [length] in E2. exfalso. lia. }
      destruct (find_key U (i_groupsize i) (mrecipients m) (i_keys i)) as [j|] eqn:F.
      * destruct (find_key_some U _ _ _ _ F) as (k & F1 & F2 & F3). rewrite F1 in H. injection H as <- <- <- <-. split; [reflexivity|].
        right. left. split; [reflexivity|]. split; [exact P|]. split; [exact K|]. split; [exact C|]. exists j, k. split; [exact F1|]. split; [exact F2|].
        split; [exact F3|]. split; [reflexivity|]. split; [destruct i; reflexivity|]. destruct i. apply mark_one.
      * pose proof (find_key_none U _ _ _ F) as F1. injection H as <- <- <- <-. rewrite SK. split; [reflexivity|]. right. right.
        split; [eexists; reflexivity|]. split; [reflexivity|]. split; [reflexivity|]. right. right. right. split; [exact K|exact F1].
Qed.

(** Encipher of a message that names a used key. *)
Lemma named_used i m t : mid m <> [] -> mkeyid m <> [] -> (forall k, In k (i_keys i) -> kid k = mkeyid m -> kused k = true) ->
  exists e, encipher U i m t = (i, m, Err e, t).
Proof.
  intros M K H. unfold encipher, encipher_full. rewrite (ensure_id_has i m t M). unfold enrich_with_key.
  assert (set_keys i (i_keys i) = i) as SK by (destruct i; reflexivity).
  destruct (len (mplain m) =? 0); [eexists; cbn [fst]; rewrite SK; reflexivity|]. rewrite (proj2 (len_pos _) K).
  destruct (negb (len (mkeyid m) =? i_groupsize i)); [eexists; cbn [fst]; rewrite SK; reflexivity|].
  destruct (check_used _ _ H) as (e & ->). exists e. cbn [fst]. rewrite SK. reflexivity.
Qed.
(** Encipher of a message that has ciphertext and names no key. *)
Lemma stray_cipher i m t : 0 < i_groupsize i -> mid m <> [] -> mkeyid m = [] -> mcipher m <> [] ->
  exists e, encipher U i m t = (i, m, Err e, t).
Proof.
  intros G M K C. unfold encipher, encipher_full. rewrite (ensure_id_has i m t M). unfold enrich_with_key.
  assert (set_keys i (i_keys i) = i) as SK by (destruct i; reflexivity).
  destruct (len (mplain m) =? 0); [eexists; cbn [fst]; rewrite SK; reflexivity|]. rewrite K. cbn [len length]. change (0 <? len (@nil rune)) with false. cbv iota.
  rewrite (proj2 (len_pos _) C). change (len (@nil rune)) with 0. replace (0 =? i_groupsize i) with false by lia. cbn [negb].
  eexists. cbn [fst]. rewrite SK. reflexivity.
Qed.
Lemma marked_all_used ks ks' js j k : NoDup (map kid ks) -> marked_used js ks ks' -> In j js -> nth_error ks j = Some k ->
  forall k', In k' ks' -> kid k' = kid k -> kused k' = true.
Proof.
  intros N MU J E k' I K. apply In_nth_error in I. destruct I as (j' & I). rewrite (MU j') in I.
  destruct (nth_error ks j') as [k0|] eqn:E0; [|discriminate]. cbn [option_map] in I.
  assert (kid k0 = kid k) as KK. { injection I as <-. destruct (existsb _ _); exact K. }
  assert (j' = j) as ->.
  { assert (nth_error (map kid ks) j' = Some (kid k)) as X1 by (rewrite nth_error_map, E0; cbn [option_map]; congruence).
    assert (nth_error (map kid ks) j = Some (kid k)) as X2 by (rewrite nth_error_map, E; reflexivity).
    rewrite NoDup_nth_error in N. apply N; [apply nth_error_Some; congruence|congruence]. }
  assert (existsb (Nat.eqb j) js = true) as X by (apply existsb_exists; exists j; split; [exact J|apply Nat.eqb_refl]).
  rewrite X in I. injection I as <-. reflexivity.
Qed.
Lemma enriched_stuck i m t i1 m1 t1 : 0 < i_groupsize i -> NoDup (map kid (i_keys i)) -> mid m <> [] -> mkeyid m = [] ->
  enrich U i m t = (i1, m1, Ok tt, t1) -> forall p t2, exists e, encipher U i1 (set_mplain m1 p) t2 = (i1, set_mplain m1 p, Err e, t2).
Proof.
  intros G N M K H p t2. destruct (enrich_lemma _ _ _ _ _ _ _ G N M H) as (_ & [(_ & _ & X & _)|[(_ & _ & _ & _ & j & k & A & B & _ & C & _ & D)|((e & X) & _)]]);
    [contradiction| |discriminate].
  apply named_used.
  - subst m1. exact M.
  - subst m1. cbn [mkeyid set_mkeyid set_mplain]. destruct B as (_ & L & _). intros X. rewrite X in L. unfold len in L. cbn [length] in L. lia.
  - subst m1. cbn [mkeyid set_mkeyid set_mplain]. exact (marked_all_used _ _ _ _ _ N D (or_introl eq_refl) A).
Qed.
Context (HU : uni_ok U).
Lemma again_lemma i m t i1 m1 t1 : 0 < i_groupsize i -> store_ok (i_groupsize i) (i_keys i) -> mkeyid m = [] ->
  encipher U i m t = (i1, m1, Ok tt, t1) -> forall p t2, exists e, encipher U i1 (set_mplain m1 p) t2 = (i1, set_mplain m1 p, Err e, t2).
Proof.
  intros G SO K H p t2.
  destruct (c09_lemma U i m t i1 m1 t1 HU G SO K H) as (js & _ & (j & k & J & A & B) & _ & EL & D & _).
  assert (In j js) as JJ by (destruct js as [|j0 js]; [discriminate|injection J as ->; left; reflexivity]).
  apply named_used.
  - cbn [mid set_mplain]. destruct (list_eq_dec Z.eq_dec (mid m) []) as [M|M].
    + rewrite (noid_encipher U i m t M) in H. destruct (new_unique_message_id (i_messages i) t) as [[id t']|e| |] eqn:E; try discriminate.
      destruct (encipher_frame U i (set_mid m id) t' i1 m1 (Ok tt) t1 (new_id_has _ _ _ _ m E) H) as (_ & a & b & ->). exact (new_id_has _ _ _ _ m E).
    + destruct (encipher_frame U i m t i1 m1 (Ok tt) t1 M H) as (_ & a & b & ->). exact M.
  - cbn [mkeyid set_mplain]. rewrite B. destruct (EL j JJ) as (k' & A' & (_ & L & _)). assert (k' = k) by congruence. subst k'.
    intros X. rewrite X in L. unfold len in L. cbn [length] in L. lia.
  - cbn [mkeyid set_mplain]. rewrite B. exact (marked_all_used _ _ _ _ _ (proj1 SO) D JJ A).
Qed.
(** A failure that leaves no ciphertext leaves the message as it was. *)
Lemma retry_lemma i m t i' m' r t' : 0 < i_groupsize i -> store_ok (i_groupsize i) (i_keys i) -> mid m <> [] -> mkeyid m = [] -> mcipher m = [] ->
  (forall k, In k (i_keys i) -> length (kid k) <= length t)%nat ->
  encipher U i m t = (i', m', r, t') -> r <> Ok tt -> i' = i /\ (mcipher m' = [] -> m' = m).
Proof.
  intros G SO M K C T H R. split; [exact (encipher_fail U HU i m t i' m' r t' G SO H R)|]. intros C'.
  unfold encipher, encipher_full in H. rewrite (ensure_id_has i m t M) in H.
  pose proof (enrich_spec U (i_groupsize i) (i_keys i) m G) as ER.
  destruct (enrich_with_key U (i_groupsize i) (i_keys i) m) as [[ks1 m2] r1].
  destruct r1 as [u|e| |]; [| |contradiction|contradiction].
  2: { destruct ER as (-> & ->). injection H as _ <- _ _. reflexivity. }
  destruct ER as (k0 & k & K1 & K2 & K3 & K4 & K5 & K6).
  assert (ks1 = mark (i_keys i) k0 true \/ ks1 = i_keys i) as H1 by tauto.
  assert (same_but_used (i_keys i) ks1) as SB1.
  { destruct H1 as [->| ->]; [apply same_but_used_sym, same_but_used_mark|apply same_but_used_refl]. }
  assert (store_ok (i_groupsize i) ks1) as Hs1 by (apply (same_but_used_store _ _ _ SB1 SO)).
  destruct (same_but_used_nth _ _ _ _ SB1 K1) as (k1 & N1 & Q1).
  pose proof (set_used_fields _ _ Q1) as (Qid & _).
  assert (get_key U (mkeyid m2) ks1 = Some k0) as GK.
  { rewrite K3. cbn [mkeyid set_mkeyid]. rewrite <- Qid. apply (get_key_found U _ _ _ _ Hs1 N1). }
  assert (mcipher m2 = []) as C2 by (subst m2; exact C). rewrite C2 in H.
  assert (wipe_value [] t = ([], t)) as W by reflexivity. rewrite W in H.
  assert (forall c kk, set_mcipher (set_mkeyid (set_mcipher m2 c) kk) [] = set_mkeyid m2 kk) as SM by (intros c kk; subst m2; destruct m; cbn in *; subst; reflexivity).
  destruct (get_key U (mkeyid m2) ks1) as [g|] eqn:GE.
  - destruct (er_res _) as [u'|e| |]; [injection H as _ _ <- _; congruence|..];
      (destruct (wipe_value (mkeyid m2) t) as [kk t2] eqn:W2;
       assert (kk = []) as -> by
         (pose proof (wipe_value_nil (mkeyid m2) t) as Q; rewrite W2 in Q; apply Q; right; subst m2; exact (T k (nth_error_In _ _ K1)));
       injection H as _ <- _ _; cbn [mcipher set_mkeyid set_mcipher] in C'; rewrite C'; subst m2; destruct m; cbn in *; subst; reflexivity).
  - exfalso. congruence.
Qed.
End U.
