(** Lemmas on Model_Handles. *)
From Verif Require Import Base Spec Spec_Heap Model_Unicode Model_Codec Model_Crand Model_Functions Model_Types Model_Cipher
  Model_Keys Model_Import Model_Messages Model_Heap Model_Handles Proofs_Cipher Proofs_Keys Proofs_Heap Proofs_Sharing Proofs_Shared Proofs_HeapText
  Proofs_HeapOps Proofs_HeapRun Proofs_HeapSep Proofs_Wipes.
From Verif Require Proofs_Again.
From Coq Require Import Permutation.

(** Nothing but the array of [s] has changed. *)
Definition kept (s : slice) (h h' : heap) : Prop :=
  h_outer h' = h_outer h /\ (length (h_runes h) <= length (h_runes h'))%nat /\
  forall b, (b < length (h_runes h))%nat -> s <> Some b -> nth b (h_runes h') [] = nth b (h_runes h) [].

Lemma kept_refl s h : kept s h h.
Proof. split; [reflexivity|]. split; [apply Nat.le_refl|]. reflexivity. Qed.
Lemma kept_trans s h1 h2 h3 : kept s h1 h2 -> kept s h2 h3 -> kept s h1 h3.
Proof.
  intros (A1 & A2 & A3) (B1 & B2 & B3). split; [congruence|]. split; [lia|]. intros b L N. rewrite B3 by (try lia; assumption). apply A3; assumption.
Qed.
Lemma kept_new s h v h' a : new h v = (h', a) -> kept s h h'.
Proof.
  intros H. injection H as <- _. split; [reflexivity|]. cbn [h_runes]. rewrite app_length. split; [lia|].
  intros b L _. apply app_nth1. exact L.
Qed.
Lemma kept_rd s h h' s' : kept s h h' -> slice_ok h s' -> (s' = s -> s' = None) -> rd h' s' = rd h s'.
Proof.
  intros (_ & _ & K) O N. destruct s' as [b|]; [|reflexivity]. apply K; [exact O|]. intros E. symmetry in E. apply N in E. discriminate.
Qed.
Lemma kept_ok s h h' s' : kept s h h' -> slice_ok h s' -> slice_ok h' s'.
Proof. intros (_ & L & _) O. destruct s' as [b|]; [|exact I]. cbn [slice_ok] in *. lia. Qed.
Lemma new_rd h v h' a : new h v = (h', a) -> rd h' a = v /\ slice_ok h' a /\ forall s, slice_ok h s -> s = a -> s = None.
Proof.
  intros H. injection H as <- <-. split.
  - unfold rd. cbn [h_runes]. rewrite app_nth2 by apply Nat.le_refl. rewrite Nat.sub_diag. reflexivity.
  - split; [cbn [slice_ok h_runes]; rewrite app_length; cbn [length]; lia|].
    intros [b|] O E; [|reflexivity]. cbn [slice_ok] in O. injection E as ->. lia.
Qed.
Lemma kept_wipe1 h s t h' s' t' : wipe1 h s t = (h', s', t') -> kept s h h'.
Proof.
  intros H. destruct (wipe1_frame _ _ _ _ _ _ H) as (M & _ & F).
  unfold wipe1 in H. destruct (read_runes (length (rd h s)) t) as [[r u]|]; injection H as <- _ _; [|apply kept_refl].
  split; [apply wr_outer_same|]. split; [rewrite wr_length; apply Nat.le_refl|]. intros b _ N. apply F. intros [E|[]]. apply N. exact E.
Qed.
Lemma nth_updated {A} (l : list A) b v d : (b < length l)%nat -> nth b (list_update l b v) d = v.
Proof. revert b. induction l as [|x l IH]; intros [|b] L; cbn [length] in L; try lia; cbn [list_update nth]; [reflexivity|]. apply IH. lia. Qed.
(** The words read and the array afterwards. *)
Lemma wipe1_value h s t h' s' t' : slice_ok h s -> wipe1 h s t = (h', s', t') -> wipe_value (rd h s) t = (rd h' s', t') /\
  rd h' s = if Nat.leb (length (rd h s)) (length t) then map to_int32 (firstn (length (rd h s)) t) else rd h s.
Proof.
  intros O H. unfold wipe1, wipe_value in *. unfold read_runes in *.
  destruct (Nat.leb (length (rd h s)) (length t)) eqn:E; injection H as <- <- <-; [|split; reflexivity].
  split; [reflexivity|]. destruct s as [b|]; [|destruct t; reflexivity].
  unfold wr, rd at 1. cbn [h_runes]. cbn [slice_ok] in O. apply nth_updated. exact O.
Qed.

(** The other slices of the message, and those of the keys, are not that of its text. *)
Definition own (h : heap) (m : hmsg) : Prop := slice_ok h (hm_plain m) /\
  forall s, In s (hm_id m :: hm_from m :: hm_keyid m :: hm_cipher m :: hm_radiogram m :: hm_recipients m) ->
  slice_ok h s /\ (s = hm_plain m -> s = None).
Definition clear_keys (h : heap) (s : slice) (ks : list hkey) : Prop :=
  forall k, In k ks -> forall s', In s' (key_slices h k) -> slice_ok h s' /\ (s' = s -> s' = None).

Lemma key_kept s h h' ks : kept s h h' -> clear_keys h s ks -> map (key_of h') ks = map (key_of h) ks /\ clear_keys h' s ks.
Proof.
  intros K C. assert (O : forall x, rd_outer h' x = rd_outer h x). { intros [b|]; [|reflexivity]. unfold rd_outer. rewrite (proj1 K). reflexivity. }
  split.
  - apply map_ext_in. intros k J. unfold key_of. rewrite O.
    assert (Q : forall s', In s' (key_slices h k) -> rd h' s' = rd h s') by (intros s' J'; destruct (C k J s' J'); apply (kept_rd s); assumption).
    rewrite !Q by (unfold key_slices; cbn; auto). f_equal. apply map_ext_in. intros x Jx. apply Q. unfold key_slices. do 3 right. exact Jx.
  - intros k J s' J'. assert (E : key_slices h' k = key_slices h k) by (unfold key_slices; rewrite O; reflexivity). rewrite E in J'.
    destruct (C k J s' J'). split; [apply (kept_ok s h)|]; assumption.
Qed.
Lemma own_new_keyid h m v h' a : new h v = (h', a) -> own h m -> own h' (hset_mkeyid m a) /\ msg_of h' (hset_mkeyid m a) = set_mkeyid (msg_of h m) v.
Proof.
  intros N (P & O). pose proof (kept_new None _ _ _ _ N) as K. destruct (new_rd _ _ _ _ N) as (V & A & F). split.
  - split; [apply (kept_ok None h); assumption|]. cbn [hset_mkeyid hm_plain hm_id hm_from hm_keyid hm_cipher hm_radiogram hm_recipients].
    intros s J. assert (D : s = a \/ In s (hm_id m :: hm_from m :: hm_keyid m :: hm_cipher m :: hm_radiogram m :: hm_recipients m)) by (cbn in *; intuition).
    destruct D as [->|D]; [split; [exact A|]; intros E; pose proof (F _ P (eq_sym E)); congruence|].
    destruct (O s D). split; [apply (kept_ok None h)|]; assumption.
  - assert (Q : forall s, slice_ok h s -> rd h' s = rd h s) by (intros s S; apply (kept_rd None); auto).
    unfold msg_of, set_mkeyid. cbn [hset_mkeyid hm_id hm_recipients hm_from hm_dtg hm_keyid hm_plain hm_binary hm_cipher hm_radiogram mid mrecipients mfrom mdtg mkeyid mplain mbinary mcipher mradiogram].
    rewrite V, !Q by (try exact P; apply O; cbn; tauto). f_equal. apply map_ext_in. intros s J. apply Q, O. cbn. tauto.
Qed.
Lemma own_new_cipher h m v h' a : new h v = (h', a) -> own h m -> own h' (hset_mcipher m a) /\ msg_of h' (hset_mcipher m a) = set_mcipher (msg_of h m) v.
Proof.
  intros N (P & O). pose proof (kept_new None _ _ _ _ N) as K. destruct (new_rd _ _ _ _ N) as (V & A & F). split.
  - split; [apply (kept_ok None h); assumption|]. cbn [hset_mcipher hm_plain hm_id hm_from hm_keyid hm_cipher hm_radiogram hm_recipients].
    intros s J. assert (D : s = a \/ In s (hm_id m :: hm_from m :: hm_keyid m :: hm_cipher m :: hm_radiogram m :: hm_recipients m)) by (cbn in *; intuition).
    destruct D as [->|D]; [split; [exact A|]; intros E; pose proof (F _ P (eq_sym E)); congruence|].
    destruct (O s D). split; [apply (kept_ok None h)|]; assumption.
  - assert (Q : forall s, slice_ok h s -> rd h' s = rd h s) by (intros s S; apply (kept_rd None); auto).
    unfold msg_of, set_mcipher. cbn [hset_mcipher hm_id hm_recipients hm_from hm_dtg hm_keyid hm_plain hm_binary hm_cipher hm_radiogram mid mrecipients mfrom mdtg mkeyid mplain mbinary mcipher mradiogram].
    rewrite V, !Q by (try exact P; apply O; cbn; tauto). f_equal. apply map_ext_in. intros s J. apply Q, O. cbn. tauto.
Qed.
(** The text is replaced by a new array after its old one has been overwritten. *)
Lemma own_replaced h m h1 v h' a : own h m -> kept (hm_plain m) h h1 -> new h1 v = (h', a) ->
  own h' (hset_mplain m a) /\ msg_of h' (hset_mplain m a) = set_mplain (msg_of h m) v.
Proof.
  intros (P & O) K1 N. pose proof (kept_new (hm_plain m) _ _ _ _ N) as K2. destruct (new_rd _ _ _ _ N) as (V & A & F).
  pose proof (kept_trans _ _ _ _ K1 K2) as K. split.
  - split; [exact A|]. cbn [hset_mplain hm_plain hm_id hm_from hm_keyid hm_cipher hm_radiogram hm_recipients].
    intros s J. destruct (O s J) as (S & _). split; [apply (kept_ok (hm_plain m) h); assumption|]. apply F. apply (kept_ok (hm_plain m) h); assumption.
  - assert (Q : forall s, In s (hm_id m :: hm_from m :: hm_keyid m :: hm_cipher m :: hm_radiogram m :: hm_recipients m) -> rd h' s = rd h s)
      by (intros s J; destruct (O s J); apply (kept_rd (hm_plain m)); assumption).
    unfold msg_of, set_mplain. cbn [hset_mplain hm_id hm_recipients hm_from hm_dtg hm_keyid hm_plain hm_binary hm_cipher hm_radiogram mid mrecipients mfrom mdtg mkeyid mplain mbinary mcipher mradiogram].
    rewrite V, !Q by (cbn; tauto). f_equal. apply map_ext_in. intros s J. apply Q. cbn. tauto.
Qed.

Section WithUnicode.
Context (U : Uni).

Lemma hd_ensure_has h i m t : mid (msg_of h m) <> [] -> hd_ensure_id h i m t = Ok (h, m, t).
Proof.
  intros M. unfold hd_ensure_id. rewrite ensure_id_has by exact M. cbn [bind]. unfold msg_of in M. cbn [mid] in M.
  destruct (rd h (hm_id m)) as [|c l]; [elim M; reflexivity|]. reflexivity.
Qed.

(** The text is overwritten: the words are these. *)
Definition overwritten (p : list rune) (t : tape) : list rune :=
  if Nat.leb (length p) (length t) then map to_int32 (firstn (length p) t) else p.

Lemma hd_decipher_lemma h i m t h' i' m' r t' : own h m -> clear_keys h (hm_plain m) (hi_keys i) -> mid (msg_of h m) <> [] ->
  hd_decipher U h i m t = (h', i', m', r, t') ->
  kept (hm_plain m) h h' /\ own h' m' /\ hi_messages i' = hi_messages i /\ hi_callsign i' = hi_callsign i /\ same_settings i i' /\
  (exists iv, decipher U (inst_of h i) (msg_of h m) t = (iv, msg_of h' m', r, t') /\ keys_of h' i' = i_keys iv) /\
  (r <> Ok tt -> i' = i) /\ hm_id m' = hm_id m /\ hm_recipients m' = hm_recipients m /\ hm_from m' = hm_from m /\ hm_keyid m' = hm_keyid m /\
  hm_cipher m' = hm_cipher m /\ hm_radiogram m' = hm_radiogram m /\
  rd h' (hm_plain m) = (if (len (rd h (hm_keyid m)) =? hi_groupsize i) && negb (len (rd h (hm_cipher m)) <? hi_groupsize i) &&
    match get_key U (rd h (hm_keyid m)) (keys_of h i) with Some _ => true | None => false end then overwritten (rd h (hm_plain m)) t else rd h (hm_plain m)).
Proof.
  intros O C M H. unfold hd_decipher in H. rewrite hd_ensure_has in H by exact M. cbv zeta in H.
  unfold decipher. rewrite ensure_id_has by exact M. cbv zeta.
  change (mkeyid (msg_of h m)) with (rd h (hm_keyid m)). change (mcipher (msg_of h m)) with (rd h (hm_cipher m)).
  change (mplain (msg_of h m)) with (rd h (hm_plain m)). change (i_groupsize (inst_of h i)) with (hi_groupsize i).
  change (i_keys (inst_of h i)) with (keys_of h i).
  assert (Z0 : same_settings i i) by apply same_settings_refl.
  destruct (len (rd h (hm_keyid m)) =? hi_groupsize i) eqn:E1; cbn [negb andb] in *.
  2:{ injection H as <- <- <- <- <-. split; [apply kept_refl|]. split; [exact O|]. split; [reflexivity|]. split; [reflexivity|]. split; [exact Z0|]. split; [eexists; split; reflexivity|]. do 7 (split; [reflexivity|]). reflexivity. }
  destruct (len (rd h (hm_cipher m)) <? hi_groupsize i) eqn:E2; cbn [negb andb] in *.
  { injection H as <- <- <- <- <-. split; [apply kept_refl|]. split; [exact O|]. split; [reflexivity|]. split; [reflexivity|]. split; [exact Z0|]. split; [eexists; split; reflexivity|]. do 7 (split; [reflexivity|]). reflexivity. }
  destruct (get_key U (rd h (hm_keyid m)) (keys_of h i)) as [k0|] eqn:E3.
  2:{ injection H as <- <- <- <- <-. split; [apply kept_refl|]. split; [exact O|]. split; [reflexivity|]. split; [reflexivity|]. split; [exact Z0|]. split; [eexists; split; reflexivity|]. do 7 (split; [reflexivity|]). reflexivity. }
  destruct (wipe1 h (hm_plain m) t) as [[h2 p0] t2] eqn:W. pose proof (kept_wipe1 _ _ _ _ _ _ W) as K1.
  destruct (wipe1_value _ _ _ _ _ _ (proj1 O) W) as (WV & WR). rewrite WV.
  destruct (key_kept _ _ _ _ K1 C) as (KE & C2). fold (keys_of h2 i) in KE. fold (keys_of h i) in KE.
  rewrite KE in H. assert (RC : rd h2 (hm_cipher m) = rd h (hm_cipher m)).
  { destruct (proj2 O (hm_cipher m)) as (S1 & S2); [cbn; tauto|]. apply (kept_rd (hm_plain m)); assumption. }
  rewrite RC in H.
  destruct (decipher_loop U (hi_groupsize i) (keys_of h i) (rd h (hm_cipher m)) k0 0 new_state [] (rd h2 p0) [k0]) as [[p stack] r0] eqn:L.
  destruct (new h2 p) as [h3 a] eqn:N. injection H as <- <- <- <- <-.
  destruct (own_replaced _ _ _ _ _ _ O K1 N) as (O3 & V3). pose proof (kept_new (hm_plain m) _ _ _ _ N) as K2.
  destruct (key_kept _ _ _ _ K2 C2) as (KE3 & _). fold (keys_of h3 i) in KE3. fold (keys_of h2 i) in KE3.
  split; [exact (kept_trans _ _ _ _ K1 K2)|]. split; [exact O3|].
  split; [destruct r0; reflexivity|]. split; [destruct r0; reflexivity|]. split; [destruct r0 as [[]| | |]; (exact Z0 || (repeat split))|].
  split.
  { rewrite V3. destruct r0 as [[]|e| |]; eexists; (split; [reflexivity|]); cbn [i_keys set_keys].
    - unfold keys_of at 1. cbn [hi_keys hset_keys]. apply set_flags_value. fold (keys_of h3 i). rewrite KE3, KE. apply same_but_used_sym, mark_stack_same.
    - change (i_keys (inst_of h i)) with (keys_of h i). congruence.
    - change (i_keys (inst_of h i)) with (keys_of h i). congruence.
    - change (i_keys (inst_of h i)) with (keys_of h i). congruence. }
  split; [destruct r0 as [[]| | |]; [intros X; elim X; reflexivity| | |]; reflexivity|].
  do 6 (split; [reflexivity|]).
  unfold overwritten. rewrite <- WR. destruct (hm_plain m) as [b|] eqn:PB; [|reflexivity].
  apply (kept_rd None); [exact (kept_new None _ _ _ _ N)| |congruence].
  apply (kept_ok (Some b) h); [exact K1|]. rewrite <- PB. exact (proj1 O).
Qed.

Lemma hd_try_lemma h i m t h' i' m' r t' : store_ok (hi_groupsize i) (keys_of h i) -> own h m -> clear_keys h (hm_plain m) (hi_keys i) -> mid (msg_of h m) <> [] ->
  hd_try_decipher U h i m t = (h', i', m', r, t') ->
  kept (hm_plain m) h h' /\ hi_messages i' = hi_messages i /\ hi_callsign i' = hi_callsign i /\ same_settings i i' /\
  (exists iv, try_decipher U (inst_of h i) (msg_of h m) false t = (iv, msg_of h' m', r, t') /\ keys_of h' i' = i_keys iv) /\
  rd h' (hm_plain m) = (match snd (fst (try_decipher U (inst_of h i) (msg_of h m) true t)) with Ok _ => overwritten (rd h (hm_plain m)) t | _ => rd h (hm_plain m) end).
Proof.
  intros ST O C M H. unfold hd_try_decipher in H. rewrite hd_ensure_has in H by exact M. cbv zeta in H.
  unfold try_decipher. rewrite ensure_id_has by exact M. cbv zeta.
  change (mkeyid (msg_of h m)) with (rd h (hm_keyid m)).
  change (mplain (msg_of h m)) with (rd h (hm_plain m)). change (i_groupsize (inst_of h i)) with (hi_groupsize i).
  change (i_keys (inst_of h i)) with (keys_of h i).
  assert (Z0 : same_settings i i) by apply same_settings_refl.
  assert (Q : forall r0, (h, i, m, r0, t) = (h', i', m', r, t') -> r0 <> Ok tt ->
    kept (hm_plain m) h h' /\ hi_messages i' = hi_messages i /\ hi_callsign i' = hi_callsign i /\ same_settings i i' /\
    (exists iv, (inst_of h i, msg_of h m, r0, t) = (iv, msg_of h' m', r, t') /\ keys_of h' i' = i_keys iv) /\
    rd h' (hm_plain m) = (match snd (fst (inst_of h i, msg_of h m, r0, t)) with Ok _ => overwritten (rd h (hm_plain m)) t | _ => rd h (hm_plain m) end)).
  { intros r0 E D. injection E as <- <- <- <- <-. split; [apply kept_refl|]. split; [reflexivity|]. split; [reflexivity|]. split; [exact Z0|].
    split; [eexists; split; reflexivity|]. cbn [fst snd]. destruct r0 as [[]| | |]; [elim D; reflexivity| | |]; reflexivity. }
  destruct (0 <? len (rd h (hm_keyid m))); [apply Q; [exact H|discriminate]|].
  pose proof (filter_letters_spec U (rd h (hm_plain m))) as FL.
  destruct (filter_letters U (rd h (hm_plain m))) as [ft|]; [|apply Q; [exact H|discriminate]].
  destruct (len ft <? hi_groupsize i * 2) eqn:G2; [apply Q; [exact H|discriminate]|].
  destruct (hi_groupsize i <? 0) eqn:G0; [apply Q; [exact H|discriminate]|].
  destruct (get_key U (firstn (Z.to_nat (hi_groupsize i)) ft) (keys_of h i)) as [kp|] eqn:GK; [|apply Q; [exact H|discriminate]].
  destruct (nth_error (keys_of h i) kp) as [k|] eqn:NK; [|apply Q; [exact H|discriminate]].
  clear Q. cbn [fst snd].
  assert (LT : letters (firstn (Z.to_nat (hi_groupsize i)) ft)).
  { destruct FL as (_ & FL). unfold letters in *. rewrite Forall_forall in *. intros x J. apply FL. revert J; generalize (Z.to_nat (hi_groupsize i)); clear; induction ft as [|y ft IH]; intros [|n] J; cbn in J; try contradiction; cbn; destruct J as [->|J]; [left; reflexivity|right; exact (IH n J)]. }
  destruct (new h (kid k)) as [h2 a] eqn:N2. destruct (new h2 (skipn (Z.to_nat (hi_groupsize i)) ft)) as [h3 c] eqn:N3.
  destruct (own_new_keyid _ _ _ _ _ N2 O) as (O2 & V2). destruct (own_new_cipher _ _ _ _ _ N3 O2) as (O3 & V3).
  set (m3 := hset_mcipher (hset_mkeyid m a) c) in *. change (hm_plain (hset_mkeyid m a)) with (hm_plain m) in *.
  assert (PM : hm_plain m3 = hm_plain m) by reflexivity.
  pose proof (kept_trans (hm_plain m) _ _ _ (kept_new _ _ _ _ _ N2) (kept_new _ _ _ _ _ N3)) as K3.
  destruct (key_kept _ _ _ _ K3 C) as (KE3 & C3). fold (keys_of h3 i) in KE3. fold (keys_of h i) in KE3.
  assert (P3 : rd h3 (hm_plain m) = rd h (hm_plain m)).
  { apply (kept_rd None); [exact (kept_trans None _ _ _ (kept_new _ _ _ _ _ N2) (kept_new _ _ _ _ _ N3))|exact (proj1 O)|auto]. }
  rewrite V2 in V3. assert (M3 : mid (msg_of h3 m3) <> []) by (rewrite V3; exact M).
  destruct (hd_decipher U h3 i m3 t) as [[[[h4 i4] m4] r4] t4] eqn:HD.
  destruct (hd_decipher_lemma _ _ _ _ _ _ _ _ _ O3 C3 M3 HD) as (K4 & O4 & HM & HC & SS & (iv & DV & KV) & F0 & F1 & F2 & F3 & F4 & F5 & F6 & RP).
  rewrite PM, P3 in RP.
  assert (KL : rd h3 (hm_keyid m3) = kid k).
  { pose proof (f_equal mkeyid V3) as X. exact X. }
  assert (CL : rd h3 (hm_cipher m3) = skipn (Z.to_nat (hi_groupsize i)) ft).
  { pose proof (f_equal mcipher V3) as X. exact X. }
  (* the value level sees the same keys, and other messages do not matter *)
  assert (DV' : exists iv', decipher U (inst_of h i) (set_mcipher (set_mkeyid (msg_of h m) (kid k)) (skipn (Z.to_nat (hi_groupsize i)) ft)) t = (iv', msg_of h4 m4, r4, t4) /\
                keys_of h4 i4 = i_keys iv').
  { rewrite <- V3. revert DV KV. unfold decipher. rewrite !ensure_id_has by exact M3. cbv zeta.
    change (i_groupsize (inst_of h3 i)) with (hi_groupsize i). change (i_groupsize (inst_of h i)) with (hi_groupsize i).
    change (i_keys (inst_of h3 i)) with (keys_of h3 i). change (i_keys (inst_of h i)) with (keys_of h i). rewrite KE3.
    destruct (negb (len (mkeyid (msg_of h3 m3)) =? hi_groupsize i)).
    { intros E KV. exists (inst_of h i). split; [congruence|]. rewrite KV. assert (iv = inst_of h3 i) as -> by congruence. exact KE3. }
    destruct (len (mcipher (msg_of h3 m3)) <? hi_groupsize i).
    { intros E KV. exists (inst_of h i). split; [congruence|]. rewrite KV. assert (iv = inst_of h3 i) as -> by congruence. exact KE3. }
    destruct (get_key U (mkeyid (msg_of h3 m3)) (keys_of h i)) as [k0|].
    2:{ intros E KV. exists (inst_of h i). split; [congruence|]. rewrite KV. assert (iv = inst_of h3 i) as -> by congruence. exact KE3. }
    destruct (wipe_value (mplain (msg_of h3 m3)) t) as [p0 tw].
    destruct (decipher_loop U (hi_groupsize i) (keys_of h i) (mcipher (msg_of h3 m3)) k0 0 new_state [] p0 [k0]) as [[p stack] [[]|e| |]].
    - intros E KV. exists (set_keys (inst_of h i) (mark_stack (keys_of h i) stack)). split; [congruence|]. rewrite KV.
      assert (iv = set_keys (inst_of h3 i) (mark_stack (keys_of h i) stack)) as -> by congruence. reflexivity.
    - intros E KV. exists (inst_of h i). split; [congruence|]. rewrite KV. assert (iv = inst_of h3 i) as -> by congruence. exact KE3.
    - intros E KV. exists (inst_of h i). split; [congruence|]. rewrite KV. assert (iv = inst_of h3 i) as -> by congruence. exact KE3.
    - intros E KV. exists (inst_of h i). split; [congruence|]. rewrite KV. assert (iv = inst_of h3 i) as -> by congruence. exact KE3. }
  clear DV KV iv. destruct DV' as (iv & DV & KV). rewrite DV.
  rewrite KL, CL, KE3 in RP.
  (* the key was found by its ID, so all tests pass *)
  assert (RP' : rd h4 (hm_plain m) = overwritten (rd h (hm_plain m)) t).
  { rewrite RP.
    destruct (get_key_letters U _ _ _ _ ST LT GK) as (k' & NK' & KI). assert (k' = k) as -> by congruence.
    pose proof (nth_error_In _ _ NK) as JK. destruct (proj2 ST k JK) as (_ & A1 & _).
    rewrite A1, Z.eqb_refl. assert (A2 : len (skipn (Z.to_nat (hi_groupsize i)) ft) <? hi_groupsize i = false).
    { unfold len in *. rewrite skipn_length. lia. }
    rewrite A2. cbn [negb andb]. rewrite (get_key_found U _ _ _ _ ST NK). reflexivity. }
  assert (FAIL : forall e, r4 <> Ok tt ->
    (let '(h5, kid', t5) := wipe1 h4 (hm_keyid m4) t4 in let (h6, p) := new h5 (rd h (hm_plain m)) in let (h7, c') := new h6 (rd h (hm_cipher m)) in
     (h7, i4, hset_mcipher (hset_mplain (hset_mkeyid m4 kid') p) c', e, t5)) = (h', i', m', r, t') ->
    kept (hm_plain m) h h' /\ hi_messages i' = hi_messages i /\ hi_callsign i' = hi_callsign i /\ same_settings i i' /\
    (exists iv0, (let '(kid', t3) := wipe_value (mkeyid (msg_of h4 m4)) t4 in
       (iv, set_mcipher (set_mplain (set_mkeyid (msg_of h4 m4) kid') (rd h (hm_plain m))) (mcipher (msg_of h m)), e, t3)) = (iv0, msg_of h' m', r, t') /\ keys_of h' i' = i_keys iv0) /\
    rd h' (hm_plain m) = overwritten (rd h (hm_plain m)) t).
  { clear H. intros e D H.
    destruct (wipe1 h4 (hm_keyid m4) t4) as [[h5 kid'] t5] eqn:W.
    destruct (new h5 (rd h (hm_plain m))) as [h6 p] eqn:N6. destruct (new h6 (rd h (hm_cipher m))) as [h7 c'] eqn:N7.
    injection H as <- <- <- <- <-.
    (* the key ID is in an array of its own *)
    rewrite (F0 D) in *.
    assert (FA : forall x, slice_ok h x -> x = hm_keyid m4 -> x = None).
    { intros x X E. rewrite F4 in E. destruct (new_rd _ _ _ _ N2) as (_ & _ & FN). apply FN; assumption. }
    assert (K5 : kept (hm_plain m) h h5).
    { pose proof (kept_trans _ _ _ _ K3 K4) as (A1 & A2 & A3). destruct (kept_wipe1 _ _ _ _ _ _ W) as (B1 & B2 & B3).
      split; [congruence|]. split; [lia|]. intros b L NE. rewrite B3; [apply A3; assumption|lia|].
      intros E. symmetry in E. apply FA in E; [discriminate|exact L]. }
    pose proof (kept_trans (hm_plain m) _ _ _ K5 (kept_trans (hm_plain m) _ _ _ (kept_new _ _ _ _ _ N6) (kept_new _ _ _ _ _ N7))) as K7.
    split; [exact K7|]. split; [reflexivity|]. split; [reflexivity|]. split; [exact Z0|].
    assert (OA : slice_ok h4 (hm_keyid m4)) by (apply (proj2 O4); cbn; tauto).
    destruct (wipe1_value _ _ _ _ _ _ OA W) as (WV & _). split.
    - exists iv. change (mkeyid (msg_of h4 m4)) with (rd h4 (hm_keyid m4)). rewrite WV. split.
      + assert (QQ : forall x, In x (hm_id m4 :: hm_from m4 :: hm_radiogram m4 :: hm_recipients m4) -> rd h7 x = rd h4 x).
        { intros x J. rewrite F1, F2, F3, F6 in J.
          assert (J' : In x (hm_id m :: hm_from m :: hm_keyid m :: hm_cipher m :: hm_radiogram m :: hm_recipients m)) by (change (hm_id m3) with (hm_id m) in J; change (hm_from m3) with (hm_from m) in J; change (hm_radiogram m3) with (hm_radiogram m) in J; change (hm_recipients m3) with (hm_recipients m) in J; cbn in J |- *; tauto).
          destruct (proj2 O x J') as (X1 & X2). rewrite (kept_rd _ _ _ _ K7 X1 X2). symmetry.
          exact (kept_rd _ _ _ _ (kept_trans _ _ _ _ K3 K4) X1 X2). }
        assert (KO : slice_ok h5 kid').
        { destruct (wipe1_frame _ _ _ _ _ _ W) as (_ & [->|(-> & ->)] & _); [exact I|exact OA]. }
        destruct (new_rd _ _ _ _ N6) as (V6 & P6 & _). destruct (new_rd _ _ _ _ N7) as (V7 & _).
        f_equal. f_equal. f_equal.
        unfold msg_of, set_mcipher, set_mplain, set_mkeyid.
        cbn [hset_mcipher hset_mplain hset_mkeyid hm_id hm_recipients hm_from hm_dtg hm_keyid hm_plain hm_binary hm_cipher hm_radiogram mid mrecipients mfrom mdtg mkeyid mplain mbinary mcipher mradiogram].
        rewrite V7, (QQ (hm_id m4)), (QQ (hm_from m4)), (QQ (hm_radiogram m4)) by (cbn; tauto).
        rewrite (kept_rd None h6 h7 p (kept_new _ _ _ _ _ N7) P6 ltac:(auto)), V6.
        rewrite (kept_rd None h5 h7 kid' (kept_trans None _ _ _ (kept_new _ _ _ _ _ N6) (kept_new _ _ _ _ _ N7)) KO ltac:(auto)).
        f_equal. apply map_ext_in. intros x J. symmetry. apply QQ. do 3 right. exact J.
      + rewrite <- KV. destruct (key_kept _ _ _ _ K7 C) as (Y & _). destruct (key_kept _ _ _ _ (kept_trans _ _ _ _ K3 K4) C) as (Y' & _).
        unfold keys_of. congruence.
    - rewrite <- RP'. assert (PO : slice_ok h (hm_plain m)) by exact (proj1 O).
      rewrite (kept_rd None h5 h7 (hm_plain m) (kept_trans None _ _ _ (kept_new _ _ _ _ _ N6) (kept_new _ _ _ _ _ N7)) (kept_ok _ _ _ _ K5 PO) ltac:(auto)).
      apply (kept_rd (hm_keyid m4)); [exact (kept_wipe1 _ _ _ _ _ _ W)|exact (kept_ok _ _ _ _ (kept_trans _ _ _ _ K3 K4) PO)|].
      apply FA. exact PO. }
  destruct r4 as [[]|e| |].
  - injection H as <- <- <- <- <-. split; [exact (kept_trans _ _ _ _ K3 K4)|]. split; [exact HM|]. split; [exact HC|]. split; [exact SS|].
    split; [exists iv; split; [reflexivity|exact KV]|]. exact RP'.
  - apply FAIL; [discriminate|exact H].
  - apply FAIL; [discriminate|exact H].
  - apply FAIL; [discriminate|exact H].
Qed.
End WithUnicode.

(** ** Messages of the store *)
Lemma store_clear h i n m : good h i -> nth_error (hi_messages i) n = Some m ->
  own h m /\ clear_keys h (hm_plain m) (hi_keys i) /\ slice_ok h (hi_callsign i) /\ (hi_callsign i = hm_plain m -> hi_callsign i = None) /\
  forall n' m2, n' <> n -> nth_error (hi_messages i) n' = Some m2 -> forall s, In s (msg_slices m2) -> slice_ok h s /\ (s = hm_plain m -> s = None).
Proof.
  intros G H. destruct (nth_error_split _ _ H) as (pre & post & E & L).
  assert (I : inv h (hi_keys i) (m :: pre ++ post) (call_slot i)).
  { apply (inv_perm h (hi_keys i) (hi_keys i) (hi_messages i) _ (call_slot i) (call_slot i) (Permutation_refl _)); [|apply Permutation_refl|exact G].
    rewrite E. apply Permutation_sym, Permutation_middle. }
  assert (PS : In (KPriv, hm_plain m) (msg_slots m)) by (cbn; tauto).
  assert (X : forall kd s, In (kd, s) (slots h (hi_keys i) (pre ++ post) (call_slot i)) -> slice_ok h s /\ (s = hm_plain m -> s = None)).
  { intros kd s J. pose proof (inv_cross_msg _ _ _ _ _ _ _ I PS J) as RR. split.
    - pose proof (inv_ok _ _ _ _ (inv_drop_msg _ _ _ _ _ I)) as OK. rewrite Forall_forall in OK. exact (OK _ J).
    - intros Q. destruct s as [a|]; [|reflexivity]. specialize (RR a). cbn [fst snd] in RR. specialize (RR (eq_sym Q) eq_refl). destruct kd; discriminate. }
  pose proof (inv_msg_ok _ _ _ _ m I (or_introl eq_refl)) as OM. rewrite Forall_forall in OM.
  split; [|split; [|split; [|split]]].
  - split; [exact (OM _ PS)|]. intros s J.
    assert (RR : forall kd, In (kd, s) (msg_slots m) -> s = hm_plain m -> (kd, s) <> (KPriv, hm_plain m) -> s = None).
    { intros kd J' Q D. destruct s as [a|]; [|reflexivity]. destruct I as [A _ _ _].
      apply (pairwise_perm _ _ R_sym _ _ (slots_msg_front h (hi_keys i) m (pre ++ post) (call_slot i))) in A. apply pairwise_app in A. destruct A as (A & _).
      destruct (pairwise_In _ _ R_sym _ _ _ A J' PS) as [Y|Y]; [congruence|]. specialize (Y a eq_refl (eq_sym Q)). destruct kd; discriminate. }
    (* two slots of the message with the same array *)
    assert (SN : forall a, s = Some a -> hm_plain m = Some a -> False).
    { intros a Sa Pa. destruct I as [A _ _ _].
      apply (pairwise_perm _ _ R_sym _ _ (slots_msg_front h (hi_keys i) m (pre ++ post) (call_slot i))) in A. apply pairwise_app in A. destruct A as (A & _).
      unfold msg_slots in A. cbn [pairwise] in A. rewrite !Forall_forall in A. destruct A as (A1 & A2 & A3 & _).
      destruct J as [<-|[<-|[<-|[<-|[<-|J]]]]].
      - pose proof (A3 (KPriv, hm_id m) ltac:(cbn; tauto) a Pa Sa). discriminate.
      - pose proof (A3 (KPriv, hm_from m) ltac:(cbn; tauto) a Pa Sa). discriminate.
      - pose proof (A1 (KPriv, hm_plain m) ltac:(cbn; tauto) a Sa Pa). discriminate.
      - pose proof (A2 (KPriv, hm_plain m) ltac:(cbn; tauto) a Sa Pa). discriminate.
      - pose proof (A3 (KPriv, hm_radiogram m) ltac:(cbn; tauto) a Pa Sa). discriminate.
      - pose proof (A3 (KCall, s) ltac:(do 3 right; apply in_map; exact J) a Pa Sa). discriminate. }
    split.
    + destruct J as [<-|[<-|[<-|[<-|[<-|J]]]]]; [apply (OM (KPriv, hm_id m))|apply (OM (KPriv, hm_from m))|apply (OM (KKeyId, hm_keyid m))|apply (OM (KPriv, hm_cipher m))|apply (OM (KPriv, hm_radiogram m))|apply (OM (KCall, s))]; try (cbn; tauto).
      do 6 right. apply in_map. exact J.
    + intros Q. destruct s as [a|]; [|reflexivity]. elim (SN a eq_refl (eq_sym Q)).
  - intros k J s Js. rewrite <- key_slots_snd in Js. apply in_map_iff in Js. destruct Js as ([kd s'] & Es & Js). cbn [snd] in Es. subst s'.
    exact (X kd s (in_slots_key _ _ _ _ _ _ J Js)).
  - refine (proj1 (X KCall (hi_callsign i) _)). apply in_slots_ex. left. reflexivity.
  - refine (proj2 (X KCall (hi_callsign i) _)). apply in_slots_ex. left. reflexivity.
  - intros n' m2 D H2 s Js.
    assert (J2 : In m2 (pre ++ post)).
    { rewrite E in H2. apply in_or_app. destruct (Nat.lt_ge_cases n' (length pre)) as [Lt|Ge].
      - left. rewrite nth_error_app1 in H2 by exact Lt. exact (nth_error_In _ _ H2).
      - right. rewrite nth_error_app2 in H2 by exact Ge. destruct (n' - length pre)%nat as [|d] eqn:Ed; [lia|]. cbn [nth_error] in H2. exact (nth_error_In _ _ H2). }
    assert (K : exists kd, In (kd, s) (msg_slots m2)).
    { unfold msg_slices in Js. unfold msg_slots. cbn in Js. 
      destruct Js as [<-|[<-|[<-|[<-|[<-|[<-|Js]]]]]]; [eexists; cbn; tauto..|].
      exists KCall. do 6 right. apply in_map. exact Js. }
    destruct K as (kd & K). exact (X kd s (in_slots_msg _ _ _ _ _ _ J2 K)).
Qed.

Lemma store_after h i n m h' i' : good h i -> nth_error (hi_messages i) n = Some m -> kept (hm_plain m) h h' -> hi_messages i' = hi_messages i ->
  (forall n', n' <> n -> nth_error (messages_of h' i') n' = nth_error (messages_of h i) n') /\
  nth_error (messages_of h' i') n = Some (set_mplain (msg_of h m) (rd h' (hm_plain m))) /\
  rd h' (hi_callsign i) = rd h (hi_callsign i).
Proof.
  intros G H K E. destruct (store_clear h i n m G H) as (O & _ & C1 & C2 & F). unfold messages_of. rewrite E. split; [|split].
  - intros n' D. rewrite !nth_error_map. destruct (nth_error (hi_messages i) n') as [m2|] eqn:H2; [|reflexivity]. cbn [option_map]. f_equal.
    assert (Q : forall s, In s (msg_slices m2) -> rd h' s = rd h s) by (intros s J; destruct (F n' m2 D H2 s J); apply (kept_rd (hm_plain m)); assumption).
    unfold msg_of. rewrite (Q (hm_id m2)), (Q (hm_from m2)), (Q (hm_keyid m2)), (Q (hm_plain m2)), (Q (hm_cipher m2)), (Q (hm_radiogram m2)) by (unfold msg_slices; cbn; tauto).
    f_equal. apply map_ext_in. intros s J. apply Q. unfold msg_slices. cbn. tauto.
  - rewrite nth_error_map, H. cbn [option_map]. f_equal. destruct O as (P & O).
    assert (Q : forall s, In s (hm_id m :: hm_from m :: hm_keyid m :: hm_cipher m :: hm_radiogram m :: hm_recipients m) -> rd h' s = rd h s)
      by (intros s J; destruct (O s J); apply (kept_rd (hm_plain m)); assumption).
    unfold msg_of, set_mplain. cbn [mid mrecipients mfrom mdtg mkeyid mplain mbinary mcipher mradiogram].
    rewrite (Q (hm_id m)), (Q (hm_from m)), (Q (hm_keyid m)), (Q (hm_cipher m)), (Q (hm_radiogram m)) by (cbn; tauto).
    f_equal. apply map_ext_in. intros s J. apply Q. cbn. tauto.
  - apply (kept_rd (hm_plain m)); assumption.
Qed.

Section Reached.
Context (U : Uni) (lb : list rune -> list rune) (dp : list rune -> option Z).

Lemma ensure_given h i n m t h1 m1 t1 : good h i -> nth_error (hi_messages i) n = Some m -> mid (msg_of h m) = [] ->
  hd_ensure_id h i m t = Ok (h1, m1, t1) ->
  kept (hm_plain m) h h1 /\ own h1 m1 /\ clear_keys h1 (hm_plain m1) (hi_keys i) /\ hm_plain m1 = hm_plain m /\ mid (msg_of h1 m1) <> [] /\
  inst_of h1 i = inst_of h i /\ ensure_id (inst_of h i) (msg_of h m) t = Ok (msg_of h1 m1, t1).
Proof.
  intros G H M E. destruct (store_clear h i n m G H) as ((P & O) & C & _). unfold hd_ensure_id in E.
  assert (rd h (hm_id m) = []) as MI by exact M. rewrite MI in E. change (len (@nil rune) =? 0) with true in E. cbv iota in E.
  unfold ensure_id in *. rewrite M in *. change (len (@nil rune) =? 0) with true in *. cbv iota in *.
  destruct (new_unique_message_id (i_messages (inst_of h i)) t) as [[id t2]|e| |] eqn:NU; cbn [bind] in *; try discriminate.
  cbn [set_mid mid] in E. destruct (new h id) as [h2 a] eqn:N.
  assert (h2 = h1 /\ m1 = hset_mid m a /\ t2 = t1) as (-> & -> & ->) by (repeat split; congruence). clear E.
  pose proof (kept_new (hm_plain m) _ _ _ _ N) as K. pose proof (kept_new None _ _ _ _ N) as K0. destruct (new_rd _ _ _ _ N) as (V & A & F).
  assert (Q : forall s, slice_ok h s -> rd h1 s = rd h s) by (intros s S; apply (kept_rd None); auto).
  assert (msg_of h1 (hset_mid m a) = set_mid (msg_of h m) id) as MO.
  { unfold msg_of, set_mid. cbn [hset_mid hm_id hm_recipients hm_from hm_dtg hm_keyid hm_plain hm_binary hm_cipher hm_radiogram mid mrecipients mfrom mdtg mkeyid mplain mbinary mcipher mradiogram].
    rewrite V, !Q by (try exact P; apply O; cbn; tauto). f_equal. apply map_ext_in. intros s J. apply Q, O. cbn. tauto. }
  split; [exact K|]. split; [|split; [|split; [reflexivity|split; [|split]]]].
  - split; [apply (kept_ok None h); assumption|]. cbn [hset_mid hm_plain hm_id hm_from hm_keyid hm_cipher hm_radiogram hm_recipients].
    intros s J. assert (D : s = a \/ In s (hm_id m :: hm_from m :: hm_keyid m :: hm_cipher m :: hm_radiogram m :: hm_recipients m)) by (cbn in *; intuition).
    destruct D as [->|D]; [split; [exact A|]; intros E; pose proof (F _ P (eq_sym E)); congruence|].
    destruct (O s D). split; [apply (kept_ok None h)|]; assumption.
  - exact (proj2 (key_kept _ _ _ _ K C)).
  - rewrite MO. exact (Proofs_Again.new_id_has _ _ _ _ _ NU).
  - pose proof (grows_new _ _ _ _ N) as GR. unfold inst_of. f_equal.
    + exact (keys_grow _ _ _ _ _ GR G).
    + exact (msgs_grow _ _ _ _ _ GR G).
    + apply Q. destruct (store_clear h i n m G H) as (_ & _ & CO & _). exact CO.
  - rewrite MO. reflexivity.
Qed.

Lemma try_reached i0 ops t h i t1 n m h' i' m' r t2 : reach U lb dp i0 ops t = (h, i, t1) -> store_ok (hi_groupsize i) (keys_of h i) ->
  nth_error (hi_messages i) n = Some m -> hd_try_decipher U h i m t1 = (h', i', m', r, t2) ->
  (exists iv, try_decipher U (inst_of h i) (msg_of h m) false t1 = (iv, msg_of h' m', r, t2) /\ keys_of h' i' = i_keys iv) /\
  (forall n', n' <> n -> nth_error (messages_of h' i') n' = nth_error (messages_of h i) n') /\
  (snd (fst (try_decipher U (inst_of h i) (msg_of h m) true t1)) <> Ok tt -> nth_error (messages_of h' i') n = nth_error (messages_of h i) n) /\
  (mid (msg_of h m) <> [] -> snd (fst (try_decipher U (inst_of h i) (msg_of h m) true t1)) = Ok tt -> (length (mplain (msg_of h m)) <= length t1)%nat ->
     nth_error (messages_of h' i') n = Some (set_mplain (msg_of h m) (map to_int32 (firstn (length (mplain (msg_of h m))) t1)))).
Proof.
  intros RE ST H E. pose proof (reach_good _ _ _ _ _ _ _ _ _ RE) as G. destruct (store_clear h i n m G H) as (O & C & _).
  assert (NM : nth_error (messages_of h i) n = Some (msg_of h m)) by (unfold messages_of; rewrite nth_error_map, H; reflexivity).
  assert (DM : mid (msg_of h m) = [] \/ mid (msg_of h m) <> []) by (destruct (mid (msg_of h m)); [left; reflexivity|right; discriminate]).
  destruct DM as [M|M].
  - destruct (hd_ensure_id h i m t1) as [[[h1 m1] t3]|e| |] eqn:HE.
    + destruct (ensure_given h i n m t1 h1 m1 t3 G H M HE) as (K1 & O1 & C1 & PL & M1 & IN & EN).
      assert (hd_try_decipher U h1 i m1 t3 = (h', i', m', r, t2)) as E1.
      { unfold hd_try_decipher in E |- *. rewrite HE in E. rewrite hd_ensure_has by exact M1. exact E. }
      assert (forall d, try_decipher U (inst_of h i) (msg_of h m) d t1 = try_decipher U (inst_of h1 i) (msg_of h1 m1) d t3) as TD.
      { intros d. unfold try_decipher. rewrite EN, ensure_id_has by exact M1. rewrite IN. reflexivity. }
      assert (store_ok (hi_groupsize i) (keys_of h1 i)) as ST1 by (change (keys_of h1 i) with (i_keys (inst_of h1 i)); rewrite IN; exact ST).
      destruct (hd_try_lemma U h1 i m1 t3 h' i' m' r t2 ST1 O1 C1 M1 E1) as (K & HM & _ & _ & V & RP). rewrite PL in K, RP.
      destruct (store_after h i n m h' i' G H (kept_trans _ _ _ _ K1 K) HM) as (A & B & _). split; [rewrite TD; exact V|]. split; [exact A|].
      split; [|intros D; contradiction]. rewrite TD, B, RP. intros D.
      assert (PE : rd h1 (hm_plain m) = rd h (hm_plain m)).
      { pose proof HE as HE2. unfold hd_ensure_id in HE2. rewrite EN in HE2. cbn [bind] in HE2. destruct (len (rd h (hm_id m)) =? 0).
        - destruct (new h (mid (msg_of h1 m1))) as [hx a] eqn:N. assert (hx = h1) as -> by congruence.
          apply (kept_rd None _ _ _ (kept_new None _ _ _ _ N)); [exact (proj1 O)|auto].
        - assert (h1 = h) as -> by congruence. reflexivity. }
      destruct (snd (fst (try_decipher U (inst_of h1 i) (msg_of h1 m1) true t3))) as [[]| | |]; [elim D; reflexivity| | |]; rewrite PE, NM; reflexivity.
    + assert (h' = h /\ i' = i /\ m' = m /\ r = Err e /\ t2 = t1) as (-> & -> & -> & -> & ->) by (unfold hd_try_decipher in E; rewrite HE in E; repeat split; congruence).
      assert (forall d, try_decipher U (inst_of h i) (msg_of h m) d t1 = (inst_of h i, msg_of h m, Err e, t1)) as TD.
      { intros d. unfold try_decipher. unfold hd_ensure_id in HE. destruct (ensure_id (inst_of h i) (msg_of h m) t1) as [[mv t3]|e2| |]; cbn [bind] in HE; try discriminate;
          [destruct (len (rd h (hm_id m)) =? 0); [destruct (new h (mid mv))|]; discriminate|]. congruence. }
      split; [exists (inst_of h i); split; [apply TD|reflexivity]|]. split; [reflexivity|]. split; [reflexivity|intros D; contradiction].
    + assert (h' = h /\ i' = i /\ m' = m /\ r = Panic /\ t2 = t1) as (-> & -> & -> & -> & ->) by (unfold hd_try_decipher in E; rewrite HE in E; repeat split; congruence).
      assert (forall d, try_decipher U (inst_of h i) (msg_of h m) d t1 = (inst_of h i, msg_of h m, Panic, t1)) as TD.
      { intros d. unfold try_decipher. unfold hd_ensure_id in HE. destruct (ensure_id (inst_of h i) (msg_of h m) t1) as [[mv t3]|e2| |]; cbn [bind] in HE; try discriminate;
          [destruct (len (rd h (hm_id m)) =? 0); [destruct (new h (mid mv))|]; discriminate|]. reflexivity. }
      split; [exists (inst_of h i); split; [apply TD|reflexivity]|]. split; [reflexivity|]. split; [reflexivity|intros D; contradiction].
    + assert (h' = h /\ i' = i /\ m' = m /\ r = Diverge /\ t2 = t1) as (-> & -> & -> & -> & ->) by (unfold hd_try_decipher in E; rewrite HE in E; repeat split; congruence).
      assert (forall d, try_decipher U (inst_of h i) (msg_of h m) d t1 = (inst_of h i, msg_of h m, Diverge, t1)) as TD.
      { intros d. unfold try_decipher. unfold hd_ensure_id in HE. destruct (ensure_id (inst_of h i) (msg_of h m) t1) as [[mv t3]|e2| |]; cbn [bind] in HE; try discriminate;
          [destruct (len (rd h (hm_id m)) =? 0); [destruct (new h (mid mv))|]; discriminate|]. reflexivity. }
      split; [exists (inst_of h i); split; [apply TD|reflexivity]|]. split; [reflexivity|]. split; [reflexivity|intros D; contradiction].
  - destruct (hd_try_lemma U h i m t1 h' i' m' r t2 ST O C M E) as (K & HM & _ & _ & V & RP).
    destruct (store_after h i n m h' i' G H K HM) as (A & B & _). split; [exact V|]. split; [exact A|].
    rewrite B, RP. change (mplain (msg_of h m)) with (rd h (hm_plain m)).
    assert (SM : set_mplain (msg_of h m) (rd h (hm_plain m)) = msg_of h m) by reflexivity. split.
    + intros D. rewrite NM.
      destruct (snd (fst (try_decipher U (inst_of h i) (msg_of h m) true t1))) as [[]| | |]; [elim D; reflexivity| | |]; rewrite SM; reflexivity.
    + intros _ D L. rewrite D. unfold overwritten. apply Nat.leb_le in L. rewrite L. reflexivity.
Qed.
Lemma decipher_reached i0 ops t h i t1 n m h' i' m' r t2 : reach U lb dp i0 ops t = (h, i, t1) ->
  nth_error (hi_messages i) n = Some m -> hd_decipher U h i m t1 = (h', i', m', r, t2) ->
  (exists iv, decipher U (inst_of h i) (msg_of h m) t1 = (iv, msg_of h' m', r, t2) /\ keys_of h' i' = i_keys iv) /\
  (forall n', n' <> n -> nth_error (messages_of h' i') n' = nth_error (messages_of h i) n') /\
  (mid (msg_of h m) <> [] ->
   len (mkeyid (msg_of h m)) = hi_groupsize i -> hi_groupsize i <= len (mcipher (msg_of h m)) -> get_key U (mkeyid (msg_of h m)) (keys_of h i) <> None ->
   (length (mplain (msg_of h m)) <= length t1)%nat ->
     nth_error (messages_of h' i') n = Some (set_mplain (msg_of h m) (map to_int32 (firstn (length (mplain (msg_of h m))) t1)))).
Proof.
  intros RE H E. pose proof (reach_good _ _ _ _ _ _ _ _ _ RE) as G. destruct (store_clear h i n m G H) as (O & C & _).
  assert (DM : mid (msg_of h m) = [] \/ mid (msg_of h m) <> []) by (destruct (mid (msg_of h m)); [left; reflexivity|right; discriminate]).
  destruct DM as [M|M].
  - destruct (hd_ensure_id h i m t1) as [[[h1 m1] t3]|e| |] eqn:HE.
    + destruct (ensure_given h i n m t1 h1 m1 t3 G H M HE) as (K1 & O1 & C1 & PL & M1 & IN & EN).
      assert (hd_decipher U h1 i m1 t3 = (h', i', m', r, t2)) as E1.
      { unfold hd_decipher in E |- *. rewrite HE in E. rewrite hd_ensure_has by exact M1. exact E. }
      assert (decipher U (inst_of h i) (msg_of h m) t1 = decipher U (inst_of h1 i) (msg_of h1 m1) t3) as TD.
      { unfold decipher. rewrite EN, ensure_id_has by exact M1. rewrite IN. reflexivity. }
      destruct (hd_decipher_lemma U h1 i m1 t3 h' i' m' r t2 O1 C1 M1 E1) as (K & _ & HM & _ & _ & V & _). rewrite PL in K.
      destruct (store_after h i n m h' i' G H (kept_trans _ _ _ _ K1 K) HM) as (A & _). split; [rewrite TD; exact V|]. split; [exact A|].
      intros D; contradiction.
    + assert (h' = h /\ i' = i /\ m' = m /\ r = Err e /\ t2 = t1) as (-> & -> & -> & -> & ->) by (unfold hd_decipher in E; rewrite HE in E; repeat split; congruence).
      split; [exists (inst_of h i); split; [|reflexivity]|split; [reflexivity|intros D; contradiction]].
      unfold decipher. unfold hd_ensure_id in HE. destruct (ensure_id (inst_of h i) (msg_of h m) t1) as [[mv t3]|e2| |]; cbn [bind] in HE; try discriminate;
        [destruct (len (rd h (hm_id m)) =? 0); [destruct (new h (mid mv))|]; discriminate|]. congruence.
    + assert (h' = h /\ i' = i /\ m' = m /\ r = Panic /\ t2 = t1) as (-> & -> & -> & -> & ->) by (unfold hd_decipher in E; rewrite HE in E; repeat split; congruence).
      split; [exists (inst_of h i); split; [|reflexivity]|split; [reflexivity|intros D; contradiction]].
      unfold decipher. unfold hd_ensure_id in HE. destruct (ensure_id (inst_of h i) (msg_of h m) t1) as [[mv t3]|e2| |]; cbn [bind] in HE; try discriminate;
        [destruct (len (rd h (hm_id m)) =? 0); [destruct (new h (mid mv))|]; discriminate|]. reflexivity.
    + assert (h' = h /\ i' = i /\ m' = m /\ r = Diverge /\ t2 = t1) as (-> & -> & -> & -> & ->) by (unfold hd_decipher in E; rewrite HE in E; repeat split; congruence).
      split; [exists (inst_of h i); split; [|reflexivity]|split; [reflexivity|intros D; contradiction]].
      unfold decipher. unfold hd_ensure_id in HE. destruct (ensure_id (inst_of h i) (msg_of h m) t1) as [[mv t3]|e2| |]; cbn [bind] in HE; try discriminate;
        [destruct (len (rd h (hm_id m)) =? 0); [destruct (new h (mid mv))|]; discriminate|]. reflexivity.
  - destruct (hd_decipher_lemma U h i m t1 h' i' m' r t2 O C M E) as (K & _ & HM & _ & _ & V & _ & _ & _ & _ & _ & _ & _ & RP).
    destruct (store_after h i n m h' i' G H K HM) as (A & B & _). split; [exact V|]. split; [exact A|].
    rewrite B, RP. change (mplain (msg_of h m)) with (rd h (hm_plain m)). change (mkeyid (msg_of h m)) with (rd h (hm_keyid m)).
    change (mcipher (msg_of h m)) with (rd h (hm_cipher m)). intros _ L1 L2 L3 L4. rewrite L1, Z.eqb_refl.
    assert (len (rd h (hm_cipher m)) <? hi_groupsize i = false) as -> by lia.
    destruct (get_key U (rd h (hm_keyid m)) (keys_of h i)); [|elim L3; reflexivity]. cbn [negb andb]. unfold overwritten. apply Nat.leb_le in L4. rewrite L4. reflexivity.
Qed.
End Reached.

Section Returned.
Context (U : Uni) (lb : list rune -> list rune) (dp : list rune -> option Z).
Lemma hencipher_messages h i m t h' i' m' r t' : hencipher U h i m t = (h', i', m', r, t') -> hi_messages i' = hi_messages i.
Proof.
  unfold hencipher. destruct (ensure_id (inst_of h i) (msg_of h m) t) as [[mv t1]|e| |]; try (intros H; assert (i' = i) as -> by congruence; reflexivity).
  destruct (if len (rd h (hm_id m)) =? 0 then _ else _) as [h1 m1].
  destruct (enrich_with_key U (hi_groupsize i) (keys_of h1 i) (msg_of h1 m1)) as [[ks mm] [[]|e| |]]; cbv zeta.
  2-4: intros H; assert (i' = hset_keys i (set_flags (hi_keys i) ks)) as -> by congruence; reflexivity.
  destruct (wipe1 h1 _ t1) as [[h2 c0] t2]. destruct (get_key U _ _) as [k0|].
  2: intros H; assert (i' = hset_keys i (set_flags (hi_keys i) ks)) as -> by congruence; reflexivity.
  destruct (new h2 _) as [h3 a]. destruct (er_res _) as [[]|e| |].
  1: intros H; match type of H with (_, ?x, _, _, _) = _ => assert (i' = x) as -> by congruence end; reflexivity.
  all: destruct (wipe1 h3 _ t2) as [[h4 kid'] t3]; intros H; match type of H with (_, ?x, _, _, _) = _ => assert (i' = x) as -> by congruence end; reflexivity.
Qed.
Lemma htry_messages h i m t h' i' m' r t' : htry_decipher U h i m t = (h', i', m', r, t') -> hi_messages i' = hi_messages i.
Proof.
  unfold htry_decipher. destruct (try_decipher U (inst_of h i) (msg_of h m) false t) as [[[iv mv] r0] t1].
  destruct (new h _) as [h1 a1]. destruct (new h1 _) as [h2 a2]. destruct (new h2 _) as [h3 a3]. destruct (new h3 _) as [h4 a4].
  intros H. assert (i' = hset_keys i (set_flags (hi_keys i) (i_keys iv))) as -> by congruence. reflexivity.
Qed.
Lemma new_text_returned h i args now t h' i' o r t' : hd_new_text U lb dp h i args now t = (h', i', o, r, t') ->
  (r = Ok tt -> exists m, o = Some m /\ hi_messages i' = hi_messages i ++ [m]) /\ (r <> Ok tt -> o = None).
Proof.
  unfold hd_new_text. destruct (hnew_text U lb dp h i args now t) as [[[h1 i1] r1] t1] eqn:E. intros H.
  assert (r1 = r) as -> by congruence. assert (i1 = i') as -> by congruence.
  split; [|intros D; destruct r as [[]| | |]; [elim D; reflexivity| | |]; congruence].
  intros ->. assert (Q : exists m, hi_messages i' = hi_messages i ++ [m]).
  { clear H o. unfold hnew_text in E. destruct args as [|raw rest]; [discriminate|].
    destruct (parse_radiogram U lb dp (inst_of h i) raw now t) as [[mv t2]|e| |]; try discriminate.
    destruct (new_msg_arrays h mv) as [h2 m]. cbv zeta in E. destruct (is_my_call U (inst_of h i) mv).
    - destruct rest as [|x [|y rest]].
      + destruct (hencipher U h2 i m t2) as [[[[h3 i3] m3] [[]|e| |]] t3] eqn:HE;
          try (destruct (wipe_msg h3 m3 t3) as [[h4 w] t4]; discriminate).
        exists m3. assert (i' = hset_messages i3 (hi_messages i3 ++ [m3])) as -> by congruence.
        cbn [hset_messages hi_messages]. rewrite (hencipher_messages _ _ _ _ _ _ _ _ _ HE). reflexivity.
      + destruct (wipe_msg h2 m t2) as [[h4 w] t4]; discriminate.
      + destruct (new h2 _) as [h5 a]. destruct (negb (len (rd h5 a) =? hi_groupsize i)).
        { destruct (wipe_msg h5 _ t2) as [[h4 w] t4]; discriminate. }
        destruct (hencipher U h5 i (hset_mkeyid m a) t2) as [[[[h3 i3] m3] [[]|e| |]] t3] eqn:HE;
          try (destruct (wipe_msg h3 m3 t3) as [[h4 w] t4]; discriminate).
        exists m3. assert (i' = hset_messages i3 (hi_messages i3 ++ [m3])) as -> by congruence.
        cbn [hset_messages hi_messages]. rewrite (hencipher_messages _ _ _ _ _ _ _ _ _ HE). reflexivity.
    - destruct (htry_decipher U h2 i _ t2) as [[[[h3 i3] m3] r3] t3] eqn:HT. exists m3. pose proof (htry_messages _ _ _ _ _ _ _ _ _ HT) as X.
      destruct r3 as [[]|e| |]; try (destruct (wipe_msg h3 m3 t3) as [[h4 w] t4]; discriminate);
      (assert (i' = hset_messages i3 (hi_messages i3 ++ [m3])) as -> by congruence; cbn [hset_messages hi_messages]; rewrite X; reflexivity). }
  destruct Q as (m & Q). exists m. split; [|exact Q].
  assert (o = nth_error (hi_messages i') (length (hi_messages i))) as -> by congruence. rewrite Q, nth_error_app2 by apply Nat.le_refl. rewrite Nat.sub_diag. reflexivity.
Qed.
End Returned.
