(** Overwriting working copies does not change results. *)
From Verif Require Import Base Spec Model_Unicode Model_Diana Model_Codec Model_Crand Model_Functions Model_Types Model_Cipher Model_Wipes
  Proofs_Functions Proofs_Diana Proofs_Keys Proofs_Encipher Proofs_Cipher Proofs_Messages Proofs_Garble.

Lemma spend_suffix s t : exists w, t = w ++ spend s t.
Proof.
  unfold spend, wipe_value, read_runes. destruct (Nat.leb (length s) (length t)); [|exists []; reflexivity].
  exists (firstn (length s) t). cbn [snd]. rewrite firstn_skipn. reflexivity.
Qed.
Lemma spend_all_suffix l : forall t, exists w, t = w ++ spend_all l t.
Proof.
  induction l as [|s l IH]; intros t; [exists []; reflexivity|].
  destruct (spend_suffix s t) as (w & E). destruct (IH (spend s t)) as (w2 & E2).
  exists (w ++ w2). rewrite <- app_assoc. cbn [spend_all fold_left]. change (fold_left (fun a s => spend s a) l (spend s t)) with (spend_all l (spend s t)).
  rewrite <- E2. exact E.
Qed.
Lemma wipe_enough s t : (length s <= length t)%nat -> wipe_value s t = ([], skipn (length s) t).
Proof. intros H. unfold wipe_value, read_runes. apply Nat.leb_le in H. rewrite H. reflexivity. Qed.
Lemma wipe_short s t : (length t < length s)%nat -> wipe_value s t = (s, t).
Proof. intros H. unfold wipe_value, read_runes. apply Nat.leb_gt in H. rewrite H. reflexivity. Qed.
Lemma spend_amount s t : (length s <= length t)%nat -> spend s t = skipn (length s) t.
Proof. intros H. unfold spend. rewrite wipe_enough by exact H. reflexivity. Qed.
Lemma skip_skip {A} a b : forall l : list A, skipn b (skipn a l) = skipn (a + b) l.
Proof. induction a as [|a IH]; intros l; [reflexivity|]. destruct l as [|x l]; [rewrite !skipn_nil; reflexivity|]. exact (IH l). Qed.
Lemma spend_all_amount l : forall t, (length (concat l) <= length t)%nat -> spend_all l t = skipn (length (concat l)) t.
Proof.
  induction l as [|s l IH]; intros t H; [reflexivity|]. cbn [concat] in *. rewrite app_length in *.
  unfold spend_all. cbn [fold_left]. fold (spend_all l (spend s t)). rewrite spend_amount by lia. rewrite IH by (rewrite skipn_length; lia).
  apply skip_skip.
Qed.

Section WithUnicode.
Context (U : Uni).

Lemma encipher_wiping_lemma i m t : fst (encipher_wiping U i m t) = fst (encipher U i m t) /\
  (snd (fst (encipher U i m t)) = Ok tt -> encipher_wiping U i m t = encipher U i m t) /\
  exists w, snd (encipher U i m t) = w ++ snd (encipher_wiping U i m t).
Proof.
  unfold encipher_wiping, encipher, encipher_full.
  destruct (ensure_id i m t) as [[m1 t1]|e| |]; try (split; [reflexivity|split; [reflexivity|exists []; reflexivity]]).
  cbv zeta. destruct (enrich_with_key U (i_groupsize i) (i_keys i) m1) as [[ks m2] [[]|e| |]];
    try (split; [reflexivity|split; [reflexivity|exists []; reflexivity]]).
  destruct (wipe_value (mcipher m2) t1) as [c0 t2]. destruct (get_key U (mkeyid m2) ks) as [k0|];
    try (split; [reflexivity|split; [reflexivity|exists []; reflexivity]]).
  destruct (er_res (encipher_body U (i_groupsize i) (mrecipients m2) (mplain m2) ks k0 c0)) as [[]|e| |];
    try (split; [reflexivity|split; [reflexivity|exists []; reflexivity]]);
    destruct (wipe_value (mkeyid m2) t2) as [kid' t3]; cbn [fst snd];
    (split; [reflexivity|split; [discriminate|apply spend_all_suffix]]).
Qed.

Lemma loop_enough gs ks : forall ct kp ki st nk p stack t, (length nk + length ct <= length t)%nat ->
  fst (decipher_loop_wiping U gs ks ct kp ki st nk p stack t) = decipher_loop U gs ks ct kp ki st nk p stack /\
  (exists w, t = w ++ snd (decipher_loop_wiping U gs ks ct kp ki st nk p stack t) /\ (length w <= length nk + length ct)%nat).
Proof.
  induction ct as [|c ct IH]; intros kp ki st nk p stack t H.
  { split; [reflexivity|]. exists []. split; [reflexivity|apply Nat.le_0_l]. }
  cbn [decipher_loop decipher_loop_wiping]. cbn [length] in H.
  assert (Z0 : exists w, t = w ++ t /\ (length w <= length nk + length (c :: ct))%nat) by (exists []; split; [reflexivity|apply Nat.le_0_l]).
  destruct (nth_error ks kp) as [k|]; [|split; [reflexivity|exact Z0]].
  destruct (nth_error (krunes k) ki) as [kr|]; [|split; [reflexivity|exact Z0]].
  destruct (trigraph kr c) as [ec|e| |]; try (split; [reflexivity|exact Z0]).
  destruct (decode_character U st ec p) as [[st1 p1]|e| |]; try (split; [reflexivity|exact Z0]).
  cbv zeta. destruct (cs_keyChange st1).
  - destruct (gs <=? len (nk ++ [ec])).
    + destruct (get_key U (nk ++ [ec]) ks) as [kp1|]; [|split; [reflexivity|exact Z0]].
      assert (L : length (nk ++ [ec]) = S (length nk)) by (rewrite app_length; cbn [length]; lia).
      rewrite wipe_enough by lia.
      destruct (IH kp1 O (cs_reset st1) [] p1 (stack ++ [kp1]) (skipn (length (nk ++ [ec])) t)) as (A & w & B & C); [rewrite skipn_length; cbn [length]; lia|].
      split; [exact A|]. exists (firstn (length (nk ++ [ec])) t ++ w). split; [rewrite <- app_assoc, <- B, firstn_skipn; reflexivity|].
      rewrite app_length, firstn_length_le by lia. cbn [length] in *. lia.
    + destruct (IH kp (S ki) st1 (nk ++ [ec]) p1 stack t) as (A & w & B & C); [rewrite app_length; cbn [length]; lia|].
      split; [exact A|]. exists w. split; [exact B|]. rewrite app_length in C. cbn [length] in *. lia.
  - destruct (IH kp (S ki) st1 nk p1 stack t) as (A & w & B & C); [lia|]. split; [exact A|]. exists w. split; [exact B|cbn [length]; lia].
Qed.

Lemma decipher_enough i m t : mid m <> [] -> (length (mplain m) + length (mcipher m) <= length t)%nat ->
  fst (decipher_wiping U i m t) = fst (decipher U i m t) /\
  exists w, snd (decipher U i m t) = w ++ snd (decipher_wiping U i m t) /\ (length w <= length (mcipher m))%nat.
Proof.
  intros M H. unfold decipher_wiping, decipher. rewrite ensure_id_has by exact M. cbv zeta.
  assert (Z0 : forall x : tape, exists w, x = w ++ x /\ (length w <= length (mcipher m))%nat) by (intros x; exists []; split; [reflexivity|apply Nat.le_0_l]).
  destruct (negb (len (mkeyid m) =? i_groupsize i)); [split; [reflexivity|apply Z0]|].
  destruct (len (mcipher m) <? i_groupsize i); [split; [reflexivity|apply Z0]|].
  destruct (get_key U (mkeyid m) (i_keys i)) as [k0|]; [|split; [reflexivity|apply Z0]].
  rewrite wipe_enough by lia.
  destruct (loop_enough (i_groupsize i) (i_keys i) (mcipher m) k0 O new_state [] [] [k0] (skipn (length (mplain m)) t)) as (A & w & B & C).
  { rewrite skipn_length. cbn [length]. lia. }
  destruct (decipher_loop_wiping U (i_groupsize i) (i_keys i) (mcipher m) k0 0 new_state [] [] [k0] (skipn (length (mplain m)) t)) as [[[p s] r] t2].
  cbn [fst snd] in A, B. rewrite <- A. cbn [length Nat.add] in C.
  destruct r as [[]|e| |]; (split; [reflexivity|exists w; split; [exact B|exact C]]).
Qed.

(** With a random source that fails: the same result or an error. *)
Lemma decode_letter st ec p x : decode_character U st ec p = Ok x -> is_letter ec.
Proof. unfold decode_character. destruct ((ec <? 65) || (90 <? ec)) eqn:E; [discriminate|]. intros _. unfold is_letter. lia. Qed.
Lemma long_missing gs ks id : uni_ok U -> store_ok gs ks -> letters id -> gs < len id -> get_key U id ks = None.
Proof.
  intros HU S L G. destruct (get_key U id ks) as [j|] eqn:E; [|reflexivity]. exfalso.
  destruct (get_key_letters U gs ks id j S L E) as (k & N & Q). apply nth_error_In in N.
  destruct (proj2 S k N) as (_ & X & _). rewrite Q in X. lia.
Qed.
Lemma loop_any gs ks : uni_ok U -> store_ok gs ks -> forall ct kp ki st nk nkB p stack t,
  letters nk -> letters nkB -> (nkB = nk \/ gs <= len nkB) ->
  fst (decipher_loop_wiping U gs ks ct kp ki st nkB p stack t) = decipher_loop U gs ks ct kp ki st nk p stack \/
  snd (fst (decipher_loop_wiping U gs ks ct kp ki st nkB p stack t)) = Err ErrKeyNotFound.
Proof.
  intros HU S. induction ct as [|c ct IH]; intros kp ki st nk nkB p stack t LA LB H; [left; reflexivity|].
  cbn [decipher_loop decipher_loop_wiping].
  destruct (nth_error ks kp) as [k|]; [|left; reflexivity].
  destruct (nth_error (krunes k) ki) as [kr|]; [|left; reflexivity].
  destruct (trigraph kr c) as [ec|e| |]; try (left; reflexivity).
  destruct (decode_character U st ec p) as [[st1 p1]|e| |] eqn:D; try (left; reflexivity).
  pose proof (decode_letter _ _ _ _ D) as LE.
  assert (LB1 : letters (nkB ++ [ec])) by (apply Forall_app; split; [exact LB|constructor; [exact LE|constructor]]).
  assert (LA1 : letters (nk ++ [ec])) by (apply Forall_app; split; [exact LA|constructor; [exact LE|constructor]]).
  cbv zeta. destruct (cs_keyChange st1); [|apply IH; assumption].
  destruct H as [->|G].
  - destruct (gs <=? len (nk ++ [ec])) eqn:Q; [|apply IH; [assumption..|left; reflexivity]].
    destruct (get_key U (nk ++ [ec]) ks) as [kp1|]; [|left; reflexivity].
    destruct (le_lt_dec (length (nk ++ [ec])) (length t)) as [E|E].
    + rewrite wipe_enough by exact E. apply IH; [constructor|constructor|left; reflexivity].
    + rewrite wipe_short by exact E. apply IH; [constructor|exact LB1|right; lia].
  - right. assert (L1 : len (nkB ++ [ec]) = len nkB + 1) by (unfold len; rewrite app_length; cbn [length]; lia).
    rewrite L1, (long_missing gs ks (nkB ++ [ec]) HU S LB1) by lia. replace (gs <=? len nkB + 1) with true by lia. reflexivity.
Qed.

Lemma decipher_inst i m t : mid m <> [] -> snd (fst (decipher U i m t)) <> Ok tt -> fst (fst (fst (decipher U i m t))) = i.
Proof.
  intros M. unfold decipher. rewrite ensure_id_has by exact M. cbv zeta.
  destruct (negb (len (mkeyid m) =? i_groupsize i)); [reflexivity|].
  destruct (len (mcipher m) <? i_groupsize i); [reflexivity|].
  destruct (get_key U (mkeyid m) (i_keys i)) as [k0|]; [|reflexivity].
  destruct (wipe_value (mplain m) t) as [p0 t1].
  destruct (decipher_loop U (i_groupsize i) (i_keys i) (mcipher m) k0 0 new_state [] p0 [k0]) as [[p s] [[]|e| |]]; try reflexivity.
  intros X. elim X. reflexivity.
Qed.
Lemma decipher_any i m t : uni_ok U -> store_ok (i_groupsize i) (i_keys i) -> mid m <> [] ->
  fst (decipher_wiping U i m t) = fst (decipher U i m t) \/
  (snd (fst (decipher_wiping U i m t)) = Err ErrKeyNotFound /\ fst (fst (fst (decipher_wiping U i m t))) = i).
Proof.
  intros HU S M. unfold decipher_wiping, decipher. rewrite ensure_id_has by exact M. cbv zeta.
  destruct (negb (len (mkeyid m) =? i_groupsize i)); [left; reflexivity|].
  destruct (len (mcipher m) <? i_groupsize i); [left; reflexivity|].
  destruct (get_key U (mkeyid m) (i_keys i)) as [k0|]; [|left; reflexivity].
  destruct (wipe_value (mplain m) t) as [p0 t1].
  destruct (loop_any (i_groupsize i) (i_keys i) HU S (mcipher m) k0 O new_state [] [] p0 [k0] t1 ltac:(constructor) ltac:(constructor) (or_introl eq_refl)) as [A|A].
  - left. destruct (decipher_loop_wiping U (i_groupsize i) (i_keys i) (mcipher m) k0 0 new_state [] p0 [k0] t1) as [[[p s] r] t2].
    cbn [fst] in A. rewrite <- A. destruct r as [[]|e| |]; reflexivity.
  - right. destruct (decipher_loop_wiping U (i_groupsize i) (i_keys i) (mcipher m) k0 0 new_state [] p0 [k0] t1) as [[[p s] r] t2].
    cbn [fst snd] in A. subst r. split; reflexivity.
Qed.

Lemma collected_all s r : filter_letters U s = Some r -> collected U s = r.
Proof.
  revert r. induction s as [|c s IH]; intros r; cbn [filter_letters collected]; [congruence|].
  destruct (is_space U c || (c =? 61)); [apply IH|]. cbv zeta. destruct (negb ((65 <=? to_upper U c) && (to_upper U c <=? 90))); [discriminate|].
  destruct (filter_letters U s) as [q|]; [|discriminate]. intros E. rewrite (IH q eq_refl). congruence.
Qed.
Lemma collected_short s : (length (collected U s) <= length s)%nat.
Proof.
  induction s as [|c s IH]; [apply Nat.le_refl|]. cbn [collected length].
  destruct (is_space U c || (c =? 61)); [lia|]. cbv zeta. destruct (negb ((65 <=? to_upper U c) && (to_upper U c <=? 90))); cbn [length]; lia.
Qed.

Lemma decipher_leaves i m t : mid m <> [] -> mkeyid (snd (fst (fst (decipher U i m t)))) = mkeyid m /\
  (length t <= length (mplain m) + length (snd (decipher U i m t)))%nat.
Proof.
  intros M. unfold decipher. rewrite ensure_id_has by exact M. cbv zeta.
  destruct (negb (len (mkeyid m) =? i_groupsize i)); [split; [reflexivity|cbn [snd]; lia]|].
  destruct (len (mcipher m) <? i_groupsize i); [split; [reflexivity|cbn [snd]; lia]|].
  destruct (get_key U (mkeyid m) (i_keys i)) as [k0|]; [|split; [reflexivity|cbn [snd]; lia]].
  destruct (wipe_value (mplain m) t) as [p0 t1] eqn:W. apply wipe_value_tape in W.
  destruct (decipher_loop U (i_groupsize i) (i_keys i) (mcipher m) k0 0 new_state [] p0 [k0]) as [[p s] [[]|e| |]]; (split; [reflexivity|exact W]).
Qed.

Lemma try_enough i m d t : uni_ok U -> store_ok (i_groupsize i) (i_keys i) -> mid m <> [] -> (3 * length (mplain m) <= length t)%nat ->
  fst (try_decipher_wiping U i m d t) = fst (try_decipher U i m d t).
Proof.
  intros HU S M H. unfold try_decipher_wiping, try_decipher. rewrite ensure_id_has by exact M. cbv zeta.
  destruct (0 <? len (mkeyid m)); [reflexivity|]. destruct (filter_letters U (mplain m)) as [ft|] eqn:F; [|reflexivity].
  pose proof (collected_short (mplain m)) as L. rewrite (collected_all _ _ F) in L.
  destruct (len ft <? i_groupsize i * 2) eqn:G; [reflexivity|]. destruct (i_groupsize i <? 0) eqn:G0; [reflexivity|].
  destruct (get_key U (firstn (Z.to_nat (i_groupsize i)) ft) (i_keys i)) as [kp|]; [|reflexivity].
  destruct (nth_error (i_keys i) kp) as [k|] eqn:NK; [|reflexivity]. destruct d; [reflexivity|].
  assert (LK : len (kid k) = i_groupsize i) by exact (proj1 (proj2 (proj2 S k (nth_error_In _ _ NK)))).
  assert (LS : (length (skipn (Z.to_nat (i_groupsize i)) ft) = length ft - Z.to_nat (i_groupsize i))%nat) by apply skipn_length.
  destruct (decipher_enough i (set_mcipher (set_mkeyid m (kid k)) (skipn (Z.to_nat (i_groupsize i)) ft)) t M) as (A & w & B & C).
  { cbn [mplain mcipher set_mcipher set_mkeyid]. lia. }
  destruct (decipher_leaves i (set_mcipher (set_mkeyid m (kid k)) (skipn (Z.to_nat (i_groupsize i)) ft)) t M) as (K1 & K2).
  cbn [mcipher mplain mkeyid set_mcipher set_mkeyid] in C, K1, K2.
  remember (set_mcipher (set_mkeyid m (kid k)) (skipn (Z.to_nat (i_groupsize i)) ft)) as m1 eqn:E1.
  destruct (decipher_wiping U i m1 t) as [[[iA mA] rA] tA]. destruct (decipher U i m1 t) as [[[iB mB] rB] tB].
  cbn [fst snd] in *. assert (iA = iB /\ mA = mB /\ rA = rB) as (-> & -> & ->) by (split; [congruence|split; congruence]). clear A.
  assert (LB : (length tB = length w + length tA)%nat) by (rewrite B, app_length; reflexivity).
  rewrite LS in C. unfold len in *. destruct rB as [[]|e| |]; [reflexivity|..]; rewrite K1, !wipe_enough by lia; reflexivity.
Qed.

Lemma try_any i m d t : uni_ok U -> store_ok (i_groupsize i) (i_keys i) -> mid m <> [] ->
  (snd (fst (try_decipher_wiping U i m d t)) = Ok tt -> fst (try_decipher_wiping U i m d t) = fst (try_decipher U i m d t)) /\
  (snd (fst (try_decipher_wiping U i m d t)) <> Ok tt -> fst (fst (fst (try_decipher_wiping U i m d t))) = i).
Proof.
  intros HU S M. unfold try_decipher_wiping, try_decipher. rewrite ensure_id_has by exact M. cbv zeta.
  destruct (0 <? len (mkeyid m)); [split; reflexivity|]. destruct (filter_letters U (mplain m)) as [ft|] eqn:F; [|split; reflexivity].
  destruct (len ft <? i_groupsize i * 2) eqn:G; [split; reflexivity|]. destruct (i_groupsize i <? 0) eqn:G0; [split; reflexivity|].
  destruct (get_key U (firstn (Z.to_nat (i_groupsize i)) ft) (i_keys i)) as [kp|]; [|split; reflexivity].
  destruct (nth_error (i_keys i) kp) as [k|] eqn:NK; [|split; reflexivity]. destruct d; [split; reflexivity|].
  pose proof (decipher_any i (set_mcipher (set_mkeyid m (kid k)) (skipn (Z.to_nat (i_groupsize i)) ft)) t HU S M) as A.
  pose proof (decipher_inst i (set_mcipher (set_mkeyid m (kid k)) (skipn (Z.to_nat (i_groupsize i)) ft)) t M) as I.
  remember (set_mcipher (set_mkeyid m (kid k)) (skipn (Z.to_nat (i_groupsize i)) ft)) as m1 eqn:E1.
  destruct (decipher_wiping U i m1 t) as [[[iA mA] rA] tA]. destruct (decipher U i m1 t) as [[[iB mB] rB] tB].
  cbn [fst snd] in *. destruct A as [A|(A & ->)].
  - assert (iA = iB /\ mA = mB /\ rA = rB) as (-> & -> & ->) by (split; [congruence|split; congruence]). clear A.
    destruct rB as [[]|e| |]; [split; [reflexivity|intros X; elim X; reflexivity]|..];
      destruct (wipe_value (mkeyid mB) tA) as [a1 a2], (wipe_value (mkeyid mB) tB) as [b1 b2]; cbn [fst snd];
      (split; [discriminate|intros _; apply I; discriminate]).
  - subst rA. destruct (wipe_value (mkeyid mA) tA) as [a1 a2]. cbn [fst snd]. split; [discriminate|reflexivity].
Qed.

(** The words read. *)
Lemma dry_amount i m t : mid m <> [] -> mkeyid m = [] -> (length (collected U (mplain m)) <= length t)%nat ->
  snd (try_decipher_wiping U i m true t) = skipn (length (collected U (mplain m))) t.
Proof.
  intros M K H. unfold try_decipher_wiping. rewrite ensure_id_has by exact M. cbv zeta. rewrite K. cbn [len length Z.of_nat Z.ltb Z.compare].
  change (0 <? len []) with false. cbv iota.
  destruct (filter_letters U (mplain m)) as [ft|] eqn:F; [|apply spend_amount; exact H].
  rewrite (collected_all _ _ F) in *.
  destruct (len ft <? i_groupsize i * 2); [apply spend_amount; exact H|]. destruct (i_groupsize i <? 0); [apply spend_amount; exact H|].
  destruct (get_key U (firstn (Z.to_nat (i_groupsize i)) ft) (i_keys i)) as [kp|]; [|apply spend_amount; exact H].
  destruct (nth_error (i_keys i) kp); apply spend_amount; exact H.
Qed.

(** ** A random source that fails when the old text is overwritten. *)
Lemma loop_prefix gs ks ct kp ki st nk p stack : decipher_loop U gs ks ct kp ki st nk p stack =
  let '(q, s, r) := decipher_loop U gs ks ct kp ki st nk [] stack in (p ++ q, s, r).
Proof.
  rewrite (loop_run U gs ks ct kp ki st nk p stack), (loop_run U gs ks ct kp ki st nk [] stack).
  destruct (run U gs ks ct (kp, ki, st, nk, stack)) as [[[[[[kp' ki'] st'] nk'] stack'] q]|[[q s] r]]; reflexivity.
Qed.
Lemma wipe_nothing t : wipe_value [] t = ([], t).
Proof. apply (wipe_enough [] t). apply Nat.le_0_l. Qed.
Lemma decipher_unwiped i m t : mid m <> [] -> (length t < length (mplain m))%nat ->
  decipher U i m t = let '(i', m', r, t') := decipher U i (set_mplain m []) t in (i', set_mplain m' (mplain m ++ mplain m'), r, t').
Proof.
  intros M H. unfold decipher. rewrite !ensure_id_has by exact M. cbv zeta. cbn [mkeyid mcipher mplain set_mplain].
  destruct (negb (len (mkeyid m) =? i_groupsize i)); [rewrite app_nil_r; destruct m; reflexivity|].
  destruct (len (mcipher m) <? i_groupsize i); [rewrite app_nil_r; destruct m; reflexivity|].
  destruct (get_key U (mkeyid m) (i_keys i)) as [k0|]; [|rewrite app_nil_r; destruct m; reflexivity].
  rewrite wipe_short, wipe_nothing by exact H. rewrite (loop_prefix _ _ _ _ _ _ _ (mplain m)).
  destruct (decipher_loop U (i_groupsize i) (i_keys i) (mcipher m) k0 0 new_state [] [] [k0]) as [[q s] [[]|e| |]]; reflexivity.
Qed.

Lemma runes_prefix kr : forall text out, encipher_runes kr text out = let '(q, r) := encipher_runes kr text [] in (out ++ q, r).
Proof.
  induction kr as [|k kr IH]; intros [|c text] out; cbn [encipher_runes]; cbv beta iota; try (rewrite app_nil_r; reflexivity).
  destruct (trigraph k c) as [x|e| |]; cbv beta iota; try (rewrite app_nil_r; reflexivity).
  rewrite (IH text (out ++ [x])), (IH text ([] ++ [x])). destruct (encipher_runes kr text []) as [q r]. rewrite <- !app_assoc. reflexivity.
Qed.
Lemma chunks_prefix ks cs : forall out, encipher_chunks ks cs out = let '(q, r) := encipher_chunks ks cs [] in (out ++ q, r).
Proof.
  induction cs as [|c cs IH]; intros out; cbn [encipher_chunks]; [cbv beta iota; rewrite app_nil_r; reflexivity|].
  destruct (nth_error ks (ch_key c)) as [k|]; [|cbv beta iota; rewrite app_nil_r; reflexivity].
  destruct (len (krunes k) <? len (ch_text c)); [cbv beta iota; rewrite app_nil_r; reflexivity|].
  rewrite (runes_prefix _ _ out). destruct (encipher_runes (krunes k) (ch_text c) []) as [q [[]|e| |]]; try reflexivity.
  rewrite (IH (out ++ q)), (IH q). destruct (encipher_chunks ks cs []) as [q2 r2]. rewrite app_assoc. reflexivity.
Qed.
Lemma body_prefix gs rc text ks k0 c0 : encipher_body U gs rc text ks k0 c0 =
  let b := encipher_body U gs rc text ks k0 [] in mkER (er_keys b) (er_chunks b) (er_cur b) (c0 ++ er_cipher b) (er_res b).
Proof.
  unfold encipher_body. destruct (encode_loop U gs rc text (mkES ks new_state [] (mkChunk [] k0))) as [e [[]|x| |]];
    try (cbv zeta; cbn [er_keys er_chunks er_cur er_cipher er_res]; rewrite app_nil_r; reflexivity).
  destruct (pad_count gs (len (ch_text (es_cur e)) + total_len (es_chunks e))) as [n|x| |];
    try (cbv zeta; cbn [er_keys er_chunks er_cur er_cipher er_res]; rewrite app_nil_r; reflexivity).
  destruct (pad (es_st e) n (Some (ch_text (es_cur e)))) as [[st1 o1]|x| |];
    try (cbv zeta; cbn [er_keys er_chunks er_cur er_cipher er_res]; rewrite app_nil_r; reflexivity).
  cbv zeta. rewrite (chunks_prefix _ _ c0). destruct (encipher_chunks (es_keys e) (es_chunks e ++ [mkChunk (unoutput o1) (ch_key (es_cur e))]) []) as [q r].
  reflexivity.
Qed.
Lemma encipher_unwiped i m t : mid m <> [] -> mkeyid m <> [] -> (length t < length (mcipher m))%nat ->
  encipher U i m t = let '(i', m', r, t') := encipher U i (set_mcipher m []) t in (i', set_mcipher m' (mcipher m ++ mcipher m'), r, t').
Proof.
  intros M K H. unfold encipher, encipher_full. rewrite !ensure_id_has by exact M. cbv zeta. cbn [mkeyid mcipher mplain set_mcipher].
  unfold enrich_with_key. cbn [mkeyid mcipher mplain mrecipients set_mcipher].
  destruct (len (mplain m) =? 0); [cbn [fst mcipher set_mcipher]; rewrite app_nil_r; destruct m, i; reflexivity|].
  assert ((0 <? len (mkeyid m)) = true) as -> by (unfold len; destruct (mkeyid m); [congruence|cbn [length]; lia]).
  destruct (negb (len (mkeyid m) =? i_groupsize i)); [cbn [fst mcipher set_mcipher]; rewrite app_nil_r; destruct m, i; reflexivity|].
  destruct (check_given_key (mkeyid m) (i_keys i)) as [[]|e| |]; try (cbn [fst mcipher set_mcipher]; rewrite app_nil_r; destruct m, i; reflexivity).
  cbn [mkeyid mcipher mplain mrecipients set_mcipher]. rewrite wipe_short, wipe_nothing by exact H.
  destruct (get_key U (mkeyid m) (i_keys i)) as [k0|]; [|cbn [fst mcipher set_mcipher]; rewrite app_nil_r; reflexivity].
  rewrite (body_prefix _ _ _ _ _ (mcipher m)). cbv zeta. cbn [er_keys er_chunks er_cur er_cipher er_res].
  destruct (er_res (encipher_body U (i_groupsize i) (mrecipients m) (mplain m) (i_keys i) k0 [])) as [[]|e| |]; [reflexivity|..];
    destruct (wipe_value (mkeyid m) t) as [a b]; reflexivity.
Qed.

Lemma replaced_lemma i m t : mid m <> [] ->
  ((length (mplain m) <= length t)%nat -> len (mkeyid m) = i_groupsize i -> i_groupsize i <= len (mcipher m) -> get_key U (mkeyid m) (i_keys i) <> None ->
   fst (decipher U i m t) = fst (decipher U i (set_mplain m []) (skipn (length (mplain m)) t))) /\
  ((length (mcipher m) <= length t)%nat -> mplain m <> [] -> len (mkeyid m) = i_groupsize i -> mkeyid m <> [] -> check_given_key (mkeyid m) (i_keys i) = Ok tt ->
   fst (encipher U i m t) = fst (encipher U i (set_mcipher m []) (skipn (length (mcipher m)) t))).
Proof.
  intros M. split.
  - intros H K C G. unfold decipher. rewrite !ensure_id_has by exact M. cbv zeta. cbn [mkeyid mcipher mplain set_mplain].
    destruct (negb (len (mkeyid m) =? i_groupsize i)) eqn:E1; [exfalso; lia|].
    destruct (len (mcipher m) <? i_groupsize i) eqn:E2; [exfalso; lia|].
    destruct (get_key U (mkeyid m) (i_keys i)) as [k0|]; [|congruence]. rewrite wipe_enough, wipe_nothing by exact H.
    destruct (decipher_loop U (i_groupsize i) (i_keys i) (mcipher m) k0 0 new_state [] [] [k0]) as [[q s] [[]|e| |]]; reflexivity.
  - intros H P K N C. unfold encipher, encipher_full. rewrite !ensure_id_has by exact M. cbv zeta.
    unfold enrich_with_key. cbn [mkeyid mcipher mplain mrecipients set_mcipher].
    assert ((len (mplain m) =? 0) = false) as -> by (unfold len; destruct (mplain m); [congruence|cbn [length]; lia]).
    assert ((0 <? len (mkeyid m)) = true) as -> by (unfold len; destruct (mkeyid m); [congruence|cbn [length]; lia]).
    destruct (negb (len (mkeyid m) =? i_groupsize i)) eqn:E1; [exfalso; lia|]. rewrite C.
    cbn [mkeyid mcipher mplain mrecipients set_mcipher]. rewrite wipe_enough, wipe_nothing by exact H.
    destruct (get_key U (mkeyid m) (i_keys i)) as [k0|]; [|reflexivity].
    destruct (er_res (encipher_body U (i_groupsize i) (mrecipients m) (mplain m) (i_keys i) k0 [])) as [[]|e| |]; [reflexivity|..];
      destruct (wipe_value (mkeyid m) (skipn (length (mcipher m)) t)) as [a b]; reflexivity.
Qed.
End WithUnicode.
