(** Proofs: random words are used once (C140). *)
From Verif Require Import Base Spec_Fresh Model_Unicode Model_Crand Model_Functions Model_Types Model_Cipher Model_Keys Model_Import
  Model_Messages Model_Heap Proofs_Crand Proofs_Draws.

(** ** Functions of the random source *)
Definition good {A} (f : tape -> A * tape) : Prop := forall t,
  exists used, t = used ++ snd (f t) /\ (~ exhausted f t -> reads f used (fst (f t))).

Lemma good_ext : forall A (f g : tape -> A * tape), (forall t, f t = g t) -> good f -> good g.
Proof.
  intros A f g E G t. destruct (G t) as (u & H1 & H2). rewrite <- E. exists u. split; [exact H1|].
  intros N rest. rewrite <- E. apply H2. intros (more & X). apply N. exists more. rewrite <- E. exact X.
Qed.
Lemma good_ret : forall A (a : A), good (fun t => (a, t)).
Proof. intros A a t. exists []. split; [reflexivity|]. intros _ rest. reflexivity. Qed.
Lemma good_bind : forall A B (f : tape -> A * tape) (g : A -> tape -> B * tape), good f -> (forall a, good (g a)) ->
  good (fun t => let (a, t1) := f t in g a t1).
Proof.
  intros A B f g F G t. destruct (F t) as (u & E & L). destruct (f t) as [a t1] eqn:Ft. cbn [fst snd] in *.
  destruct (G a t1) as (u2 & E2 & L2). exists (u ++ u2). split; [rewrite <- app_assoc, <- E2; exact E|].
  intros N.
  assert (NF : ~ exhausted f t).
  { intros (more & X). apply N. exists more. destruct (f (t ++ more)) as [a' t'] eqn:Q. cbn [snd] in X.
    destruct (G a' t') as (u' & Y & _). apply (f_equal (@length Z)) in Y. rewrite app_length in Y. lia. }
  specialize (L NF). assert (NG : ~ exhausted (g a) t1).
  { intros (more & X). apply N. exists more. rewrite E, <- app_assoc, L. exact X. }
  specialize (L2 NG). intros rest. rewrite <- app_assoc, L. apply L2.
Qed.
Lemma good_map : forall A B (h : A -> B) (f : tape -> A * tape), good f -> good (fun t => let (a, t1) := f t in (h a, t1)).
Proof. intros A B h f F. apply good_bind; [exact F|]. intros a. apply good_ret. Qed.

Lemma reads_enough : forall A (f : tape -> A * tape) used rest a, reads f used a -> ~ exhausted f (used ++ rest).
Proof. intros A f used rest a R (more & X). rewrite <- app_assoc, R in X. cbn [snd] in X. rewrite app_length in X. lia. Qed.

(** ** Functions that can fail *)
Definition okay {A} (r : tape -> res (A * tape)) (t : tape) : Prop := exists a t', r t = Ok (a, t').
Definition local {A} (r : tape -> res (A * tape)) : Prop := forall t a t', r t = Ok (a, t') ->
  exists u, t = u ++ t' /\ forall s, r (u ++ s) = Ok (a, s).
Definition completes {A} (r : tape -> res (A * tape)) : Prop := forall s, okay r s -> forall t, exists more, okay r (t ++ more).
Definition outcome {A} (r : tape -> res (A * tape)) (t : tape) : res A * tape :=
  match r t with Ok (a, t1) => (Ok a, t1) | Err e => (Err e, t) | Panic => (Panic, t) | Diverge => (Diverge, t) end.

Lemma not_read_beyond : forall A (r : tape -> res (A * tape)) t more a t', local r -> ~ okay r t -> r (t ++ more) = Ok (a, t') -> (length t' < length more)%nat.
Proof.
  intros A r t more a t' L N H. destruct (le_lt_dec (length more) (length t')) as [G|G]; [exfalso|exact G].
  destruct (L _ _ _ H) as (u & E & Q). apply N.
  assert (LE : (length u <= length t)%nat) by (apply (f_equal (@length Z)) in E; rewrite !app_length in E; lia).
  assert (T : t = u ++ skipn (length u) t).
  { rewrite <- (firstn_skipn (length u) t) at 1. f_equal. apply (f_equal (firstn (length u))) in E.
    rewrite !firstn_app in E. replace (length u - length t)%nat with 0%nat in E by lia. rewrite Nat.sub_diag in E.
    cbn [firstn] in E. rewrite !app_nil_r, firstn_all in E. exact E. }
  rewrite T. exists a, (skipn (length u) t). apply Q.
Qed.
Lemma good_outcome : forall A (r : tape -> res (A * tape)) (c : res A), (forall a, c <> Ok a) -> local r -> completes r ->
  (forall t, okay r t \/ outcome r t = (c, t)) -> good (outcome r).
Proof.
  intros A r c NC L C D t. destruct (D t) as [(a & t' & H)|H].
  - destruct (L _ _ _ H) as (u & E & Q). exists u. unfold outcome at 1. rewrite H. split; [exact E|].
    intros _ rest. unfold outcome. rewrite Q, H. reflexivity.
  - exists []. rewrite H. split; [reflexivity|]. intros N rest. cbn [app fst]. destruct (D rest) as [K|K]; [exfalso|exact K].
    apply N. destruct (C rest K t) as (more & a & t' & X). exists more.
    assert (NO : ~ okay r t).
    { intros (a0 & t0 & Y). unfold outcome in H. rewrite Y in H. injection H as H _. exact (NC a0 (eq_sym H)). }
    unfold outcome. rewrite X. cbn [snd]. exact (not_read_beyond _ r t more a t' L NO X).
Qed.

(** ** Drawing *)
Lemma intn_completes : forall n t, 0 < n < 2 ^ 31 -> okay (intn n) t \/ (intn n t = Panic /\ exists v, intn n (t ++ [0]) = Ok (v, [])).
Proof.
  intros n t Hn. induction t as [|w t IH].
  - right. split; [apply intn_nil|]. cbn [app]. rewrite intn_word by (unfold word; lia).
    replace (accepted_word n 0) with true; [eauto|]. unfold accepted_word. symmetry. apply orb_true_iff. right.
    change (int31_of_word 0) with 0. unfold int31n_max. assert (B := Z.mod_pos_bound (2 ^ 31) n ltac:(lia)). lia.
  - cbn [app]. unfold okay. rewrite intn_word_mod, intn_word by (auto using word_mod).
    rewrite (intn_word_mod n w (t ++ [0])), intn_word by (auto using word_mod).
    destruct (accepted_word n (w mod 2 ^ 64)); [left; eauto|]. exact IH.
Qed.
(** n draws of numbers below k, each of them made into a rune. *)
Section Draws.
Context (k : Z) (c : Z -> rune) (d : nat -> tape -> res (list rune * tape)).
Context (Hk : 0 < k < 2 ^ 31) (D0 : forall t, d 0%nat t = Ok ([], t))
  (DS : forall n t, d (S n) t = let* (v, t1) := intn k t in let* (rest, t2) := d n t1 in Ok (c v :: rest, t2)).
Lemma d_completes : forall n t, okay (d n) t \/ (d n t = Panic /\ exists w x, d n (t ++ w) = Ok (x, [])).
Proof.
  induction n as [|n IH]; intros t; [left; exists [], t; apply D0|]. unfold okay. rewrite DS.
  destruct (intn_completes k t Hk) as [(v & t1 & E)|(E & v & E2)]; rewrite E; cbn [bind].
  - destruct (IH t1) as [(x & t2 & F)|(F & w & x & G)]; rewrite F; cbn [bind]; [left; eauto|right]. split; [reflexivity|].
    destruct (intn_local k t v t1 Hk E) as (u & -> & _ & Q). exists w, (c v :: x). rewrite DS, <- app_assoc, Q. cbn [bind].
    rewrite G. reflexivity.
  - right. split; [reflexivity|].
    assert (P : exists w x, d n w = Ok (x, [])).
    { destruct (IH []) as [(x & t2 & F)|(_ & w & x & G)]; [|exists w, x; exact G].
      destruct n as [|m]; [exists [], []; apply D0|exfalso]. rewrite DS, intn_nil in F. discriminate. }
    destruct P as (w & x & F). exists ([0] ++ w), (c v :: x). rewrite DS, app_assoc.
    destruct (intn_local k _ v [] Hk E2) as (u & U & _ & Q). rewrite app_nil_r in U. rewrite U, Q. cbn [bind]. rewrite F. reflexivity.
Qed.
End Draws.
Lemma letters_completes : forall n t, okay (random_letters n) t \/ (random_letters n t = Panic /\ exists w x, random_letters n (t ++ w) = Ok (x, [])).
Proof. apply (d_completes 26 (fun v => v + 65)); [lia|reflexivity|reflexivity]. Qed.
Lemma alnum_completes : forall n t, okay (random_alnum_runes n) t \/ (random_alnum_runes n t = Panic /\ exists w x, random_alnum_runes n (t ++ w) = Ok (x, [])).
Proof. apply (d_completes (26 + 26 + 10) alnum_of); [lia|reflexivity|reflexivity]. Qed.

(** Draws repeated until the result is not a bad one. *)
Section Loop.
Context (d : tape -> res (list rune * tape)) (bad : list rune -> bool) (loop : nat -> tape -> res (list rune * tape)).
Context (DL : forall t x t', d t = Ok (x, t') -> exists u, t = u ++ t' /\ (1 <= length u)%nat /\ forall s, d (u ++ s) = Ok (x, s))
  (DC : forall t, okay d t \/ (d t = Panic /\ exists w x, d (t ++ w) = Ok (x, [])))
  (LS : forall f t, loop (S f) t = let* (x, t1) := d t in if bad x then loop f t1 else Ok (x, t1)).
Lemma loop_completes : forall s, (exists f, okay (loop f) s) -> forall n t, (length t <= n)%nat -> exists more f, okay (loop f) (t ++ more).
Proof.
  intros s (f0 & x0 & t0 & H0). induction n as [|n IH]; intros t Hn.
  - assert (t = []) as -> by (destruct t; [reflexivity|cbn in Hn; lia]). exists s, f0, x0, t0. exact H0.
  - destruct (DC t) as [(x & t1 & E)|(E & w & x & G)].
    + destruct (DL _ _ _ E) as (u & -> & L & Q). rewrite app_length in Hn. destruct (bad x) eqn:B.
      * destruct (IH t1 ltac:(lia)) as (more & f & x' & t' & H). exists more, (S f), x', t'. rewrite LS, <- app_assoc, Q. cbn [bind]. rewrite B. exact H.
      * exists [], 1%nat, x, t1. rewrite LS, app_nil_r, Q. cbn [bind]. rewrite B. reflexivity.
    + destruct (bad x) eqn:B.
      * exists (w ++ s), (S f0), x0, t0. rewrite LS, app_assoc. destruct (DL _ _ _ G) as (u & U & _ & Q). rewrite app_nil_r in U. rewrite U, Q.
        cbn [bind]. rewrite B. exact H0.
      * exists w, 1%nat, x, []. rewrite LS, G. cbn [bind]. rewrite B. reflexivity.
Qed.
End Loop.

Lemma msg_id_completes : forall ms, completes (new_unique_message_id ms).
Proof.
  intros ms s (x & t' & H) t.
  destruct (loop_completes (random_alnum_runes 4) (contains_message_id ms) (fun f => new_unique_message_id_loop f ms)) with (s := s) (t := t) (n := length t)
    as (more & f & y & t2 & E).
  - intros a b c Q. destruct (alnum_local 4 a b c Q) as (u & U1 & U2 & U3). exists u. split; [exact U1|]. split; [lia|exact U3].
  - apply alnum_completes.
  - reflexivity.
  - exists (S (length s)), x, t'. exact H.
  - lia.
  - exists more, y, t2. destruct (msg_loop_local f ms _ _ _ E) as (u & U & _ & Q). unfold new_unique_message_id. rewrite U. apply Q. rewrite app_length. lia.
Qed.
Lemma msg_id_panic : forall ms t, okay (new_unique_message_id ms) t \/ new_unique_message_id ms t = Panic.
Proof.
  intros ms t. unfold okay, new_unique_message_id. generalize (S (length t)). intros f. revert t. induction f as [|f IH]; intros t; [right; reflexivity|].
  cbn [new_unique_message_id_loop]. destruct (alnum_completes 4 t) as [(x & t1 & E)|(E & _)]; rewrite E; cbn [bind]; [|right; reflexivity].
  destruct (contains_message_id ms x); [apply IH|left; eauto].
Qed.
Lemma ensure_good : forall i m, good (outcome (ensure_id i m)).
Proof.
  intros i m. unfold ensure_id. destruct (len (mid m) =? 0).
  - apply (good_outcome _ _ Panic).
    + discriminate.
    + intros t a t' H. destruct (new_unique_message_id (i_messages i) t) as [[id t1]|?| |] eqn:E; try discriminate. cbn [bind] in H.
      injection H as <- <-. destruct (msg_id_local _ _ _ _ E) as (u & U & _ & Q). exists u. split; [exact U|]. intros s. rewrite Q. reflexivity.
    + intros s (a & t' & H) t. destruct (new_unique_message_id (i_messages i) s) as [[id t1]|?| |] eqn:E; try discriminate.
      destruct (msg_id_completes (i_messages i) s (ex_intro _ id (ex_intro _ t1 E)) t) as (more & x & t2 & X). exists more, (set_mid m x), t2. rewrite X. reflexivity.
    + intros t. unfold okay, outcome. destruct (msg_id_panic (i_messages i) t) as [(x & t1 & E)|E]; rewrite E; cbn [bind]; [left; eauto|right; reflexivity].
  - apply (good_ext _ (fun t => (Ok m, t))); [intros t; unfold outcome; reflexivity|apply good_ret].
Qed.
Lemma good_match : forall A B (r : tape -> res (A * tape)) (K : A -> tape -> B * tape) e p d, good (outcome r) -> (forall a, good (K a)) ->
  good (fun t => match r t with Ok (a, t1) => K a t1 | Err x => (e x, t) | Panic => (p, t) | Diverge => (d, t) end).
Proof.
  intros A B r K e p d R G.
  apply (good_ext _ (fun t => let (o, t1) := outcome r t in match o with Ok a => K a t1 | Err x => (e x, t1) | Panic => (p, t1) | Diverge => (d, t1) end)).
  - intros t. unfold outcome. destruct (r t) as [[a t1]|x| |]; reflexivity.
  - apply (good_bind _ _ (outcome r)
      (fun o t1 => match o with Ok a => K a t1 | Err x => (e x, t1) | Panic => (p, t1) | Diverge => (d, t1) end)); [exact R|].
    intros [a|x| |]; [apply G|apply good_ret..].
Qed.

(** ** Wiping *)
Lemma good_read : forall A n (a : list rune -> A) (b : A),
  good (fun t => match read_runes n t with Some (r, t') => (a r, t') | None => (b, t) end).
Proof.
  intros A n a b t. destruct (le_lt_dec n (length t)) as [L|L].
  - exists (firstn n t). assert (R : forall s, read_runes n (firstn n t ++ s) = Some (map to_int32 (firstn n t), s)).
    { intros s. unfold read_runes. replace (Nat.leb n (length (firstn n t ++ s))) with true
        by (symmetry; apply Nat.leb_le; rewrite app_length, firstn_length; lia).
      rewrite firstn_app, firstn_firstn, skipn_app, Nat.min_id, firstn_length, Nat.min_l by exact L. rewrite Nat.sub_diag. cbn [firstn skipn].
      rewrite app_nil_r, skipn_all2 by (rewrite firstn_length; lia). reflexivity. }
    assert (T := R (skipn n t)). rewrite firstn_skipn in T. rewrite T. cbn [fst snd]. split; [symmetry; apply firstn_skipn|].
    intros _ rest. rewrite R. reflexivity.
  - exists []. assert (R : read_runes n t = None) by (unfold read_runes; replace (Nat.leb n (length t)) with false by (symmetry; apply Nat.leb_gt; exact L); reflexivity).
    rewrite R. split; [reflexivity|]. intros N. exfalso. apply N. exists (repeat 0 n). unfold read_runes.
    replace (Nat.leb n (length (t ++ repeat 0 n))) with true by (symmetry; apply Nat.leb_le; rewrite app_length, repeat_length; lia).
    cbn [snd]. rewrite skipn_length, app_length, repeat_length. lia.
Qed.
Lemma wipe_value_good : forall s, good (wipe_value s).
Proof. intros s. apply (good_ext _ _ _ (fun t => eq_refl) (good_read _ (length s) (fun _ => []) s)). Qed.
Lemma wipe1_good : forall h s, good (wipe1 h s).
Proof. intros h s. exact (good_read _ (length (rd h s)) (fun r => (wr h s r, None)) (h, s)). Qed.
Lemma scrub1_good : forall h s, good (scrub1 h s).
Proof. intros h s. exact (good_read _ (length (rd h s)) (wr h s) (wr h s (map (fun _ => 0) (rd h s)))). Qed.
Lemma scrub_good : forall ss h, good (scrub h ss).
Proof.
  induction ss as [|s ss IH]; intros h; [exact (good_ret _ h)|].
  exact (good_bind _ _ (scrub1 h s) (fun h1 t1 => scrub h1 ss t1) (scrub1_good h s) (fun h1 => IH h1)).
Qed.
Lemma wipe_key_good : forall h k, good (wipe_key h k).
Proof. intros h k. unfold wipe_key. cbv zeta. apply (good_map _ _ (fun h1 => (wr_outer h1 _ _, _))). apply scrub_good. Qed.
Lemma wipe_msg_good : forall h m, good (wipe_msg h m).
Proof. intros h m. unfold wipe_msg. apply (good_map _ _ (fun h1 => (h1, _))). apply scrub_good. Qed.
Lemma wipe_keys_good : forall ks h, good (wipe_keys h ks).
Proof.
  induction ks as [|k ks IH]; intros h; [exact (good_ret _ h)|]. cbn [wipe_keys].
  apply (good_bind _ _ (wipe_key h k) (fun p t1 => let (h1, _) := p in wipe_keys h1 ks t1)); [apply wipe_key_good|]. intros [h1 x]. apply IH.
Qed.
Lemma wipe_msgs_good : forall ms h, good (wipe_msgs h ms).
Proof.
  induction ms as [|m ms IH]; intros h; [exact (good_ret _ h)|]. cbn [wipe_msgs].
  apply (good_bind _ _ (wipe_msg h m) (fun p t1 => let (h1, _) := p in wipe_msgs h1 ms t1)); [apply wipe_msg_good|]. intros [h1 x]. apply IH.
Qed.
Lemma wipe_inst_good : forall h i, good (wipe_inst h i).
Proof.
  intros h i. unfold wipe_inst. apply (good_bind _ _ (wipe_keys h (hi_keys i))); [apply wipe_keys_good|]. intros h1.
  apply (good_map _ _ (fun h2 => (h2, _))). apply wipe_msgs_good.
Qed.

Section WithUnicode.
Context (U : Uni).

(** ** Deleting *)
Lemma delete_key1_good : forall h ks id, good (hdelete_key1 U h ks id).
Proof.
  intros h ks id. unfold hdelete_key1. destruct (index_of _ ks 0) as [j|]; [|apply good_ret].
  destruct (nth_error ks j) as [k|]; [|apply good_ret].
  apply (good_bind _ _ (wipe_key h k) (fun p t1 => let (h1, _) := p in ((h1, swap_remove ks j), t1))); [apply wipe_key_good|].
  intros [h1 x]. apply good_ret.
Qed.
Lemma delete_key_good : forall ids h ks, good (hdelete_key U h ks ids).
Proof.
  induction ids as [|id ids IH]; intros h ks; [exact (good_ret _ (h, ks))|]. cbn [hdelete_key].
  apply (good_bind _ _ (hdelete_key1 U h ks id) (fun p t1 => let (h1, ks1) := p in hdelete_key U h1 ks1 ids t1)); [apply delete_key1_good|].
  intros [h1 ks1]. apply IH.
Qed.
Lemma delete_message1_good : forall h ms id, good (hdelete_message1 h ms id).
Proof.
  intros h ms id. unfold hdelete_message1. destruct (index_of _ ms 0) as [j|]; [|apply good_ret].
  destruct (nth_error ms j) as [k|]; [|apply good_ret].
  apply (good_bind _ _ (wipe_msg h k) (fun p t1 => let (h1, _) := p in ((h1, swap_remove ms j), t1))); [apply wipe_msg_good|].
  intros [h1 x]. apply good_ret.
Qed.
Lemma delete_message_good : forall ids h ms, good (hdelete_message h ms ids).
Proof.
  induction ids as [|id ids IH]; intros h ms; [exact (good_ret _ (h, ms))|]. cbn [hdelete_message].
  apply (good_bind _ _ (hdelete_message1 h ms id) (fun p t1 => let (h1, ms1) := p in hdelete_message h1 ms1 ids t1)); [apply delete_message1_good|].
  intros [h1 ms1]. apply IH.
Qed.

(** ** Enciphering and deciphering *)
Lemma hencipher_good : forall h i m, good (hencipher U h i m).
Proof.
  intros h i m. unfold hencipher.
  apply (good_match _ _ (ensure_id (inst_of h i) (msg_of h m)) _ (fun e => (h, i, m, Err e)) (h, i, m, Panic) (h, i, m, Diverge)); [apply ensure_good|].
  intros mv. destruct (if len (rd h (hm_id m)) =? 0 then _ else _) as [h1 m1].
  destruct (enrich_with_key U (hi_groupsize i) (keys_of h1 i) (msg_of h1 m1)) as [[ks mm] [[]|e| |]]; [|apply good_ret..].
  cbv zeta. generalize (match chosen_key U h1 i m1 with Some k => hset_mkeyid m1 (hk_id k) | None => m1 end). intros m2.
  eapply (good_bind _ _ (wipe1 h1 (hm_cipher m2)) (fun p t2 => let (h2, c0) := p in _)); [apply wipe1_good|].
  intros [h2 c0]. destruct (get_key U _ _) as [k0|]; [|apply good_ret]. destruct (new h2 _) as [h3 a].
  destruct (er_res _) as [[]|e| |]; [apply good_ret|..].
  all: eapply (good_bind _ _ (wipe1 _ _) (fun p t3 => let (h4, kid') := p in _)); [apply wipe1_good|]; intros [h4 kid']; apply good_ret.
Qed.
Lemma decipher_good : forall i m, good (decipher U i m).
Proof.
  intros i m0. unfold decipher.
  apply (good_match _ _ (ensure_id i m0) _ (fun e => (i, m0, Err e)) (i, m0, Panic) (i, m0, Diverge)); [apply ensure_good|].
  intros m. cbv zeta. destruct (negb _); [apply good_ret|]. destruct (len (mcipher m) <? i_groupsize i); [apply good_ret|].
  destruct (get_key U (mkeyid m) (i_keys i)) as [k0|]; [|apply good_ret].
  eapply (good_bind _ _ (wipe_value (mplain m))); [apply wipe_value_good|]. intros p0.
  destruct (decipher_loop U _ _ _ _ _ _ _ _ _) as [[p st] [[]|e| |]]; apply good_ret.
Qed.
Lemma try_decipher_good : forall i m, good (try_decipher U i m false).
Proof.
  intros i m0. unfold try_decipher.
  apply (good_match _ _ (ensure_id i m0) _ (fun e => (i, m0, Err e)) (i, m0, Panic) (i, m0, Diverge)); [apply ensure_good|].
  intros m. cbv zeta. destruct (0 <? len (mkeyid m)); [apply good_ret|]. destruct (filter_letters U (mplain m)) as [ft|]; [|apply good_ret].
  destruct (len ft <? _); [apply good_ret|]. destruct (_ <? 0); [apply good_ret|].
  destruct (get_key U _ _) as [kp|]; [|apply good_ret]. destruct (nth_error (i_keys i) kp) as [k|]; [|apply good_ret].
  match goal with |- good (fun t => match decipher U i ?m t with _ => _ end) => set (m1 := m);
    eapply (good_bind _ _ (decipher U i m1) (fun p t2 => let '(i2, m2, r) := p in _)); [apply decipher_good|] end.
  intros [[i2 m2] [[]|e| |]]; [apply good_ret|..].
  all: eapply (good_bind _ _ (wipe_value (mkeyid m2))); [apply wipe_value_good|]; intros kid'; apply good_ret.
Qed.

(** ** Creating keys and messages *)
Lemma good_match_drop : forall A B (r : tape -> res (A * tape)) (K : A -> tape -> B * tape) b, local r -> completes r -> (forall a, good (K a)) ->
  good (fun t => match r t with Ok (a, t1) => K a t1 | _ => (b, t) end).
Proof.
  intros A B r K b L C G.
  assert (F : good (fun t => match r t with Ok (a, t1) => (Some a, t1) | _ => (None, t) end)).
  { intros t. destruct (r t) as [[a t']|e| |] eqn:H.
    - destruct (L _ _ _ H) as (u & E & Q). exists u. split; [exact E|]. intros _ rest. cbn [fst]. rewrite Q. reflexivity.
    - exists []. split; [reflexivity|]. intros N rest. cbn [app fst]. destruct (r rest) as [[a t']| | |] eqn:K1; try reflexivity. exfalso.
      destruct (C rest (ex_intro _ a (ex_intro _ t' K1)) t) as (more & x & t2 & X). apply N. exists more. rewrite X. cbn [snd].
      refine (not_read_beyond _ r t more x t2 L _ X). intros (y & t3 & Y). congruence.
    - exists []. split; [reflexivity|]. intros N rest. cbn [app fst]. destruct (r rest) as [[a t']| | |] eqn:K1; try reflexivity. exfalso.
      destruct (C rest (ex_intro _ a (ex_intro _ t' K1)) t) as (more & x & t2 & X). apply N. exists more. rewrite X. cbn [snd].
      refine (not_read_beyond _ r t more x t2 L _ X). intros (y & t3 & Y). congruence.
    - exists []. split; [reflexivity|]. intros N rest. cbn [app fst]. destruct (r rest) as [[a t']| | |] eqn:K1; try reflexivity. exfalso.
      destruct (C rest (ex_intro _ a (ex_intro _ t' K1)) t) as (more & x & t2 & X). apply N. exists more. rewrite X. cbn [snd].
      refine (not_read_beyond _ r t more x t2 L _ X). intros (y & t3 & Y). congruence. }
  apply (good_ext _ (fun t => let (o, t1) := (match r t with Ok (a, t1) => (Some a, t1) | _ => (None, t) end) in
                              match o with Some a => K a t1 | None => (b, t1) end)).
  - intros t. destruct (r t) as [[a t1]|e| |]; reflexivity.
  - apply (good_bind _ _ _ (fun o t1 => match o with Some a => K a t1 | None => (b, t1) end) F). intros [a|]; [apply G|apply good_ret].
Qed.

Lemma good_match_res : forall A X Y (r : tape -> res (A * tape)) (K : A -> tape -> X * Y * tape) e p d (b : X),
  local r -> completes r -> (forall a, good (K a)) ->
  good (fun t => let (q, t1) := (match r t with Ok (a, t1) => K a t1 | Err x => (b, e x, t) | Panic => (b, p, t) | Diverge => (b, d, t) end) in (fst q, t1)).
Proof.
  intros A X Y r K e p d b L C G.
  apply (good_ext _ (fun t => match r t with Ok (a, t1) => (fun a t1 => let (q, t2) := K a t1 in (fst q, t2)) a t1 | _ => (b, t) end)).
  - intros t. destruct (r t) as [[a t1]|x| |]; reflexivity.
  - apply good_match_drop; [exact L|exact C|]. intros a. apply good_map. apply G.
Qed.

Lemma loop_no_id : forall f ks t, contains_key_id U ks [] = true -> ~ okay (new_id_loop U f ks 0) t.
Proof.
  induction f as [|f IH]; intros ks t C (x & t' & H); [discriminate|]. cbn [new_id_loop random_letters bind] in H. rewrite C in H.
  apply (IH ks t C). exists x, t'. exact H.
Qed.
Lemma new_key_local_all : forall i now e keepers, local (new_key U i now e keepers).
Proof.
  intros i now e keepers t [i' k] t' H. destruct (Z_lt_le_dec 0 (i_groupsize i)) as [G|G].
  - destruct (new_key_local U i now e keepers t i' k t' G H) as (u & E & _ & Q). exists u. split; [exact E|exact Q].
  - exists []. assert (Z0 : i_groupsize i = 0).
    { unfold new_key in H. cbv zeta in H. destruct (i_groupsize i <? 0) eqn:X; [discriminate|lia]. }
    unfold new_key in *. cbv zeta in *. rewrite Z0 in *. unfold key_runes_length in *.
    change (0 =? 0) with true in *. change ((0 <? 0) || (0 <? 0)) with false in *. cbv iota in *. change (Z.to_nat 0) with 0%nat in *.
    cbn [new_id_loop random_letters bind app] in *.
    destruct (contains_key_id U (i_keys i) []) eqn:C.
    + exfalso. destruct (new_id_loop U (length t) (i_keys i) 0 t) as [[x t1]|?| |] eqn:E; try discriminate.
      apply (loop_no_id (length t) (i_keys i) t C). exists x, t1. exact E.
    + cbn [bind] in *. injection H as <- <- <-. split; [reflexivity|]. intros s. reflexivity.
Qed.
Lemma new_key_completes : forall i now e keepers, completes (new_key U i now e keepers).
Proof.
  intros i now e keepers s ([i' k] & t' & H) t. unfold okay, new_key in *. cbv zeta in *.
  destruct ((i_groupsize i <? 0) || _) eqn:X; [discriminate|].
  destruct (new_id_loop U (S (length s)) (i_keys i) (Z.to_nat (i_groupsize i)) s) as [[id t1]|?| |] eqn:E1; try discriminate.
  assert (M : exists more id2 t2, new_id_loop U (S (length (t ++ more))) (i_keys i) (Z.to_nat (i_groupsize i)) (t ++ more) = Ok (id2, t2) /\
              forall r, new_id_loop U (S (length (t ++ more ++ r))) (i_keys i) (Z.to_nat (i_groupsize i)) (t ++ more ++ r) = Ok (id2, t2 ++ r)).
  { destruct (Z.to_nat (i_groupsize i)) as [|g] eqn:G.
    - exists [], [], t. cbn [new_id_loop random_letters bind app] in *. rewrite app_nil_r. destruct (contains_key_id U (i_keys i) []) eqn:C.
      + exfalso. apply (loop_no_id (length s) (i_keys i) s C). exists id, t1. exact E1.
      + split; [reflexivity|]. intros r. reflexivity.
    - destruct (loop_completes (random_letters (S g)) (contains_key_id U (i_keys i)) (fun f => new_id_loop U f (i_keys i) (S g))) with (s := s) (t := t) (n := length t)
        as (more & f & y & t2 & E).
      + intros a b c Q. destruct (letters_local (S g) a b c Q) as (u & U1 & U2 & U3). exists u. split; [exact U1|]. split; [lia|exact U3].
      + apply letters_completes.
      + reflexivity.
      + exists (S (length s)), id, t1. exact E1.
      + lia.
      + destruct (key_loop_local U f (i_keys i) (S g) _ _ _ ltac:(lia) E) as (u & V & _ & Q). exists more, y, t2. rewrite V. split.
        * apply Q. rewrite app_length. lia.
        * intros r. rewrite app_assoc, V, <- app_assoc. apply Q. rewrite !app_length. lia. }
  destruct M as (more & id2 & t2 & M1 & M2).
  destruct (letters_completes (Z.to_nat (key_runes_length (i_keylength i) (i_groupsize i))) t2) as [(x & t3 & F)|(F & w & x & F2)].
  - exists more. do 2 eexists. rewrite M1. cbn [bind]. rewrite F. reflexivity.
  - exists (more ++ w). do 2 eexists. rewrite M2. cbn [bind]. rewrite F2. reflexivity.
Qed.
Lemma hnew_key_good : forall h i now e keepers, good (hnew_key U h i now e keepers).
Proof.
  intros h i now e keepers. unfold hnew_key.
  apply (good_ext _ (fun t => match new_key U (inst_of h i) now e keepers t with
    | Ok (p, t1) => let (h1, hk) := new_key_arrays h (snd p) in ((h1, hset_keys i (hi_keys i ++ [hk])), t1) | _ => ((h, i), t) end)).
  { intros t. destruct (new_key U (inst_of h i) now e keepers t) as [[[i' k] t1]|?| |]; reflexivity. }
  apply (good_match_drop _ _ (new_key U (inst_of h i) now e keepers)
    (fun p t1 => let (h1, hk) := new_key_arrays h (snd p) in ((h1, hset_keys i (hi_keys i ++ [hk])), t1)) (h, i)).
  - apply new_key_local_all.
  - apply new_key_completes.
  - intros p. destruct (new_key_arrays h (snd p)) as [h1 hk]. apply good_ret.
Qed.

Section WithLibraries.
Context (line_breaks : list rune -> list rune) (dtg_parse : list rune -> option Z).
Lemma parse_local : forall i raw now, local (parse_radiogram U line_breaks dtg_parse i raw now).
Proof.
  intros i raw now t m t' H. unfold parse_radiogram in *. cbv zeta in *.
  destruct (new_unique_message_id (i_messages i) t) as [[id t1]|?| |] eqn:E; try discriminate. cbn [bind] in H.
  destruct (msg_id_local _ _ _ _ E) as (u & V & _ & Q). exists u.
  destruct (split_radiogram _ _) as [[[[to from] d] text]|]; [|discriminate].
  destruct (if len d =? 0 then Some now else dtg_parse d) as [w|] eqn:W; [|discriminate]. injection H as <- <-.
  split; [exact V|]. intros s. rewrite Q. cbn [bind]. reflexivity.
Qed.
Lemma parse_completes : forall i raw now, completes (parse_radiogram U line_breaks dtg_parse i raw now).
Proof.
  intros i raw now s (m & t' & H) t. unfold okay, parse_radiogram in *. cbv zeta in *.
  destruct (new_unique_message_id (i_messages i) s) as [[id t1]|?| |] eqn:E; try discriminate. cbn [bind] in H.
  destruct (msg_id_completes (i_messages i) s (ex_intro _ id (ex_intro _ t1 E)) t) as (more & x & t2 & X). exists more. rewrite X. cbn [bind].
  destruct (split_radiogram _ _) as [[[[to from] d] text]|]; [|discriminate].
  destruct (if len d =? 0 then Some now else dtg_parse d) as [w|]; [|discriminate]. eauto.
Qed.
Lemma htry_good : forall h i m, good (htry_decipher U h i m).
Proof.
  intros h i m. unfold htry_decipher.
  eapply (good_bind _ _ (try_decipher U (inst_of h i) (msg_of h m) false) (fun p t1 => let '(iv, mv, r) := p in _)); [apply try_decipher_good|].
  intros [[iv mv] r]. destruct (new h _) as [h1 a]. destruct (new h1 _) as [h2 b]. destruct (new h2 _) as [h3 c]. destruct (new h3 _) as [h4 d]. apply good_ret.
Qed.
Lemma fail_good : forall h (i : hinst) m (r : res unit), good (fun t => let '(h3, _, t3) := wipe_msg h m t in (h3, i, r, t3)).
Proof.
  intros h i m r. apply (good_bind _ _ (wipe_msg h m) (fun p t3 => let (h3, _) := p in ((h3, i, r), t3))); [apply wipe_msg_good|].
  intros [h3 x]. apply good_ret.
Qed.
Lemma go_good : forall h i m, good (fun t =>
  match hencipher U h i m t with
  | (h3, i3, m3, Ok _, t3) => (h3, hset_messages i3 (hi_messages i3 ++ [m3]), Ok tt, t3)
  | (h3, i3, m3, r, t3) => let '(h4, _, t4) := wipe_msg h3 m3 t3 in (h4, i3, r, t4)
  end).
Proof.
  intros h i m. eapply (good_bind _ _ (hencipher U h i m) (fun p t3 => let '(h3, i3, m3, r) := p in _)); [apply hencipher_good|].
  intros [[[h3 i3] m3] [[]|e| |]]; [apply good_ret|apply fail_good..].
Qed.
Lemma hnew_text_good : forall h i args now, good (fun t => let '(h1, i1, _, t1) := hnew_text U line_breaks dtg_parse h i args now t in ((h1, i1), t1)).
Proof.
  intros h i args now.
  apply (good_ext _ (fun t => let (q, t1) := hnew_text U line_breaks dtg_parse h i args now t in (fst q, t1))).
  { intros t. destruct (hnew_text U line_breaks dtg_parse h i args now t) as [[[h1 i1] r] t1]. reflexivity. }
  unfold hnew_text. destruct args as [|raw rest]; [apply good_ret|].
  apply (good_match_res _ _ _ (parse_radiogram U line_breaks dtg_parse (inst_of h i) raw now) _ (fun e => Err e) Panic Diverge (h, i));
    [apply parse_local|apply parse_completes|]. intros mv.
  cbv zeta beta. destruct (new_msg_arrays h mv) as [h1 m]. destruct (is_my_call U (inst_of h i) mv).
  - destruct rest as [|a [|b rest]]; [apply go_good|apply fail_good|].
    destruct (new h1 _) as [h2 sl]. destruct (negb _); [apply fail_good|apply go_good].
  - match goal with |- context [htry_decipher U h1 i ?m] => eapply (good_bind _ _ (htry_decipher U h1 i m) (fun p t3 => let '(h3, i3, m3, r) := p in _)) end; [apply htry_good|].
    intros [[[h3 i3] m3] [[]|e| |]]; [apply good_ret|apply good_ret|apply fail_good..].
Qed.

(** ** Import *)
Lemma himport_loop_good : forall gs own from ow ask filter incoming answers h ks,
  good (himport_loop U gs own from ow ask filter incoming answers h ks).
Proof.
  intros gs own from ow ask filter. induction incoming as [|k rest IH]; intros answers h ks; [exact (good_ret _ (h, ks))|].
  cbn [himport_loop]. cbv zeta.
  assert (ADD : forall ans h0 ks0, good (fun t0 => let (h1, hk) := himport_key U h0 (rd h0 own) from k in
      himport_loop U gs own from ow ask filter rest ans h1 (ks0 ++ [hk]) t0)).
  { intros ans h0 ks0. destruct (himport_key U h0 (rd h0 own) from k) as [h1 hk]. apply IH. }
  assert (REP : forall ans, good (fun t => let '(h1, ks1, t1) := hdelete_key U h ks [kid k] t in
      let (h2, hk) := himport_key U h1 (rd h1 own) from k in himport_loop U gs own from ow ask filter rest ans h2 (ks1 ++ [hk]) t1)).
  { intros ans. eapply (good_bind _ _ (hdelete_key U h ks [kid k]) (fun p t1 => let (h1, ks1) := p in _)); [apply delete_key_good|].
    intros [h1 ks1]. apply ADD. }
  destruct (negb (len (kid k) =? gs)); [apply IH|]. destruct (negb (filter k)); [apply IH|].
  destruct (contains_key_id U (map (key_of h) ks) (kid k)); [|apply ADD].
  destruct (negb ow && ask).
  - destruct answers as [|[[|]|] answers]; [apply good_ret|apply REP|apply IH|apply good_ret].
  - destruct (negb ow); [apply IH|apply REP].
Qed.
Lemma himport_good : forall h i ow ask filter incoming answers, good (himport U h i ow ask filter incoming answers).
Proof.
  intros h i ow ask filter incoming answers. unfold himport. destruct (new h _) as [h1 from].
  eapply (good_bind _ _ (himport_loop U _ _ _ _ _ _ _ _ _ _) (fun p t1 => let (h2, ks) := p in _)); [apply himport_loop_good|].
  intros [h2 ks]. apply good_ret.
Qed.

(** ** Histories *)
Lemma hstep_good : forall op h i, good (hstep U line_breaks dtg_parse op h i).
Proof.
  intros op h i. destruct op as [now e keepers|args now|ids|ids|id used|ow ask filter incoming answers]; cbn [hstep].
  - apply hnew_key_good.
  - apply hnew_text_good.
  - eapply (good_bind _ _ (hdelete_key U h (hi_keys i) ids) (fun p t1 => let (h1, ks) := p in _)); [apply delete_key_good|]. intros [h1 ks]. apply good_ret.
  - eapply (good_bind _ _ (hdelete_message h (hi_messages i) ids) (fun p t1 => let (h1, ms) := p in _)); [apply delete_message_good|]. intros [h1 ms]. apply good_ret.
  - apply good_ret.
  - apply himport_good.
Qed.

Lemma hrun_good : forall ops h i, good (hrun U line_breaks dtg_parse ops h i).
Proof.
  induction ops as [|op ops IH]; intros h i; [exact (good_ret _ (h, i))|]. cbn [hrun].
  eapply (good_bind _ _ (hstep U line_breaks dtg_parse op h i) (fun p t1 => let (h1, i1) := p in _)); [apply hstep_good|]. intros [h1 i1]. apply IH.
Qed.
Lemma hrun_pieces : forall ops h i t h' i' t', hrun U line_breaks dtg_parse ops h i t = (h', i', t') ->
  ~ exhausted (hrun U line_breaks dtg_parse ops h i) t ->
  exists pieces, t = concat pieces ++ t' /\ read_in_turn U line_breaks dtg_parse ops pieces h i h' i'.
Proof.
  induction ops as [|op ops IH]; intros h i t h' i' t' H N; cbn [hrun] in H.
  - injection H as <- <- <-. exists []. split; [reflexivity|]. split; reflexivity.
  - destruct (hstep_good op h i t) as (u & E & L). destruct (hstep U line_breaks dtg_parse op h i t) as [[h1 i1] t1] eqn:S1. cbn [fst snd] in E, L.
    assert (NS : ~ exhausted (hstep U line_breaks dtg_parse op h i) t).
    { intros (more & X). apply N. exists more. cbn [hrun]. destruct (hstep U line_breaks dtg_parse op h i (t ++ more)) as [[h2 i2] t2]. cbn [snd] in X.
      destruct (hrun_good ops h2 i2 t2) as (u2 & Y & _). apply (f_equal (@length Z)) in Y. rewrite app_length in Y. lia. }
    specialize (L NS). destruct (IH _ _ _ _ _ _ H) as (ps & P & R).
    { intros (more & X). apply N. exists more. cbn [hrun]. rewrite E, <- app_assoc, L. exact X. }
    exists (u :: ps). split; [cbn [concat]; rewrite <- app_assoc, <- P; exact E|]. exists h1, i1. split; assumption.
Qed.
End WithLibraries.
End WithUnicode.

(** ** How much is read *)
Lemma rd_wr_length : forall h s r s', length r = length (rd h s) -> length (rd (wr h s r) s') = length (rd h s').
Proof.
  intros h s r s' L. destruct s as [a|]; [|reflexivity]. destruct s' as [b|]; [|reflexivity]. cbn [wr rd h_runes] in *.
  revert a b L. generalize (h_runes h). induction l as [|x l IH]; intros [|a] [|b] L; cbn [list_update nth length] in *; try reflexivity; [exact L|apply IH; exact L].
Qed.
Lemma skipn_plus : forall A n m (l : list A), skipn n (skipn m l) = skipn (m + n) l.
Proof. intros A n m. induction m as [|m IH]; intros l; [reflexivity|]. destruct l as [|x l]; [destruct n; reflexivity|]. apply IH. Qed.
Lemma scrub_amount : forall ss h t, (length (concat (map (rd h) ss)) <= length t)%nat ->
  snd (scrub h ss t) = skipn (length (concat (map (rd h) ss))) t.
Proof.
  induction ss as [|s ss IH]; intros h t L; [reflexivity|]. cbn [scrub map concat] in *. rewrite app_length in *. unfold scrub1, read_runes.
  replace (Nat.leb (length (rd h s)) (length t)) with true by (symmetry; apply Nat.leb_le; lia).
  assert (M : length (concat (map (rd (wr h s (map to_int32 (firstn (length (rd h s)) t)))) ss)) = length (concat (map (rd h) ss))).
  { assert (Q : forall s', length (rd (wr h s (map to_int32 (firstn (length (rd h s)) t))) s') = length (rd h s')).
    { intros s'. apply rd_wr_length. rewrite map_length, firstn_length. lia. }
    clear - Q. induction ss as [|x ss IH]; [reflexivity|]. cbn [map concat]. rewrite !app_length, Q, IH. reflexivity. }
  rewrite IH by (rewrite M, skipn_length; lia). rewrite M. rewrite skipn_plus. reflexivity.
Qed.
Lemma wipe_amount : forall h k m t,
  (let n := length (krunes (key_of h k) ++ kcomment (key_of h k) ++ kid (key_of h k) ++ concat (kkeepers (key_of h k))) in
   (n <= length t)%nat -> snd (wipe_key h k t) = skipn n t) /\
  (let n := length (mplain (msg_of h m) ++ mcipher (msg_of h m) ++ mkeyid (msg_of h m)) in
   (n <= length t)%nat -> snd (wipe_msg h m t) = skipn n t).
Proof.
  intros h k m t. split; intros n L.
  - unfold wipe_key. cbv zeta. assert (A := scrub_amount (hk_runes k :: hk_comment k :: hk_id k :: rd_outer h (hk_keepers k)) h t L).
    destruct (scrub h _ t) as [h1 t1]. exact A.
  - unfold wipe_msg. assert (A := scrub_amount [hm_plain m; hm_cipher m; hm_keyid m] h t). cbn [map concat] in A. rewrite app_nil_r in A. specialize (A L).
    destruct (scrub h _ t) as [h1 t1]. exact A.
Qed.
