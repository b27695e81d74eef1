(** Lemmas behind C133 and C134: what a cut, wrong or altered letter of a
    ciphertext does. *)
From Verif Require Import Base Spec Model_Unicode Model_Diana Model_Codec Model_Crand Model_Functions Model_Types Model_Cipher
  Proofs_Diana Proofs_Codec Proofs_Keys Proofs_Encipher Proofs_Decipher Proofs_Read.

Section G.
Context (U : Uni).
Lemma decode_frame : forall st c o, decode_character U st c o =
  match decode_character U st c [] with
  | Ok (s, q) => Ok (s, o ++ q)
  | Err e => Err e
  | Panic => Panic
  | Diverge => Diverge
  end.
Proof.
  intros st c o. unfold decode_character. destruct ((c <? 65) || (90 <? c)); [reflexivity|]. destruct (cs_binary st); [reflexivity|].
  cbv zeta. set (s := if cs_gotChangeKeyChar st then set_change st false true else st). clearbody s.
  destruct (cs_keyChange s); [rewrite app_nil_r; reflexivity|].
  destruct (nth_error character_tables (Z.to_nat (cs_table s))) as [tab|]; [|reflexivity].
  destruct (nth_error tab (Z.to_nat (c - 65))) as [ch|]; [|reflexivity]. destruct (ch =? specialOpChar); [|reflexivity].
  destruct (cs_table s =? primaryTable).
  { destruct (c =? nextTableChar); [rewrite app_nil_r|]; reflexivity. }
  destruct (cs_table s =? secondaryTable); [|reflexivity].
  destruct (c =? binaryToggleChar).
  { destruct (toggle_binary s None) as [[? ?]|?| |]; cbn [bind]; [rewrite app_nil_r|..]; reflexivity. }
  destruct (c =? caseToggleChar).
  { destruct (toggle_case s None) as [[? ?]|?| |]; cbn [bind]; [rewrite app_nil_r|..]; reflexivity. }
  destruct (c =? changeKeyChar); [rewrite app_nil_r; reflexivity|].
  destruct (c =? nextTableChar); [rewrite app_nil_r|]; reflexivity.
Qed.
(** A letter that gives a character. *)
Lemma decode_char : forall st c s x, decode_character U st c [] = Ok (s, [x]) ->
  cs_gotChangeKeyChar st = false /\ cs_keyChange st = false /\ cs_binary st = false /\ s = add_count st 1 /\
  exists tab ch, nth_error character_tables (Z.to_nat (cs_table st)) = Some tab /\ nth_error tab (Z.to_nat (c - 65)) = Some ch /\
    ch <> 164 /\ x = (if cs_shift st && negb (ch =? 32) then to_lower U ch else ch).
Proof.
  intros st c s x. unfold decode_character. destruct ((c <? 65) || (90 <? c)); [discriminate|]. destruct (cs_binary st) eqn:B; [discriminate|].
  cbv zeta. destruct (cs_gotChangeKeyChar st) eqn:G.
  { cbn [cs_keyChange set_change]. intros H. discriminate H. }
  destruct (cs_keyChange st) eqn:K; [discriminate|].
  destruct (nth_error character_tables (Z.to_nat (cs_table st))) as [tab|] eqn:T; [|discriminate].
  destruct (nth_error tab (Z.to_nat (c - 65))) as [ch|] eqn:C; [|discriminate]. destruct (ch =? specialOpChar) eqn:SP.
  - destruct (cs_table st =? primaryTable).
    { destruct (c =? nextTableChar); intros H; discriminate H. }
    destruct (cs_table st =? secondaryTable); [|discriminate].
    destruct (c =? binaryToggleChar).
    { destruct (toggle_binary st None) as [[? ?]|?| |]; intros H; discriminate H. }
    destruct (c =? caseToggleChar).
    { destruct (toggle_case st None) as [[? ?]|?| |]; intros H; discriminate H. }
    destruct (c =? changeKeyChar); [intros H; discriminate H|].
    destruct (c =? nextTableChar); intros H; discriminate H.
  - intros H. cbn [app] in H. assert (H1 : s = add_count st 1) by congruence.
    assert (H2 : x = (if cs_shift st && negb (ch =? spaceChar) then to_lower U ch else ch)) by congruence.
    unfold specialOpChar in SP. unfold spaceChar in H2. split; [reflexivity|]. split; [reflexivity|]. split; [reflexivity|]. split; [exact H1|].
    exists tab, ch. split; [reflexivity|]. split; [exact C|]. split; [lia|exact H2].
Qed.

Section Loop.
Context (gs : Z) (ks : list key).
Definition cfg : Type := nat * nat * codec_state * list rune * list nat.
Definition step (c : rune) (x : cfg) : (cfg * list rune) + (list rune * list nat * res unit) :=
  let '(kp, ki, st, nk, stack) := x in
  match nth_error ks kp with
  | None => inr ([], stack, Panic)
  | Some k =>
      match nth_error (krunes k) ki with
      | None => inr ([], stack, Err ErrOutOfKeyLetters)
      | Some kr =>
          match trigraph kr c with
          | Ok ec =>
              match decode_character U st ec [] with
              | Ok (st1, q) =>
                  if cs_keyChange st1 then
                    if gs <=? len (nk ++ [ec]) then
                      match get_key U (nk ++ [ec]) ks with
                      | None => inr (q, stack, Err ErrKeyNotFound)
                      | Some kp1 => inl (kp1, 0%nat, cs_reset st1, [], stack ++ [kp1], q)
                      end
                    else inl (kp, S ki, st1, nk ++ [ec], stack, q)
                  else inl (kp, S ki, st1, nk, stack, q)
              | Err e => inr ([], stack, Err e)
              | Panic => inr ([], stack, Panic)
              | Diverge => inr ([], stack, Diverge)
              end
          | Err e => inr ([], stack, Err e)
          | Panic => inr ([], stack, Panic)
          | Diverge => inr ([], stack, Diverge)
          end
      end
  end.
Fixpoint run (a : list rune) (x : cfg) : (cfg * list rune) + (list rune * list nat * res unit) :=
  match a with
  | [] => inl (x, [])
  | c :: a' =>
      match step c x with
      | inl (y, q) => match run a' y with inl (z, q') => inl (z, q ++ q') | inr (q', s, r) => inr (q ++ q', s, r) end
      | inr r => inr r
      end
  end.
Lemma run_app : forall a b x, run (a ++ b) x =
  match run a x with
  | inl (y, q) => match run b y with inl (z, q') => inl (z, q ++ q') | inr (q', s, r) => inr (q ++ q', s, r) end
  | inr r => inr r
  end.
Proof.
  induction a as [|c a IH]; intros b x; cbn [app run].
  - destruct (run b x) as [[z q']|[[q' s] r]]; reflexivity.
  - destruct (step c x) as [[y q]|r]; [|reflexivity]. rewrite IH. destruct (run a y) as [[z q']|[[q' s] r]]; [|reflexivity].
    destruct (run b z) as [[z2 q2]|[[q2 s2] r2]]; rewrite app_assoc; reflexivity.
Qed.
Lemma loop_run : forall a kp ki st nk plain stack, decipher_loop U gs ks a kp ki st nk plain stack =
  match run a (kp, ki, st, nk, stack) with
  | inl (kp', ki', st', nk', stack', q) => (plain ++ q, stack', Ok tt)
  | inr (q, s, r) => (plain ++ q, s, r)
  end.
Proof.
  induction a as [|c a IH]; intros kp ki st nk plain stack; cbn [decipher_loop run].
  - rewrite app_nil_r. reflexivity.
  - unfold step. destruct (nth_error ks kp) as [k|]; [|rewrite app_nil_r; reflexivity].
    destruct (nth_error (krunes k) ki) as [kr|]; [|rewrite app_nil_r; reflexivity].
    destruct (trigraph kr c) as [ec|e| |]; try (rewrite app_nil_r; reflexivity).
    rewrite decode_frame. destruct (decode_character U st ec []) as [[st1 q]|e| |]; try (rewrite app_nil_r; reflexivity).
    destruct (cs_keyChange st1).
    + cbv zeta. destruct (gs <=? len (nk ++ [ec])).
      * destruct (get_key U (nk ++ [ec]) ks) as [kp1|]; [|reflexivity]. rewrite IH.
        destruct (run a (kp1, 0%nat, cs_reset st1, [], stack ++ [kp1])) as [[[[[[a1 a2] a3] a4] a5] q']|[[q' s] r]]; rewrite app_assoc; reflexivity.
      * rewrite IH. destruct (run a (kp, S ki, st1, nk ++ [ec], stack)) as [[[[[[a1 a2] a3] a4] a5] q']|[[q' s] r]]; rewrite app_assoc; reflexivity.
    + rewrite IH. destruct (run a (kp, S ki, st1, nk, stack)) as [[[[[[a1 a2] a3] a4] a5] q']|[[q' s] r]]; rewrite app_assoc; reflexivity.
Qed.
Lemma step_bad : forall c x q s r, step c x = inr (q, s, r) -> r <> Ok tt.
Proof.
  intros c ((((kp & ki) & st) & nk) & stack) q s r. unfold step. destruct (nth_error ks kp) as [k|]; [|congruence].
  destruct (nth_error (krunes k) ki) as [kr|]; [|congruence]. destruct (trigraph kr c) as [ec|e| |]; try congruence.
  destruct (decode_character U st ec []) as [[st1 q1]|e| |]; try congruence. destruct (cs_keyChange st1); [|congruence].
  destruct (gs <=? len (nk ++ [ec])); [|congruence]. destruct (get_key U (nk ++ [ec]) ks); congruence.
Qed.
Lemma run_bad : forall a x q s r, run a x = inr (q, s, r) -> r <> Ok tt.
Proof.
  induction a as [|c a IH]; intros x q s r H; cbn [run] in H; [discriminate|]. destruct (step c x) as [[y q1]|[[q1 s1] r1]] eqn:S1.
  - destruct (run a y) as [[z q2]|[[q2 s2] r2]] eqn:R; [discriminate|]. assert (r = r2) by congruence. subst r2. exact (IH _ _ _ _ R).
  - assert (r = r1) by congruence. subst r1. exact (step_bad _ _ _ _ _ S1).
Qed.
(** Letters that give a character after [x] leave the same behind. *)
Lemma step_char : forall c x y q ch, step c x = inl (y, q) -> q = [ch] ->
  exists kp ki st nk stack k kr, x = (kp, ki, st, nk, stack) /\ y = (kp, S ki, add_count st 1, nk, stack) /\
    nth_error ks kp = Some k /\ nth_error (krunes k) ki = Some kr /\ is_letter kr /\ is_letter c /\
    decode_character U st (diana_letter kr c) [] = Ok (add_count st 1, [ch]).
Proof.
  intros c ((((kp & ki) & st) & nk) & stack) y q ch H ->. unfold step in H. destruct (nth_error ks kp) as [k|] eqn:K; [|discriminate].
  destruct (nth_error (krunes k) ki) as [kr|] eqn:R; [|discriminate]. destruct (trigraph kr c) as [ec|e| |] eqn:T; try discriminate.
  destruct (decode_character U st ec []) as [[st1 q1]|e| |] eqn:D; try discriminate.
  assert (Q : q1 = [ch]).
  { destruct (cs_keyChange st1); [|congruence]. destruct (gs <=? len (nk ++ [ec])); [|congruence]. destruct (get_key U (nk ++ [ec]) ks); congruence. }
  subst q1. destruct (decode_char _ _ _ _ D) as (_ & D2 & _ & -> & _). cbn [cs_keyChange add_count] in H. rewrite D2 in H.
  destruct (trigraph_inv _ _ _ T) as (T1 & T2 & ->).
  exists kp, ki, st, nk, stack, k, kr. split; [reflexivity|]. split; [congruence|]. auto 8.
Qed.
Lemma step_char_of : forall c kp ki st nk stack k kr ch, nth_error ks kp = Some k -> nth_error (krunes k) ki = Some kr -> is_letter kr -> is_letter c ->
  decode_character U st (diana_letter kr c) [] = Ok (add_count st 1, [ch]) -> cs_keyChange st = false ->
  step c (kp, ki, st, nk, stack) = inl (kp, S ki, add_count st 1, nk, stack, [ch]).
Proof.
  intros c kp ki st nk stack k kr ch K R L1 L2 D N. unfold step. rewrite K, R, (trigraph_ok kr c L1 L2), D. cbn [cs_keyChange add_count]. rewrite N. reflexivity.
Qed.

Context (Hgs : 0 < gs) (Hks : store_ok gs ks).
Definition start (j : nat) : cfg := (j, 0%nat, new_state, [], [j]).
Lemma message_run : forall j js p a, message gs ks (j :: js) p a -> exists kp ki st nk, run a (start j) = inl (kp, ki, st, nk, j :: js, p).
Proof using Hgs Hks.
  intros j js p a M. pose proof (message_loop U gs ks Hgs Hks _ _ _ M j js eq_refl [] [j]) as L. rewrite loop_run in L. cbn [app] in L.
  fold (start j) in L. destruct (run a (start j)) as [[[[[[kp ki] st] nk] stack] q]|[[q s] r]] eqn:R.
  - assert (q = p) by congruence. assert (stack = j :: js) by congruence. subst. eauto.
  - assert (r = Ok tt) by congruence. exfalso. exact (run_bad _ _ _ _ _ R H).
Qed.
Lemma run_message : forall j k p a kp ki st nk stack, nth_error ks j = Some k -> run a (start j) = inl (kp, ki, st, nk, stack, p) ->
  exists js, message gs ks (j :: js) p a /\ stack = j :: js.
Proof using Hgs Hks.
  intros j k p a kp ki st nk stack Hk R.
  assert (D : decipher_loop U gs ks a j 0 new_state [] [] [j] = (p, stack, Ok tt)) by (rewrite loop_run; fold (start j); rewrite R; reflexivity).
  destruct (loop_message U gs ks Hgs Hks a j k new_state [] [] [] [] [j] p stack)
    as (p' & js & M & P1 & P2); auto.
  { constructor. } { constructor. } { cbn. lia. }
  { left. split; [apply new_state_ok|]. split; [reflexivity|]. intros rest. cbn [app].
    change (sec_of new_state) with false. change (cs_shift new_state) with false.
    destruct (read_part false false rest) as [[p' tl]|]; reflexivity. }
  exists js. cbn [app] in P1, P2. subst p'. split; [|exact P2].
  replace a with (diana_text (krunes k) [] ++ a); [exact M|]. destruct (krunes k); reflexivity.
Qed.
Lemma run_snoc : forall a c x y q q1, run a x = inl (y, q) -> run (a ++ [c]) x = inl q1 -> exists z q2, step c y = inl (z, q2) /\ q1 = (z, q ++ q2).
Proof using Type.
  intros a c x y q q1 R R1. rewrite run_app, R in R1. cbn [run] in R1. destruct (step c y) as [[z q2]|r]; [|destruct r as ((? & ?) & ?); discriminate].
  rewrite app_nil_r in R1. exists z, q2. split; [reflexivity|congruence].
Qed.
(** Two letters that each give a character. *)
Lemma run_alike : forall j js p a c c' x x', message gs ks (j :: js) p a ->
  message gs ks (j :: js) (p ++ [x]) (a ++ [c]) -> message gs ks (j :: js) (p ++ [x']) (a ++ [c']) ->
  exists y, run (a ++ [c]) (start j) = inl (y, p ++ [x]) /\ run (a ++ [c']) (start j) = inl (y, p ++ [x']).
Proof using Hgs Hks.
  intros j js p a c c' x x' M0 M1 M2. destruct (message_run _ _ _ _ M0) as (a1 & a2 & a3 & a4 & R0), (message_run _ _ _ _ M1) as (b1 & b2 & b3 & b4 & R1),
    (message_run _ _ _ _ M2) as (c1 & c2 & c3 & c4 & R2).
  destruct (run_snoc _ _ _ _ _ _ R0 R1) as (z1 & q1 & S1 & E1), (run_snoc _ _ _ _ _ _ R0 R2) as (z2 & q2 & S2 & E2).
  assert (Q1 : q1 = [x]) by (assert (p ++ [x] = p ++ q1) as X by congruence; apply app_inv_head in X; auto).
  assert (Q2 : q2 = [x']) by (assert (p ++ [x'] = p ++ q2) as X by congruence; apply app_inv_head in X; auto).
  destruct (step_char _ _ _ _ x S1 Q1) as (kp & ki & st & nk & stack & k & kr & X1 & X2 & _).
  destruct (step_char _ _ _ _ x' S2 Q2) as (kp' & ki' & st' & nk' & stack' & k' & kr' & Y1 & Y2 & _).
  assert (z1 = z2) by (rewrite X1 in Y1; injection Y1 as -> -> -> -> ->; congruence).
  exists z1. split; [rewrite R1, E1, Q1; reflexivity|rewrite R2, E2, Q2, H; reflexivity].
Qed.
End Loop.

(** ** Decipher *)
Section D.
Context (i : inst) (Hg : 0 < i_groupsize i) (Hs : store_ok (i_groupsize i) (i_keys i)).
Notation gs := (i_groupsize i).
Notation ks := (i_keys i).
Definition outcome_of (m : msg) (r : (cfg * list rune) + (list rune * list nat * res unit)) (t : tape) : inst * msg * res unit * tape :=
  match r with
  | inl (_, stack, q) => (set_keys i (mark_stack ks stack), set_mplain m q, Ok tt, t)
  | inr (q, _, r) => (i, set_mplain m q, r, t)
  end.
Lemma decipher_run : forall m t j k, mid m <> [] -> (length (mplain m) <= length t)%nat -> nth_error ks j = Some k -> kid k = mkeyid m ->
  gs <= len (mcipher m) -> exists t1, wipe_value (mplain m) t = ([], t1) /\
    decipher U i m t = outcome_of m (run gs ks (mcipher m) (start j)) t1.
Proof using Hg Hs.
  intros m t j k Hid Ht Hk Hkid Hc. destruct (wipe_value_enough (mplain m) t Ht) as (t1 & W). exists t1. split; [exact W|].
  unfold decipher, ensure_id. replace (len (mid m) =? 0) with false.
  2: { symmetry. apply not_true_is_false. intros Q. apply len_nil in Q. auto. }
  destruct (proj2 Hs k (nth_error_In _ _ Hk)) as (_ & Lk & _).
  rewrite <- Hkid, Lk, Z.eqb_refl. cbn [negb]. replace (len (mcipher m) <? gs) with false by lia.
  rewrite (get_key_found U _ _ _ _ Hs Hk). rewrite W, loop_run. fold (start j). cbn [app].
  destruct (run gs ks (mcipher m) (start j)) as [[[[[[kp ki] st] nk] stack] q]|[[q s] r]] eqn:R; cbn [outcome_of]; [reflexivity|].
  destruct r as [[]|e| |]; try reflexivity. exfalso. exact (run_bad _ _ _ _ _ _ _ R eq_refl).
Qed.

Lemma cut_lemma : forall m t a b i1 m1 t1, letters (mkeyid m) -> mid m <> [] -> (length (mplain m) <= length t)%nat -> gs <= len a ->
  decipher U i (set_mcipher m (a ++ b)) t = (i1, m1, Ok tt, t1) ->
  exists i2 p q, decipher U i (set_mcipher m a) t = (i2, set_mplain (set_mcipher m a) p, Ok tt, t1) /\ mplain m1 = p ++ q.
Proof using Hg Hs.
  intros m t a b i1 m1 t1 Hl Hid Ht La H.
  destruct (decipher_refines U i (set_mcipher m (a ++ b)) t i1 m1 t1 Hg Hs Hl Hid Ht H) as (j & js & k & p & Hk & Hkid & _).
  assert (LA : gs <= len (a ++ b)) by (unfold len in *; rewrite app_length; lia).
  destruct (decipher_run (set_mcipher m (a ++ b)) t j k Hid Ht Hk Hkid LA) as (t2 & W & D).
  destruct (decipher_run (set_mcipher m a) t j k Hid Ht Hk Hkid La) as (t3 & W' & D').
  assert (t2 = t3) by (cbn [mplain set_mcipher] in W, W'; congruence). subst t3. cbn [mcipher set_mcipher] in D, D'.
  rewrite D in H. rewrite run_app in H. destruct (run gs ks a (start j)) as [[[x stack] q]|[[q s] r]] eqn:R.
  - cbn [outcome_of] in D'. exists (set_keys i (mark_stack ks stack)), q. rewrite D'.
    destruct (run gs ks b (x, stack)) as [[[z s2] q2]|[[q2 s2] r2]]; cbn [outcome_of] in H; exists q2; assert (t2 = t1) by congruence; subst t2;
      (split; [reflexivity|]); assert (X : m1 = set_mplain (set_mcipher m (a ++ b)) (q ++ q2)) by congruence; rewrite X; reflexivity.
  - cbn [outcome_of] in H. exfalso. apply (run_bad _ _ _ _ _ _ _ R). congruence.
Qed.

Lemma alike_lemma : forall m t j k a b c c' p x x' y i1 m1 r t1, mid m <> [] -> (length (mplain m) <= length t)%nat ->
  nth_error ks j = Some k -> kid k = mkeyid m ->
  run gs ks (a ++ [c]) (start j) = inl (y, p ++ [x]) -> run gs ks (a ++ [c']) (start j) = inl (y, p ++ [x']) ->
  gs <= len (a ++ c :: b) ->
  decipher U i (set_mcipher m (a ++ c :: b)) t = (i1, m1, r, t1) ->
  exists q, m1 = set_mplain (set_mcipher m (a ++ c :: b)) (p ++ x :: q) /\
    decipher U i (set_mcipher m (a ++ c' :: b)) t = (i1, set_mplain (set_mcipher m (a ++ c' :: b)) (p ++ x' :: q), r, t1).
Proof using Hg Hs.
  intros m t j k a b c c' p x x' y i1 m1 r t1 Hid Ht Hk Hkid R1 R2 L H.
  assert (L' : gs <= len (a ++ c' :: b)) by (unfold len in *; rewrite app_length in *; exact L).
  destruct (decipher_run (set_mcipher m (a ++ c :: b)) t j k Hid Ht Hk Hkid L) as (t2 & W & D).
  destruct (decipher_run (set_mcipher m (a ++ c' :: b)) t j k Hid Ht Hk Hkid L') as (t3 & W' & D').
  assert (t2 = t3) by (cbn [mplain set_mcipher] in W, W'; congruence). subst t3. cbn [mcipher set_mcipher] in D, D'.
  rewrite D in H. rewrite D'. clear D D'.
  change (c :: b) with ([c] ++ b) in *. change (c' :: b) with ([c'] ++ b) in *. rewrite !app_assoc in *.
  rewrite run_app, R1 in H. rewrite run_app, R2. destruct (run gs ks b y) as [[[z s2] q2]|[[q2 s2] r2]]; cbn [outcome_of] in H |- *; exists q2;
    rewrite <- !app_assoc in *; cbn [app] in *; (split; [congruence|]).
  - assert (i1 = set_keys i (mark_stack ks s2)) by congruence. assert (r = Ok tt) by congruence. assert (t1 = t2) by congruence. subst. reflexivity.
  - assert (i1 = i) by congruence. assert (r = r2) by congruence. assert (t1 = t2) by congruence. subst. reflexivity.
Qed.
Lemma garble_lemma : forall m t j js k a b c c' p x x' i1 m1 r t1, mid m <> [] -> (length (mplain m) <= length t)%nat ->
  nth_error ks j = Some k -> kid k = mkeyid m ->
  message gs ks (j :: js) p a -> message gs ks (j :: js) (p ++ [x]) (a ++ [c]) -> message gs ks (j :: js) (p ++ [x']) (a ++ [c']) ->
  gs <= len (a ++ c :: b) ->
  decipher U i (set_mcipher m (a ++ c :: b)) t = (i1, m1, r, t1) ->
  exists q, m1 = set_mplain (set_mcipher m (a ++ c :: b)) (p ++ x :: q) /\
    decipher U i (set_mcipher m (a ++ c' :: b)) t = (i1, set_mplain (set_mcipher m (a ++ c' :: b)) (p ++ x' :: q), r, t1).
Proof using Hg Hs.
  intros m t j js k a b c c' p x x' i1 m1 r t1 Hid Ht Hk Hkid M0 M1 M2 L H.
  destruct (run_alike gs ks Hg Hs j js p a c c' x x' M0 M1 M2) as (y & R1 & R2).
  exact (alike_lemma m t j k a b c c' p x x' y i1 m1 r t1 Hid Ht Hk Hkid R1 R2 L H).
Qed.

(** ** Altering a letter *)
Definition capital_letter (x : rune) : Prop := is_letter x /\ x <> 81 /\ x <> 90.
Definition code (y : rune) : rune := if y =? 32 then 81 else y.
Lemma capital_read : forall st ec s x, is_letter ec -> capital_letter x -> decode_character U st ec [] = Ok (s, [x]) ->
  ec = x /\ s = add_count st 1 /\ cs_keyChange st = false /\
  forall y, capital_letter y \/ y = 32 -> decode_character U st (code y) [] = Ok (add_count st 1, [y]).
Proof using Type.
  intros st ec s x E X D. destruct (decode_char _ _ _ _ D) as (G & K & B & S0 & tab & ch & T & C & N & V).
  assert (TB : (cs_table st = 0 \/ Z.to_nat (cs_table st) = O) /\ tab = table_primary \/ Z.to_nat (cs_table st) = 1%nat /\ tab = table_secondary).
  { destruct (Z.to_nat (cs_table st)) as [|[|n]] eqn:Q; cbn [nth_error character_tables] in T.
    - left. split; [auto|congruence].
    - right. split; [reflexivity|congruence].
    - destruct n; discriminate. }
  assert (IN : In ch tab) by (apply nth_error_In in C; exact C).
  assert (CH : cs_shift st = false /\ Z.to_nat (cs_table st) = O /\ ch = x).
  { assert (ALL : In ch all_table_chars).
    { apply (table_in_all (match Z.to_nat (cs_table st) with O => false | _ => true end) (Z.to_nat (ec - 65))).
      pose proof (tables_same (match Z.to_nat (cs_table st) with O => false | _ => true end) (Z.to_nat (ec - 65)) tab) as TS.
      unfold is_letter in E. rewrite C in TS. specialize (TS ltac:(lia)).
      assert (X1 : nth_error character_tables (if match Z.to_nat (cs_table st) with O => false | _ => true end then 1 else 0)%nat = Some tab).
      { destruct TB as [([Q|Q] & ->)|(Q & ->)]; [rewrite Q|rewrite Q|rewrite Q]; reflexivity. }
      specialize (TS X1). replace (ch =? specialOpChar) with false in TS by (unfold specialOpChar; lia). exact TS. }
    pose proof (lower_case_ok U ch ALL (cs_shift st)) as LO. unfold spaceChar in LO. rewrite LO in V.
    unfold capital_letter, is_letter in X. destruct (cs_shift st).
    - exfalso. assert (F : forallb (fun z => let l := lower_case z in negb ((65 <=? l) && (l <=? 90) && negb (l =? 81) && negb (l =? 90))) all_table_chars = true) by reflexivity.
      rewrite forallb_forall in F. specialize (F ch ALL). cbv zeta in F. rewrite <- V in F. lia.
    - split; [reflexivity|]. destruct TB as [([Q|Q] & ->)|(Q & ->)].
      + rewrite Q. auto.
      + auto.
      + exfalso. assert (F : forallb (fun z => negb ((65 <=? z) && (z <=? 90) && negb (z =? 81) && negb (z =? 90))) table_secondary = true) by reflexivity.
        rewrite forallb_forall in F. specialize (F ch IN). subst ch. lia. }
  destruct CH as (SH & TZ & ->). rewrite TZ in T. cbn [nth_error character_tables] in T. assert (tab = table_primary) by congruence. subst tab.
  split.
  { unfold capital_letter, is_letter in X, E.
    assert (F : forallb (fun n => match nth_error table_primary n with Some z => implb ((65 <=? z) && (z <=? 90)) (z =? 65 + Z.of_nat n) | None => true end) (seq 0 26) = true) by reflexivity.
    rewrite forallb_forall in F. specialize (F (Z.to_nat (ec - 65)) ltac:(apply in_seq; lia)). rewrite C in F.
    replace ((65 <=? x) && (x <=? 90)) with true in F by lia. cbn [implb] in F. lia. }
  split; [exact S0|]. split; [exact K|].
  intros y Y.
  assert (CO : 65 <= code y <= 90 /\ nth_error table_primary (Z.to_nat (code y - 65)) = Some y /\ y <> 164).
  { destruct Y as [Y| ->]; [|cbn; split; [lia|split; [reflexivity|lia]]]. unfold capital_letter, is_letter in Y. unfold code.
    replace (y =? 32) with false by lia. split; [lia|]. split; [|lia].
    assert (F : forallb (fun n => implb (negb (Nat.eqb n 16) && negb (Nat.eqb n 25)) (match nth_error table_primary n with Some z => z =? 65 + Z.of_nat n | None => false end)) (seq 0 26) = true) by reflexivity.
    rewrite forallb_forall in F. specialize (F (Z.to_nat (y - 65)) ltac:(apply in_seq; lia)).
    replace (negb (Nat.eqb (Z.to_nat (y - 65)) 16) && negb (Nat.eqb (Z.to_nat (y - 65)) 25)) with true in F by lia. cbn [implb] in F.
    destruct (nth_error table_primary (Z.to_nat (y - 65))) as [z|]; [|discriminate]. f_equal. lia. }
  destruct CO as (C1 & C2 & C3). unfold decode_character.
  replace ((code y <? 65) || (90 <? code y)) with false by lia. rewrite B. cbv zeta. rewrite G, K, TZ.
  change (nth_error character_tables 0) with (Some table_primary). cbn iota. rewrite C2. unfold specialOpChar.
  replace (y =? 164) with false by lia. rewrite SH. reflexivity.
Qed.
Lemma forge_lemma : forall m t j js k a b c p x y i1 m1 r t1, mid m <> [] -> (length (mplain m) <= length t)%nat ->
  nth_error ks j = Some k -> kid k = mkeyid m ->
  message gs ks (j :: js) p a -> message gs ks (j :: js) (p ++ [x]) (a ++ [c]) ->
  capital_letter x -> capital_letter y \/ y = 32 ->
  gs <= len (a ++ c :: b) ->
  decipher U i (set_mcipher m (a ++ c :: b)) t = (i1, m1, r, t1) ->
  let c' := diana_letter (diana_letter x c) (code y) in
  message gs ks (j :: js) (p ++ [y]) (a ++ [c']) /\
  exists q, m1 = set_mplain (set_mcipher m (a ++ c :: b)) (p ++ x :: q) /\
    decipher U i (set_mcipher m (a ++ c' :: b)) t = (i1, set_mplain (set_mcipher m (a ++ c' :: b)) (p ++ y :: q), r, t1).
Proof using Hg Hs.
  intros m t j js k a b c p x y i1 m1 r t1 Hid Ht Hk Hkid M0 M1 X Y L H c'.
  destruct (message_run gs ks Hg Hs _ _ _ _ M0) as (a1 & a2 & a3 & a4 & R0), (message_run gs ks Hg Hs _ _ _ _ M1) as (b1 & b2 & b3 & b4 & R1).
  destruct (run_snoc gs ks _ _ _ _ _ _ R0 R1) as (z1 & q1 & S1 & E1).
  assert (Q1 : q1 = [x]) by (assert (p ++ [x] = p ++ q1) as Z by congruence; apply app_inv_head in Z; auto).
  destruct (step_char gs ks _ _ _ _ x S1 Q1) as (kp & ki & st & nk & stack & k1 & kr & X1 & X2 & K1 & K2 & K3 & K4 & D).
  destruct (capital_read st (diana_letter kr c) (add_count st 1) x (diana_letter_letter _ _) X D) as (EC & _ & KC & F).
  assert (CL : is_letter (code y)).
  { unfold code, is_letter, capital_letter, is_letter in *. destruct (y =? 32) eqn:Z; lia. }
  assert (KR : diana_letter x c = kr).
  { rewrite <- EC, (diana_letter_comm kr c), (diana_letter_comm (diana_letter c kr) c). apply diana_letter_invol; assumption. }
  assert (C' : diana_letter kr c' = code y) by (unfold c'; rewrite KR; apply diana_letter_invol; assumption).
  assert (S2 : step gs ks c' (kp, ki, st, nk, stack) = inl (kp, S ki, add_count st 1, nk, stack, [y])).
  { apply (step_char_of gs ks c' kp ki st nk stack k1 kr y K1 K2 K3); [apply diana_letter_letter|rewrite C'; apply F; exact Y|exact KC]. }
  assert (R2 : run gs ks (a ++ [c']) (start j) = inl (z1, p ++ [y])).
  { rewrite run_app, R0. cbn [run]. rewrite X1, S2, X2. cbn [app]. reflexivity. }
  split.
  - rewrite X2 in R2. destruct (run_message gs ks Hg Hs j k (p ++ [y]) (a ++ [c']) _ _ _ _ _ Hk R2) as (js' & M & E).
    assert (js' = js) by congruence. subst js'. exact M.
  - apply (alike_lemma m t j k a b c c' p x y z1 i1 m1 r t1 Hid Ht Hk Hkid); [rewrite R1, E1, Q1; reflexivity|exact R2|exact L|exact H].
Qed.
End D.
End G.
