(** Lemmas behind C135 and C136: what Decipher looks at in the store. *)
From Coq Require Import Permutation.
From Verif Require Import Base Spec Spec_Order Model_Unicode Model_Diana Model_Codec Model_Crand Model_Functions Model_Types
  Model_Cipher Proofs_Keys Proofs_Encipher Proofs_Decipher.

Section U.
Context (U : Uni).

(** Two stores in which keys are found alike. *)
Section Rel.
Context (ks ks' : list key) (Rel : nat -> nat -> Prop) (all : bool).
Context (HR : forall j j', Rel j j' -> exists k k', nth_error ks j = Some k /\ nth_error ks' j' = Some k' /\
  kid k' = kid k /\ krunes k' = krunes k).
Context (HG : forall q, match get_key U q ks with
  | Some j => exists j', get_key U q ks' = Some j' /\ Rel j j'
  | None => all = true -> get_key U q ks' = None
  end).
Lemma loop_rel : forall gs ct kp kp' ki st nk plain stack stack' p s r, Rel kp kp' -> Forall2 Rel stack stack' ->
  decipher_loop U gs ks ct kp ki st nk plain stack = (p, s, r) -> r = Ok tt \/ all = true ->
  exists s', decipher_loop U gs ks' ct kp' ki st nk plain stack' = (p, s', r) /\ Forall2 Rel s s'.
Proof using HR HG.
  intros gs. induction ct as [|c ct IH]; intros kp kp' ki st nk plain stack stack' p s r H F E A; cbn [decipher_loop] in E |- *.
  { exists stack'. split; [congruence|]. assert (stack = s) by congruence. subst s. exact F. }
  assert (STOP : forall p1 r1, (p1, stack, r1) = (p, s, r) -> exists s', (p1, stack', r1) = (p, s', r) /\ Forall2 Rel s s').
  { intros p1 r1 E1. exists stack'. split; [congruence|]. assert (stack = s) by congruence. subst s. exact F. }
  destruct (HR _ _ H) as (k & k' & K & K' & _ & L). rewrite K in E. rewrite K', L.
  destruct (nth_error (krunes k) ki) as [kr|]; [|exact (STOP _ _ E)].
  destruct (trigraph kr c) as [ec|e| |]; try exact (STOP _ _ E).
  destruct (decode_character U st ec plain) as [[st1 plain1]|e| |]; try exact (STOP _ _ E).
  destruct (cs_keyChange st1); [|exact (IH _ _ _ _ _ _ _ _ _ _ _ H F E A)]. cbv zeta in E |- *.
  destruct (gs <=? len (nk ++ [ec])); [|exact (IH _ _ _ _ _ _ _ _ _ _ _ H F E A)].
  pose proof (HG (nk ++ [ec])) as G. destruct (get_key U (nk ++ [ec]) ks) as [kp1|].
  - destruct G as (kp1' & -> & G). apply (IH _ _ _ _ _ _ _ _ _ _ _ G) with (2 := E) (3 := A).
    apply Forall2_app; [exact F|]. constructor; [exact G|constructor].
  - destruct A as [A|A]; [exfalso; congruence|]. rewrite (G A). exact (STOP _ _ E).
Qed.
End Rel.

(** ** The same IDs and letters *)
Lemma sl_len : forall ks ks', same_letters ks ks' -> length ks' = length ks.
Proof. intros ks ks' H. induction H; cbn [length]; congruence. Qed.
Lemma sl_get : forall q ks ks', same_letters ks ks' -> get_key U q ks' = get_key U q ks.
Proof.
  intros q ks ks' H. unfold get_key. generalize 0%nat. induction H as [|k k' ks ks' (A & _) H IH]; intros n; [reflexivity|].
  cbn [get_key_loop]. rewrite A, IH. reflexivity.
Qed.
Lemma sl_nth : forall ks ks' j k, same_letters ks ks' -> nth_error ks j = Some k ->
  exists k', nth_error ks' j = Some k' /\ kid k' = kid k /\ krunes k' = krunes k.
Proof.
  intros ks ks' j k H. revert j. induction H as [|x x' ks ks' (A & B) H IH]; intros [|j] E; cbn [nth_error] in *; try discriminate.
  - assert (x = k) by congruence. subst k. exists x'. auto.
  - apply IH. exact E.
Qed.
Lemma sl_refl : forall ks, same_letters ks ks.
Proof. induction ks; constructor; auto. Qed.
Lemma sl_update : forall ks ks' j k k', same_letters ks ks' -> nth_error ks' j = Some k -> kid k' = kid k -> krunes k' = krunes k ->
  same_letters ks (list_update ks' j k').
Proof.
  intros ks ks' j k k' H. revert j. induction H as [|x x' ks ks' (A & B) H IH]; intros [|j] E I L; cbn [nth_error list_update] in *; try discriminate.
  - assert (x' = k) by congruence. subst x'. constructor; [split; congruence|exact H].
  - constructor; [auto|]. apply IH; assumption.
Qed.
Lemma sl_mark : forall ks ks' j, same_letters ks ks' -> same_letters ks (mark ks' j true).
Proof.
  intros ks ks' j H. unfold mark. destruct (nth_error ks' j) as [k|] eqn:E; [|exact H].
  apply (sl_update _ _ _ k); auto.
Qed.
Lemma sl_marks : forall s ks ks', same_letters ks ks' -> same_letters ks (mark_stack ks' s).
Proof.
  induction s as [|j s IH]; intros ks ks' H; [exact H|]. apply (IH ks (mark ks' j true)). apply sl_mark. exact H.
Qed.

Lemma get_lt : forall q ks j, get_key U q ks = Some j -> (j < length ks)%nat.
Proof.
  intros q ks. unfold get_key. assert (G : forall n j, get_key_loop (key_query U q) ks n = Some j -> (n <= j < n + length ks)%nat).
  { induction ks as [|k ks IH]; intros n j E; cbn [get_key_loop length] in *; [discriminate|].
    destruct (runes_eqb (key_query U q) (go_string (kid k))) eqn:Q.
    - assert (n = j) by congruence. lia.
    - apply IH in E. lia. }
  intros j E. apply G in E. lia.
Qed.
Lemma sl_loop : forall ks ks' gs ct kp ki st nk plain stack, same_letters ks ks' -> (kp < length ks)%nat ->
  decipher_loop U gs ks' ct kp ki st nk plain stack = decipher_loop U gs ks ct kp ki st nk plain stack.
Proof.
  intros ks ks' gs ct kp ki st nk plain stack H L.
  assert (Forall2 eq stack stack) by (induction stack; constructor; auto).
  destruct (decipher_loop U gs ks ct kp ki st nk plain stack) as [[p s] r] eqn:E.
  revert kp ki st nk plain stack p s r L E H0. induction ct as [|c ct IH]; intros kp ki st nk plain stack p s r L E F; cbn [decipher_loop] in E |- *; [exact E|].
  destruct (nth_error ks kp) as [k|] eqn:K; [|exfalso; apply nth_error_None in K; lia].
  destruct (sl_nth _ _ _ _ H K) as (k' & -> & _ & ->). destruct (nth_error (krunes k) ki) as [kr|]; [|exact E].
  destruct (trigraph kr c) as [ec|e| |]; try exact E. destruct (decode_character U st ec plain) as [[st1 plain1]|e| |]; try exact E.
  destruct (cs_keyChange st1); [|exact (IH _ _ _ _ _ _ _ _ _ L E F)]. cbv zeta in E |- *.
  destruct (gs <=? len (nk ++ [ec])); [|exact (IH _ _ _ _ _ _ _ _ _ L E F)]. rewrite (sl_get _ _ _ H).
  destruct (get_key U (nk ++ [ec]) ks) as [kp1|] eqn:G; [|exact E].
  apply (IH _ _ _ _ _ _ _ _ _ (get_lt _ _ _ G) E). clear. induction (stack ++ [kp1]); constructor; auto.
Qed.

(** What Decipher does to the store depends on the IDs and letters only. *)
Lemma set_keys_same : forall i, set_keys i (i_keys i) = i.
Proof. intros []. reflexivity. Qed.
Lemma decipher_core : forall i m t, exists s m' r t', forall ks', same_letters (i_keys i) ks' ->
  decipher U (set_keys i ks') m t = (set_keys i (mark_stack ks' s), m', r, t').
Proof.
  intros i m t. unfold decipher. cbn [i_groupsize set_keys i_keys].
  assert (EN : forall ks', ensure_id (set_keys i ks') m t = ensure_id i m t) by reflexivity.
  destruct (ensure_id i m t) as [[m1 t1]|e| |] eqn:E; try (exists [], m; do 2 eexists; intros ks' H; rewrite EN; reflexivity).
  destruct (negb (len (mkeyid m1) =? i_groupsize i)) eqn:A1.
  { exists [], m1. do 2 eexists. intros ks' H. rewrite EN, A1. reflexivity. }
  destruct (len (mcipher m1) <? i_groupsize i) eqn:A2.
  { exists [], m1. do 2 eexists. intros ks' H. rewrite EN, A1, A2. reflexivity. }
  destruct (get_key U (mkeyid m1) (i_keys i)) as [k0|] eqn:G.
  2: { exists [], m1. do 2 eexists. intros ks' H. rewrite EN, A1, A2, (sl_get _ _ _ H), G. reflexivity. }
  destruct (wipe_value (mplain m1) t1) as [p0 t2] eqn:W.
  destruct (decipher_loop U (i_groupsize i) (i_keys i) (mcipher m1) k0 0 new_state [] p0 [k0]) as [[p s] r] eqn:L.
  exists (match r with Ok _ => s | _ => [] end), (set_mplain m1 p), (match r with Ok _ => Ok tt | _ => r end), t2.
  intros ks' H. rewrite EN, A1, A2, (sl_get _ _ _ H), G, W, (sl_loop (i_keys i) ks' _ _ _ _ _ _ _ _ H (get_lt _ _ _ G)), L.
  destruct r as [[]|e| |]; reflexivity.
Qed.
(** As an equation of states: nothing but the key list changes. *)
Lemma decipher_same_letters : forall i ks' m t j m1 r t1, same_letters (i_keys i) ks' -> decipher U i m t = (j, m1, r, t1) ->
  exists ks1, decipher U (set_keys i ks') m t = (set_keys i ks1, m1, r, t1) /\ same_letters (i_keys j) ks1 /\
    j = set_keys i (i_keys j).
Proof.
  intros i ks' m t j m1 r t1 H E. destruct (decipher_core i m t) as (s & m2 & r2 & t2 & C).
  pose proof (C (i_keys i) (sl_refl _)) as C0. rewrite set_keys_same, E in C0.
  assert (J : j = set_keys i (mark_stack (i_keys i) s)) by congruence. exists (mark_stack ks' s).
  split; [rewrite (C ks' H); congruence|]. subst j. cbn [i_keys set_keys]. split; [|reflexivity].
  assert (SY : forall a b, same_letters a b -> same_letters b a).
  { intros a b X. induction X as [|x y a b (P & Q) X IH]; constructor; [split; congruence|exact IH]. }
  assert (TR : forall a b c, same_letters a b -> same_letters b c -> same_letters a c).
  { intros a b c X. revert c. induction X as [|x y a b (P & Q) X IH]; intros c Y; inversion Y; subst; constructor.
    - destruct H2. split; congruence.
    - apply IH. assumption. }
  apply (TR _ (i_keys i)); [apply SY, sl_marks, sl_refl|]. apply sl_marks. exact H.
Qed.

(** ** Marks commute *)
Lemma update_comm : forall (A : Type) (l : list A) a b x y, a <> b ->
  list_update (list_update l a x) b y = list_update (list_update l b y) a x.
Proof.
  intros A l. induction l as [|z l IH]; intros [|a] [|b] x y N; cbn [list_update]; try reflexivity; [congruence|]. f_equal. apply IH. congruence.
Qed.
Lemma update_nth_other : forall (A : Type) (l : list A) a b x, a <> b -> nth_error (list_update l a x) b = nth_error l b.
Proof.
  intros A l. induction l as [|z l IH]; intros [|a] [|b] x N; cbn [list_update nth_error]; try reflexivity; [congruence|]. apply IH. congruence.
Qed.
Lemma mark_comm : forall ks a b, mark (mark ks a true) b true = mark (mark ks b true) a true.
Proof.
  intros ks a b. destruct (Nat.eq_dec a b) as [->|N]; [reflexivity|]. unfold mark.
  destruct (nth_error ks a) as [ka|] eqn:A; destruct (nth_error ks b) as [kb|] eqn:B.
  - rewrite update_nth_other by exact N. rewrite ?B, update_nth_other by congruence. rewrite ?A. apply update_comm. exact N.
  - rewrite update_nth_other by exact N. rewrite ?B, ?A. reflexivity.
  - rewrite update_nth_other by congruence. rewrite ?B, ?A. reflexivity.
  - rewrite ?B, ?A. reflexivity.
Qed.
Lemma marks_comm1 : forall s ks a, mark_stack (mark ks a true) s = mark (mark_stack ks s) a true.
Proof.
  induction s as [|j s IH]; intros ks a; [reflexivity|].
  change (mark_stack (mark (mark ks a true) j true) s = mark (mark_stack (mark ks j true) s) a true).
  rewrite mark_comm. apply IH.
Qed.
Lemma marks_comm : forall s s' ks, mark_stack (mark_stack ks s) s' = mark_stack (mark_stack ks s') s.
Proof.
  induction s as [|j s IH]; intros s' ks; [reflexivity|].
  change (mark_stack (mark_stack (mark ks j true) s) s' = mark_stack (mark (mark_stack ks s') j true) s).
  rewrite IH, marks_comm1. reflexivity.
Qed.
Lemma mark_idem : forall ks j, mark (mark ks j true) j true = mark ks j true.
Proof.
  intros ks j. unfold mark. destruct (nth_error ks j) as [k|] eqn:E; [|rewrite E; reflexivity].
  revert j E. induction ks as [|x ks IH]; intros [|j] E; cbn [nth_error list_update] in *; try discriminate.
  - reflexivity.
  - specialize (IH j E). destruct (nth_error (list_update ks j (set_used k true)) j); f_equal; exact IH.
Qed.
Lemma marks_idem : forall s ks, mark_stack (mark_stack ks s) s = mark_stack ks s.
Proof.
  induction s as [|j s IH]; intros ks; [reflexivity|].
  change (mark_stack (mark (mark_stack (mark ks j true) s) j true) s = mark_stack (mark ks j true) s).
  rewrite <- marks_comm1, mark_idem. apply IH.
Qed.

(** ** Reading several messages *)
Lemma decipher_twice : forall i m t j m1 r t1 m2 t2 j2 m3 r2 t3,
  decipher U i m t = (j, m1, r, t1) -> decipher U j m2 t2 = (j2, m3, r2, t3) ->
  exists j' j2', decipher U i m2 t2 = (j', m3, r2, t3) /\ decipher U j' m t = (j2', m1, r, t1) /\ j2' = j2.
Proof.
  intros i m t j m1 r t1 m2 t2 j2 m3 r2 t3 E1 E2.
  destruct (decipher_core i m t) as (sa & ma & ra & ta & CA). destruct (decipher_core i m2 t2) as (sb & mb & rb & tb & CB).
  pose proof (CA _ (sl_refl _)) as A0. pose proof (CB _ (sl_refl _)) as B0. rewrite set_keys_same in A0, B0.
  rewrite E1 in A0. assert (J : j = set_keys i (mark_stack (i_keys i) sa)) by congruence. subst j.
  rewrite (CB _ (sl_marks sa _ _ (sl_refl _))) in E2.
  exists (set_keys i (mark_stack (i_keys i) sb)), (set_keys i (mark_stack (mark_stack (i_keys i) sb) sa)).
  split; [rewrite B0; congruence|]. split; [rewrite (CA _ (sl_marks sb _ _ (sl_refl _))); congruence|].
  rewrite marks_comm. congruence.
Qed.
Lemma read_all_spec : forall ms i, exists s, fst (read_all U i ms) = set_keys i (mark_stack (i_keys i) s) /\
  snd (read_all U i ms) = map (reading U i) ms /\
  (forall ks', same_letters (i_keys i) ks' -> map (reading U (set_keys i ks')) ms = map (reading U i) ms /\
     fst (read_all U (set_keys i ks') ms) = set_keys i (mark_stack ks' s)).
Proof.
  induction ms as [|[m t] ms IH]; intros i; cbn [read_all].
  { exists []. cbn [fst snd mark_stack fold_left map]. rewrite set_keys_same. auto. }
  destruct (decipher_core i m t) as (sa & ma & ra & ta & CA). pose proof (CA _ (sl_refl _)) as A0. rewrite set_keys_same in A0.
  destruct (IH i) as (sb & I1 & I2 & I3). destruct (I3 (mark_stack (i_keys i) sa) (sl_marks sa _ _ (sl_refl _))) as (I4 & I5).
  destruct (IH (set_keys i (mark_stack (i_keys i) sa))) as (sc & _ & J2 & _). rewrite I4 in J2.
  exists (sa ++ sb). rewrite A0. destruct (read_all U (set_keys i (mark_stack (i_keys i) sa)) ms) as [i2 rs] eqn:R. cbn [fst snd] in *.
  assert (M : forall l, mark_stack l (sa ++ sb) = mark_stack (mark_stack l sa) sb) by (intros l; apply fold_left_app).
  split; [rewrite M; exact I5|]. split.
  { cbn [map]. unfold reading at 1. cbn [fst snd]. rewrite A0, J2. reflexivity. }
  intros ks' H. destruct (I3 ks' H) as (K1 & _). cbn [map]. split.
  { unfold reading at 1 3. cbn [fst snd]. rewrite A0, (CA ks' H), K1. reflexivity. }
  rewrite (CA ks' H). destruct (I3 (mark_stack ks' sa) (sl_marks sa _ _ H)) as (_ & K2).
  destruct (read_all U (set_keys i (mark_stack ks' sa)) ms) as [i3 rs3]. cbn [fst] in *. rewrite M. exact K2.
Qed.
Lemma read_all_each : forall i ms, snd (read_all U i ms) = map (reading U i) ms.
Proof. intros i ms. destruct (read_all_spec ms i) as (s & _ & H & _). exact H. Qed.
Lemma read_all_perm : forall i ms ms', Permutation ms ms' -> fst (read_all U i ms) = fst (read_all U i ms').
Proof.
  intros i ms ms' P. revert i. induction P as [|[m t] l l' P IH|[m t] [m2 t2] l|l l' l'' P1 IH1 P2 IH2]; intros i.
  - reflexivity.
  - cbn [read_all]. destruct (decipher U i m t) as [[[j m1] r] t1]. specialize (IH j).
    destruct (read_all U j l), (read_all U j l'). exact IH.
  - cbn [read_all]. destruct (decipher U i m2 t2) as [[[j m1] r] t1] eqn:E1. destruct (decipher U j m t) as [[[j2 m3] r2] t3] eqn:E2.
    destruct (decipher_twice _ _ _ _ _ _ _ _ _ _ _ _ _ E1 E2) as (j' & j2' & -> & -> & ->).
    destruct (read_all U j2 l). reflexivity.
  - rewrite IH1. apply IH2.
Qed.
(** The same message again: the same outcome, nothing more marked. *)
Lemma decipher_again : forall i m t j m1 r t1, decipher U i m t = (j, m1, r, t1) -> decipher U j m t = (j, m1, r, t1).
Proof.
  intros i m t j m1 r t1 E. destruct (decipher_core i m t) as (s & m2 & r2 & t2 & C). pose proof (C _ (sl_refl _)) as C0.
  rewrite set_keys_same, E in C0. assert (J : j = set_keys i (mark_stack (i_keys i) s)) by congruence. subst j.
  rewrite (C _ (sl_marks s _ _ (sl_refl _))), marks_idem. congruence.
Qed.

Lemma decipher_reread : forall i m t j m1 t1 t', decipher U i m t = (j, m1, Ok tt, t1) -> mid m <> [] ->
  (length (mplain m) <= length t)%nat -> (length (mplain m1) <= length t')%nat ->
  exists t2, decipher U j m1 t' = (j, m1, Ok tt, t2).
Proof.
  intros i m t j m1 t1 t' E I L L'. apply decipher_again in E. unfold decipher, ensure_id in E |- *.
  assert (Z : (len (mid m) =? 0) = false). { destruct (mid m); [congruence|]. unfold len. cbn [length]. lia. }
  rewrite Z in E.
  destruct (negb (len (mkeyid m) =? i_groupsize j)) eqn:A1; [exfalso; congruence|].
  destruct (len (mcipher m) <? i_groupsize j) eqn:A2; [exfalso; congruence|].
  destruct (get_key U (mkeyid m) (i_keys j)) as [k0|] eqn:G; [|exfalso; congruence].
  pose proof (wipe_value_nil (mplain m) t (or_intror L)) as W. destruct (wipe_value (mplain m) t) as [p0 t2]. cbn [fst] in W. subst p0.
  destruct (decipher_loop U (i_groupsize j) (i_keys j) (mcipher m) k0 0 new_state [] [] [k0]) as [[p s] r] eqn:D.
  destruct r as [[]|e| |]; try (exfalso; congruence). assert (M : m1 = set_mplain m p) by congruence. subst m1.
  cbn [mid set_mplain]. rewrite Z. cbv iota beta zeta. cbn [mkeyid mcipher set_mplain]. rewrite A1, A2, G. cbn [mplain set_mplain] in L' |- *.
  pose proof (wipe_value_nil p t' (or_intror L')) as W. destruct (wipe_value p t') as [p0 t3]. cbn [fst] in W. subst p0. rewrite D.
  exists t3. assert (J : set_keys j (mark_stack (i_keys j) s) = j) by congruence. rewrite J. reflexivity.
Qed.

(** ** More keys *)
Lemma get_more : forall q ks more j, get_key U q ks = Some j -> get_key U q (ks ++ more) = Some j.
Proof.
  intros q ks more. unfold get_key. generalize 0%nat. induction ks as [|k ks IH]; intros n j E; cbn [app get_key_loop] in *; [discriminate|].
  destruct (runes_eqb (key_query U q) (go_string (kid k))); [exact E|]. apply IH. exact E.
Qed.
Lemma mark_more : forall ks more j, (j < length ks)%nat -> mark (ks ++ more) j true = mark ks j true ++ more.
Proof.
  intros ks more j L. unfold mark. rewrite nth_error_app1 by exact L. destruct (nth_error ks j) as [k|] eqn:E; [|reflexivity].
  clear E. revert j L. induction ks as [|x ks IH]; intros [|j] L; cbn [length app list_update] in *; try lia; [reflexivity|].
  f_equal. apply IH. lia.
Qed.
Lemma marks_more : forall s ks more, Forall (fun j => (j < length ks)%nat) s ->
  mark_stack (ks ++ more) s = mark_stack ks s ++ more.
Proof.
  induction s as [|j s IH]; intros ks more F; [reflexivity|]. inversion F as [|? ? L F']; subst.
  change (mark_stack (mark (ks ++ more) j true) s = mark_stack (mark ks j true) s ++ more). rewrite mark_more by exact L. apply IH.
  rewrite (sl_len ks (mark ks j true)) by (apply sl_mark, sl_refl). exact F'.
Qed.
Lemma decipher_more : forall i more m t j m1 t1, decipher U i m t = (j, m1, Ok tt, t1) ->
  decipher U (set_keys i (i_keys i ++ more)) m t = (set_keys i (i_keys j ++ more), m1, Ok tt, t1).
Proof.
  intros i more m t j m1 t1 E. unfold decipher in E |- *.
  replace (ensure_id (set_keys i (i_keys i ++ more)) m t) with (ensure_id i m t) by reflexivity. cbn [i_groupsize i_keys set_keys].
  destruct (ensure_id i m t) as [[m2 t2]|e| |]; try (exfalso; congruence).
  destruct (negb (len (mkeyid m2) =? i_groupsize i)); [exfalso; congruence|].
  destruct (len (mcipher m2) <? i_groupsize i); [exfalso; congruence|].
  destruct (get_key U (mkeyid m2) (i_keys i)) as [k0|] eqn:G; [|exfalso; congruence]. rewrite (get_more _ _ more _ G).
  destruct (wipe_value (mplain m2) t2) as [p0 t3].
  destruct (decipher_loop U (i_groupsize i) (i_keys i) (mcipher m2) k0 0 new_state [] p0 [k0]) as [[p s] r] eqn:D.
  destruct r as [[]|e| |]; try (exfalso; congruence).
  destruct (loop_rel (i_keys i) (i_keys i ++ more) (fun a b => a = b /\ (a < length (i_keys i))%nat) false) with (5 := D) (kp' := k0) (stack' := [k0])
    as (s' & D' & F).
  - intros a b (<- & L). destruct (nth_error (i_keys i) a) as [k|] eqn:K; [|apply nth_error_None in K; lia].
    exists k, k. rewrite nth_error_app1 by exact L. auto.
  - intros q. destruct (get_key U q (i_keys i)) as [a|] eqn:Q; [|discriminate]. exists a. split; [apply get_more; exact Q|].
    split; [reflexivity|apply get_lt in Q; exact Q].
  - split; [reflexivity|apply get_lt in G; exact G].
  - constructor; [|constructor]. split; [reflexivity|apply get_lt in G; exact G].
  - left. reflexivity.
  - rewrite D'. assert (s' = s). { clear - F. induction F as [|a b s s' (-> & _) F IH]; congruence. } subst s'.
    assert (J : i_keys j = mark_stack (i_keys i) s). { apply (f_equal (fun x => i_keys (fst (fst (fst x))))) in E. cbn [fst i_keys set_keys] in E. congruence. }
    rewrite J, marks_more.
    { assert (M : m1 = set_mplain m2 p) by congruence. assert (T : t1 = t3) by congruence. rewrite M, T. reflexivity. }
    clear - F. induction F as [|a b s s' (<- & L) F IH]; constructor; auto.
Qed.

(** ** The order of the keys *)
Definition fmark (id : list rune) (k : key) : key := if runes_eqb (kid k) id then set_used k true else k.
Lemma mark_fmark : forall ks j k, NoDup (map kid ks) -> nth_error ks j = Some k -> mark ks j true = map (fmark (kid k)) ks.
Proof.
  intros ks j k N E. unfold mark. rewrite E. revert j N E. induction ks as [|x ks IH]; intros [|j] N E; cbn [nth_error list_update map] in *; try discriminate.
  - assert (x = k) by congruence. subst x. unfold fmark at 1. rewrite (proj2 (runes_eqb_spec (kid k) (kid k)) eq_refl). f_equal.
    inversion N as [|? ? NI N']; subst. clear - NI. induction ks as [|y ks IH]; [reflexivity|]. cbn [map In] in *. f_equal; [|apply IH; tauto].
    unfold fmark. destruct (runes_eqb (kid y) (kid k)) eqn:Q; [|reflexivity]. apply runes_eqb_spec in Q. tauto.
  - inversion N as [|? ? NI N']; subst. f_equal; [|apply IH; assumption]. unfold fmark.
    destruct (runes_eqb (kid x) (kid k)) eqn:Q; [|reflexivity]. apply runes_eqb_spec in Q. exfalso. apply NI. rewrite Q. apply in_map, (nth_error_In _ j), E.
Qed.
Lemma fmark_kid : forall id ks, map kid (map (fmark id) ks) = map kid ks.
Proof. intros id ks. rewrite map_map. apply map_ext. intros k. unfold fmark. destruct (runes_eqb (kid k) id); reflexivity. Qed.
Definition at_both (ks ks' : list key) (a b : nat) : Prop := exists k, nth_error ks a = Some k /\ nth_error ks' b = Some k.
Lemma marks_perm : forall s s' ks ks', NoDup (map kid ks) -> Permutation ks ks' -> Forall2 (at_both ks ks') s s' ->
  Permutation (mark_stack ks s) (mark_stack ks' s').
Proof.
  intros s. induction s as [|j s IH]; intros s' ks ks' N P F; inversion F as [|? b ? s2 (k & A & B) F']; subst; [exact P|].
  change (Permutation (mark_stack (mark ks j true) s) (mark_stack (mark ks' b true) s2)).
  rewrite (mark_fmark ks j k N A). rewrite (mark_fmark ks' b k) by (try exact B; apply (Permutation_NoDup (Permutation_map kid P) N)).
  apply IH.
  - rewrite fmark_kid. exact N.
  - apply Permutation_map. exact P.
  - clear - F'. induction F' as [|x y s s2 (z & X & Y) F IH]; constructor; [|exact IH].
    exists (fmark (kid k) z). rewrite !nth_error_map, X, Y. auto.
Qed.
Lemma get_perm : forall gs ks ks' q, store_ok gs ks -> Permutation ks ks' ->
  match get_key U q ks with
  | Some j => exists j', get_key U q ks' = Some j' /\ at_both ks ks' j j'
  | None => true = true -> get_key U q ks' = None
  end.
Proof.
  intros gs ks ks' q Hs P. unfold get_key. destruct Hs as (N & Hs).
  assert (INJ : forall a b, In a ks -> In b ks -> go_string (kid a) = go_string (kid b) -> a = b).
  { intros a b IA IB E. assert (GS : forall k, In k ks -> go_string (kid k) = kid k).
    { intros k I. destruct (Hs k I) as (L & _). unfold go_string. clear - L. unfold letters in L. induction L as [|c l C L IH]; [reflexivity|].
      cbn [map]. f_equal; [|exact IH]. unfold is_letter in C. unfold valid_rune. destruct (_ && _) eqn:V; [reflexivity|]. lia. }
    rewrite (GS a IA), (GS b IB) in E. clear - N IA IB E. induction ks as [|x ks IH]; [contradiction|]. cbn [map] in N. inversion N as [|? ? NI N']; subst.
    destruct IA as [->|IA], IB as [->|IB]; [reflexivity| | |apply IH; assumption].
    - exfalso. apply NI. rewrite E. apply in_map, IB.
    - exfalso. apply NI. rewrite <- E. apply in_map, IA. }
  destruct (get_key_loop (key_query U q) ks 0) as [j|] eqn:G.
  - apply get_key_loop_some in G. destruct G as (_ & k & K & Q). rewrite Nat.sub_0_r in K.
    destruct (get_key_loop (key_query U q) ks' 0) as [j'|] eqn:G'.
    + exists j'. split; [reflexivity|]. apply get_key_loop_some in G'. destruct G' as (_ & k' & K' & Q'). rewrite Nat.sub_0_r in K'.
      exists k. split; [exact K|]. rewrite K'. f_equal. apply INJ.
      * apply (Permutation_in _ (Permutation_sym P)). apply (nth_error_In _ j'), K'.
      * apply (nth_error_In _ j), K.
      * congruence.
    + exfalso. apply (get_key_loop_none _ _ _ G' k); [|congruence]. apply (Permutation_in _ P), (nth_error_In _ j), K.
  - intros _. destruct (get_key_loop (key_query U q) ks' 0) as [j'|] eqn:G'; [|reflexivity]. exfalso.
    apply get_key_loop_some in G'. destruct G' as (_ & k' & K' & Q'). rewrite Nat.sub_0_r in K'.
    apply (get_key_loop_none _ _ _ G k'); [|congruence]. apply (Permutation_in _ (Permutation_sym P)), (nth_error_In _ j'), K'.
Qed.
Lemma decipher_perm : forall i ks' m t j m1 r t1, store_ok (i_groupsize i) (i_keys i) -> Permutation (i_keys i) ks' ->
  decipher U i m t = (j, m1, r, t1) ->
  exists ks1, decipher U (set_keys i ks') m t = (set_keys i ks1, m1, r, t1) /\ Permutation (i_keys j) ks1.
Proof.
  intros i ks' m t j m1 r t1 Hs P E. unfold decipher in E |- *.
  replace (ensure_id (set_keys i ks') m t) with (ensure_id i m t) by reflexivity. cbn [i_groupsize i_keys set_keys].
  assert (STOP : forall mm rr tt', (i, mm, rr, tt') = (j, m1, r, t1) ->
     exists ks1, (set_keys i ks', mm, rr, tt') = (set_keys i ks1, m1, r, t1) /\ Permutation (i_keys j) ks1).
  { intros mm rr tt' X. exists ks'. split; [congruence|]. assert (i = j) by congruence. subst j. exact P. }
  destruct (ensure_id i m t) as [[m2 t2]|e| |]; try exact (STOP _ _ _ E).
  destruct (negb (len (mkeyid m2) =? i_groupsize i)); [exact (STOP _ _ _ E)|].
  destruct (len (mcipher m2) <? i_groupsize i); [exact (STOP _ _ _ E)|].
  pose proof (get_perm _ _ _ (mkeyid m2) Hs P) as G.
  destruct (get_key U (mkeyid m2) (i_keys i)) as [k0|]; [|rewrite (G eq_refl); exact (STOP _ _ _ E)].
  destruct G as (k0' & -> & R0). destruct (wipe_value (mplain m2) t2) as [p0 t3].
  destruct (decipher_loop U (i_groupsize i) (i_keys i) (mcipher m2) k0 0 new_state [] p0 [k0]) as [[p s] r1] eqn:D.
  destruct (loop_rel (i_keys i) ks' (at_both (i_keys i) ks') true) with (5 := D) (kp' := k0') (stack' := [k0'])
    as (s' & D' & F).
  - intros a b (k & A & B). exists k, k. auto.
  - intros q. apply (get_perm _ _ _ q Hs P).
  - exact R0.
  - constructor; [exact R0|constructor].
  - right. reflexivity.
  - rewrite D'. destruct r1 as [[]|e| |]; try exact (STOP _ _ _ E). exists (mark_stack ks' s'). split.
    { assert (M : m1 = set_mplain m2 p) by congruence. assert (T : t1 = t3) by congruence. assert (R : r = Ok tt) by congruence. rewrite M, T, R. reflexivity. }
    assert (J : i_keys j = mark_stack (i_keys i) s). { apply (f_equal (fun x => i_keys (fst (fst (fst x))))) in E. cbn [fst i_keys set_keys] in E. congruence. }
    rewrite J. apply marks_perm; [apply Hs|exact P|exact F].
Qed.
End U.
