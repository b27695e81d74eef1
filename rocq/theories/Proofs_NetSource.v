(** Lemmas: what is heard in a net whose keys come from a random source. *)
From Verif Require Import Base Spec Spec_Secrecy Model_Unicode Model_Crand Model_Types Model_Cipher Model_Keys Model_Import Model_Net Spec_Net
  Spec_NetSecret Proofs_Secrecy2 Proofs_SecretGen Proofs_Net Proofs_NetSecret.
From Verif Require Import Proofs_Crand Proofs_Uniform.

Lemma letters_of gs ks ks2 : store_ok gs ks -> refilled ks ks2 -> map (with_letters ks2) ks = ks2.
Proof.
  intros S R. assert (S2 := refilled_store gs ks ks2 S R).
  assert (G : forall l l2, Forall2 other_letters l l2 -> (forall k, In k l2 -> In k ks2) -> map (with_letters ks2) l = l2).
  { clear R. intros l l2 R. induction R as [|k k2 l l2 O R IH]; intros I; [reflexivity|]. cbn [map].
    rewrite IH by (intros x X; apply I; right; exact X). f_equal. destruct O as (O & _).
    unfold with_letters. rewrite (find_id gs ks2 (kid k) k2 S2 (I k2 (or_introl eq_refl))); [symmetry; exact O|rewrite O; reflexivity]. }
  apply G; [exact R|auto].
Qed.
Lemma no_letters ks2 l : (forall i, In i l -> i_keys i = []) -> map (with_keys ks2) l = l.
Proof.
  intros H. induction l as [|i l IH]; [reflexivity|]. cbn [map]. rewrite IH by (intros j J; apply H; right; exact J). f_equal.
  unfold with_keys. rewrite (H i (or_introl eq_refl)). cbn [map]. specialize (H i (or_introl eq_refl)). destruct i as [x1 x2 x3 x4 x5 x6 x7]. cbn [i_keys] in H. subst x5. reflexivity.
Qed.

Section Source.
Context (U : Uni) (HU : uni_ok U) (gs : Z) (w : net) (a : nat) (i : inst).
Context (W : net_start gs w) (E : forall k, ~ key_somewhere w k) (A : nth_error (nt_stations w) a = Some i).

Lemma none_here j b : nth_error (nt_stations w) b = Some j -> i_keys j = [].
Proof using E.
  intros N. destruct (i_keys j) as [|k l] eqn:K; [reflexivity|]. exfalso. apply (E k). left. exists b, j. split; [exact N|]. rewrite K. left. reflexivity.
Qed.
Lemma keys_there news k : key_somewhere (set_station w a (set_keys i news)) k -> In k news.
Proof using E A.
  intros [(b & j & N & I)|(f & F & I)].
  - cbn [set_station nt_stations] in N. rewrite nth_update in N. destruct (Nat.eqb a b) eqn:B.
    + apply Nat.eqb_eq in B. subst b. rewrite A in N. cbn [option_map] in N. injection N as <-. exact I.
    + exfalso. apply (E k). left. exists b, j. auto.
  - exfalso. apply (E k). right. exists f. auto.
Qed.
Lemma filled_with news ks2 : store_ok gs news -> refilled news ks2 ->
  filled ks2 (set_station w a (set_keys i news)) = set_station w a (set_keys i ks2).
Proof using E A.
  intros S R. unfold filled, set_station. cbn [nt_stations nt_files nt_air nt_heard]. rewrite update_map.
  assert (X : with_keys ks2 (set_keys i news) = set_keys i ks2).
  { unfold with_keys. cbn [i_keys set_keys]. rewrite (letters_of gs news ks2 S R). reflexivity. }
  rewrite X, !no_letters; [reflexivity| |].
  - intros f F. destruct (i_keys f) as [|k l] eqn:K; [reflexivity|]. exfalso. apply (E k). right. exists f. split; [exact F|]. rewrite K. left. reflexivity.
  - intros j J. apply In_nth_error in J. destruct J as (b & J). exact (none_here j b J).
Qed.
Lemma generated_start news : store_ok gs news -> net_start gs (set_station w a (set_keys i news)) /\
  keys_of_net gs (set_station w a (set_keys i news)) news.
Proof using W E A.
  intros S. destruct W as (G & ST & FL & _ & AIR & HEARD). split.
  - split; [exact G|]. split.
    { intros b j N. cbn [set_station nt_stations] in N. rewrite nth_update in N. destruct (Nat.eqb a b) eqn:B.
      - apply Nat.eqb_eq in B. subst b. rewrite A in N. cbn [option_map] in N. injection N as <-. destruct (ST a i A) as (X & Y & _). cbn [i_groupsize i_keylength i_keys set_keys]. auto.
      - exact (ST b j N). }
    split; [exact FL|]. split; [|split; [exact AIR|exact HEARD]].
    intros k k' K K' X. apply keys_there in K, K'. f_equal. exact (store_same gs news k k' S K K' X).
  - split; [exact S|]. intros k K. exists k. split; [exact (keys_there news k K)|auto].
Qed.

Context (nn : nat) (now e : Z) (kp : list (list rune)) (N : nat).
Lemma net_source_core t0 i0 t0' os os' cs :
  new_keys U nn i now e kp t0 = Ok (i0, t0') ->
  Forall plain_op os -> all_along U reads_first (set_station w a i0) os ->
  Forall plain_op os' -> all_along U reads_first (set_station w a i0) os' ->
  map (fun e => length (en_cipher e)) (nt_air (nt_run U (set_station w a i0) os)) =
  map (fun e => length (en_cipher e)) (nt_air (nt_run U (set_station w a i0) os')) ->
  Forall2 (fun e c => letters c /\ length c = length (en_cipher e)) (nt_air (nt_run U (set_station w a i0) os)) cs ->
  let source os t := length t = N /\ Forall word t /\ exists i1 t1, new_keys U nn i now e kp t = Ok (i1, t1) /\
    map kid (i_keys i1) = map kid (i_keys i0) /\ map en_cipher (nt_air (nt_run U (set_station w a i1) os)) = cs in
  exists l l', NoDup l /\ NoDup l' /\ length l = length l' /\ (length t0 = N -> Forall word t0 -> l <> []) /\
    (forall t, In t l <-> source os t) /\ (forall t, In t l' <-> source os' t).
Proof using HU W E A.
  intros H0 P P' AA AA' L HC. cbv zeta. assert (K0 := none_here i a A).
  destruct W as (G & ST & _). destruct (ST a i A) as (Gi & Li & _).
  assert (Hg : 0 < i_groupsize i) by lia.
  destruct (new_keys_made U _ _ _ _ _ _ _ _ Hg Li H0) as (news & -> & M & ND). rewrite K0 in *. cbn [app] in *.
  assert (SO : store_ok gs news).
  { split; [apply ND; constructor|]. intros k K. rewrite Forall_forall in M. destruct (M k K) as (_ & M1 & M2 & M3 & _). rewrite Gi in M2. auto. }
  destruct (generated_start news SO) as (NS & KN).
  assert (LT : Forall (fun k => letters (krunes k)) news) by (apply Forall_impl with (2 := M); intros k (_ & _ & _ & X & _); exact X).
  destruct (yields_list U nn i now e kp Hg Li N news) as (c0 & NC & IC).
  assert (ONE : forall os ls, (forall ks2, In ks2 ls <-> refilled news ks2 /\
      map en_cipher (nt_air (nt_run U (filled ks2 (set_station w a (set_keys i news))) os)) = cs) -> NoDup ls ->
    exists l, NoDup l /\ length l = (length ls * length c0)%nat /\
      forall t, In t l <-> length t = N /\ Forall word t /\ exists i1 t1, new_keys U nn i now e kp t = Ok (i1, t1) /\
        map kid (i_keys i1) = map kid (i_keys (set_keys i news)) /\ map en_cipher (nt_air (nt_run U (set_station w a i1) os)) = cs).
  { intros os1 ls I NL. destruct (yields_many U nn i now e kp Hg Li N news c0 NC) with (ls := ls) as (l & N1 & N2 & N3); [rewrite K0; exact IC|exact LT|exact NL| |].
    { intros ks2 K. apply I in K. exists ks2. rewrite K0. split; [reflexivity|apply K]. }
    exists l. split; [exact N1|]. split; [exact N3|]. intros t. rewrite N2. split.
    - intros (ks2 & K & (Y1 & Y2 & t1 & Y3)). split; [exact Y1|]. split; [exact Y2|]. exists (set_keys i ks2), t1.
      split; [exact Y3|]. cbn [i_keys set_keys]. apply I in K. destruct K as (K1 & K2). split.
      + clear - K1. induction K1 as [|k k2 x y X K IH]; [reflexivity|]. cbn [map]. rewrite IH. f_equal. destruct X as (-> & _). reflexivity.
      + rewrite (filled_with news ks2 SO K1) in K2. exact K2.
    - intros (Y1 & Y2 & i1 & t1 & Y3 & Y4 & Y5).
      destruct (new_keys_made U _ _ _ _ _ _ _ _ Hg Li Y3) as (news1 & -> & M1 & _). rewrite K0 in *. cbn [app i_keys set_keys] in *.
      assert (R : refilled news news1) by (apply (made_refilled U i now e kp); assumption).
      exists news1. split; [|split; [exact Y1|split; [exact Y2|exists t1; exact Y3]]].
      apply I. split; [exact R|]. rewrite (filled_with news news1 SO R). exact Y5. }
  destruct (net_indistinct U gs _ news os os' HU NS KN P P' AA AA' L cs HC) as (ls & ls' & NL & NL' & LL & LP & IL & IL').
  destruct (ONE os ls IL NL) as (l & N1 & N2 & N3). destruct (ONE os' ls' IL' NL') as (l' & N1' & N2' & N3').
  exists l, l'. split; [exact N1|]. split; [exact N1'|]. split; [rewrite N2, N2', LL; reflexivity|]. split; [|split; assumption].
  intros T1 T2 ->. cbn [length] in N2.
  assert (I0 : In t0 c0) by (apply IC; split; [exact T1|split; [exact T2|exists t0'; exact H0]]).
  destruct c0; [destruct I0|]. destruct ls; [cbn [length] in LP; lia|]. cbn [length] in N2. lia.
Qed.
End Source.

Lemma net_source U gs n a i c now x keepers N t0 i0 t0' os os' cs :
  uni_ok U -> net_start gs n -> (forall k, ~ key_somewhere n k) -> nth_error (nt_stations n) a = Some i ->
  generate_keys U i c now x keepers t0 = Ok (i0, t0') ->
  let start t := nt_step U n (NGenerate a c now x keepers t) in
  Forall plain_op os -> all_along U reads_first (start t0) os ->
  Forall plain_op os' -> all_along U reads_first (start t0) os' ->
  map (fun e => length (en_cipher e)) (nt_air (nt_run U (start t0) os)) =
  map (fun e => length (en_cipher e)) (nt_air (nt_run U (start t0) os')) ->
  Forall2 (fun e c => letters c /\ length c = length (en_cipher e)) (nt_air (nt_run U (start t0) os)) cs ->
  let source os t := length t = N /\ Forall (fun w => 0 <= w < 2 ^ 64) t /\
    exists i1 t1, generate_keys U i c now x keepers t = Ok (i1, t1) /\ map kid (i_keys i1) = map kid (i_keys i0) /\
      map en_cipher (nt_air (nt_run U (start t) os)) = cs in
  exists l l', NoDup l /\ NoDup l' /\ length l = length l' /\
    (length t0 = N -> Forall (fun w => 0 <= w < 2 ^ 64) t0 -> l <> []) /\
    (forall t, In t l <-> source os t) /\ (forall t, In t l' <-> source os' t).
Proof.
  intros HU W E A H0 start. assert (ST : forall t i1 t1, generate_keys U i c now x keepers t = Ok (i1, t1) -> start t = set_station n a i1).
  { intros t i1 t1 H. unfold start, nt_step. rewrite A, H. reflexivity. }
  rewrite (ST _ _ _ H0). intros P AA P' AA' L HC. cbv zeta.
  assert (Q : exists nn e, forall t, generate_keys U i c now x keepers t = new_keys U nn i now e keepers t).
  { unfold generate_keys in *. destruct x as [[e|]|]; [|discriminate H0|]; eexists _, _; intros t; reflexivity. }
  destruct Q as (nn & e & Q). rewrite Q in H0.
  destruct (net_source_core U HU gs n a i W E A nn now e keepers N t0 i0 t0' os os' cs H0 P AA P' AA' L HC)
    as (l & l' & N1 & N2 & N3 & N4 & N5 & N6).
  exists l, l'. split; [exact N1|]. split; [exact N2|]. split; [exact N3|]. split; [exact N4|].
  assert (V : forall os t, (length t = N /\ Forall word t /\ exists i1 t1, new_keys U nn i now e keepers t = Ok (i1, t1) /\
      map kid (i_keys i1) = map kid (i_keys i0) /\ map en_cipher (nt_air (nt_run U (set_station n a i1) os)) = cs) <->
    (length t = N /\ Forall (fun w => 0 <= w < 2 ^ 64) t /\ exists i1 t1, generate_keys U i c now x keepers t = Ok (i1, t1) /\
      map kid (i_keys i1) = map kid (i_keys i0) /\ map en_cipher (nt_air (nt_run U (start t) os)) = cs)).
  { intros os1 t. split; intros (V1 & V2 & i1 & t1 & V3 & V4 & V5); (split; [exact V1|]; split; [exact V2|]; exists i1, t1).
    - rewrite <- Q in V3. split; [exact V3|]. split; [exact V4|]. rewrite (ST _ _ _ V3). exact V5.
    - rewrite (ST _ _ _ V3) in V5. rewrite Q in V3. split; [exact V3|]. split; [exact V4|exact V5]. }
  split; intros t; [rewrite N5|rewrite N6]; apply V.
Qed.
