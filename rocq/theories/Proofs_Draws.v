(** Lemmas: random draws are used once, and nothing else decides the outcome. *)
From Verif Require Import Base Spec Spec_Draws Model_Unicode Model_Crand Model_Functions Model_Types Model_Keys Model_Cipher
  Proofs_Crand Proofs_Encipher.

Lemma intn_local : forall n t v t', 0 < n < 2 ^ 31 -> intn n t = Ok (v, t') ->
  exists used, t = used ++ t' /\ (1 <= length used)%nat /\ forall s, intn n (used ++ s) = Ok (v, s).
Proof.
  intros n t v t' Hn. revert v t'. induction t as [|w t IH]; intros v t' H; [rewrite intn_nil in H; discriminate|].
  rewrite intn_word_mod, intn_word in H by (auto using word_mod).
  destruct (accepted_word n (w mod 2 ^ 64)) eqn:A.
  - injection H as <- <-. exists [w]. split; [reflexivity|]. split; [cbn; lia|]. intros s. cbn [app].
    rewrite intn_word_mod, intn_word by (auto using word_mod). rewrite A. reflexivity.
  - destruct (IH v t' H) as (u & -> & L & E). exists (w :: u). split; [reflexivity|]. split; [cbn; lia|].
    intros s. cbn [app]. rewrite intn_word_mod, intn_word by (auto using word_mod). rewrite A. apply E.
Qed.
Lemma letters_local : forall n t r t', random_letters n t = Ok (r, t') ->
  exists used, t = used ++ t' /\ (n <= length used)%nat /\ forall s, random_letters n (used ++ s) = Ok (r, s).
Proof.
  induction n as [|n IH]; intros t r t' H; cbn [random_letters] in H.
  - injection H as <- <-. exists []. split; [reflexivity|]. split; [lia|]. reflexivity.
  - destruct (intn 26 t) as [[v t1]|e| |] eqn:E; try discriminate. cbn [bind] in H.
    destruct (random_letters n t1) as [[x t2]|e| |] eqn:E2; try discriminate. cbn [bind] in H. injection H as <- <-.
    destruct (intn_local 26 t v t1 ltac:(lia) E) as (u1 & -> & L1 & F1). destruct (IH _ _ _ E2) as (u2 & -> & L2 & F2).
    exists (u1 ++ u2). rewrite app_length. split; [apply app_assoc|]. split; [lia|]. intros s. cbn [random_letters].
    rewrite <- app_assoc, F1. cbn [bind]. rewrite F2. reflexivity.
Qed.
Lemma alnum_local : forall n t r t', random_alnum_runes n t = Ok (r, t') ->
  exists used, t = used ++ t' /\ (n <= length used)%nat /\ forall s, random_alnum_runes n (used ++ s) = Ok (r, s).
Proof.
  induction n as [|n IH]; intros t r t' H; cbn [random_alnum_runes] in H.
  - injection H as <- <-. exists []. split; [reflexivity|]. split; [lia|]. reflexivity.
  - destruct (intn (26 + 26 + 10) t) as [[v t1]|e| |] eqn:E; try discriminate. cbn [bind] in H.
    destruct (random_alnum_runes n t1) as [[x t2]|e| |] eqn:E2; try discriminate. cbn [bind] in H. injection H as <- <-.
    destruct (intn_local (26 + 26 + 10) t v t1 ltac:(lia) E) as (u1 & -> & L1 & F1). destruct (IH _ _ _ E2) as (u2 & -> & L2 & F2).
    exists (u1 ++ u2). rewrite app_length. split; [apply app_assoc|]. split; [lia|]. intros s. cbn [random_alnum_runes].
    rewrite <- app_assoc, F1. cbn [bind]. rewrite F2. reflexivity.
Qed.
Lemma msg_loop_local : forall fuel ms t id t', new_unique_message_id_loop fuel ms t = Ok (id, t') ->
  exists used, t = used ++ t' /\ (4 <= length used)%nat /\
    forall f s, (length used <= f)%nat -> new_unique_message_id_loop f ms (used ++ s) = Ok (id, s).
Proof.
  induction fuel as [|fuel IH]; intros ms t id t' H; [discriminate|]. cbn [new_unique_message_id_loop] in H.
  destruct (random_alnum_runes 4 t) as [[x t1]|e| |] eqn:E; try discriminate. cbn [bind] in H.
  destruct (alnum_local 4 t x t1 E) as (u1 & -> & L1 & F1). destruct (contains_message_id ms x) eqn:C.
  - destruct (IH _ _ _ _ H) as (u2 & -> & L2 & F2). exists (u1 ++ u2). rewrite app_length. split; [apply app_assoc|].
    split; [lia|]. intros f s Hf. destruct f as [|f]; [lia|]. cbn [new_unique_message_id_loop].
    rewrite <- app_assoc, F1. cbn [bind]. rewrite C. apply F2. lia.
  - injection H as <- <-. exists u1. split; [reflexivity|]. split; [exact L1|]. intros f s Hf. destruct f as [|f]; [lia|].
    cbn [new_unique_message_id_loop]. rewrite F1. cbn [bind]. rewrite C. reflexivity.
Qed.
Lemma msg_id_local : forall ms t id t', new_unique_message_id ms t = Ok (id, t') ->
  exists used, t = used ++ t' /\ (4 <= length used)%nat /\ forall s, new_unique_message_id ms (used ++ s) = Ok (id, s).
Proof.
  intros ms t id t' H. apply msg_loop_local in H. destruct H as (u & E & L & F). exists u. split; [exact E|].
  split; [exact L|]. intros s. apply F. rewrite app_length. lia.
Qed.
Section U.
Context (U : Uni).
Lemma key_loop_local : forall fuel ks gs t id t', (0 < gs)%nat -> new_id_loop U fuel ks gs t = Ok (id, t') ->
  exists used, t = used ++ t' /\ (gs <= length used)%nat /\
    forall f s, (length used <= f)%nat -> new_id_loop U f ks gs (used ++ s) = Ok (id, s).
Proof.
  induction fuel as [|fuel IH]; intros ks gs t id t' G H; [discriminate|]. cbn [new_id_loop] in H.
  destruct (random_letters gs t) as [[x t1]|e| |] eqn:E; try discriminate. cbn [bind] in H.
  destruct (letters_local gs t x t1 E) as (u1 & -> & L1 & F1). destruct (contains_key_id U ks x) eqn:C.
  - destruct (IH _ _ _ _ _ G H) as (u2 & -> & L2 & F2). exists (u1 ++ u2). rewrite app_length. split; [apply app_assoc|].
    split; [lia|]. intros f s Hf. destruct f as [|f]; [lia|]. cbn [new_id_loop].
    rewrite <- app_assoc, F1. cbn [bind]. rewrite C. apply F2. lia.
  - injection H as <- <-. exists u1. split; [reflexivity|]. split; [exact L1|]. intros f s Hf. destruct f as [|f]; [lia|].
    cbn [new_id_loop]. rewrite F1. cbn [bind]. rewrite C. reflexivity.
Qed.
Lemma new_key_local : forall i now e keepers t i' k t', 0 < i_groupsize i ->
  new_key U i now e keepers t = Ok (i', k, t') ->
  exists used, t = used ++ t' /\ len (kid k) + len (krunes k) <= len used /\
    forall s, new_key U i now e keepers (used ++ s) = Ok (i', k, s).
Proof.
  intros i now e keepers t i' k t' G H. unfold new_key in *. cbv zeta in *.
  destruct ((i_groupsize i <? 0) || (key_runes_length (i_keylength i) (i_groupsize i) <? 0)); [discriminate|].
  destruct (new_id_loop U (S (length t)) (i_keys i) (Z.to_nat (i_groupsize i)) t) as [[id t1]|?| |] eqn:E1; try discriminate.
  cbn [bind] in H.
  destruct (random_letters (Z.to_nat (key_runes_length (i_keylength i) (i_groupsize i))) t1) as [[r t2]|?| |] eqn:E2; try discriminate.
  cbn [bind] in H. injection H as <- <- <-.
  assert (LI : len id = i_groupsize i /\ len r = Z.max 0 (key_runes_length (i_keylength i) (i_groupsize i))).
  { assert (LR : forall n t r t', random_letters n t = Ok (r, t') -> length r = n).
    { induction n as [|n IH]; intros a b c Q; cbn [random_letters] in Q; [injection Q as <- _; reflexivity|].
      destruct (intn 26 a) as [[v a1]|?| |]; try discriminate. cbn [bind] in Q.
      destruct (random_letters n a1) as [[x a2]|?| |] eqn:QQ; try discriminate. cbn [bind] in Q. injection Q as <- _.
      cbn [length]. f_equal. exact (IH _ _ _ QQ). }
    assert (LN : forall f ks gs t id t', new_id_loop U f ks gs t = Ok (id, t') -> length id = gs).
    { induction f as [|f IH]; intros ks gs a b c Q; [discriminate|]. cbn [new_id_loop] in Q.
      destruct (random_letters gs a) as [[x a1]|?| |] eqn:QQ; try discriminate. cbn [bind] in Q.
      destruct (contains_key_id U ks x); [exact (IH _ _ _ _ _ Q)|]. injection Q as <- _. exact (LR _ _ _ _ QQ). }
    apply LR in E2. apply LN in E1. unfold len. lia. }
  apply key_loop_local in E1; [|lia]. destruct E1 as (u1 & -> & L1 & F1).
  apply letters_local in E2. destruct E2 as (u2 & -> & L2 & F2).
  exists (u1 ++ u2). split; [apply app_assoc|]. cbn [kid krunes]. split; [unfold len in *; rewrite app_length; lia|].
  intros s. rewrite <- app_assoc. rewrite F1 by (rewrite app_length; lia). cbn [bind]. rewrite F2. reflexivity.
Qed.

Lemma new_keys_draws : forall n i now e keepers t i' t', 0 < i_groupsize i ->
  new_keys U n i now e keepers t = Ok (i', t') ->
  exists new us, i' = set_keys i (i_keys i ++ new) /\ length new = n /\ t = concat us ++ t' /\
    Forall2 (fun k u => len (kid k) + len (krunes k) <= len u) new us /\
    forall s, new_keys U n i now e keepers (concat us ++ s) = Ok (i', s).
Proof.
  induction n as [|n IH]; intros i now e keepers t i' t' G H; cbn [new_keys] in H.
  - injection H as <- <-. exists [], []. split; [rewrite app_nil_r; destruct i; reflexivity|]. split; [reflexivity|].
    split; [reflexivity|]. split; [constructor|]. reflexivity.
  - destruct (new_key U i now e keepers t) as [[[i1 k] t1]|?| |] eqn:E; try discriminate. cbn [bind] in H.
    assert (EI : i1 = set_keys i (i_keys i ++ [k])).
    { unfold new_key in E. cbv zeta in E. destruct ((i_groupsize i <? 0) || _); [discriminate|].
      destruct (new_id_loop U _ _ _ _) as [[id x]|?| |]; try discriminate. cbn [bind] in E.
      destruct (random_letters _ x) as [[r y]|?| |]; try discriminate. cbn [bind] in E. injection E as <- <- _. reflexivity. }
    apply new_key_local in E; [|exact G]. destruct E as (u & -> & L & F).
    apply IH in H; [|rewrite EI; exact G]. destruct H as (new & us & -> & L2 & -> & F2 & F3).
    exists (k :: new), (u :: us). split; [rewrite EI; destruct i; cbn; rewrite <- app_assoc; reflexivity|].
    split; [cbn; lia|]. split; [cbn [concat]; apply app_assoc|]. split; [constructor; assumption|].
    intros s. cbn [new_keys concat]. rewrite <- app_assoc, F. cbn [bind]. apply F3.
Qed.
Lemma generate_draws : forall i n now x keepers t i' t', 0 < i_groupsize i ->
  generate_keys U i n now x keepers t = Ok (i', t') ->
  exists new us, i' = set_keys i (i_keys i ++ new) /\ len new = Z.max 0 n /\ t = concat us ++ t' /\
    Forall2 (fun k u => len (kid k) + len (krunes k) <= len u) new us /\
    forall s, generate_keys U i n now x keepers (concat us ++ s) = Ok (i', s).
Proof.
  intros i n now x keepers t i' t' G H. unfold generate_keys in *. destruct x as [[e|]|]; try discriminate;
    apply new_keys_draws in H; try exact G; destruct H as (new & us & H1 & H2 & H3 & H4 & H5); exists new, us;
    (split; [exact H1|]; split; [unfold len; lia|]; split; [exact H3|]; split; [exact H4|exact H5]).
Qed.

(** Encipher and Decipher: first the ID, if there is none, then what Wipe
    writes over the old text. *)
Lemma wipe_local : forall s t x t', wipe_value s t = (x, t') -> exists w, t = w ++ t' /\ wipe_draws s w t'.
Proof.
  intros s t x t' H. unfold wipe_value, read_runes in H. destruct (Nat.leb (length s) (length t)) eqn:L.
  - apply Nat.leb_le in L. injection H as _ <-. exists (firstn (length s) t). split; [symmetry; apply firstn_skipn|].
    left. apply firstn_length_le. exact L.
  - apply Nat.leb_gt in L. injection H as _ <-. exists []. split; [reflexivity|]. right. split; [reflexivity|exact L].
Qed.
Lemma ensure_local : forall i m t m1 t1, ensure_id i m t = Ok (m1, t1) ->
  exists used, t = used ++ t1 /\ mplain m1 = mplain m /\ mcipher m1 = mcipher m /\ mkeyid m1 = mkeyid m /\
    (mid m <> [] -> used = [] /\ m1 = m) /\
    (mid m = [] -> (4 <= length used)%nat /\ forall s, new_unique_message_id (i_messages i) (used ++ s) = Ok (mid m1, s)).
Proof.
  intros i m t m1 t1 H. unfold ensure_id in H. destruct (len (mid m) =? 0) eqn:L.
  - destruct (new_unique_message_id (i_messages i) t) as [[id t2]|?| |] eqn:E; try discriminate. cbn [bind] in H.
    injection H as <- <-. apply msg_id_local in E. destruct E as (u & -> & L4 & F). exists u. split; [reflexivity|].
    split; [reflexivity|]. split; [reflexivity|]. split; [reflexivity|]. split.
    + intros N. exfalso. destruct (mid m); [congruence|]. unfold len in L. cbn in L. lia.
    + intros _. split; [exact L4|exact F].
  - injection H as <- <-. exists []. split; [reflexivity|]. split; [reflexivity|]. split; [reflexivity|]. split; [reflexivity|].
    split; [auto|]. intros N. rewrite N in L. discriminate.
Qed.
Lemma enrich_parts : forall gs ks m ks' m1 r, enrich_with_key U gs ks m = (ks', m1, r) ->
  mid m1 = mid m /\ mcipher m1 = mcipher m.
Proof.
  intros gs ks m ks' m1 r H. unfold enrich_with_key in H.
  repeat match type of H with
  | context [if ?b then _ else _] => destruct b
  | context [match find_key ?u ?a ?b ?c with _ => _ end] => destruct (find_key u a b c)
  | context [match nth_error ?a ?b with _ => _ end] => destruct (nth_error a b)
  end; injection H as <- <- <-; auto.
Qed.
Lemma encipher_draws : forall i m t i' m' t', encipher U i m t = (i', m', Ok tt, t') ->
  exists used w, t = used ++ w ++ t' /\ wipe_draws (mcipher m) w t' /\
    (mid m <> [] -> used = [] /\ mid m' = mid m) /\
    (mid m = [] -> (4 <= length used)%nat /\ forall s, new_unique_message_id (i_messages i) (used ++ s) = Ok (mid m', s)).
Proof.
  intros i m t i' m' t' H. unfold encipher, encipher_full in H. destruct (ensure_id i m t) as [[m1 t1]|?| |] eqn:E; try discriminate.
  apply ensure_local in E. destruct E as (u & -> & _ & E2 & _ & E4 & E5). cbv zeta in H.
  destruct (enrich_with_key U (i_groupsize i) (i_keys i) m1) as [[ks m2] [[]|?| |]] eqn:Q; try discriminate.
  apply enrich_parts in Q. destruct Q as (Q1 & Q2).
  destruct (wipe_value (mcipher m2) t1) as [c0 t2] eqn:W. apply wipe_local in W. destruct W as (w & -> & W).
  rewrite Q2, E2 in W.
  destruct (get_key U (mkeyid m2) ks) as [k0|]; [|discriminate].
  destruct (er_res (encipher_body U (i_groupsize i) (mrecipients m2) (mplain m2) ks k0 c0)) as [[]|?| |];
    try (destruct (wipe_value (mkeyid m2) t2); discriminate).
  cbn [fst] in H. injection H as _ <- <-. exists u, w. split; [reflexivity|]. split; [exact W|].
  change (mid (set_mcipher m2 _)) with (mid m2). rewrite Q1. split; [|exact E5]. intros N. destruct (E4 N) as (-> & ->). auto.
Qed.
Lemma decipher_draws : forall i m t i' m' t', decipher U i m t = (i', m', Ok tt, t') ->
  exists used w, t = used ++ w ++ t' /\ wipe_draws (mplain m) w t' /\
    (mid m <> [] -> used = [] /\ mid m' = mid m) /\
    (mid m = [] -> (4 <= length used)%nat /\ forall s, new_unique_message_id (i_messages i) (used ++ s) = Ok (mid m', s)).
Proof.
  intros i m t i' m' t' H. unfold decipher in H. destruct (ensure_id i m t) as [[m1 t1]|?| |] eqn:E; try discriminate.
  apply ensure_local in E. destruct E as (u & -> & E1 & _ & _ & E4 & E5). cbv zeta in H.
  destruct (negb (len (mkeyid m1) =? i_groupsize i)); [discriminate|]. destruct (len (mcipher m1) <? i_groupsize i); [discriminate|].
  destruct (get_key U (mkeyid m1) (i_keys i)) as [k0|]; [|discriminate].
  destruct (wipe_value (mplain m1) t1) as [c0 t2] eqn:W. apply wipe_local in W. destruct W as (w & -> & W). rewrite E1 in W.
  destruct (decipher_loop U _ _ _ _ _ _ _ _ _) as [[p st] [[]|?| |]]; try discriminate.
  injection H as _ <- <-. exists u, w. split; [reflexivity|]. split; [exact W|].
  change (mid (set_mplain m1 p)) with (mid m1). split; [|exact E5]. intros N. destruct (E4 N) as (-> & ->). auto.
Qed.
End U.
