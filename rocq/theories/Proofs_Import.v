(** Lemmas about ImportKeys. *)
From Coq Require Import Permutation.
From Verif Require Import Base Spec Model_Unicode Model_Crand Model_Functions Model_Types Model_Keys Model_Import
  Proofs_Functions Proofs_Crand Proofs_KeyOps.

Section WithUnicode.
Context (U : Uni).
Notation up := (to_upper U).

Lemma taken_spec : forall ks id, taken up ks id = contains_key_id U ks id.
Proof.
  intros ks id. unfold taken, contains_key_id. induction ks as [|k ks IH]; [reflexivity|]. cbn [existsb].
  rewrite IH. f_equal. unfold same_textb.
  destruct (list_eq_dec Z.eq_dec (map up (kid k)) (map up id)) as [E|E];
    destruct (equal_runes_fold U (Some (kid k)) (Some id)) eqn:F; auto.
  - exfalso. apply (proj1 (fold_diff U _ _) F). exact E.
  - exfalso. apply E. apply (proj1 (fold_same U _ _) F).
Qed.

Lemma taken_prop : forall ks id, taken up ks id = true <-> exists k, In k ks /\ same_text up (kid k) id.
Proof. intros. rewrite taken_spec. apply contains_id_spec. Qed.

Lemma asked_change : forall gs f inc ks ks',
  (forall k, In k inc -> taken up ks (kid k) = taken up ks' (kid k)) ->
  filter (fun k => (len (kid k) =? gs) && f k && taken up ks (kid k)) inc =
  filter (fun k => (len (kid k) =? gs) && f k && taken up ks' (kid k)) inc.
Proof.
  intros gs f inc ks ks' H. apply filter_ext_in. intros k Hk. rewrite (H k Hk). reflexivity.
Qed.

Lemma bool_iff : forall a b : bool, (a = true <-> b = true) -> a = b.
Proof. intros [] [] H; try reflexivity; [symmetry; apply H; reflexivity|apply H; reflexivity]. Qed.

(** Replacing key [k] by a copy does not change which other IDs are taken. *)
Lemma taken_step : forall ks ks0 k k' id, ~ same_text up (kid k) id -> kid k' = kid k ->
  (forall x, In x ks0 <-> In x ks /\ ~ same_text up (kid x) (kid k)) ->
  taken up (ks0 ++ [k']) id = taken up ks id.
Proof.
  intros ks ks0 k k' id N Ek H. apply bool_iff. rewrite !taken_prop. split.
  - intros (x & Hx & Hs). apply in_app_or in Hx. destruct Hx as [Hx|[<-|[]]].
    + exists x. split; [apply H; exact Hx|exact Hs].
    + rewrite Ek in Hs. destruct (N Hs).
  - intros (x & Hx & Hs). exists x. split; [|exact Hs]. apply in_or_app. left. apply H. split; [exact Hx|].
    intros E. apply N. unfold same_text in *. congruence.
Qed.

Definition import_post gs own from ow ask (f : key -> bool) inc (ans : list (option bool)) ks c ks' n (e : option goerr) added : Prop :=
  let cands := filter (fun k => (len (kid k) =? gs) && f k) inc in
  let asked := filter (fun k => (len (kid k) =? gs) && f k && taken up ks (kid k)) inc in
  n = c + len added /\ incl added cands /\ NoDup added /\
  (forall k', In k' ks' <-> (In k' ks /\ forall k, In k added -> ~ same_text up (kid k') (kid k)) \/
      exists k, In k added /\ k' = import_key U own from k) /\
  (ow = true -> e = None /\ forall k, In k cands -> In k added) /\
  (ow = false -> ask = false -> e = None /\ forall k, In k added <-> In k cands /\ taken up ks (kid k) = false) /\
  (ow = false -> ask = true -> e = None ->
     (forall k, In k cands -> taken up ks (kid k) = false -> In k added) /\
     (forall j k, nth_error asked j = Some k ->
        exists b, nth_error ans j = Some (Some b) /\ (In k added <-> b = true))) /\
  (ow = false -> ask = true -> e <> None ->
     exists j k, nth_error asked j = Some k /\ (nth_error ans j = None \/ nth_error ans j = Some None)) /\
  (ow = false -> (forall j, nth_error ans j <> Some (Some true)) -> forall k, In k added -> taken up ks (kid k) = false).

Lemma distinct_cons : forall k inc, distinct_ids up (k :: inc) ->
  distinct_ids up inc /\ forall k2, In k2 inc -> ~ same_text up (kid k) (kid k2).
Proof.
  intros k inc D. inversion D as [|? ? N D']; subst. split; [exact D'|].
  intros k2 H2 E. apply N. unfold same_text in E. rewrite E. apply in_map, in_map. exact H2.
Qed.

Lemma import_lemma : forall gs own from ow ask f inc ans ks c ks' n e,
  distinct_ids up inc -> distinct_ids up ks ->
  import_loop U gs own from ow ask f inc ans ks c = (ks', n, e) ->
  exists added, import_post gs own from ow ask f inc ans ks c ks' n e added.
Proof.
  induction inc as [|k inc IH]; intros ans ks c ks' n e DI DK H; cbn [import_loop] in H.
  - injection H as <- <- <-. exists []. unfold import_post. cbn.
    split; [lia|]. split; [intros ? []|]. split; [constructor|].
    split. { intros k'. split; [intros Hk; left; split; [exact Hk|intros ? []]|].
             intros [(H1 & _)|(k0 & [] & _)]. exact H1. }
    split; [intros _; split; [reflexivity|intros ? []]|].
    split; [intros _ _; split; [reflexivity|]; intros k0; split; [intros []|intros ([] & _)]|].
    split; [intros _ _ _; split; [intros ? []|intros [|j] k0 X; discriminate]|].
    split; [intros _ _ X; congruence|intros _ _ ? []].
  - destruct (distinct_cons _ _ DI) as (DI' & DN).
    (* the three ways a key can be treated *)
    assert (Skip : (len (kid k) =? gs) && f k = false ->
      import_loop U gs own from ow ask f inc ans ks c = (ks', n, e) ->
      exists added, import_post gs own from ow ask f (k :: inc) ans ks c ks' n e added).
    { intros Hc H0. destruct (IH _ _ _ _ _ _ DI' DK H0) as (added & P). exists added.
      unfold import_post in *. cbn [filter]. rewrite Hc. cbn [andb]. exact P. }
    assert (Del : let ks0 := fst (delete_key U ks [kid k]) in
       distinct_ids up ks0 /\ forall x, In x ks0 <-> In x ks /\ ~ same_text up (kid x) (kid k)).
    { destruct (delete_key U ks [kid k]) as (ks1 & n1) eqn:E. cbn [fst].
      destruct (delete_lemma U _ _ _ _ E DK) as (A & _ & B). split; [exact A|].
      intros x. rewrite B. split; intros (H1 & H2); (split; [exact H1|]).
      - apply H2. left. reflexivity.
      - intros id [<-|[]]. exact H2. }
    cbv zeta in Del. destruct Del as (Del1 & Del2).
    assert (Add : forall ks0 ans0, distinct_ids up ks0 ->
      (forall x, In x ks0 <-> In x ks /\ ~ same_text up (kid x) (kid k)) ->
      (len (kid k) =? gs) && f k = true ->
      (ow = true \/ ow = false /\ taken up ks (kid k) = false /\ ans0 = ans \/
       ow = false /\ ask = true /\ taken up ks (kid k) = true /\ ans = Some true :: ans0) ->
      import_loop U gs own from ow ask f inc ans0 (ks0 ++ [import_key U own from k]) (c + 1) = (ks', n, e) ->
      exists added, import_post gs own from ow ask f (k :: inc) ans ks c ks' n e added).
    { intros ks0 ans0 D0 M Hc Cases H0.
      assert (D1 : distinct_ids up (ks0 ++ [import_key U own from k])).
      { unfold distinct_ids. rewrite map_app. cbn [map]. apply distinct_app1; [exact D0|].
        intros y Hy. apply in_map_iff in Hy. destruct Hy as (x & <- & Hx). apply M in Hx. apply Hx. }
      destruct (IH _ _ _ _ _ _ DI' D1 H0) as (added & P). exists (k :: added).
      unfold import_post in *. cbv zeta in *.
      assert (T : forall k2, In k2 inc -> taken up (ks0 ++ [import_key U own from k]) (kid k2) = taken up ks (kid k2)).
      { intros k2 H2. apply taken_step with (k := k); [apply DN; exact H2|reflexivity|exact M]. }
      rewrite (asked_change gs f inc _ ks T) in P.
      destruct P as (P1 & P2 & P3 & P4 & P5 & P6 & P7 & P8 & P9).
      assert (Inc : forall k2, In k2 added -> In k2 inc) by (intros k2 H2; apply P2, filter_In in H2; apply H2).
      assert (Cin : forall k2, In k2 (filter (fun k0 => (len (kid k0) =? gs) && f k0) inc) -> In k2 inc)
        by (intros k2 H2; apply filter_In in H2; apply H2).
      cbn [filter]. rewrite Hc. cbn [andb].
      split; [unfold len in *; cbn [length]; lia|].
      split; [intros x [<-|Hx]; [left; reflexivity|right; apply P2; exact Hx]|].
      split. { constructor; [|exact P3]. intros Hk. apply (DN k); [apply Inc; exact Hk|reflexivity]. }
      split.
      { intros k'. rewrite P4. split.
        - intros [(H1 & H2)|(k2 & H1 & H2)].
          + apply in_app_or in H1. destruct H1 as [H1|[<-|[]]].
            * left. apply M in H1. destruct H1 as (H1 & H3). split; [exact H1|].
              intros x [<-|Hx]; [exact H3|apply H2; exact Hx].
            * right. exists k. split; [left; reflexivity|reflexivity].
          + right. exists k2. split; [right; exact H1|exact H2].
        - intros [(H1 & H2)|(k2 & [<-|H1] & H2)].
          + left. split; [|intros x Hx; apply H2; right; exact Hx].
            apply in_or_app. left. apply M. split; [exact H1|]. apply H2. left. reflexivity.
          + left. subst k'. split; [apply in_or_app; right; left; reflexivity|].
            intros x Hx. apply DN. apply Inc. exact Hx.
          + right. exists k2. split; assumption. }
      split.
      { intros Ho. destruct (P5 Ho) as (Q1 & Q2). split; [exact Q1|].
        intros x [<-|Hx]; [left; reflexivity|right; apply Q2; exact Hx]. }
      split.
      { intros Ho Ha. destruct (P6 Ho Ha) as (Q1 & Q2). split; [exact Q1|].
        assert (Tk : taken up ks (kid k) = false).
        { destruct Cases as [X|[(_ & X & _)|(_ & X & _)]]; [congruence|exact X|congruence]. }
        intros x. split.
        - intros [<-|Hx]; [split; [left; reflexivity|exact Tk]|].
          apply Q2 in Hx. destruct Hx as (Hx & Hy). rewrite T in Hy by (apply Cin; exact Hx).
          split; [right; exact Hx|exact Hy].
        - intros ([<-|Hx] & Hy); [left; reflexivity|right].
          apply Q2. split; [exact Hx|]. rewrite T by (apply Cin; exact Hx). exact Hy. }
      split.
      { intros Ho Ha He. destruct (P7 Ho Ha He) as (Q1 & Q2). split.
        - intros x [<-|Hx] Hy; [left; reflexivity|right]. apply Q1; [exact Hx|].
          rewrite T by (apply Cin; exact Hx). exact Hy.
        - intros j x Hj. destruct Cases as [X|[(_ & X & Ea)|(_ & _ & X & Ea)]]; [congruence| |].
          + rewrite X in Hj. subst ans0. destruct (Q2 j x Hj) as (b & B1 & B2). exists b. split; [exact B1|].
            rewrite <- B2. split; [|intros Y; right; exact Y]. intros [->|Y]; [|exact Y]. exfalso.
            apply nth_error_In in Hj. apply filter_In in Hj. apply (DN x); [apply Hj|reflexivity].
          + rewrite X in Hj. subst ans. destruct j as [|j].
            * injection Hj as <-. exists true. split; [reflexivity|]. split; [auto|intros _; left; reflexivity].
            * cbn [nth_error] in Hj |- *. destruct (Q2 j x Hj) as (b & B1 & B2). exists b. split; [exact B1|].
              rewrite <- B2. split; [|intros Y; right; exact Y]. intros [->|Y]; [|exact Y]. exfalso.
              apply nth_error_In in Hj. apply filter_In in Hj. apply (DN x); [apply Hj|reflexivity]. }
      split.
      { intros Ho Ha He. destruct (P8 Ho Ha He) as (j & x & J1 & J2).
        destruct Cases as [X|[(_ & X & Ea)|(_ & _ & X & Ea)]]; [congruence| |]; rewrite X.
        - subst ans0. exists j, x. split; assumption.
        - subst ans. exists (S j), x. split; assumption. }
      { intros Ho Ha x [<-|Hx].
        - destruct Cases as [X|[(_ & X & _)|(_ & _ & _ & X)]]; [congruence|exact X|].
          exfalso. subst ans. apply (Ha 0%nat). reflexivity.
        - rewrite <- (T x (Inc x Hx)). apply (P9 Ho); [|exact Hx]. intros j Hj.
          destruct Cases as [X|[(_ & _ & ->)|(_ & _ & _ & X)]]; [congruence|apply (Ha j Hj)|].
          subst ans. apply (Ha (S j)). exact Hj. } }
    destruct (len (kid k) =? gs) eqn:E1; cbn [negb] in H; [|apply Skip; [reflexivity|exact H]].
    destruct (f k) eqn:E2; cbn [negb] in H; [|apply Skip; [reflexivity|exact H]].
    destruct (contains_key_id U ks (kid k)) eqn:C.
    + assert (Tk : taken up ks (kid k) = true) by (rewrite taken_spec; exact C).
      assert (SkipC : forall ans0, ow = false -> (ask = false /\ ans0 = ans \/ ask = true /\ ans = Some false :: ans0) ->
        import_loop U gs own from ow ask f inc ans0 ks c = (ks', n, e) ->
        exists added, import_post gs own from ow ask f (k :: inc) ans ks c ks' n e added).
      { intros ans0 Ho Ca H0. destruct (IH _ _ _ _ _ _ DI' DK H0) as (added & P). exists added.
        unfold import_post in *. cbv zeta in *. cbn [filter]. rewrite E1, E2, Tk. cbn [andb].
        destruct P as (P1 & P2 & P3 & P4 & P5 & P6 & P7 & P8 & P9).
        assert (Inc : forall k2, In k2 added -> In k2 inc) by (intros k2 H2; apply P2, filter_In in H2; apply H2).
        split; [exact P1|]. split; [intros x Hx; right; apply P2; exact Hx|]. split; [exact P3|].
        split; [exact P4|]. split; [congruence|].
        split.
        { intros _ Ha. destruct (P6 Ho Ha) as (Q1 & Q2). split; [exact Q1|]. intros x. rewrite Q2. split.
          - intros (X & Y). split; [right; exact X|exact Y].
          - intros ([<-|X] & Y); [congruence|split; assumption]. }
        split.
        { intros _ Ha He. destruct Ca as [(X & _)|(_ & ->)]; [congruence|]. destruct (P7 Ho Ha He) as (Q1 & Q2). split.
          - intros x [<-|Hx] Hy; [congruence|apply Q1; assumption].
          - intros [|j] x Hj.
            + injection Hj as <-. exists false. split; [reflexivity|]. split; [|discriminate].
              intros X. exfalso. apply (DN k); [apply Inc; exact X|reflexivity].
            + cbn [nth_error] in Hj |- *. apply Q2. exact Hj. }
        split.
        { intros _ Ha He. destruct Ca as [(X & _)|(_ & ->)]; [congruence|]. destruct (P8 Ho Ha He) as (j & x & J1 & J2).
          exists (S j), x. split; assumption. }
        { intros _ Ha x Hx. apply (P9 Ho); [|exact Hx]. intros j Hj.
          destruct Ca as [(_ & ->)|(_ & ->)]; [apply (Ha j Hj)|apply (Ha (S j) Hj)]. } }
      destruct ow; cbn [negb andb] in H.
      * apply (Add (fst (delete_key U ks [kid k])) ans Del1 Del2 ltac:(reflexivity) ltac:(left; reflexivity) H).
      * destruct ask.
        -- destruct ans as [|[[]|] ans'].
           ++ injection H as <- <- <-. exists []. unfold import_post. cbv zeta. cbn [filter]. rewrite E1, E2, Tk. cbn [andb].
              split; [unfold len; cbn; lia|]. split; [intros ? []|]. split; [constructor|].
              split. { intros k'. split; [intros Hk; left; split; [exact Hk|intros ? []]|].
                       intros [(X & _)|(k0 & [] & _)]. exact X. }
              split; [congruence|]. split; [congruence|]. split; [congruence|].
              split; [|intros _ _ ? []]. intros _ _ _. exists 0%nat, k. split; [reflexivity|left; reflexivity].
           ++ apply (Add (fst (delete_key U ks [kid k])) ans' Del1 Del2 ltac:(reflexivity)); [|exact H].
              right. right. auto.
           ++ apply (SkipC ans' eq_refl); [right; auto|exact H].
           ++ injection H as <- <- <-. exists []. unfold import_post. cbv zeta. cbn [filter]. rewrite E1, E2, Tk. cbn [andb].
              split; [unfold len; cbn; lia|]. split; [intros ? []|]. split; [constructor|].
              split. { intros k'. split; [intros Hk; left; split; [exact Hk|intros ? []]|].
                       intros [(X & _)|(k0 & [] & _)]. exact X. }
              split; [congruence|]. split; [congruence|]. split; [congruence|].
              split; [|intros _ _ ? []]. intros _ _ _. exists 0%nat, k. split; [reflexivity|right; reflexivity].
        -- apply (SkipC ans eq_refl); [left; auto|exact H].
    + assert (Tk : taken up ks (kid k) = false) by (rewrite taken_spec; exact C).
      apply (Add ks ans DK); [|reflexivity| |exact H].
      * intros x. split; [|tauto]. intros Hx. split; [exact Hx|]. apply (proj1 (contains_id_false U _ _) C). exact Hx.
      * destruct ow; [left; reflexivity|right; left; auto].
Qed.

(** What an imported key looks like. *)
Lemma import_key_lemma : forall own from k,
  kid (import_key U own from k) = kid k /\ krunes (import_key U own from k) = krunes k /\
  kcreated (import_key U own from k) = kcreated k /\ kexpires (import_key U own from k) = kexpires k /\
  kused (import_key U own from k) = kused k /\ kcompromised (import_key U own from k) = kcompromised k /\
  kcomment (import_key U own from k) = kcomment k /\
  (exists y, In y (kkeepers (import_key U own from k)) /\ same_text up y from) /\
  (forall y, In y (kkeepers (import_key U own from k)) -> In y (kkeepers k) \/ y = from) /\
  (forall y, In y (kkeepers k) -> In y (kkeepers (import_key U own from k)) \/ same_text up y own) /\
  (distinct_texts up (kkeepers k) -> distinct_texts up (kkeepers (import_key U own from k)) /\
     (~ same_text up from own -> forall y, In y (kkeepers (import_key U own from k)) -> ~ same_text up y own)).
Proof.
  intros own from k. unfold import_key. cbn [kid krunes kcreated kexpires kused kcompromised kcomment kkeepers set_keepers].
  repeat (split; [reflexivity|]).
  set (r := remove_keeper U (kkeepers k) [own]).
  destruct (add_keeper_lemma U [from] r) as ((ys & A1 & A2) & B & C & _).
  split; [apply B; left; reflexivity|].
  destruct (remove_keeper_any U [own] (kkeepers k)) as (del & P & Q). fold r in P.
  split. { intros y Hy. rewrite A1 in Hy. apply in_app_or in Hy. destruct Hy as [Hy|Hy].
           - left. apply Permutation_in with (1 := Permutation_sym P). apply in_or_app. right. exact Hy.
           - right. apply A2 in Hy. destruct Hy as [<-|[]]. reflexivity. }
  split. { intros y Hy. apply (Permutation_in _ P) in Hy. apply in_app_or in Hy. destruct Hy as [Hy|Hy].
           - right. destruct (Q y Hy) as (x & [<-|[]] & Hs). exact Hs.
           - left. rewrite A1. apply in_or_app. left. exact Hy. }
  intros D. destruct (remove_keeper_lemma U [own] (kkeepers k) D) as (D1 & D2). fold r in D1, D2.
  split; [apply C; exact D1|]. intros N y Hy. rewrite A1 in Hy. apply in_app_or in Hy. destruct Hy as [Hy|Hy].
  - apply D2 in Hy. destruct Hy as (_ & Hy). apply Hy. left. reflexivity.
  - apply A2 in Hy. destruct Hy as [<-|[]]. exact N.
Qed.
End WithUnicode.
