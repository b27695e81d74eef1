(** Remaining lemmas behind Props_Keys. *)
From Coq Require Import Permutation.
From Verif Require Import Base Spec Model_Unicode Model_Crand Model_Functions Model_Types Model_Keys Model_Import
  Spec_Keys Proofs_Functions Proofs_Crand Proofs_KeyOps Proofs_Uniform Proofs_Import.

Lemma c18_new_key_lemma : forall U i now e keepers t i' k t',
  0 < i_groupsize i -> 0 <= i_keylength i ->
  new_key U i now e keepers t = Ok (i', k, t') ->
  i' = set_keys i (i_keys i ++ [k]) /\
  letters (kid k) /\ len (kid k) = i_groupsize i /\
  (forall k0, In k0 (i_keys i) -> ~ same_text (to_upper U) (kid k0) (kid k)) /\
  letters (krunes k) /\ (exists q, len (krunes k) = q * i_groupsize i) /\
  i_keylength i <= len (krunes k) < i_keylength i + i_groupsize i /\
  kused k = false /\ kcompromised k = false /\ kcreated k = now /\ kexpires k = e /\ kcomment k = [] /\
  keepers_named U keepers (i_callsign i) (kkeepers k).
Proof.
  intros U i now e kp t i' k t' Hg Hl H.
  destruct (new_key_lemma U _ _ _ _ _ _ _ _ Hg Hl H) as (A1 & A2 & A3 & A4 & A5 & A6 & A7 & A8 & A9 & A10 & A11 & A12 & A13).
  repeat (split; [assumption|]). rewrite A13.
  destruct (remove_one U (vetted_keepers U kp) (i_callsign i)) as [(E & N)|(y & H1 & H2)]; [left; rewrite E; split; [reflexivity|exact N]|right; eauto].
Qed.

Lemma c18_generate_lemma : forall U i n now expire keepers t i' t',
  0 < i_groupsize i -> 0 <= i_keylength i ->
  generate_keys U i n now expire keepers t = Ok (i', t') ->
  exists new, i' = set_keys i (i_keys i ++ new) /\ len new = Z.max 0 n /\
  (forall k, In k new -> letters (kid k) /\ len (kid k) = i_groupsize i /\ letters (krunes k) /\
     (exists q, len (krunes k) = q * i_groupsize i) /\
     i_keylength i <= len (krunes k) < i_keylength i + i_groupsize i /\
     kused k = false /\ kcompromised k = false /\ kcreated k = now /\ kcomment k = [] /\
     (forall e, expire = Some (Some e) -> kexpires k = e) /\
     (expire = None -> kexpires k = now + 365 * 24 * 3600 * 1000000000) /\
     keepers_named U keepers (i_callsign i) (kkeepers k)) /\
  (forall a k b, new = a ++ k :: b ->
     forall k0, In k0 (i_keys i ++ a) -> ~ same_text (to_upper U) (kid k0) (kid k)).
Proof.
  intros U i n now ex kp t i' t' Hg Hl H. unfold generate_keys in H.
  assert (Q : exists e, new_keys U (Z.to_nat n) i now e kp t = Ok (i', t') /\
     (forall e', ex = Some (Some e') -> e = e') /\ (ex = None -> e = now + year)).
  { destruct ex as [[e|]|]; [|discriminate|]; eexists; (split; [exact H|]); split; intros; congruence. }
  destruct Q as (e & Q1 & Q2 & Q3).
  destruct (new_keys_lemma U _ _ _ _ _ _ _ _ Hg Hl Q1) as (new & N1 & N2 & N3 & _ & N5).
  exists new. split; [exact N1|]. split; [unfold len; lia|]. split; [|exact N5].
  intros k Hk. destruct (N3 k Hk) as (A1 & A2 & A3 & A4 & A5 & A6 & A7 & A8 & A9 & A10 & A11).
  repeat (split; [assumption|]). split; [intros e' E; rewrite A9; apply Q2; exact E|].
  split; [intros E; rewrite A9, (Q3 E); reflexivity|]. rewrite A11.
  destruct (remove_one U (vetted_keepers U kp) (i_callsign i)) as [(E & N)|(y & H1 & H2)];
    [left; rewrite E; split; [reflexivity|exact N]|right; eauto].
Qed.

Lemma c19_possible_lemma2 : forall U i now e keepers id a,
  0 < i_groupsize i -> 0 <= i_keylength i -> letters id -> letters a ->
  len id = i_groupsize i -> (exists q, len a = q * i_groupsize i) ->
  i_keylength i <= len a < i_keylength i + i_groupsize i ->
  (forall k, In k (i_keys i) -> ~ same_text (to_upper U) (kid k) id) ->
  exists t i' k t', Forall (fun w => 0 <= w < 2 ^ 64) t /\
    new_key U i now e keepers t = Ok (i', k, t') /\ kid k = id /\ krunes k = a.
Proof.
  intros U i now e kp id a Hg Hl Hid Ha L1 (q & L2) L3 F.
  destruct (key_len_lemma _ _ Hg Hl) as ((q' & E1) & E2).
  assert (len a = key_runes_length (i_keylength i) (i_groupsize i)) as L4.
  { rewrite E1 in *. rewrite L2 in *. assert (q = q') by nia. subst. reflexivity. }
  destruct (c19_possible_lemma U i now e kp id a Hg Hl Hid Ha L1 L4 F) as (t & T1 & _ & (i' & k & t' & T2)).
  exists t, i', k, t'. split; [exact T1|exact T2].
Qed.

Lemma new_key_any : forall U i now e kp t i' k t', new_key U i now e kp t = Ok (i', k, t') ->
  i' = set_keys i (i_keys i ++ [k]) /\ forall k0, In k0 (i_keys i) -> ~ same_text (to_upper U) (kid k0) (kid k).
Proof.
  intros U i now e kp t i' k t' H. unfold new_key in H.
  destruct ((i_groupsize i <? 0) || _); [discriminate|]. cbv zeta in H.
  destruct (new_id_loop U (S (length t)) (i_keys i) (Z.to_nat (i_groupsize i)) t) as [[id t1]|x| |] eqn:E1; try discriminate.
  cbn [bind] in H.
  destruct (random_letters _ t1) as [[rs t2]|x| |] eqn:E2; try discriminate.
  cbn [bind] in H. injection H as <- <- <-. split; [reflexivity|]. cbn [kid].
  apply (new_id_lemma U _ _ _ _ _ _ E1).
Qed.

Lemma new_key_distinct : forall U i now e kp t i' k t', new_key U i now e kp t = Ok (i', k, t') ->
  distinct_ids (to_upper U) (i_keys i) -> distinct_ids (to_upper U) (i_keys i').
Proof.
  intros U i now e kp t i' k t' H D. destruct (new_key_any _ _ _ _ _ _ _ _ _ H) as (-> & N).
  cbn [i_keys set_keys]. unfold distinct_ids in *. rewrite map_app. cbn [map]. apply distinct_app1; [exact D|].
  intros y Hy. apply in_map_iff in Hy. destruct Hy as (k0 & <- & Hk0). apply N. exact Hk0.
Qed.

Lemma new_keys_distinct : forall U n i now e kp t i' t', new_keys U n i now e kp t = Ok (i', t') ->
  distinct_ids (to_upper U) (i_keys i) -> distinct_ids (to_upper U) (i_keys i').
Proof.
  induction n as [|n IH]; intros i now e kp t i' t' H D; cbn [new_keys] in H; [injection H as <- _; exact D|].
  destruct (new_key U i now e kp t) as [[[i1 k1] t1]|x| |] eqn:E; try discriminate. cbn [bind] in H.
  apply (IH _ _ _ _ _ _ _ H). apply (new_key_distinct _ _ _ _ _ _ _ _ _ E D).
Qed.

Lemma generate_distinct : forall U i n now ex kp t i' t', generate_keys U i n now ex kp t = Ok (i', t') ->
  distinct_ids (to_upper U) (i_keys i) -> distinct_ids (to_upper U) (i_keys i').
Proof.
  intros U i n now ex kp t i' t' H. unfold generate_keys in H.
  destruct ex as [[e|]|]; [|discriminate|]; apply (new_keys_distinct _ _ _ _ _ _ _ _ _ H).
Qed.

Lemma c21_exact_lemma : forall U ks ids ks' n, distinct_ids (to_upper U) ks ->
  delete_key U ks ids = (ks', n) ->
  distinct_ids (to_upper U) ks' /\ n = len ks - len ks' /\
  forall k, In k ks' <-> In k ks /\ forall id, In id ids -> ~ same_text (to_upper U) (kid k) id.
Proof. intros U ks ids ks' n D E. apply (delete_lemma U _ _ _ _ E D). Qed.

Lemma c22_add_lemma : forall U keepers args,
  (exists new, add_keeper U keepers args = keepers ++ new /\ incl new args) /\
  (forall x, In x args -> exists y, In y (add_keeper U keepers args) /\ same_text (to_upper U) y x) /\
  (distinct_texts (to_upper U) keepers -> distinct_texts (to_upper U) (add_keeper U keepers args)) /\
  ((forall x, In x args -> exists y, In y keepers /\ same_text (to_upper U) y x) -> add_keeper U keepers args = keepers).
Proof. intros U l xs. apply add_keeper_lemma. Qed.

Lemma c22_remove_lemma : forall U keepers args, distinct_texts (to_upper U) keepers ->
  distinct_texts (to_upper U) (remove_keeper U keepers args) /\
  forall y, In y (remove_keeper U keepers args) <->
    In y keepers /\ forall x, In x args -> ~ same_text (to_upper U) y x.
Proof. intros U l xs. apply remove_keeper_lemma. Qed.

Lemma c22_remove_any : forall U keepers args, exists removed,
  Permutation keepers (removed ++ remove_keeper U keepers args) /\
  forall y, In y removed -> exists x, In x args /\ same_text (to_upper U) y x.
Proof. intros U l xs. apply remove_keeper_any. Qed.

Lemma c22_contains_lemma : forall U keepers args, contains_keeper U keepers args = true <->
  match args with
  | [] => keepers = []
  | _ => forall x, In x args -> exists y, In y keepers /\ same_text (to_upper U) y x
  end.
Proof.
  intros U l args. destruct args as [|a args].
  - unfold contains_keeper. cbn. apply len_zero.
  - unfold contains_keeper. rewrite len_cons. pose proof (len_nonneg _ args).
    replace (1 + len args =? 0) with false by lia. rewrite all_needles_spec. split.
    + intros (n & h & E1 & E2 & _ & _ & H1) x Hx. injection E1 as <-. injection E2 as <-.
      destruct (H1 x Hx) as (y & Y1 & Y2). exists y. split; [exact Y1|apply fold_same; exact Y2].
    + intros H1. exists (a :: args), l. split; [reflexivity|]. split; [reflexivity|]. split; [discriminate|].
      split; [intros ->; destruct (H1 a (or_introl eq_refl)) as (y & [] & _)|].
      intros x Hx. destruct (H1 x Hx) as (y & Y1 & Y2). exists y. split; [exact Y1|apply fold_same; exact Y2].
Qed.

Lemma c23_lemma : forall U i now e keepers t i' k t',
  0 < i_groupsize i -> 0 <= i_keylength i ->
  distinct_texts (to_upper U) (vetted_keepers U keepers) ->
  new_key U i now e keepers t = Ok (i', k, t') ->
  forall c, In c (kkeepers k) <-> In c (vetted_keepers U keepers) /\ ~ same_text (to_upper U) c (i_callsign i).
Proof.
  intros U i now e kp t i' k t' Hg Hl D H c.
  destruct (new_key_lemma U _ _ _ _ _ _ _ _ Hg Hl H) as (_ & _ & _ & _ & _ & _ & _ & _ & _ & _ & _ & _ & ->).
  destruct (remove_keeper_lemma U [i_callsign i] _ D) as (_ & R). rewrite R.
  split; intros (H1 & H2); (split; [exact H1|]).
  - apply H2. left. reflexivity.
  - intros x [<-|[]]. exact H2.
Qed.

Lemma c36_lemma : forall U i overwrite ask filter incoming answers i' n e,
  distinct_ids (to_upper U) (i_keys incoming) -> distinct_ids (to_upper U) (i_keys i) ->
  import_keys U i overwrite ask filter incoming answers = (i', n, e) ->
  let candidates := List.filter (fun k => (len (kid k) =? i_groupsize i) && filter k) (i_keys incoming) in
  let asked := List.filter (fun k => (len (kid k) =? i_groupsize i) && filter k && taken (to_upper U) (i_keys i) (kid k))
                 (i_keys incoming) in
  exists added, incl added candidates /\ NoDup added /\ n = len added /\
  (forall k', In k' (i_keys i') <->
     (In k' (i_keys i) /\ forall k, In k added -> ~ same_text (to_upper U) (kid k') (kid k)) \/
     exists k, In k added /\ k' = import_key U (i_callsign i) (i_callsign incoming) k) /\
  i' = set_keys i (i_keys i') /\ distinct_ids (to_upper U) (i_keys i') /\
  (overwrite = true -> e = None /\ forall k, In k candidates -> In k added) /\
  (overwrite = false -> ask = false -> e = None /\
     forall k, In k added <-> In k candidates /\ taken (to_upper U) (i_keys i) (kid k) = false) /\
  (overwrite = false -> ask = true -> e = None ->
     (forall k, In k candidates -> taken (to_upper U) (i_keys i) (kid k) = false -> In k added) /\
     forall j k, nth_error asked j = Some k ->
       exists b, nth_error answers j = Some (Some b) /\ (In k added <-> b = true)) /\
  (overwrite = false -> ask = true -> e <> None ->
     exists j k, nth_error asked j = Some k /\ (nth_error answers j = None \/ nth_error answers j = Some None)) /\
  (overwrite = false -> (forall j, nth_error answers j <> Some (Some true)) ->
     forall k, In k added -> taken (to_upper U) (i_keys i) (kid k) = false).
Proof.
  intros U i ow ask f inc ans i' n e DI DK H. cbv zeta. unfold import_keys in H.
  destruct (import_loop _ _ _ _ _ _ _ _ _ _ _) as ((ks' & n') & e') eqn:L. injection H as <- <- <-.
  destruct (import_lemma U _ _ _ _ _ _ _ _ _ _ _ _ _ DI DK L) as (added & P1 & P2 & P3 & P4 & P5 & P6 & P7 & P8 & P9).
  exists added. cbn [i_keys set_keys].
  split; [exact P2|]. split; [exact P3|]. split; [lia|]. split; [exact P4|]. split; [reflexivity|].
  split; [apply (import_distinct U _ _ _ _ _ _ _ _ _ _ _ _ _ L DK)|].
  split; [exact P5|]. split; [exact P6|]. split; [exact P7|]. split; [exact P8|exact P9].
Qed.

Lemma c46_lemma : forall k now d,
  (forall d', d' <= d -> is_valid now d k = true -> is_valid now d' k = true) /\
  (0 <= d -> is_valid now d k = true -> is_expired now k = false) /\
  (0 <= d -> is_expired now k = true -> is_valid now d k = false) /\
  (forall now', now <= now' -> is_expired now k = true -> is_expired now' k = true) /\
  (forall now', now <= now' -> is_valid now' d k = true -> is_valid now d k = true) /\
  (forall now', is_valid now d k = true -> now' <= now + d -> is_expired now' k = false).
Proof. intros k now d. unfold is_valid, is_expired. repeat split; intros; lia. Qed.
