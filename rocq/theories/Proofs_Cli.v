(** Lemmas about the command line program: the filters. *)
From Verif Require Import Base Model_Unicode Model_Functions Model_Types Model_Keys Model_Messages Model_Station
  Model_Persist Model_Listing Model_Cli Spec Spec_Persist Spec_Cli Proofs_Functions.

Lemma wrap64_spec x : as_int64 x (wrap64 x).
Proof.
  unfold as_int64, wrap64. pose proof (Z.mod_pos_bound (x + 2 ^ 63) (2 ^ 64) ltac:(reflexivity)) as B.
  split; [lia|]. exists ((x + 2 ^ 63) / 2 ^ 64).
  pose proof (Z.div_mod (x + 2 ^ 63) (2 ^ 64) ltac:(discriminate)). lia.
Qed.
Lemma days_spec n : as_int64 (n * day) (days n).
Proof.
  unfold days. destruct (wrap64_spec (n * 24)) as (_ & q & E).
  destruct (wrap64_spec (wrap64 (n * 24) * (3600 * 10 ^ 9))) as (B & q2 & E2).
  split; [exact B|]. exists (q2 + q * (3600 * 10 ^ 9)). unfold day.
  replace (n * (24 * 3600 * 1000000000)) with ((n * 24) * (3600 * 10 ^ 9)) by lia.
  rewrite E at 1. rewrite Z.mul_add_distr_r. rewrite E2 at 1. lia.
Qed.
Lemma int64_fun x y z : as_int64 x y -> as_int64 x z -> y = z.
Proof. intros (B & q & E) (B2 & q2 & E2). assert (q = q2) by lia. subst. lia. Qed.
Lemma days_small n : -106751 <= n <= 106751 -> days n = n * day.
Proof.
  intros B. apply (int64_fun (n * day)); [apply days_spec|]. split; [unfold day; lia|exists 0; lia].
Qed.

Lemma vetted_nonempty U l v : In v (vetted_keepers U l) -> v <> [].
Proof.
  intros H. unfold vetted_keepers in H. apply in_flat_map in H. destruct H as (s & _ & H).
  apply in_flat_map in H. destruct H as (sub & _ & H). cbv zeta in H.
  destruct (0 <? len (str_upper U (trim_space U sub))) eqn:E; [|destruct H].
  destruct H as [<-|[]]. intros Q. rewrite Q in E. discriminate.
Qed.
Lemma len_pos {A} (l : list A) : (0 <? len l) = true <-> l <> [].
Proof. destruct l as [|a l]; unfold len; cbn [length]; split; intros; try congruence; lia. Qed.
Lemma len_nil_no {A} (l : list A) : (0 <? len l) = false <-> l = [].
Proof. destruct l as [|a l]; unfold len; cbn [length]; split; intros; try congruence; lia. Qed.

Lemma needles_spec U (or : bool) ns hs :
  (0 <? len ns) && (if or then negb (any_needle (Some ns) (Some hs))
                    else negb (all_needles U (Some ns) (Some hs) false)) = false <->
  (ns = [] \/ (or = true /\ exists x, In x ns /\ In x hs) \/ (or = false /\ forall x, In x ns -> In x hs)).
Proof.
  destruct (0 <? len ns) eqn:E.
  - cbn [andb]. apply len_pos in E. destruct or.
    + rewrite Bool.negb_false_iff, any_needle_spec. split.
      * intros (n & h & x & [=<-] & [=<-] & A & B). right. left. split; [reflexivity|]. exists x. tauto.
      * intros [H|[(_ & x & A & B)|(H & _)]]; [contradiction| |discriminate]. exists ns, hs, x. tauto.
    + rewrite Bool.negb_false_iff, all_needles_spec. split.
      * intros (n & h & [=<-] & [=<-] & _ & _ & H). right. right. split; [reflexivity|].
        intros x I. destruct (H x I) as (y & J & <-). exact J.
      * intros [H|[(H & _)|(_ & H)]]; [contradiction|discriminate|]. exists ns, hs.
        split; [reflexivity|]. split; [reflexivity|]. split; [exact E|]. split.
        -- destruct ns as [|a ns]; [contradiction|]. intros ->. destruct (H a (or_introl eq_refl)).
        -- intros x I. exists x. split; [exact (H x I)|reflexivity].
  - apply len_nil_no in E. cbn [andb]. tauto.
Qed.

Lemma key_filter_spec U now o k : key_filter U now o k = true <->
  key_chosen U o now k (kcompromised k = false /\ now <= kexpires k) days.
Proof.
  unfold key_filter, key_chosen. cbv zeta. destruct (ko_all o); [tauto|].
  destruct (0 <? len (vetted_keepers U (ko_ids o))) eqn:EI.
  { apply len_pos in EI. rewrite existsb_exists. split.
    - intros (x & I & E). right. left. split; [reflexivity|]. exists x. split; [exact I|].
      apply equal_fold_spec in E. cbn [option_map] in E. unfold same_text. congruence.
    - intros [H|[(_ & x & I & E)|(_ & H & _)]]; [discriminate| |contradiction].
      exists x. split; [exact I|]. apply equal_fold_spec. cbn [option_map]. unfold same_text in E. congruence. }
  apply len_nil_no in EI. rewrite EI.
  pose proof (needles_spec U (ko_or o) (vetted_keepers U (ko_keepers o)) (kkeepers k)) as N.
  destruct (_ && (if ko_or o then _ else _)) eqn:EK.
  { split; [discriminate|]. intros [H|[(_ & x & [] & _)|(_ & _ & H & _)]]; [discriminate|].
    apply N in H. discriminate. }
  unfold is_expired, is_valid.
  assert (K : forall (P : Prop), (P <-> (ko_invalid o = true -> kcompromised k = false /\ now <= kexpires k) /\
   (ko_compromised o = true -> kcompromised k = true) /\
   (ko_used o = true -> kused k = true) /\
   (ko_unused o = true -> kused k = false) /\
   (ko_expired o = true -> kexpires k < now) /\
   (forall n, ko_valid o = Some n -> kcompromised k = false /\ now + days n < kexpires k)) ->
   (P <-> false = true \/ false = false /\ (exists x, In x [] /\ same_text (to_upper U) (kid k) x) \/
     false = false /\ [] = @nil (list rune) /\
     (vetted_keepers U (ko_keepers o) = [] \/
      ko_or o = true /\ (exists x, In x (vetted_keepers U (ko_keepers o)) /\ In x (kkeepers k)) \/
      ko_or o = false /\ (forall x, In x (vetted_keepers U (ko_keepers o)) -> In x (kkeepers k))) /\
     (ko_invalid o = true -> kcompromised k = false /\ now <= kexpires k) /\
     (ko_compromised o = true -> kcompromised k = true) /\
     (ko_used o = true -> kused k = true) /\
     (ko_unused o = true -> kused k = false) /\
     (ko_expired o = true -> kexpires k < now) /\
     (forall n, ko_valid o = Some n -> kcompromised k = false /\ now + days n < kexpires k))).
  { intros P HP. rewrite HP. split.
    - intros H. right. right. split; [reflexivity|]. split; [reflexivity|]. split; [apply N; reflexivity|exact H].
    - intros [H|[(_ & x & [] & _)|(_ & _ & _ & H)]]; [discriminate|exact H]. }
  apply K. clear K N EK EI.
  destruct (ko_invalid o && _) eqn:E1.
  { split; [discriminate|]. intros (H & _). assert (ko_invalid o = true) as Q by lia. specialize (H Q). lia. }
  destruct (ko_compromised o && _) eqn:E2.
  { split; [discriminate|]. intros (_ & H & _). assert (ko_compromised o = true) as Q by lia. specialize (H Q). lia. }
  destruct (ko_used o && _) eqn:E3.
  { split; [discriminate|]. intros (_ & _ & H & _). assert (ko_used o = true) as Q by lia. specialize (H Q). lia. }
  destruct (ko_unused o && _) eqn:E4.
  { split; [discriminate|]. intros (_ & _ & _ & H & _). assert (ko_unused o = true) as Q by lia. specialize (H Q). lia. }
  destruct (ko_expired o && _) eqn:E5.
  { split; [discriminate|]. intros (_ & _ & _ & _ & H & _). assert (ko_expired o = true) as Q by lia. specialize (H Q). lia. }
  destruct (ko_valid o) as [n|].
  - split.
    + intros H. destruct (kcompromised k) eqn:EC; [discriminate|].
      split; [lia|]. split; [lia|]. split; [lia|]. split; [lia|]. split; [lia|].
      intros n' [=<-]. split; [reflexivity|lia].
    + intros (_ & _ & _ & _ & _ & H). destruct (H n eq_refl) as (-> & Q). lia.
  - split; [|reflexivity]. intros _. split; [lia|]. split; [lia|]. split; [lia|]. split; [lia|].
    split; [lia|]. discriminate.
Qed.

Lemma chosen_mono U o now k (i1 i2 : Prop) (f1 f2 : Z -> Z) : (ko_invalid o = true -> i1 -> i2) ->
  (forall n, ko_valid o = Some n -> f1 n = f2 n) -> key_chosen U o now k i1 f1 -> key_chosen U o now k i2 f2.
Proof.
  unfold key_chosen. cbv zeta. intros HI HV [H|[H|(A & B & C & D & E & F & G & I & J)]]; [tauto|tauto|].
  right. right. split; [exact A|]. split; [exact B|]. split; [exact C|]. split; [tauto|].
  split; [exact E|]. split; [exact F|]. split; [exact G|]. split; [exact I|].
  intros n Q. destruct (J n Q). rewrite <- (HV n Q). tauto.
Qed.
Lemma c45_filter_lemma U now o k : ko_invalid o = false ->
  (forall n, ko_valid o = Some n -> -106751 <= n <= 106751) ->
  key_filter U now o k = true <-> documented_choice U now o k.
Proof.
  intros HI HV. rewrite key_filter_spec. unfold documented_choice. split; apply chosen_mono.
  - congruence.
  - intros n Q. apply days_small, HV, Q.
  - congruence.
  - intros n Q. symmetry. apply days_small, HV, Q.
Qed.

Lemma c73_lemma U now o k : exists lifetime, (forall n, as_int64 (n * day) (lifetime n)) /\
  (key_filter U now o k = true <-> key_chosen U o now k (kcompromised k = false /\ now <= kexpires k) lifetime).
Proof. exists days. split; [exact days_spec|apply key_filter_spec]. Qed.

Lemma msg_filter_spec U o m : msg_filter U o m = true <-> message_chosen U o m.
Proof.
  unfold msg_filter, message_chosen. cbv zeta. destruct (mo_all o); [tauto|].
  destruct (0 <? len (vetted_message_ids U (mo_ids o))) eqn:EI.
  { apply len_pos in EI. split.
    - intros H. right. left. split; [reflexivity|]. apply existsb_exists in H. destruct H as (x & I & E).
      apply equal_runes_spec in E. injection E as ->. exact I.
    - intros [H|[(_ & H)|(_ & H & _)]]; [discriminate| |contradiction].
      apply existsb_exists. exists (mid m). split; [exact H|]. apply equal_runes_spec. reflexivity. }
  apply len_nil_no in EI. rewrite EI.
  pose proof (needles_spec U (mo_or o) (vetted_keepers U (mo_to o)) (mrecipients m)) as N.
  destruct (_ && (if mo_or o then _ else _)) eqn:EK.
  { split; [discriminate|]. intros [H|[(_ & [])|(_ & _ & H & _)]]; [discriminate|].
    apply N in H. discriminate. }
  destruct ((0 <? len (vetted_keepers U (mo_from o))) && _) eqn:EF.
  - split; [discriminate|]. intros [H|[(_ & [])|(_ & _ & _ & H)]]; [discriminate|].
    apply andb_prop in EF. destruct EF as (A & B). apply len_pos in A. destruct H as [H|H]; [contradiction|].
    apply Bool.negb_true_iff in B. enough (any_of_them (Some (vetted_keepers U (mo_from o))) (Some (mfrom m)) = true)
      by congruence.
    apply any_of_them_spec. exists (vetted_keepers U (mo_from o)), (mfrom m).
    split; [reflexivity|]. split; [reflexivity|]. split; [exact (vetted_nonempty _ _ _ H)|exact H].
  - split; [|reflexivity]. intros _. right. right. split; [reflexivity|]. split; [reflexivity|].
    split; [apply N; reflexivity|]. apply Bool.andb_false_iff in EF. destruct EF as [EF|EF].
    + left. apply len_nil_no, EF.
    + right. apply Bool.negb_false_iff, any_of_them_spec in EF.
      destruct EF as (h & x & [=<-] & [=<-] & _ & I). exact I.
Qed.
