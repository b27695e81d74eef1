(** Lemmas about key management (keys.go, ImportKeys). *)
From Coq Require Import Permutation.
From Verif Require Import Base Spec Model_Unicode Model_Crand Model_Functions Model_Types Model_Keys Model_Import
  Proofs_Functions Proofs_Crand.

(** ** Deleting by swapping in the last element *)
Lemma list_update_app : forall A (a : list A) x b y,
  list_update (a ++ x :: b) (length a) y = a ++ y :: b.
Proof. induction a as [|z a IH]; intros; [reflexivity|]. cbn. f_equal. apply IH. Qed.

Lemma index_of_spec : forall A (f : A -> bool) l n,
  match index_of f l n with
  | Some i => exists a x b, l = a ++ x :: b /\ (n + length a = i)%nat /\ f x = true /\ Forall (fun y => f y = false) a
  | None => Forall (fun y => f y = false) l
  end.
Proof.
  induction l as [|x l IH]; intros n; cbn [index_of]; [constructor|].
  destruct (f x) eqn:E.
  - exists [], x, l. cbn. split; [reflexivity|]. split; [lia|]. split; [exact E|constructor].
  - specialize (IH (S n)). destruct (index_of f l (S n)) as [i|].
    + destruct IH as (a & y & b & -> & H2 & H3 & H4). exists (x :: a), y, b. cbn.
      split; [reflexivity|]. split; [lia|]. split; [exact H3|]. constructor; assumption.
    + constructor; assumption.
Qed.

Lemma swap_remove_perm : forall A (a : list A) x b,
  Permutation (a ++ b) (swap_remove (a ++ x :: b) (length a)).
Proof.
  intros A a x b. unfold swap_remove.
  destruct b as [|y b'] using rev_ind.
  - rewrite app_length. cbn [length]. replace (length a + 1 - 1)%nat with (length a) by lia.
    rewrite nth_error_app2 by lia. rewrite Nat.sub_diag. cbn [nth_error].
    rewrite list_update_app, firstn_app, firstn_all, Nat.sub_diag. cbn [firstn]. reflexivity.
  - clear IHb'.
    assert (L : (length (a ++ x :: b' ++ [y]) - 1 = length (a ++ x :: b'))%nat).
    { rewrite !app_length. cbn [length]. rewrite app_length. cbn [length]. lia. }
    rewrite L. replace (a ++ x :: b' ++ [y]) with ((a ++ x :: b') ++ [y]) by (rewrite <- app_assoc; reflexivity).
    rewrite nth_error_app2 by lia. rewrite Nat.sub_diag. cbn [nth_error].
    rewrite <- app_assoc. cbn [app]. rewrite list_update_app.
    replace (a ++ y :: b' ++ [y]) with ((a ++ y :: b') ++ [y]) by (rewrite <- app_assoc; reflexivity).
    replace (length (a ++ x :: b')) with (length (a ++ y :: b')) by (rewrite !app_length; reflexivity).
    rewrite firstn_app, firstn_all, Nat.sub_diag. cbn [firstn]. rewrite app_nil_r.
    apply Permutation_app_head. apply Permutation_sym, Permutation_cons_append.
Qed.

Section Delete.
Context {A I : Type} (f : I -> A -> bool).
Definition del1 (l : list A) (x : I) : list A :=
  match index_of (f x) l 0 with Some i => swap_remove l i | None => l end.

(** Either nothing matches and nothing changes, or one matching element goes. *)
Lemma del1_spec : forall l x,
  (del1 l x = l /\ (forall y, In y l -> f x y = false)) \/
  exists y, f x y = true /\ Permutation l (y :: del1 l x).
Proof.
  intros l x. unfold del1. pose proof (index_of_spec A (f x) l 0) as H.
  destruct (index_of (f x) l 0) as [i|].
  - destruct H as (a & y & b & -> & <- & H3 & H4). right. exists y. split; [exact H3|].
    apply Permutation_trans with (y :: a ++ b).
    + apply Permutation_sym, Permutation_middle.
    + apply perm_skip. apply swap_remove_perm.
  - left. split; [reflexivity|]. rewrite Forall_forall in H. exact H.
Qed.

Lemma fold_del_perm : forall xs l, exists del, Permutation l (del ++ fold_left del1 xs l) /\
  forall y, In y del -> exists x, In x xs /\ f x y = true.
Proof.
  induction xs as [|x xs IH]; intros l; cbn [fold_left].
  - exists []. split; [apply Permutation_refl|]. intros y [].
  - destruct (IH (del1 l x)) as (del & P & Q). destruct (del1_spec l x) as [(E & _)|(y & Hy & Py)].
    + rewrite E in *. exists del. split; [exact P|]. intros y Hy. destruct (Q y Hy) as (z & Hz & Hf).
      exists z. split; [right; exact Hz|exact Hf].
    + exists (y :: del). split.
      * apply Permutation_trans with (1 := Py). cbn [app]. apply perm_skip. exact P.
      * intros z [<-|Hz]; [exists x; split; [left; reflexivity|exact Hy]|].
        destruct (Q z Hz) as (w & Hw & Hf). exists w. split; [right; exact Hw|exact Hf].
Qed.

(** With at most one match per argument exactly the matching elements go. *)
Lemma fold_del_exact : forall (uniq : list A -> Prop),
  (forall l m, Permutation l m -> uniq l -> uniq m) ->
  (forall y l, uniq (y :: l) -> uniq l /\ forall x z, f x y = true -> In z l -> f x z = false) ->
  forall xs l, uniq l -> uniq (fold_left del1 xs l) /\
  forall y, In y (fold_left del1 xs l) <-> In y l /\ forall x, In x xs -> f x y = false.
Proof.
  intros uniq U1 U2. induction xs as [|x xs IH]; intros l Hl; cbn [fold_left].
  - split; [exact Hl|]. intros y. split; [intros H; split; [exact H|intros ? []]|tauto].
  - destruct (del1_spec l x) as [(E & N)|(y & Hy & Py)].
    + rewrite E. destruct (IH l Hl) as (I1 & I2). split; [exact I1|]. intros z. rewrite I2.
      split; intros (H1 & H2); (split; [exact H1|]).
      * intros w [<-|Hw]; [apply N; exact H1|apply H2; exact Hw].
      * intros w Hw. apply H2. right. exact Hw.
    + assert (Hu : uniq (y :: del1 l x)) by (apply U1 with (1 := Py); exact Hl).
      destruct (U2 _ _ Hu) as (Hd & Hx). destruct (IH (del1 l x) Hd) as (I1 & I2). split; [exact I1|].
      intros z. rewrite I2. split; intros (H1 & H2).
      * split; [apply Permutation_in with (1 := Permutation_sym Py); right; exact H1|].
        intros w [<-|Hw]; [apply (Hx x z Hy H1)|apply H2; exact Hw].
      * assert (Hz : In z (y :: del1 l x)) by (apply Permutation_in with (1 := Py); exact H1).
        destruct Hz as [<-|Hz]; [rewrite (H2 x (or_introl eq_refl)) in Hy; discriminate|].
        split; [exact Hz|]. intros w Hw. apply H2. right. exact Hw.
Qed.
End Delete.

Section WithUnicode.
Context (U : Uni).
Notation up := (to_upper U).

Lemma fold_same : forall a b, equal_runes_fold U (Some a) (Some b) = true <-> same_text up a b.
Proof.
  intros a b. rewrite equal_fold_spec. unfold same_text. cbn [option_map]. split; [congruence|intros ->; reflexivity].
Qed.
Lemma fold_diff : forall a b, equal_runes_fold U (Some a) (Some b) = false <-> ~ same_text up a b.
Proof. intros a b. rewrite <- fold_same. destruct (equal_runes_fold U (Some a) (Some b)); split; congruence. Qed.

Lemma contains_id_spec : forall ks id, contains_key_id U ks id = true <->
  exists k, In k ks /\ same_text up (kid k) id.
Proof.
  intros ks id. unfold contains_key_id. rewrite existsb_exists.
  split; intros (k & H1 & H2); exists k; (split; [exact H1|]); apply fold_same; exact H2.
Qed.
Lemma contains_id_false : forall ks id, contains_key_id U ks id = false <->
  forall k, In k ks -> ~ same_text up (kid k) id.
Proof.
  intros ks id. split.
  - intros H k Hk E. assert (contains_key_id U ks id = true) by (apply contains_id_spec; eauto). congruence.
  - intros H. destruct (contains_key_id U ks id) eqn:E; [|reflexivity].
    apply contains_id_spec in E. destruct E as (k & H1 & H2). destruct (H k H1 H2).
Qed.

Lemma contains_keeper1 : forall l x, contains_keeper U l [x] = true <-> exists y, In y l /\ same_text up y x.
Proof.
  intros l x. unfold contains_keeper. change (len [x] =? 0) with false. cbv iota.
  rewrite all_needles_spec. split.
  - intros (n & h & E1 & E2 & _ & _ & H). injection E1 as <-. injection E2 as <-.
    destruct (H x (or_introl eq_refl)) as (y & H1 & H2). exists y. split; [exact H1|apply fold_same; exact H2].
  - intros (y & H1 & H2). exists [x], l. split; [reflexivity|]. split; [reflexivity|]. split; [discriminate|].
    split; [intros ->; destruct H1|]. intros z [<-|[]]. exists y. split; [exact H1|apply fold_same; exact H2].
Qed.

(** ** Keepers *)
Lemma distinct_app1 : forall l x, distinct_texts up l -> (forall y, In y l -> ~ same_text up y x) ->
  distinct_texts up (l ++ [x]).
Proof.
  intros l x H1 H2. unfold distinct_texts in *. rewrite map_app. cbn [map].
  apply NoDup_Add with (a := map up x) (l := map (map up) l).
  - rewrite <- (app_nil_r (map (map up) l)) at 1. apply Add_app.
  - split; [exact H1|]. intros Hin. apply in_map_iff in Hin. destruct Hin as (y & E & Hy). apply (H2 y Hy). exact E.
Qed.

Lemma add_keeper_lemma : forall xs l,
  (exists ys, add_keeper U l xs = l ++ ys /\ incl ys xs) /\
  (forall x, In x xs -> exists y, In y (add_keeper U l xs) /\ same_text up y x) /\
  (distinct_texts up l -> distinct_texts up (add_keeper U l xs)) /\
  ((forall x, In x xs -> exists y, In y l /\ same_text up y x) -> add_keeper U l xs = l).
Proof.
  unfold add_keeper. induction xs as [|x xs IH]; intros l; cbn [fold_left].
  - split; [exists []; rewrite app_nil_r; split; [reflexivity|intros ? []]|].
    split; [intros ? []|]. split; auto.
  - unfold add_keeper1 at 2 4 6 8. destruct (contains_keeper U l [x]) eqn:E.
    + destruct (IH l) as ((ys & A1 & A2) & B & C & D).
      split; [exists ys; split; [exact A1|apply incl_tl; exact A2]|]. split.
      * intros z [<-|Hz]; [|apply B; exact Hz]. apply contains_keeper1 in E. destruct E as (y & Y1 & Y2).
        exists y. split; [rewrite A1; apply in_or_app; left; exact Y1|exact Y2].
      * split; [exact C|]. intros H. apply D. intros z Hz. apply H. right. exact Hz.
    + destruct (IH (l ++ [x])) as ((ys & A1 & A2) & B & C & D).
      split. { exists (x :: ys). split; [rewrite A1, <- app_assoc; reflexivity|].
               intros z [<-|Hz]; [left; reflexivity|right; apply A2; exact Hz]. }
      split. { intros z [<-|Hz]; [|apply B; exact Hz]. exists x. split; [|reflexivity].
               rewrite A1. apply in_or_app. left. apply in_or_app. right. left. reflexivity. }
      assert (N : forall y, In y l -> ~ same_text up y x).
      { intros y Hy Hs. assert (contains_keeper U l [x] = true) by (apply contains_keeper1; eauto). congruence. }
      split; [intros H; apply C; apply distinct_app1; assumption|].
      intros H. destruct (H x (or_introl eq_refl)) as (y & Y1 & Y2). destruct (N y Y1 Y2).
Qed.

Lemma remove_is_del : forall l xs, remove_keeper U l xs =
  fold_left (del1 (fun x k => equal_runes_fold U (Some x) (Some k))) xs l.
Proof. reflexivity. Qed.

Lemma distinct_perm : forall l m, Permutation l m -> distinct_texts up l -> distinct_texts up m.
Proof.
  intros l m P H. unfold distinct_texts in *.
  apply Permutation_NoDup with (2 := H). apply Permutation_map. exact P.
Qed.

Lemma remove_keeper_lemma : forall xs l, distinct_texts up l ->
  distinct_texts up (remove_keeper U l xs) /\
  forall y, In y (remove_keeper U l xs) <-> In y l /\ forall x, In x xs -> ~ same_text up y x.
Proof.
  intros xs l H. rewrite remove_is_del.
  destruct (fold_del_exact (fun x k => equal_runes_fold U (Some x) (Some k)) (distinct_texts up)
             distinct_perm) with (xs := xs) (l := l) as (A & B); [|exact H|].
  - intros y m Hu. inversion Hu as [|? ? N D]; subst. split; [exact D|].
    intros x z Hf Hz. apply fold_same in Hf. apply fold_diff. intros E. apply N.
    unfold same_text in *. rewrite <- Hf, E. apply in_map. exact Hz.
  - split; [exact A|]. intros y. rewrite B. split; intros (H1 & H2); (split; [exact H1|]); intros x Hx.
    + intros E. specialize (H2 x Hx). apply fold_diff in H2. apply H2. symmetry. exact E.
    + apply fold_diff. intros E. apply (H2 x Hx). symmetry. exact E.
Qed.

Lemma remove_keeper_any : forall xs l, exists del, Permutation l (del ++ remove_keeper U l xs) /\
  forall y, In y del -> exists x, In x xs /\ same_text up y x.
Proof.
  intros xs l. rewrite remove_is_del.
  destruct (fold_del_perm (fun x k => equal_runes_fold U (Some x) (Some k)) xs l) as (del & P & Q).
  exists del. split; [exact P|]. intros y Hy. destruct (Q y Hy) as (x & Hx & Hf). exists x. split; [exact Hx|].
  apply fold_same in Hf. symmetry. exact Hf.
Qed.

(** ** Deleting keys *)
Lemma delete1_is_del : forall ks id,
  fst (delete_key1 U ks id) = del1 (fun id k => equal_runes_fold U (Some (kid k)) (Some id)) ks id.
Proof.
  intros. unfold delete_key1, del1.
  destruct (index_of _ ks 0); reflexivity.
Qed.
Lemma delete_is_del : forall ids ks,
  fst (delete_key U ks ids) = fold_left (del1 (fun id k => equal_runes_fold U (Some (kid k)) (Some id))) ids ks.
Proof.
  induction ids as [|id ids IH]; intros ks; [reflexivity|]. cbn [delete_key fold_left].
  destruct (delete_key1 U ks id) as (ks1 & n1) eqn:E1. destruct (delete_key U ks1 ids) as (ks2 & n2) eqn:E2.
  cbn [fst]. rewrite <- delete1_is_del, E1. cbn [fst]. rewrite <- IH, E2. reflexivity.
Qed.
Lemma delete1_count : forall ks id, snd (delete_key1 U ks id) = len ks - len (fst (delete_key1 U ks id)).
Proof.
  intros ks id. unfold delete_key1.
  pose proof (index_of_spec _ (fun k => equal_runes_fold U (Some (kid k)) (Some id)) ks 0) as H.
  destruct (index_of _ ks 0) as [i|]; cbn [fst snd]; [|lia].
  destruct H as (a & x & b & -> & E & _). cbn in E. subst i.
  pose proof (Permutation_length (swap_remove_perm key a x b)) as L. unfold len. rewrite <- L.
  rewrite !app_length. cbn [length]. lia.
Qed.
Lemma delete_count : forall ids ks, snd (delete_key U ks ids) = len ks - len (fst (delete_key U ks ids)).
Proof.
  induction ids as [|id ids IH]; intros ks; [cbn; lia|]. cbn [delete_key].
  pose proof (delete1_count ks id) as H1. destruct (delete_key1 U ks id) as (ks1 & n1).
  specialize (IH ks1). destruct (delete_key U ks1 ids) as (ks2 & n2). cbn [fst snd] in *. lia.
Qed.

Lemma distinct_ids_perm : forall l m, Permutation l m -> distinct_ids up l -> distinct_ids up m.
Proof. intros l m P H. unfold distinct_ids in *. apply distinct_perm with (2 := H). apply Permutation_map. exact P. Qed.

Lemma delete_lemma : forall ks ids ks' n, delete_key U ks ids = (ks', n) -> distinct_ids up ks ->
  distinct_ids up ks' /\ n = len ks - len ks' /\
  forall k, In k ks' <-> In k ks /\ forall id, In id ids -> ~ same_text up (kid k) id.
Proof.
  intros ks ids ks' n E H.
  assert (E1 : ks' = fst (delete_key U ks ids)) by (rewrite E; reflexivity).
  assert (E2 : n = snd (delete_key U ks ids)) by (rewrite E; reflexivity).
  rewrite delete_count, <- E1 in E2. rewrite delete_is_del in E1.
  destruct (fold_del_exact (fun id k => equal_runes_fold U (Some (kid k)) (Some id)) (distinct_ids up)
             distinct_ids_perm) with (xs := ids) (l := ks) as (A & B); [|exact H|].
  - intros y m Hu. inversion Hu as [|? ? N D]; subst. split; [exact D|].
    intros x z Hf Hz. apply fold_same in Hf. apply fold_diff. intros Hz2. apply N.
    unfold same_text in *. rewrite Hf, <- Hz2. apply in_map, in_map. exact Hz.
  - rewrite <- E1 in A, B. split; [exact A|]. split; [exact E2|]. intros k. rewrite B.
    split; intros (H1 & H2); (split; [exact H1|]); intros id Hid; apply fold_diff; apply H2; exact Hid.
Qed.

Lemma delete_any : forall ks ids ks' n, delete_key U ks ids = (ks', n) ->
  exists del, Permutation ks (del ++ ks') /\ n = len del /\
  forall k, In k del -> exists id, In id ids /\ same_text up (kid k) id.
Proof.
  intros ks ids ks' n E.
  assert (E1 : ks' = fst (delete_key U ks ids)) by (rewrite E; reflexivity).
  assert (E2 : n = snd (delete_key U ks ids)) by (rewrite E; reflexivity).
  rewrite delete_count, <- E1 in E2. rewrite delete_is_del in E1.
  destruct (fold_del_perm (fun id k => equal_runes_fold U (Some (kid k)) (Some id)) ids ks) as (del & P & Q).
  rewrite <- E1 in P. exists del. split; [exact P|]. split.
  - pose proof (Permutation_length P) as L. rewrite app_length in L. unfold len in *. lia.
  - intros k Hk. destruct (Q k Hk) as (id & H1 & H2). exists id. split; [exact H1|apply fold_same; exact H2].
Qed.

(** ** New keys *)
Lemma new_id_lemma : forall fuel ks gs t id t', new_id_loop U fuel ks gs t = Ok (id, t') ->
  letters id /\ length id = gs /\ forall k, In k ks -> ~ same_text up (kid k) id.
Proof.
  induction fuel as [|f IH]; intros ks gs t id t' H; cbn [new_id_loop] in H; [discriminate|].
  destruct (random_letters gs t) as [[r t1]|e| |] eqn:E; try discriminate. cbn [bind] in H.
  destruct (contains_key_id U ks r) eqn:C; [apply (IH _ _ _ _ _ H)|].
  injection H as <- <-. destruct (letters_range _ _ _ _ E) as (A & B & _).
  split; [exact A|]. split; [exact B|]. apply contains_id_false. exact C.
Qed.

Lemma key_len_lemma : forall kl gs, 0 < gs -> 0 <= kl ->
  (exists q, key_runes_length kl gs = q * gs) /\ kl <= key_runes_length kl gs < kl + gs.
Proof.
  intros kl gs H1 H2. unfold key_runes_length. replace (gs =? 0) with false by lia.
  split; [exists (- (- kl / gs)); reflexivity|].
  pose proof (Z.div_mod (- kl) gs ltac:(lia)). pose proof (Z.mod_pos_bound (- kl) gs H1). nia.
Qed.

Lemma new_key_lemma : forall i now e kp t i' k t',
  0 < i_groupsize i -> 0 <= i_keylength i ->
  new_key U i now e kp t = Ok (i', k, t') ->
  i' = set_keys i (i_keys i ++ [k]) /\
  letters (kid k) /\ len (kid k) = i_groupsize i /\
  (forall k0, In k0 (i_keys i) -> ~ same_text up (kid k0) (kid k)) /\
  letters (krunes k) /\ (exists q, len (krunes k) = q * i_groupsize i) /\
  i_keylength i <= len (krunes k) < i_keylength i + i_groupsize i /\
  kused k = false /\ kcompromised k = false /\ kcreated k = now /\ kexpires k = e /\ kcomment k = [] /\
  kkeepers k = remove_keeper U (vetted_keepers U kp) [i_callsign i].
Proof.
  intros i now e kp t i' k t' Hg Hl H. unfold new_key in H.
  destruct (key_len_lemma _ _ Hg Hl) as (L1 & L2).
  replace ((i_groupsize i <? 0) || (key_runes_length (i_keylength i) (i_groupsize i) <? 0)) with false in H by lia.
  cbv zeta in H.
  destruct (new_id_loop U (S (length t)) (i_keys i) (Z.to_nat (i_groupsize i)) t) as [[id t1]|x| |] eqn:E1; try discriminate.
  cbn [bind] in H.
  destruct (random_letters (Z.to_nat (key_runes_length (i_keylength i) (i_groupsize i))) t1) as [[rs t2]|x| |] eqn:E2; try discriminate.
  cbn [bind] in H. injection H as <- <- <-. cbn [kid krunes kkeepers kused kcompromised kcreated kexpires kcomment].
  destruct (new_id_lemma _ _ _ _ _ _ E1) as (A1 & A2 & A3).
  destruct (letters_range _ _ _ _ E2) as (B1 & B2 & _).
  assert (len rs = key_runes_length (i_keylength i) (i_groupsize i)) as R by (unfold len; lia).
  repeat (split; [first [reflexivity|assumption|unfold len; lia|rewrite R; assumption]|]). reflexivity.
Qed.

Lemma random_letters_no_fail : forall n t, (exists s t', random_letters n t = Ok (s, t')) \/ random_letters n t = Panic.
Proof.
  induction n as [|n IH]; intros t; cbn [random_letters]; [left; eauto|].
  destruct (intn 26 t) as [[v t1]|e| |] eqn:E; cbn [bind].
  - destruct (IH t1) as [(s & t' & ->)| ->]; cbn [bind]; [left; eauto|right; reflexivity].
  - destruct (intn_no_err _ _ _ E).
  - right. reflexivity.
  - destruct (intn_no_diverge _ _ E).
Qed.

Lemma new_id_no_fail : forall fuel ks gs t, (0 < gs)%nat -> (length t < fuel)%nat ->
  (exists s t', new_id_loop U fuel ks gs t = Ok (s, t')) \/ new_id_loop U fuel ks gs t = Panic.
Proof.
  induction fuel as [|f IH]; intros ks gs t Hg Hf; [lia|]. cbn [new_id_loop].
  destruct (random_letters gs t) as [[r t1]|e| |] eqn:E; cbn [bind].
  - destruct (contains_key_id U ks r); [|left; eauto].
    destruct (letters_range _ _ _ _ E) as (_ & _ & L). apply IH; lia.
  - destruct (random_letters_no_fail gs t) as [(s & t' & X)|X]; congruence.
  - right. reflexivity.
  - destruct (random_letters_no_fail gs t) as [(s & t' & X)|X]; congruence.
Qed.

Lemma new_key_total : forall i now e kp t, 0 < i_groupsize i -> 0 <= i_keylength i ->
  (exists i' k t', new_key U i now e kp t = Ok (i', k, t')) \/ new_key U i now e kp t = Panic.
Proof.
  intros i now e kp t Hg Hl. unfold new_key. destruct (key_len_lemma _ _ Hg Hl) as (L1 & L2).
  replace ((i_groupsize i <? 0) || (key_runes_length (i_keylength i) (i_groupsize i) <? 0)) with false by lia.
  cbv zeta.
  destruct (new_id_no_fail (S (length t)) (i_keys i) (Z.to_nat (i_groupsize i)) t ltac:(lia) ltac:(lia)) as [(id & t1 & ->)| ->];
    cbn [bind]; [|right; reflexivity].
  destruct (random_letters_no_fail (Z.to_nat (key_runes_length (i_keylength i) (i_groupsize i))) t1) as [(s & t2 & ->)| ->];
    cbn [bind]; [left; eauto|right; reflexivity].
Qed.

(** Keepers of a new key: the vetted ones, less one occurrence of our own. *)
Lemma remove_one : forall l x, 
  (remove_keeper U l [x] = l /\ forall y, In y l -> ~ same_text up y x) \/
  exists y, same_text up y x /\ Permutation l (y :: remove_keeper U l [x]).
Proof.
  intros l x. rewrite remove_is_del. cbn [fold_left].
  destruct (del1_spec (fun x k => equal_runes_fold U (Some x) (Some k)) l x) as [(E & N)|(y & H1 & H2)].
  - left. split; [exact E|]. intros y Hy E2. specialize (N y Hy). apply fold_diff in N. apply N. symmetry. exact E2.
  - right. exists y. split; [symmetry; apply fold_same; exact H1|exact H2].
Qed.

Lemma new_keys_lemma : forall n i now e kp t i' t', 0 < i_groupsize i -> 0 <= i_keylength i ->
  new_keys U n i now e kp t = Ok (i', t') ->
  exists new, i' = set_keys i (i_keys i ++ new) /\ length new = n /\
  (forall k, In k new -> letters (kid k) /\ len (kid k) = i_groupsize i /\
     letters (krunes k) /\ (exists q, len (krunes k) = q * i_groupsize i) /\
     i_keylength i <= len (krunes k) < i_keylength i + i_groupsize i /\
     kused k = false /\ kcompromised k = false /\ kcreated k = now /\ kexpires k = e /\ kcomment k = [] /\
     kkeepers k = remove_keeper U (vetted_keepers U kp) [i_callsign i]) /\
  (distinct_ids up (i_keys i) -> distinct_ids up (i_keys i ++ new)) /\
  (forall a k b, new = a ++ k :: b -> forall k0, In k0 (i_keys i ++ a) -> ~ same_text up (kid k0) (kid k)).
Proof.
  induction n as [|n IH]; intros i now e kp t i' t' Hg Hl H; cbn [new_keys] in H.
  - injection H as <- <-. exists []. rewrite app_nil_r. split; [destruct i; reflexivity|]. split; [reflexivity|].
    split; [intros ? []|]. split; [auto|]. intros [|] ? ? X; discriminate.
  - destruct (new_key U i now e kp t) as [[[i1 k1] t1]|x| |] eqn:E; try discriminate. cbn [bind] in H.
    destruct (new_key_lemma _ _ _ _ _ _ _ _ Hg Hl E) as (-> & K).
    destruct (IH (set_keys i (i_keys i ++ [k1])) now e kp t1 i' t' Hg Hl H) as (new & -> & N2 & N3 & N4 & N5).
    exists (k1 :: new). cbn [i_keys set_keys i_groupsize i_keylength i_callsign] in *.
    rewrite <- app_assoc in *. cbn [app] in *.
    destruct K as (K1 & K2 & K3 & K4).
    split; [reflexivity|]. split; [cbn; lia|]. split.
    { intros k [<-|Hk]; [|apply N3; exact Hk]. tauto. }
    split.
    { intros D. apply N4. unfold distinct_ids in *. rewrite map_app. cbn [map]. apply distinct_app1; [exact D|].
      intros y Hy. apply in_map_iff in Hy. destruct Hy as (k0 & <- & Hk0). apply K3. exact Hk0. }
    intros a k b Ea k0 Hk0. destruct a as [|a0 a].
    + cbn in Ea. injection Ea as <- <-. rewrite app_nil_r in Hk0. apply K3. exact Hk0.
    + cbn in Ea. injection Ea as <- Ea. apply (N5 a k b Ea). rewrite <- app_assoc. exact Hk0.
Qed.

(** ** Import *)
Lemma import_distinct : forall gs own from ow ask f inc ans ks c ks' n e,
  import_loop U gs own from ow ask f inc ans ks c = (ks', n, e) -> distinct_ids up ks -> distinct_ids up ks'.
Proof.
  induction inc as [|k inc IH]; intros ans ks c ks' n e H D; cbn [import_loop] in H; [injection H as <- <- <-; exact D|].
  assert (Add : forall ks0 a, distinct_ids up ks0 -> (forall k0, In k0 ks0 -> ~ same_text up (kid k0) (kid k)) ->
    import_loop U gs own from ow ask f inc a (ks0 ++ [import_key U own from k]) (c + 1) = (ks', n, e) -> distinct_ids up ks').
  { intros ks0 a D0 N0 H0. apply (IH _ _ _ _ _ _ H0). unfold distinct_ids in *. rewrite map_app. cbn [map].
    apply distinct_app1; [exact D0|]. intros y Hy. apply in_map_iff in Hy. destruct Hy as (k0 & <- & Hk0).
    apply N0. exact Hk0. }
  assert (Del : distinct_ids up (fst (delete_key U ks [kid k])) /\
     forall k0, In k0 (fst (delete_key U ks [kid k])) -> ~ same_text up (kid k0) (kid k)).
  { destruct (delete_key U ks [kid k]) as (ks1 & n1) eqn:E. cbn [fst].
    destruct (delete_lemma _ _ _ _ E D) as (A & _ & B). split; [exact A|].
    intros k0 Hk0. apply B in Hk0. destruct Hk0 as (_ & Q). apply Q. left. reflexivity. }
  destruct Del as (Del1 & Del2).
  destruct (negb (len (kid k) =? gs)); [apply (IH _ _ _ _ _ _ H D)|].
  destruct (negb (f k)); [apply (IH _ _ _ _ _ _ H D)|].
  destruct (contains_key_id U ks (kid k)) eqn:C.
  - destruct (negb ow && ask).
    + destruct ans as [|[[]|] ans']; try (injection H as <- <- <-; exact D).
      * apply (Add _ _ Del1 Del2 H).
      * apply (IH _ _ _ _ _ _ H D).
    + destruct (negb ow); [apply (IH _ _ _ _ _ _ H D)|]. apply (Add _ _ Del1 Del2 H).
  - apply (Add ks ans D); [|exact H]. apply contains_id_false. exact C.
Qed.
End WithUnicode.
