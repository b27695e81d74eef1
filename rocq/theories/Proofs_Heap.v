(** Lemmas about the model with shared arrays: wiping. *)
From Verif Require Import Base Model_Unicode Model_Crand Model_Functions Model_Types
  Model_Cipher Model_Keys Model_Import Model_Messages Model_Heap Spec_Heap Proofs_Keys.

(** ** Arrays *)
Lemma nth_list_update : forall A (l : list A) a v b d,
  nth b (list_update l a v) d = if (a =? b)%nat && (a <? length l)%nat then v else nth b l d.
Proof.
  intros A l. induction l as [|x l IH]; intros a v b d; destruct a as [|a], b as [|b];
    cbn [list_update nth length Nat.eqb andb]; try reflexivity.
  - rewrite andb_false_r. reflexivity.
  - rewrite (IH a v b d). destruct (a =? b)%nat eqn:E; cbn [andb]; [|reflexivity].
    destruct (a <? length l)%nat eqn:F; destruct (S a <? S (length l))%nat eqn:G; try reflexivity;
      apply Nat.ltb_lt in F || apply Nat.ltb_ge in F;
      apply Nat.ltb_lt in G || apply Nat.ltb_ge in G; lia.
Qed.

Lemma rd_wr_other : forall h s v s', (s' = s -> s' = None) -> rd (wr h s v) s' = rd h s'.
Proof.
  intros h [a|] v [b|] H; try reflexivity. unfold rd, wr; cbn [h_runes].
  rewrite nth_list_update. destruct (a =? b)%nat eqn:E; [|reflexivity].
  apply Nat.eqb_eq in E; subst b. specialize (H eq_refl). discriminate.
Qed.

Lemma rd_wr_same : forall h s v, length v = length (rd h s) ->
  slice_ok h s -> rd (wr h s v) s = match s with Some _ => v | None => [] end.
Proof.
  intros h [a|] v L O; [|reflexivity]. unfold rd, wr; cbn [h_runes].
  rewrite nth_list_update, Nat.eqb_refl. cbn [slice_ok] in O.
  apply Nat.ltb_lt in O. rewrite O. reflexivity.
Qed.

Lemma wr_outer_same : forall h s v, h_outer (wr h s v) = h_outer h.
Proof. intros h [a|] v; reflexivity. Qed.
Lemma wr_length : forall h s v, length (h_runes (wr h s v)) = length (h_runes h).
Proof. intros h [a|] v; [apply list_update_length|reflexivity]. Qed.

Lemma wr_lengths : forall h s v, length v = length (rd h s) ->
  forall a, length (nth a (h_runes (wr h s v)) []) = length (nth a (h_runes h) []).
Proof.
  intros h [b|] v L a; [|reflexivity]. unfold wr; cbn [h_runes].
  rewrite nth_list_update. destruct (b =? a)%nat eqn:E; [|reflexivity].
  apply Nat.eqb_eq in E; subst b. cbn [andb]. destruct (a <? length (h_runes h))%nat; [exact L|reflexivity].
Qed.

Lemma read_runes_length : forall n t r t', read_runes n t = Some (r, t') -> length r = n.
Proof.
  intros n t r t'. unfold read_runes. destruct (Nat.leb n (length t)) eqn:E; [|discriminate].
  intros H. injection H as <- _. rewrite map_length, firstn_length. apply Nat.leb_le in E. lia.
Qed.

(** ** Scrubbing a list of slices *)
Definition mem_shape (h h' : heap) : Prop :=
  h_outer h' = h_outer h /\ length (h_runes h') = length (h_runes h) /\
  forall a, length (nth a (h_runes h') []) = length (nth a (h_runes h) []).

Lemma mem_shape_refl : forall h, mem_shape h h.
Proof. intros h. repeat split. Qed.
Lemma mem_shape_trans : forall h1 h2 h3, mem_shape h1 h2 -> mem_shape h2 h3 -> mem_shape h1 h3.
Proof.
  intros h1 h2 h3 (A1 & B1 & C1) (A2 & B2 & C2). split; [congruence|]. split; [congruence|].
  intros a. rewrite C2. apply C1.
Qed.

Lemma wr_shape : forall h s v, length v = length (rd h s) -> mem_shape h (wr h s v).
Proof.
  intros h s v L. split; [apply wr_outer_same|]. split; [apply wr_length|].
  apply wr_lengths; exact L.
Qed.

(** What scrubbing writes depends only on the length of the array. *)
Lemma scrub1_wr : forall h s t, exists v t',
  scrub1 h s t = (wr h s v, t') /\ length v = length (rd h s) /\
  (forall h2, length (rd h2 s) = length (rd h s) -> scrub1 h2 s t = (wr h2 s v, t')).
Proof.
  intros h s t. unfold scrub1.
  assert (Z0 : forall n (l l' : list rune), length l = n -> length l' = n ->
                 map (fun _ => 0) l = map (fun _ => 0) l').
  { intros n l. revert n. induction l as [|x l IH]; intros n [|y l'] H H'; cbn [map length] in *;
      try reflexivity; try lia. f_equal. apply (IH (length l)); lia. }
  destruct (read_runes (length (rd h s)) t) as [[r t']|] eqn:E.
  - exists r, t'. split; [reflexivity|]. split; [exact (read_runes_length _ _ _ _ E)|].
    intros h2 L. rewrite L, E. reflexivity.
  - exists (map (fun _ => 0) (rd h s)), t. split; [reflexivity|]. split; [apply map_length|].
    intros h2 L. rewrite L, E. rewrite (Z0 (length (rd h s)) (rd h2 s) (rd h s)); auto.
Qed.

Lemma scrub_shape : forall ss h t h' t', scrub h ss t = (h', t') ->
  mem_shape h h' /\ forall a, ~ In (Some a) ss -> nth a (h_runes h') [] = nth a (h_runes h) [].
Proof.
  induction ss as [|s ss IH]; intros h t h' t' H; cbn [scrub] in H.
  - injection H as <- _. split; [apply mem_shape_refl|reflexivity].
  - destruct (scrub1_wr h s t) as (v & t1 & E & L & _). rewrite E in H.
    destruct (IH _ _ _ _ H) as [Sh K]. split.
    + eapply mem_shape_trans; [apply (wr_shape h s v L)|exact Sh].
    + intros a Na. rewrite K by (intros I; apply Na; right; exact I).
      pose proof (rd_wr_other h s v (Some a)) as R. unfold rd at 1 2 in R. apply R.
      intros X. exfalso. apply Na. left. auto.
Qed.

(** Two memories that agree outside [P]. *)
Definition differ_by (P : nat -> Prop) (h h' : heap) : Prop :=
  mem_shape h h' /\ forall a, ~ P a -> nth a (h_runes h) [] = nth a (h_runes h') [].

Lemma wr_equalises : forall P h1 h2 s v, length v = length (rd h1 s) -> differ_by P h1 h2 ->
  differ_by (fun a => P a /\ s <> Some a) (wr h1 s v) (wr h2 s v).
Proof.
  intros P h1 h2 s v L [(A & B & C) D]. split.
  - split; [rewrite !wr_outer_same; exact A|]. split; [rewrite !wr_length; exact B|].
    intros a. rewrite wr_lengths, wr_lengths; auto.
    destruct s as [b|]; [|exact L]. unfold rd in *. rewrite C. exact L.
  - intros a Na. destruct s as [b|].
    + unfold wr; cbn [h_runes]. rewrite !nth_list_update, B.
      destruct (b =? a)%nat eqn:E; cbn [andb].
      * apply Nat.eqb_eq in E; subst b.
        destruct (a <? length (h_runes h1))%nat eqn:F; [reflexivity|].
        apply Nat.ltb_ge in F. rewrite !nth_overflow; [reflexivity| |]; lia.
      * apply D. intros X. apply Na. split; [exact X|]. intros Y. injection Y as Y.
        subst b. rewrite Nat.eqb_refl in E. discriminate.
    + cbn [wr]. apply D. intros X. apply Na. split; [exact X|discriminate].
Qed.

Lemma scrub_equalises : forall ss P h1 h2 t h1' t1 h2' t2, differ_by P h1 h2 ->
  scrub h1 ss t = (h1', t1) -> scrub h2 ss t = (h2', t2) ->
  t1 = t2 /\ differ_by (fun a => P a /\ ~ In (Some a) ss) h1' h2'.
Proof.
  induction ss as [|s ss IH]; intros P h1 h2 t h1' t1 h2' t2 D H1 H2; cbn [scrub] in H1, H2.
  - injection H1 as <- <-. injection H2 as <- <-. split; [reflexivity|].
    destruct D as [S K]. split; [exact S|]. intros a Na. apply K. intros X. apply Na. split; [exact X|].
    intros [].
  - destruct (scrub1_wr h1 s t) as (v & t' & E & L & F).
    assert (L2 : length (rd h2 s) = length (rd h1 s)).
    { destruct s as [a|]; [|reflexivity]. unfold rd. apply (proj1 D). }
    rewrite E in H1. rewrite (F h2 L2) in H2.
    pose proof (wr_equalises P h1 h2 s v L D) as D'.
    destruct (IH _ _ _ _ _ _ _ _ D' H1 H2) as [ET [S K]]. split; [exact ET|]. split; [exact S|].
    intros a Na. apply K. intros [[X Y] Z]. apply Na. split; [exact X|].
    intros [I|I]; [exact (Y I)|exact (Z I)].
Qed.

Lemma differ_none : forall P h1 h2, differ_by P h1 h2 -> (forall a, ~ P a) -> h1 = h2.
Proof.
  intros P h1 h2 [(A & B & C) K] N. destruct h1 as [r1 o1], h2 as [r2 o2]. cbn [h_runes h_outer] in *.
  subst o2. f_equal. apply (nth_ext _ _ [] []); [lia|]. intros a _. apply K. apply N.
Qed.

Lemma differ_in_by : forall ss h h', differ_in ss h h' ->
  differ_by (fun a => In (Some a) ss) h h'.
Proof.
  intros ss h h' (A & B & C). split.
  - split; [auto|]. split; [auto|]. intros a. symmetry. apply C.
  - intros a Na. apply C. exact Na.
Qed.

(** ** Key.Wipe and Message.Wipe destroy what was written *)
Lemma wipe_key_forgets : forall h h' k t, differ_in (key_slices h k) h h' ->
  wipe_key h k t = wipe_key h' k t.
Proof.
  intros h h' k t D. unfold wipe_key.
  assert (O : rd_outer h (hk_keepers k) = rd_outer h' (hk_keepers k)).
  { destruct D as [O _]. unfold rd_outer. rewrite O. reflexivity. }
  rewrite <- O.
  destruct (scrub h _ t) as [h1 t1] eqn:E1. destruct (scrub h' _ t) as [h2 t2] eqn:E2.
  destruct (scrub_equalises _ _ _ _ _ _ _ _ _ (differ_in_by _ _ _ D) E1 E2) as [-> Q].
  apply differ_none in Q; [subst h2; reflexivity|].
  intros a [I N]. apply N. unfold key_slices in I. cbn [In] in *. tauto.
Qed.

Lemma wipe_msg_forgets : forall h h' m t, differ_in (msg_secrets m) h h' ->
  wipe_msg h m t = wipe_msg h' m t.
Proof.
  intros h h' m t D. unfold wipe_msg.
  destruct (scrub h _ t) as [h1 t1] eqn:E1. destruct (scrub h' _ t) as [h2 t2] eqn:E2.
  destruct (scrub_equalises _ _ _ _ _ _ _ _ _ (differ_in_by _ _ _ D) E1 E2) as [-> Q].
  apply differ_none in Q; [subst h2; reflexivity|].
  intros a [I N]. exact (N I).
Qed.

(** *** Whole instances *)
Definition keys_slices (h : heap) (ks : list hkey) : list slice := flat_map (key_slices h) ks.

Lemma in_keys_slices : forall h ks s, In s (keys_slices h ks) <->
  exists k, In k ks /\ In s (key_slices h k).
Proof. intros. unfold keys_slices. rewrite in_flat_map. reflexivity. Qed.

(** After wiping [k], a slice that other keys no longer show was one of [k]'s. *)
Lemma rd_outer_wr_outer : forall h s s' v,
  rd_outer (wr_outer h s' v) s = rd_outer h s \/ (s = s' /\ s <> None /\ rd_outer (wr_outer h s' v) s = v).
Proof.
  intros h [a|] [b|] v; try (left; reflexivity).
  unfold rd_outer, wr_outer; cbn [h_outer]. rewrite nth_list_update.
  destruct (b =? a)%nat eqn:E; [|left; reflexivity]. apply Nat.eqb_eq in E; subst b. cbn [andb].
  destruct (a <? length (h_outer h))%nat; [|left; reflexivity].
  right. repeat split. discriminate.
Qed.

Lemma wipe_keys_forgets : forall ks P h1 h2 t h1' t1 h2' t2,
  differ_by P h1 h2 ->
  wipe_keys h1 ks t = (h1', t1) -> wipe_keys h2 ks t = (h2', t2) ->
  t1 = t2 /\ differ_by (fun a => P a /\ ~ In (Some a) (keys_slices h1 ks)) h1' h2'.
Proof.
  induction ks as [|k ks IH]; intros P h1 h2 t h1' t1 h2' t2 D H1 H2; cbn [wipe_keys] in H1, H2.
  - injection H1 as <- <-. injection H2 as <- <-. split; [reflexivity|].
    destruct D as [S K]. split; [exact S|]. intros a Na. apply K. intros X. apply Na.
    split; [exact X|]. intros [].
  - unfold wipe_key in H1, H2.
    assert (O : h_outer h2 = h_outer h1) by apply D.
    assert (O' : rd_outer h2 (hk_keepers k) = rd_outer h1 (hk_keepers k)).
    { unfold rd_outer. rewrite O. reflexivity. }
    rewrite O' in H2.
    destruct (scrub h1 _ t) as [g1 u1] eqn:E1. destruct (scrub h2 _ t) as [g2 u2] eqn:E2.
    destruct (scrub_equalises _ _ _ _ _ _ _ _ _ D E1 E2) as [<- Q].
    set (inner := rd_outer h1 (hk_keepers k)) in *.
    set (w1 := wr_outer g1 (hk_keepers k) (map (fun _ => None) inner)) in *.
    set (w2 := wr_outer g2 (hk_keepers k) (map (fun _ => None) inner)) in *.
    assert (Qw : differ_by (fun a => P a /\ ~ In (Some a) (hk_runes k :: hk_comment k :: hk_id k :: inner)) w1 w2).
    { destruct Q as [(A & B & C) K]. unfold w1, w2, wr_outer. destruct (hk_keepers k) as [o|].
      - split; [split; [cbn [h_outer]; rewrite A; reflexivity|split; [exact B|exact C]]|exact K].
      - split; [split; [exact A|split; [exact B|exact C]]|exact K]. }
    destruct (IH _ _ _ _ _ _ _ _ Qw H1 H2) as [ET [S K]]. split; [exact ET|]. split; [exact S|].
    intros a Na. apply K. intros [[Pa N1] N2]. apply Na. split; [exact Pa|].
    intros I. apply in_keys_slices in I. destruct I as (k2 & [<-|I2] & I).
    + apply N1. unfold key_slices in I. fold inner in I. cbn [In] in I |- *. tauto.
    + unfold key_slices in I. cbn [In] in I.
      assert (G : h_outer g1 = h_outer h1) by apply (scrub_shape _ _ _ _ _ E1).
      destruct (rd_outer_wr_outer g1 (hk_keepers k2) (hk_keepers k) (map (fun _ => None) inner)) as [X|(X & _ & Y)].
      * apply N2. apply in_keys_slices. exists k2. split; [exact I2|].
        unfold key_slices. fold w1 in X. rewrite X.
        unfold rd_outer in I |- *. rewrite G. cbn [In]. tauto.
      * destruct (In_dec (fun x y : slice => ltac:(decide equality; apply Nat.eq_dec)) (Some a) inner) as [J|J].
        -- apply N1. cbn [In]. tauto.
        -- destruct I as [I|[I|[I|I]]].
           ++ apply N2, in_keys_slices. exists k2. split; [exact I2|]. left. exact I.
           ++ apply N2, in_keys_slices. exists k2. split; [exact I2|]. right; left. exact I.
           ++ apply N2, in_keys_slices. exists k2. split; [exact I2|]. right; right; left. exact I.
           ++ apply J. unfold inner. rewrite <- X. exact I.
Qed.

Lemma wipe_msgs_forgets : forall ms P h1 h2 t h1' t1 h2' t2,
  differ_by P h1 h2 ->
  wipe_msgs h1 ms t = (h1', t1) -> wipe_msgs h2 ms t = (h2', t2) ->
  t1 = t2 /\ differ_by (fun a => P a /\ ~ In (Some a) (flat_map msg_secrets ms)) h1' h2'.
Proof.
  induction ms as [|m ms IH]; intros P h1 h2 t h1' t1 h2' t2 D H1 H2; cbn [wipe_msgs] in H1, H2.
  - injection H1 as <- <-. injection H2 as <- <-. split; [reflexivity|].
    destruct D as [S K]. split; [exact S|]. intros a Na. apply K. intros X. apply Na.
    split; [exact X|]. intros [].
  - unfold wipe_msg in H1, H2.
    destruct (scrub h1 _ t) as [g1 u1] eqn:E1. destruct (scrub h2 _ t) as [g2 u2] eqn:E2.
    destruct (scrub_equalises _ _ _ _ _ _ _ _ _ D E1 E2) as [<- Q].
    destruct (IH _ _ _ _ _ _ _ _ Q H1 H2) as [ET [S K]]. split; [exact ET|]. split; [exact S|].
    intros a Na. apply K. intros [[Pa N1] N2]. apply Na. split; [exact Pa|].
    intros I. cbn [flat_map] in I. apply in_app_or in I. tauto.
Qed.

Lemma wipe_inst_forgets : forall h h' i t,
  differ_in (flat_map (key_slices h) (hi_keys i) ++ flat_map msg_secrets (hi_messages i)) h h' ->
  wipe_inst h i t = wipe_inst h' i t.
Proof.
  intros h h' i t D. unfold wipe_inst.
  destruct (wipe_keys h _ t) as [a1 t1] eqn:E1. destruct (wipe_keys h' _ t) as [a2 t2] eqn:E2.
  destruct (wipe_keys_forgets _ _ _ _ _ _ _ _ _ (differ_in_by _ _ _ D) E1 E2) as [<- Q].
  destruct (wipe_msgs a1 _ t1) as [b1 u1] eqn:E3. destruct (wipe_msgs a2 _ t1) as [b2 u2] eqn:E4.
  destruct (wipe_msgs_forgets _ _ _ _ _ _ _ _ _ Q E3 E4) as [<- Q2].
  apply differ_none in Q2; [subst b2; reflexivity|].
  intros a [[I N1] N2]. apply in_app_or in I. destruct I as [I|I]; [exact (N1 I)|exact (N2 I)].
Qed.
