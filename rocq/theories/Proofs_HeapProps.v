(** The lemmas behind the properties of shared memory. *)
From Verif Require Import Base Model_Unicode Model_Crand Model_Functions Model_Types
  Model_Codec Model_Cipher Model_Keys Model_Import Model_Messages Model_Heap Spec Spec_Heap
  Proofs_Keys Proofs_Heap Proofs_Sharing Proofs_Shared
  Proofs_Messages Proofs_HeapOps Proofs_HeapText Proofs_HeapRun Proofs_HeapHist Proofs_HeapImport Proofs_HeapSep.

Section Histories.
Context (U : Uni) (lb : list rune -> list rune) (dp : list rune -> option Z).

Lemma step_delete_key : forall i0 ops t h i t1 ids h' i' t', reach U lb dp i0 ops t = (h, i, t1) ->
  hstep U lb dp (HDeleteKey ids) h i t1 = (h', i', t') ->
  Forall2 same_but_keepers (fst (delete_key U (keys_of h i) ids)) (keys_of h' i') /\
  Forall2 same_but_keyid (messages_of h i) (messages_of h' i') /\
  rd h' (hi_callsign i') = rd h (hi_callsign i).
Proof.
  intros i0 ops t h i t1 ids h' i' t' R H. apply reach_good in R. cbn [hstep] in H.
  destruct (hdelete_key U h (hi_keys i) ids t1) as [[h1 ks] t2] eqn:E. injection H as <- <- <-.
  exact (proj2 (hdelete_key_good _ _ _ _ _ _ _ _ R E)).
Qed.

Lemma step_delete_message : forall i0 ops t h i t1 ids h' i' t', reach U lb dp i0 ops t = (h, i, t1) ->
  hstep U lb dp (HDeleteMessage ids) h i t1 = (h', i', t') ->
  Forall2 same_but_keyid (fst (delete_message (messages_of h i) ids)) (messages_of h' i') /\
  Forall2 same_but_id (keys_of h i) (keys_of h' i') /\
  rd h' (hi_callsign i') = rd h (hi_callsign i).
Proof.
  intros i0 ops t h i t1 ids h' i' t' R H. apply reach_good in R. cbn [hstep] in H.
  destruct (hdelete_message h (hi_messages i) ids t1) as [[h1 ms] t2] eqn:E. injection H as <- <- <-.
  exact (proj2 (hdelete_message_good _ _ _ _ _ _ _ R E)).
Qed.

Lemma step_failed_text : forall i0 ops t h i t1 args now h' i' r t', uni_ok U ->
  reach U lb dp i0 ops t = (h, i, t1) ->
  0 < hi_groupsize i -> store_ok (hi_groupsize i) (keys_of h i) ->
  hnew_text U lb dp h i args now t1 = (h', i', r, t') -> r <> Ok tt ->
  Forall2 same_but_id (keys_of h i) (keys_of h' i') /\
  Forall2 same_but_keyid (messages_of h i) (messages_of h' i').
Proof.
  intros i0 ops t h i t1 args now h' i' r t' HU R Hg Hs H N. apply reach_good in R.
  destruct (hnew_text_spec U lb dp _ _ _ _ _ _ _ _ _ R H) as (_ & _ & _ & iv & rv & E & ER & _ & K & M).
  pose proof (c42_lemma U lb dp HU (inst_of h i) args now t1 iv rv Hg Hs E) as Q.
  destruct rv as [[m tm]| | |]; [subst r; destruct (N eq_refl)| | |]; rewrite Q in K, M; split; assumption.
Qed.

Lemma step_text : forall i0 ops t h i t1 args now h' i' r t',
  reach U lb dp i0 ops t = (h, i, t1) ->
  hnew_text U lb dp h i args now t1 = (h', i', r, t') ->
  r = outcome (snd (new_text_message U lb dp (inst_of h i) args now t1)) /\
  (r = Ok tt -> inst_of h' i' = fst (new_text_message U lb dp (inst_of h i) args now t1)).
Proof.
  intros i0 ops t h i t1 args now h' i' r t' R H. apply reach_good in R.
  destruct (hnew_text_spec U lb dp _ _ _ _ _ _ _ _ _ R H) as (_ & _ & _ & iv & rv & E & ER & X & _).
  rewrite E. split; assumption.
Qed.

Lemma step_new_key : forall i0 ops t h i t1 now expire keepers iv k tv,
  reach U lb dp i0 ops t = (h, i, t1) ->
  new_key U (inst_of h i) now expire keepers t1 = Ok (iv, k, tv) ->
  exists h' i', hstep U lb dp (HNewKey now expire keepers) h i t1 = (h', i', tv) /\ inst_of h' i' = iv.
Proof.
  intros i0 ops t h i t1 now expire keepers iv k tv R E. apply reach_good in R. cbn [hstep].
  destruct (hnew_key U h i now expire keepers t1) as [[h' i'] t'] eqn:H.
  destruct (hnew_key_spec U _ _ _ _ _ _ _ _ _ R H) as (_ & _ & _ & Q). rewrite E in Q.
  destruct Q as [Q ->]. exists h', i'. auto.
Qed.

Lemma step_import : forall i0 ops t h i t1 overwrite ask filter incoming answers h' i' t',
  reach U lb dp i0 ops t = (h, i, t1) ->
  hstep U lb dp (HImport overwrite ask filter incoming answers) h i t1 = (h', i', t') ->
  let iv := fst (fst (import_keys U (inst_of h i) overwrite ask filter incoming answers)) in
  Forall2 same_but_keepers (i_keys iv) (keys_of h' i') /\
  Forall2 same_but_keyid (messages_of h i) (messages_of h' i') /\
  (overwrite = false -> ask = false -> inst_of h' i' = iv).
Proof.
  intros i0 ops t h i t1 overwrite ask filter incoming answers h' i' t' R H. apply reach_good in R.
  cbn [hstep] in H. destruct (himport_spec U _ _ _ _ _ _ _ _ _ _ _ R H) as (_ & _ & _ & K & M & X).
  cbv zeta. split; [exact K|]. split; [exact M|]. intros A B. symmetry. exact (X A B).
Qed.

Lemma step_delete_key_exact : forall i0 ops t h i t1 ids h' i' t', Forall no_import ops ->
  reach U lb dp i0 ops t = (h, i, t1) ->
  hstep U lb dp (HDeleteKey ids) h i t1 = (h', i', t') ->
  keys_of h' i' = fst (delete_key U (keys_of h i) ids).
Proof.
  intros i0 ops t h i t1 ids h' i' t' N R H. pose proof (reach_ksep _ _ _ _ _ _ _ _ _ N R) as S.
  apply reach_good in R. cbn [hstep] in H.
  destruct (hdelete_key U h (hi_keys i) ids t1) as [[h1 ks] t2] eqn:E. injection H as <- <- <-.
  assert (EX : forall x, In x (call_slot i) -> fst x = KCall \/ fst x = KKeeper).
  { intros x [<-|[]]. auto. }
  exact (proj2 (ksep_delete_key U lb dp _ _ _ _ _ _ _ _ _ R S EX E)).
Qed.

Lemma after_load : forall i0 t h i, loaded i0 = (h, i) ->
  (forall ids h' i' t', hstep U lb dp (HDeleteKey ids) h i t = (h', i', t') ->
     inst_of h' i' = set_keys i0 (fst (delete_key U (i_keys i0) ids))) /\
  (forall ids h' i' t', hstep U lb dp (HDeleteMessage ids) h i t = (h', i', t') ->
     inst_of h' i' = set_messages i0 (fst (delete_message (i_messages i0) ids))).
Proof.
  intros i0 t h i L. pose proof (loaded_separate _ _ _ L) as S.
  destruct (loaded_good _ _ _ L) as [_ V].
  assert (CS : In (KCall, hi_callsign i) (call_slot i)) by (left; reflexivity).
  split; intros ids h' i' t' H; cbn [hstep] in H.
  - destruct (hdelete_key U h (hi_keys i) ids t) as [[h1 ks] t2] eqn:E. injection H as <- <- <-.
    assert (EX : forall x, In x (call_slot i) -> fst x = KCall \/ fst x = KKeeper).
    { intros x [<-|[]]. auto. }
    destruct (sep_delete_key _ _ _ _ _ _ _ _ _ _ S EX E) as (_ & K & M & C).
    rewrite <- V. unfold inst_of, set_keys, keys_of, messages_of.
    cbn [hset_keys hi_groupsize hi_keylength hi_columns hi_keycolumns hi_keys hi_messages hi_callsign
         i_groupsize i_keylength i_columns i_keycolumns i_keys i_messages i_callsign].
    rewrite M, K, (C _ CS). reflexivity.
  - destruct (hdelete_message h (hi_messages i) ids t) as [[h1 ms] t2] eqn:E. injection H as <- <- <-.
    destruct (sep_delete_message _ _ _ _ _ _ _ _ _ S E) as (_ & M & K & C).
    rewrite <- V. unfold inst_of, set_messages, keys_of, messages_of.
    cbn [hset_messages hi_groupsize hi_keylength hi_columns hi_keycolumns hi_keys hi_messages hi_callsign
         i_groupsize i_keylength i_columns i_keycolumns i_keys i_messages i_callsign].
    rewrite M, K, (C _ CS). reflexivity.
Qed.

Lemma export_contents : forall i0 ops t h i t1 f h' e, reach U lb dp i0 ops t = (h, i, t1) ->
  hexport h i f = (h', e) ->
  inst_of h' e = export_keys (inst_of h i) f /\ inst_of h' i = inst_of h i.
Proof.
  intros i0 ops t h i t1 f h' e R H. apply reach_good in R. unfold hexport in H.
  destruct (new h (rd h (hi_callsign i))) as [h1 c] eqn:EN. injection H as <- <-.
  pose proof (grows_new _ _ _ _ EN) as G. pose proof (rd_new _ _ _ _ EN) as RC.
  assert (K : map (key_of h1) (hi_keys i) = keys_of h i) by exact (keys_grow _ _ _ _ _ G R).
  split.
  - unfold inst_of, export_keys, keys_of, messages_of.
    cbn [hi_groupsize hi_keylength hi_columns hi_keycolumns hi_keys hi_messages hi_callsign
         i_groupsize i_keylength i_columns i_keycolumns i_keys i_messages i_callsign map].
    rewrite RC. f_equal.
    assert (Q : forall l, (forall k, In k l -> key_of h1 k = key_of h k) ->
       map (key_of h1) (List.filter (fun k => f (key_of h k)) l) = List.filter f (map (key_of h) l)).
    { induction l as [|k l IH]; intros X; [reflexivity|]. cbn [List.filter map].
      rewrite <- (X k (or_introl eq_refl)).
      destruct (f (key_of h1 k)); cbn [map]; rewrite IH by (intros; apply X; right; assumption); reflexivity. }
    apply Q. intros k J. destruct (inv_key_ok _ _ _ _ _ R J). apply key_of_grows; auto.
  - unfold inst_of, messages_of. rewrite (msgs_grow _ _ _ _ _ G R). unfold keys_of in *. rewrite K.
    rewrite (grows_rd _ _ _ G); [reflexivity|].
    apply (inv_ex_ok _ _ _ _ (KCall, hi_callsign i) R). left; reflexivity.
Qed.
End Histories.

Lemma wipe_slice_forgets : forall h h' s t, (length (rd h s) <= length t)%nat ->
  differ_in [s] h h' -> wipe1 h s t = wipe1 h' s t.
Proof.
  intros h h' s t L D.
  assert (E : length (rd h s) = length (rd h' s)).
  { destruct s as [a|]; [|reflexivity]. cbn [rd]. apply (proj2 (proj2 D)). }
  unfold wipe1. rewrite <- E. unfold read_runes.
  replace (Nat.leb (length (rd h s)) (length t)) with true by (symmetry; apply Nat.leb_le; exact L).
  destruct s as [a|].
  - unfold wr. destruct D as (O & LL & D). rewrite O. f_equal. f_equal. f_equal.
    apply (nth_ext _ _ [] []); [rewrite !list_update_length; exact LL|].
    intros n Hn. rewrite list_update_length in Hn. rewrite !nth_list_update.
    destruct (Nat.eqb a n) eqn:Q; cbn [andb].
    + apply Nat.eqb_eq in Q. subst n.
      replace (Nat.ltb a (length (h_runes h'))) with true by (symmetry; apply Nat.ltb_lt; lia).
      replace (Nat.ltb a (length (h_runes h))) with true by (symmetry; apply Nat.ltb_lt; lia). reflexivity.
    + apply (proj2 (D n)). intros [X|[]]. injection X as ->. rewrite Nat.eqb_refl in Q. discriminate.
  - cbn [wr]. assert (h = h') as ->; [|reflexivity]. destruct h as [r o], h' as [r' o'].
    destruct D as (O & LL & D). cbn [h_runes h_outer] in *. subst o'. f_equal.
    apply (nth_ext _ _ [] []); [exact LL|]. intros n _. apply (proj2 (D n)). intros [X|[]]. discriminate.
Qed.

Lemma step_mark : forall U lb dp h i t id used h' i' t',
  hstep U lb dp (HMarkKeyUsed id used) h i t = (h', i', t') ->
  h' = h /\ t' = t /\ inst_of h' i' = set_keys (inst_of h i) (fst (mark_key_used U id used (keys_of h i))).
Proof.
  intros U lb dp h i t id used h' i' t' H. cbn [hstep] in H. injection H as <- <- <-.
  split; [reflexivity|]. split; [reflexivity|].
  unfold inst_of, set_keys, keys_of, messages_of.
  cbn [hset_keys hi_groupsize hi_keylength hi_columns hi_keycolumns hi_keys hi_messages hi_callsign
       i_groupsize i_keylength i_columns i_keycolumns i_keys i_messages i_callsign].
  rewrite set_flags_value; [reflexivity|]. symmetry; apply mark_key_used_same.
Qed.

Lemma wipe1_fails : forall h s, wipe1 h s [] = (h, match rd h s with [] => None | _ => s end, []).
Proof.
  intros h s. unfold wipe1, read_runes. destruct (rd h s) as [|x l] eqn:E; cbn [length Nat.leb]; [|reflexivity].
  cbn [firstn skipn map]. f_equal. f_equal. destruct s as [a|]; [|reflexivity].
  unfold wr, rd in *. destruct h as [r o]. cbn [h_runes h_outer] in *. f_equal.
  apply (nth_ext _ _ [] []); [apply list_update_length|]. intros n Hn. rewrite nth_list_update.
  destruct (Nat.eqb a n) eqn:Q; cbn [andb]; [|reflexivity]. apply Nat.eqb_eq in Q. subst n.
  destruct (Nat.ltb a (length r)); [symmetry; exact E|reflexivity].
Qed.

Lemma export_contents_fields : forall U lb dp i0 ops t h i t1 f h' e,
  reach U lb dp i0 ops t = (h, i, t1) -> hexport h i f = (h', e) ->
  keys_of h' e = filter f (keys_of h i) /\ messages_of h' e = [] /\
  rd h' (hi_callsign e) = rd h (hi_callsign i) /\
  hi_groupsize e = hi_groupsize i /\ hi_keylength e = hi_keylength i /\
  hi_columns e = hi_columns i /\ hi_keycolumns e = hi_keycolumns i /\
  inst_of h' i = inst_of h i.
Proof.
  intros U lb dp i0 ops t h i t1 f h' e R H. destruct (export_contents _ _ _ _ _ _ _ _ _ _ _ _ R H) as [E S].
  unfold inst_of in E at 1. unfold export_keys in E.
  cbn [inst_of i_groupsize i_keylength i_columns i_keycolumns i_keys i_messages i_callsign] in E.
  injection E as E1 E2 E3 E4 E5 E6 E7. repeat split; assumption.
Qed.

Lemma step_import_keys : forall U lb dp i0 ops t h i t1 overwrite ask filter incoming answers h' i' t',
  reach U lb dp i0 ops t = (h, i, t1) ->
  hstep U lb dp (HImport overwrite ask filter incoming answers) h i t1 = (h', i', t') ->
  let iv := fst (fst (import_keys U (inst_of h i) overwrite ask filter incoming answers)) in
  Forall2 same_but_keepers (i_keys iv) (keys_of h' i') /\
  Forall2 same_but_keyid (messages_of h i) (messages_of h' i').
Proof.
  intros. destruct (step_import _ _ _ _ _ _ _ _ _ _ _ _ _ _ _ _ _ H H0) as (A & B & _). split; assumption.
Qed.
Lemma step_import_exact : forall U lb dp i0 ops t h i t1 filter incoming answers h' i' t',
  reach U lb dp i0 ops t = (h, i, t1) ->
  hstep U lb dp (HImport false false filter incoming answers) h i t1 = (h', i', t') ->
  inst_of h' i' = fst (fst (import_keys U (inst_of h i) false false filter incoming answers)).
Proof.
  intros. destruct (step_import _ _ _ _ _ _ _ _ _ _ _ _ _ _ _ _ _ H H0) as (_ & _ & A). exact (A eq_refl eq_refl).
Qed.
Lemma step_text_result : forall U lb dp i0 ops t h i t1 args now h' i' r t',
  reach U lb dp i0 ops t = (h, i, t1) ->
  hnew_text U lb dp h i args now t1 = (h', i', r, t') ->
  (r = Ok tt -> inst_of h' i' = fst (new_text_message U lb dp (inst_of h i) args now t1)) /\
  r = match snd (new_text_message U lb dp (inst_of h i) args now t1) with
      | Ok _ => Ok tt | Err e => Err e | Panic => Panic | Diverge => Diverge
      end.
Proof.
  intros. destruct (step_text _ _ _ _ _ _ _ _ _ _ _ _ _ _ _ H H0) as (A & B). split; [exact B|].
  rewrite A. unfold outcome. reflexivity.
Qed.
