(** C13 (continued), C130: whether the keys are enough for a text. *)
From Verif Require Import Base Spec Spec_Enough Model_Unicode Model_Types Model_Cipher Examples
  Proofs_Enough2 Props_Cipher.

(** C13: Encipher says "out of keys" only when the keys that may be used, all of
    them, are used up: every character takes at most four letters. *)
Theorem c13_out_of_keys : forall U i m t i' m' t', uni_ok U -> 0 < i_groupsize i ->
  store_ok (i_groupsize i) (i_keys i) -> mid m <> [] -> mkeyid m = [] -> mcipher m = [] ->
  mplain m <> [] -> encipher U i m t = (i', m', Err ErrOutOfKeys, t') ->
  total (map (fun l => Z.max 0 (l - i_groupsize i - 2))
    (rooms (i_groupsize i) (mrecipients m) (i_keys i))) <= 4 * (len (mplain m) - 1).
Proof. exact c13_out_lemma. Qed.
Print Assumptions c13_out_of_keys.

Definition ex_msg350 (s : list rune) : msg := ex_msg s [].
Lemma ex_store350 : store_ok 5 (i_keys ex_inst350).
Proof. apply store_okb_ok. vm_compute. reflexivity. Qed.

Example c13_out_of_keys_nontrivial : 3 * 343 <= 4 * (1030 - 1).
Proof.
  assert (E : exists i' m' t', encipher uni_id ex_inst350 (ex_msg350 (repeat 65 1030)) []
      = (i', m', Err ErrOutOfKeys, t')) by (do 3 eexists; vm_compute; reflexivity).
  destruct E as (i' & m' & t' & E).
  pose proof (c13_out_of_keys uni_id ex_inst350 (ex_msg350 (repeat 65 1030)) [] i' m' t' uni_id_ok eq_refl ex_store350
    ltac:(discriminate) eq_refl eq_refl ltac:(discriminate) E) as Q.
  vm_compute in Q. vm_compute. exact Q.
Qed.

(** C13 for texts, of any length, that change neither table nor case: the
    keys may differ in length, and every letter of them but the last group and
    two, and the letters that bring each part into table and case, can be used.
    Missing (and false): texts that change table or case. *)
Theorem c13_steady_text_partial : forall U i m t sec low, uni_ok U -> 0 < i_groupsize i ->
  store_ok (i_groupsize i) (i_keys i) -> mid m <> [] -> mkeyid m = [] -> mcipher m = [] ->
  mplain m <> [] -> Forall (fun c => supported c /\ figure c = sec /\ small c = low) (mplain m) ->
  let lost := if low then (if sec then 2 else 3) else (if sec then 1 else 0) in
  (forall k, In k (i_keys i) -> eligible (i_groupsize i) (mrecipients m) k ->
     i_groupsize i + 2 + lost < len (krunes k)) ->
  len (mplain m) <= total (map (fun l => l - i_groupsize i - 2 - lost)
    (rooms (i_groupsize i) (mrecipients m) (i_keys i))) ->
  exists i' m' t', encipher U i m t = (i', m', Ok tt, t').
Proof. exact c13_steady_lemma. Qed.
Print Assumptions c13_steady_text_partial.

(** 1026 digits, not one more; 1020 small letters. *)
Lemma ex_long350 : forall n, n < 345 -> forall k, In k (i_keys ex_inst350) ->
  eligible 5 [callVQ] k -> 5 + n < len (krunes k).
Proof.
  intros n Hn k H _. assert (L : len (krunes k) = 350).
  { destruct H as [<-|[<-|[<-|[]]]]; vm_compute; reflexivity. }
  lia.
Qed.
Example c13_digits_nontrivial : exists i' m' t',
  encipher uni_id ex_inst350 (ex_msg350 (repeat 49 1026)) [] = (i', m', Ok tt, t').
Proof.
  apply (c13_steady_text_partial uni_id ex_inst350 (ex_msg350 (repeat 49 1026)) [] true false uni_id_ok eq_refl ex_store350
    ltac:(discriminate) eq_refl eq_refl ltac:(discriminate)).
  - apply Forall_forall. intros c Hc. apply repeat_spec in Hc. subst c.
    split; [left; right; left; lia|]. split; reflexivity.
  - exact (ex_long350 3 ltac:(lia)).
  - vm_compute. discriminate.
Qed.
Example c13_small_nontrivial : exists i' m' t',
  encipher uni_id ex_inst350 (ex_msg350 (repeat 97 1020)) [] = (i', m', Ok tt, t').
Proof.
  apply (c13_steady_text_partial uni_id ex_inst350 (ex_msg350 (repeat 97 1020)) [] false true uni_id_ok eq_refl ex_store350
    ltac:(discriminate) eq_refl eq_refl ltac:(discriminate)).
  - apply Forall_forall. intros c Hc. apply repeat_spec in Hc. subst c.
    split; [right; left; lia|]. split; reflexivity.
  - exact (ex_long350 5 ltac:(lia)).
  - vm_compute. discriminate.
Qed.
Example c13_digits_tight : exists i' m' t',
  encipher uni_id ex_inst350 (ex_msg350 (repeat 49 1027)) [] = (i', m', Err ErrOutOfKeys, t').
Proof. do 3 eexists. vm_compute. reflexivity. Qed.

(** C130: what an automatic Encipher returns is told by the text and the
    lengths of the keys that may be used. *)
Theorem c130_outcome : forall U i m t i' m' r t', uni_ok U -> 0 < i_groupsize i ->
  store_ok (i_groupsize i) (i_keys i) -> mid m <> [] -> mkeyid m = [] -> mcipher m = [] ->
  mplain m <> [] -> encipher U i m t = (i', m', r, t') ->
  let p := outcome (i_groupsize i) (rooms (i_groupsize i) (mrecipients m) (i_keys i)) (mplain m) in
  (r = Err ErrNoEligibleKey <-> p = Err ErrNoEligibleKey) /\
  (r = Err ErrOutOfKeys <-> p = Err ErrOutOfKeys) /\
  (r = Panic <-> p = Panic) /\
  ((forall l, In l (rooms (i_groupsize i) (mrecipients m) (i_keys i)) -> i_groupsize i + 2 < l) -> r = p).
Proof. exact (fun U i m t i' m' r t' HU => encipher_outcome U HU i m t i' m' r t'). Qed.
Print Assumptions c130_outcome.

(** The same text with keys of the same lengths ends the same way, whatever the
    letters and IDs of the keys, their keepers and the other keys are. *)
Theorem c130_lengths_only : forall U i m t i' m' r t' i1 m1 t1 i1' m1' r1 t1', uni_ok U ->
  0 < i_groupsize i -> i_groupsize i1 = i_groupsize i ->
  store_ok (i_groupsize i) (i_keys i) -> store_ok (i_groupsize i1) (i_keys i1) ->
  mid m <> [] -> mkeyid m = [] -> mcipher m = [] -> mplain m <> [] ->
  mid m1 <> [] -> mkeyid m1 = [] -> mcipher m1 = [] -> mplain m1 = mplain m ->
  rooms (i_groupsize i) (mrecipients m) (i_keys i) = rooms (i_groupsize i1) (mrecipients m1) (i_keys i1) ->
  (forall l, In l (rooms (i_groupsize i) (mrecipients m) (i_keys i)) -> i_groupsize i + 2 < l) ->
  encipher U i m t = (i', m', r, t') -> encipher U i1 m1 t1 = (i1', m1', r1, t1') -> r1 = r.
Proof. exact c130_lengths_lemma. Qed.
Print Assumptions c130_lengths_only.

Lemma ex_rooms350 : forall l, In l (rooms 5 [callVQ] (i_keys ex_inst350)) -> 5 + 2 < l.
Proof.
  intros l H. apply rooms_in in H. destruct H as (k & K1 & K2 & <-). exact (ex_long350 2 ltac:(lia) k K1 K2).
Qed.

(** The failure of C13, foretold: 340 capitals, a digit, two capitals. *)
Example c130_nontrivial : forall i' m' r t',
  encipher uni_id ex_inst350 (ex_msg350 (repeat 65 340 ++ [49; 65; 65])) [] = (i', m', r, t') ->
  r = Err ErrChunkKeyTooShort.
Proof.
  intros i' m' r t' H.
  destruct (c130_outcome uni_id ex_inst350 (ex_msg350 (repeat 65 340 ++ [49; 65; 65])) [] i' m' r t' uni_id_ok eq_refl ex_store350
    ltac:(discriminate) eq_refl eq_refl ltac:(discriminate) H) as (_ & _ & _ & E).
  rewrite (E ex_rooms350). vm_compute. reflexivity.
Qed.

(** Other letters, another recipient, more keys (used up, or of others). *)
Definition ex_other350 : inst := mkInst 5 350 110 80
  [ex_key idA 3 350 []; ex_key idB 5 350 [callOS]; ex_key idC 7 350 [callOS; callVQ]; ex_key idD 9 350 [callOS]] [] callVQ.
Example c130_lengths_nontrivial : forall i' m' r t' i1' m1' r1 t1',
  encipher uni_id ex_inst350 (ex_msg350 (repeat 65 340 ++ [49; 65])) [] = (i', m', r, t') ->
  encipher uni_id ex_other350 (set_mrecipients (ex_msg350 (repeat 65 340 ++ [49; 65])) [callOS]) [7]
    = (i1', m1', r1, t1') -> r1 = r.
Proof.
  intros i' m' r t' i1' m1' r1 t1' H H1.
  refine (c130_lengths_only uni_id ex_inst350 (ex_msg350 (repeat 65 340 ++ [49; 65])) [] i' m' r t' ex_other350
    (set_mrecipients (ex_msg350 (repeat 65 340 ++ [49; 65])) [callOS]) [7] i1' m1' r1 t1' uni_id_ok eq_refl eq_refl ex_store350 _
    ltac:(discriminate) eq_refl eq_refl ltac:(discriminate) ltac:(discriminate) eq_refl eq_refl eq_refl _ ex_rooms350 H H1).
  - apply store_okb_ok. vm_compute. reflexivity.
  - vm_compute. reflexivity.
Qed.
