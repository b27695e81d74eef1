(** Lemmas about the command line program: the messages command. *)
From Coq Require Import Permutation.
From Verif Require Import Base Model_Unicode Model_Functions Model_Crand Model_Types Model_Cipher Model_Keys Model_Import
  Model_Messages Model_Station Model_Persist Model_Listing Model_Cli Spec Spec_Persist Spec_Cli Spec_Listing Proofs_Functions
  Proofs_Keys Proofs_Cipher Proofs_Cipher2 Proofs_KeyOps Proofs_Summary Proofs_Messages Proofs_MsgProps Proofs_Station
  Proofs_Persist Proofs_Listing Proofs_Cli Proofs_CliRun Proofs_CliCmd Proofs_CliOps.

Lemma mo_refl i : messages_only i i.
Proof. split; [destruct i; reflexivity|apply more_used_refl]. Qed.
Lemma mo_trans a b c : messages_only a b -> messages_only b c -> messages_only a c.
Proof.
  intros (A1 & A2) (B1 & B2). split; [|exact (more_used_trans _ _ _ A2 B2)]. rewrite B1, A1. reflexivity.
Qed.
Lemma mo_ok a b : messages_only a b -> messages_ok (i_messages b) -> station_ok a -> station_ok b.
Proof.
  intros (A1 & A2) M (G & S & _). assert (i_groupsize b = i_groupsize a) as E by (rewrite A1; reflexivity).
  split; [lia|]. split; [rewrite E; exact (store_ok_more _ _ _ A2 S)|exact M].
Qed.
Lemma messages_ok_incl ms ms' : messages_ok ms -> NoDup (map mid ms') -> incl ms' ms -> messages_ok ms'.
Proof. intros (_ & H) N I. split; [exact N|]. intros m J. apply H, I, J. Qed.
Lemma marked_more js a b : marked_used js a b -> more_used a b.
Proof. intros H. exists js. exact H. Qed.
Lemma Forall2_mid (P : msg -> msg -> Prop) a b : (forall x y, P x y -> mid y = mid x) -> Forall2 P a b -> map mid b = map mid a.
Proof. intros H F. induction F as [|x y a b Pxy F IH]; [reflexivity|]. cbn [map]. rewrite IH, (H _ _ Pxy). reflexivity. Qed.

Lemma Forall2_length A B (P : A -> B -> Prop) a b : Forall2 P a b -> length a = length b.
Proof. intros F. induction F as [|x y a b Q F IH]; [reflexivity|]. cbn [length]. congruence. Qed.

Section Listing.
Context (U : Uni) (ds : Z -> list rune) (dg : list rune -> list rune).

Lemma summary_frame flt i t : station_ok i ->
  exists i' header lines sel, summary_of_messages U ds dg flt i t = Ok (i', header, lines) /\
    messages_only i i' /\ station_ok i' /\
    Forall2 (fun m m' => if flt m then tried U (i_groupsize i) (i_keys i) m m' else m' = m) (i_messages i) (i_messages i') /\
    Forall2 (tried U (i_groupsize i) (i_keys i)) (filter flt (i_messages i)) sel /\
    map mid (i_messages i') = map mid (i_messages i) /\
    Forall2 (fun m line => exists y, line = mid m ++ 32 :: y) (filter flt (i_messages i)) lines.
Proof.
  intros OK. pose proof OK as (Hg & Hs & ND & HI). unfold summary_of_messages.
  assert (forall m, In m (i_messages i) -> mid m <> []) as HM.
  { intros m I. destruct (HI m I) as (Q & _). intros E. rewrite E in Q. discriminate. }
  destruct (list_loop_spec U flt (i_messages i) [] i t eq_refl HM Hg Hs) as (i' & sel & t' & ms' & L & E & M & F & S0 & I0).
  cbn [length] in L. rewrite L. cbn [bind app] in *.
  assert (i_messages i' = ms') as EM by (rewrite E; reflexivity).
  assert (map mid ms' = map mid (i_messages i)) as MM.
  { eapply Forall2_mid; [|exact F]. intros x y. unfold tried_if. destruct (flt x); [|intros ->; reflexivity].
    intros ((A & _) & _). exact A. }
  exists i'. do 2 eexists. exists sel. split; [reflexivity|]. rewrite EM.
  assert (messages_only i i') as MO by (split; [rewrite EM; exact E|exact M]).
  split; [exact MO|]. split.
  { apply (mo_ok i); [exact MO| |exact OK]. rewrite EM. split; [rewrite MM; exact ND|]. intros m J.
    apply (in_map mid) in J. rewrite MM in J. apply in_map_iff in J. destruct J as (m0 & <- & J). apply HI, J. }
  split; [exact F|]. split; [exact S0|]. split; [exact MM|].
  assert (forall m, In m (filter flt (i_messages i)) -> len (mid m) = 4) as H4.
  { intros m J. apply filter_In in J. apply HI, J. }
  unfold predict_msg_sizes. cbv zeta. generalize (fst (fold_left predict_msg_step sel (2, 2))) (snd (fold_left predict_msg_step sel (2, 2))).
  revert H4 S0. clear. generalize (filter flt (i_messages i)).
  intros l H4 S0 c2 c3. induction S0 as [|x y l sel T S IH]; [constructor|]. cbn [map]. constructor.
  - destruct T as ((T & _) & _). rewrite <- T. unfold message_line, with_padding. cbv zeta. cbn [nth].
    unfold padding. rewrite T, (H4 x (or_introl eq_refl)). change (Z.to_nat (4 + 1 - 4)) with 1%nat. cbn [repeat].
    rewrite <- !app_assoc. eexists. reflexivity.
  - apply IH. intros m J. apply H4. right. exact J.
Qed.

Lemma lines_delete i i' lines ms js : station_ok i' -> map mid (i_messages i') = map mid (i_messages i) ->
  Forall2 (fun m line => exists y, line = mid m ++ 32 :: y) ms lines -> incl ms (i_messages i) ->
  (forall m, In m (i_messages i) -> id_ok (mid m)) -> Forall (fun j => (j < length lines)%nat) js ->
  let d := delete_messages_by_summary U (i_messages i') (map (fun j => nth j lines []) js) in
  NoDup (map mid (fst d)) /\ snd d = len (i_messages i') - len (fst d) /\
  forall m, In m (fst d) <-> In m (i_messages i') /\ ~ exists j m0, In j js /\ nth_error ms j = Some m0 /\ mid m0 = mid m.
Proof.
  clear ds dg. intros (_ & _ & ND & _) _ F2 IN HI FJ. cbv zeta.
  destruct (delete_messages_by_summary U (i_messages i') (map (fun j => nth j lines []) js)) as [ms' n] eqn:E. cbn [fst snd].
  assert (exists ids, Forall2 (fun x l => exists y, x <> [] /\ Forall alnum x /\ l = x ++ 32 :: y) ids (map (fun j => nth j lines []) js) /\
    forall id, In id ids <-> exists j m0, In j js /\ nth_error ms j = Some m0 /\ mid m0 = id) as (ids & FI & II).
  { clear E. induction js as [|j js IH]; [exists []; split; [constructor|]; intros id; split; [intros []|intros (? & ? & [] & _)]|].
    inversion FJ as [|? ? J1 J2]; subst. destruct (IH J2) as (ids & A & B).
    destruct (nth_error lines j) as [l|] eqn:EL; [|apply nth_error_None in EL; lia].
    pose proof (forall2_nth _ _ _ _ _ F2 j) as FN. rewrite EL in FN. destruct (nth_error ms j) as [m0|] eqn:M0; [|destruct FN]. destruct FN as (y & Y).
    exists (mid m0 :: ids). split.
    - cbn [map]. constructor; [|exact A]. exists y. destruct (HI m0 (IN m0 (nth_error_In _ _ M0))) as (I1 & I2).
      split; [intros Q; rewrite Q in I1; discriminate|]. split; [exact I2|]. rewrite (nth_error_nth _ _ _ EL). exact Y.
    - intros id. cbn [In]. rewrite B. split.
      + intros [<-|(j' & m' & J & M)]; [exists j, m0; auto|exists j', m'; tauto].
      + intros (j' & m' & [<-|J] & M & <-); [left; congruence|right; exists j', m'; auto]. }
  destruct (delete_lines_lemma U _ _ _ _ ids E ND FI) as (A & B & C). split; [exact A|]. split; [exact B|].
  intros m. rewrite C, II. reflexivity.
Qed.
End Listing.

Lemma delete_msg_incl ids : forall ms, incl (fst (delete_message ms ids)) ms.
Proof.
  induction ids as [|id ids IH]; intros ms x J; [exact J|]. cbn [delete_message] in J. unfold delete_message1 in J.
  destruct (index_of (fun m => equal_runes (Some (mid m)) (Some id)) ms 0) as [n|] eqn:E.
  - pose proof (index_of_spec msg (fun m => equal_runes (Some (mid m)) (Some id)) ms 0) as S. rewrite E in S. destruct S as (a & y & b & -> & <- & _).
    cbn [Nat.add] in J. specialize (IH (swap_remove (a ++ y :: b) (length a)) x).
    destruct (delete_message (swap_remove (a ++ y :: b) (length a)) ids) as [ms2 n2]. cbn [fst] in *. specialize (IH J).
    apply (Permutation_in _ (Permutation_sym (swap_remove_perm msg a y b))) in IH. apply in_app_iff in IH. apply in_app_iff. cbn [In]. tauto.
  - specialize (IH ms x). destruct (delete_message ms ids). cbn [fst] in *. exact (IH J).
Qed.
Lemma delete_summary_incl U picked : forall ms, incl (fst (delete_messages_by_summary U ms picked)) ms.
Proof.
  induction picked as [|l picked IH]; intros ms x J; [exact J|].
  cbn [delete_messages_by_summary] in J. unfold delete_message_by_string in J.
  destruct (delete_message ms (vetted_message_ids U [cut_space l])) as [ms1 n1] eqn:E1.
  specialize (IH ms1 x). destruct (delete_messages_by_summary U ms1 picked) as [ms2 n2] eqn:E2. cbn [fst] in J, IH. specialize (IH J).
  pose proof (delete_msg_incl (vetted_message_ids U [cut_space l]) ms) as Q. rewrite E1 in Q. exact (Q x IH).
Qed.

Section New.
Context (U : Uni) (lb : list rune -> list rune) (dp : list rune -> option Z).
Hypothesis HU : uni_ok U.

Lemma new_message_spec i raw now t i' m t' : station_ok i -> new_text_message U lb dp i [raw] now t = (i', Ok (m, t')) ->
  messages_only i i' /\ station_ok i' /\ i_messages i' = i_messages i ++ [m] /\ id_ok (mid m) /\ mradiogram m = lb raw /\
  (same_text (to_upper U) (mfrom m) (i_callsign i) ->
   exists js, freshly_enciphered (i_groupsize i) (i_keys i) (i_keys i') m js).
Proof.
  intros OK H. pose proof OK as (Hg & Hs & ND & HI).
  destruct (c42_lemma U lb dp HU i [raw] now t i' _ Hg Hs H) as (E1 & E2 & _).
  destruct (new_text_id U lb dp i [raw] now t i' m t' Hg Hs H) as (I1 & I2 & I3).
  assert (id_ok (mid m)) as ID by (split; [unfold len; rewrite I1; reflexivity|exact I2]).
  assert (messages_ok (i_messages i ++ [m])) as MO.
  { split.
    - rewrite map_app. cbn [map]. apply (Permutation_NoDup (l := mid m :: map mid (i_messages i))).
      + apply Permutation_cons_append.
      + constructor; assumption.
    - intros x J. apply in_app_iff in J. destruct J as [J|[<-|[]]]; [apply HI, J|exact ID]. }
  assert (more_used (i_keys i) (i_keys i') /\ mradiogram m = lb raw /\ (same_text (to_upper U) (mfrom m) (i_callsign i) ->
   exists js, freshly_enciphered (i_groupsize i) (i_keys i) (i_keys i') m js)) as (MU & RG & FR).
  { unfold new_text_message in H. destruct (parse_radiogram U lb dp i raw now t) as [[q t1]|e| |] eqn:P; try discriminate.
    pose proof (parse_mid U lb dp _ _ _ _ _ _ P) as Pm.
    destruct (parse_ok U lb dp _ _ _ _ _ _ P) as (? & ? & ? & ? & _ & _ & _ & _ & _ & Pk & Pc & _ & Pr & _).
    destruct (is_my_call U i q) eqn:My.
    - destruct (encipher U i q t1) as [[[i2 m2] r2] t2] eqn:En. destruct r2 as [[]|e| |]; try discriminate.
      injection H as <- <- <-. cbn [store_message set_messages i_keys].
      destruct (c09_lemma U i q t1 i2 m2 t2 HU Hg Hs Pk En) as (js & J1 & J2 & J3 & J4 & J5 & _).
      destruct (encipher_frame U i q t1 i2 m2 _ t2 Pm En) as (_ & (k & c & F)).
      split; [exact (marked_more _ _ _ J5)|]. split; [rewrite F; exact Pr|]. intros _. exists js.
      assert (mplain m2 = mplain q /\ mrecipients m2 = mrecipients q) as (F1 & F2) by (rewrite F; split; reflexivity).
      unfold freshly_enciphered. rewrite F1, F2. auto.
    - cbv zeta in H. set (m1 := if len (mrecipients q) =? 0 then _ else _) in H.
      assert (mid m1 = mid q /\ mradiogram m1 = mradiogram q /\ mfrom m1 = mfrom q) as (M1 & M2 & M3)
        by (unfold m1; destruct (len (mrecipients q) =? 0); auto).
      destruct (try_decipher U i m1 false t1) as [[[i2 m2] r2] t2] eqn:T.
      destruct (try_more U i m1 false t1 i2 m2 r2 t2 ltac:(congruence) Hg Hs T) as (A & _ & B & ((_ & _ & C1 & _ & C2 & _) & _) & _).
      assert ((store_message i2 m2, Ok (m2, t2)) = (i', Ok (m, t'))) as R by (destruct A as [->|(e & ->)]; exact H).
      injection R as <- <- _. cbn [store_message set_messages i_keys]. split; [exact B|]. split; [congruence|].
      intros S. exfalso. rewrite C1, M3 in S. apply (my_call_spec U) in S. congruence. }
  assert (messages_only i i') as MM by (split; assumption).
  split; [exact MM|]. split; [apply (mo_ok i); [exact MM|rewrite E1; exact MO|exact OK]|]. auto.
Qed.
End New.

Set Default Proof Using "Type".
Section Cmd.
Context (L : lib) (U : Uni) (lb : list rune -> list rune) (dp : list rune -> option Z)
  (ds : Z -> list rune) (dg : list rune -> list rune).
Notation msg_cmd := (cmd_messages L U lb dp ds dg).

Lemma msgs_open r g o f h p key i : lib_ok L -> mo_list o || mo_new o || mo_delete o = true ->
  store_at L (r_env r 0) (mo_file o) f p key i ->
  (exists e, e <> Ok tt /\ msg_cmd r g o f h = End e f [] /\ ~ (key_given L (r_env r 0) g key /\ can_read (r_env r 0))) \/
  (key_given L (r_env r 0) g key /\ can_read (r_env r 0) /\ exists h1 s1, ready p key h1 s1 /\ st_inst s1 = i /\
     msg_cmd r g o f h =
       andthen (messages_delete L U ds dg r o f h1 s1) (fun f h s =>
       andthen (messages_new L U lb dp r o f h s) (messages_list U ds dg r o))).
Proof.
  intros HL NI (PO & PP & LK & NZ & ST). unfold cmd_messages. rewrite NI. cbn [negb].
  destruct (open_stored L U g (r_env r 0) (mo_file o) f h p key i HL NZ PO LK ST)
    as [(x & N & -> & NK)|(KG & CR & h1 & s1 & salt & -> & RD & _ & _ & I1)].
  - left. exists x. split; [exact N|]. split; [reflexivity|exact NK].
  - right. split; [exact KG|]. split; [exact CR|]. exists h1, s1. split; [exact RD|]. split; [exact I1|].
    cbn [andthen Go]. apply show_nil.
Qed.

(** Deleting: goes on with a store of which at most the messages and used flags
    differ, saved if a message went; or ends without change. *)
Lemma msgs_delete_step r o f h s p key : plain_path p -> ready p key h s -> disk_ok (r_env r 1) ->
  station_ok (st_inst s) -> stored L f p key (st_inst s) ->
  let y := messages_delete L U ds dg r o f h s in
  (exists f' s', y = Go f' h s' /\ ready p key h s' /\ station_ok (st_inst s') /\ messages_only (st_inst s) (st_inst s') /\
     same_other_files p f f' /\ exists i', stored L f' p key i' /\ (i' = st_inst s \/ i' = st_inst s') /\
       incl (map mid (i_messages (st_inst s'))) (map mid (i_messages (st_inst s)))) \/
  exists e, y = End e f [].
Proof.
  clear lb dp. intros PP RD D OK ST. cbv zeta. unfold messages_delete.
  destruct (negb (mo_delete o)).
  { left. exists f, s. split; [reflexivity|]. split; [exact RD|]. split; [exact OK|]. split; [apply mo_refl|].
    split; [intros q _; reflexivity|]. exists (st_inst s). split; [exact ST|]. split; [left; reflexivity|]. intros x J. exact J. }
  cbv zeta. destruct (len (i_messages (st_inst s)) =? 0); [right; eexists; reflexivity|].
  assert (forall i1 ms n, station_ok i1 -> messages_only (st_inst s) i1 -> map mid (i_messages i1) = map mid (i_messages (st_inst s)) ->
    NoDup (map mid ms) -> incl ms (i_messages i1) ->
    let s1 := set_inst s (set_messages i1 ms) in
    let y := if 0 <? n then save_step L (r_env r 1) f h s1 else Go f h s1 in
    (exists f' s', y = Go f' h s' /\ ready p key h s' /\ station_ok (st_inst s') /\ messages_only (st_inst s) (st_inst s') /\
     same_other_files p f f' /\ exists i', stored L f' p key i' /\ (i' = st_inst s \/ i' = st_inst s') /\
       incl (map mid (i_messages (st_inst s'))) (map mid (i_messages (st_inst s)))) \/
    exists e, y = End e f []) as FIN.
  { intros i1 ms n OK1 MO1 MM ND IN. cbv zeta.
    assert (messages_only (st_inst s) (set_messages i1 ms)) as MO2.
    { destruct MO1 as (A & B). split; [|exact B]. rewrite A. reflexivity. }
    assert (station_ok (set_messages i1 ms)) as OK2.
    { destruct OK1 as (G & S & M). split; [exact G|]. split; [exact S|]. exact (messages_ok_incl _ _ M ND IN). }
    assert (incl (map mid ms) (map mid (i_messages (st_inst s)))) as IM.
    { intros x J. rewrite <- MM. apply in_map_iff in J. destruct J as (m & <- & J). apply in_map, IN, J. }
    destruct (0 <? n).
    - destruct (save_ready L (r_env r 1) f h (set_inst s (set_messages i1 ms)) p key PP RD D) as [(_ & ->)|(_ & f' & -> & S2 & O)];
        [right; eexists; reflexivity|].
      left. exists f', (set_inst s (set_messages i1 ms)). split; [reflexivity|]. split; [exact RD|]. split; [exact OK2|].
      split; [exact MO2|]. split; [exact O|]. exists (set_messages i1 ms). split; [exact S2|]. split; [right; reflexivity|exact IM].
    - left. exists f, (set_inst s (set_messages i1 ms)). split; [reflexivity|]. split; [exact RD|]. split; [exact OK2|].
      split; [exact MO2|]. split; [intros q _; reflexivity|]. exists (st_inst s). split; [exact ST|]. split; [left; reflexivity|exact IM]. }
  destruct (mo_yes o).
  - destruct (delete_message (i_messages (st_inst s)) (vetted_message_ids U (mo_ids o))) as [ms n] eqn:E. cbn [fst snd].
    pose proof OK as (_ & _ & ND & _). destruct (delete_msg_lemma _ _ _ _ E ND) as (A & _ & C).
    apply FIN; [exact OK|apply mo_refl|reflexivity|exact A|]. intros m J. apply C, J.
  - destruct (summary_frame U ds dg (msg_filter U o) (st_inst s) (r_wipe r) OK) as (i1 & hd & lines & sel & -> & MO1 & OK1 & _ & _ & MM & LN).
    destruct (len lines =? 0); [right; eexists; reflexivity|].
    destruct (r_pick r lines) as [picked|]; [|right; eexists; reflexivity].
    pose proof OK1 as (_ & _ & ND1 & _).
    apply FIN; [exact OK1|exact MO1|exact MM|apply delete_summary_nodup; exact ND1|].
    apply delete_summary_incl.
Qed.

Lemma msgs_list_end r o f h s : station_ok (st_inst s) ->
  files (messages_list U ds dg r o f h s) = f /\ result (messages_list U ds dg r o f h s) = Ok tt /\
  shown (messages_list U ds dg r o f h s) = [].
Proof.
  clear lb dp. intros OK. unfold messages_list. destruct (negb (mo_list o)); [cbn; tauto|].
  destruct (summary_frame U ds dg (msg_filter U o) (st_inst s) (r_wipe r) OK) as (i1 & hd & lines & sel & -> & _). cbn. tauto.
Qed.

(** The whole command: what it leaves alone, what it shows. *)
Lemma msgs_frame_lemma r g o f h p key i : uni_ok U -> lib_ok L -> store_at L (r_env r 0) (mo_file o) f p key i -> station_ok i ->
  disk_ok (r_env r 1) -> disk_ok (r_env r 2) ->
  let x := msg_cmd r g o f h in
  same_other_files p f (files x) /\ exists i', stored L (files x) p key i' /\ station_ok i' /\ messages_only i i' /\
  (shown x = [] \/ exists i1 m, shown x = [m] /\ messages_only i i1 /\ station_ok i1 /\ ~ In (mid m) (map mid (i_messages i1)) /\
     (forall raw, r_radiogram r = Some raw -> mradiogram m = lb raw) /\
     (result x = Ok tt -> messages_only i1 i' /\ i_messages i' = i_messages i1 ++ [m]) /\
     (same_text (to_upper U) (mfrom m) (i_callsign i) -> exists js,
        (forall ks', marked_used js (i_keys i1) ks' -> freshly_enciphered (i_groupsize i) (i_keys i1) ks' m js) /\
        (result x = Ok tt -> marked_used js (i_keys i1) (i_keys i')) )).
Proof.
  intros HU HL SA OK D1 D2. cbv zeta.
  destruct (mo_list o || mo_new o || mo_delete o) eqn:NI.
  2:{ unfold cmd_messages. rewrite NI. cbn [negb]. split; [intros q _; reflexivity|]. exists i. split; [apply SA|].
      split; [exact OK|]. split; [apply mo_refl|left; reflexivity]. }
  destruct (msgs_open r g o f h p key i HL NI SA) as [(e & N & -> & NK)|(KG & CR & h1 & s1 & RD & I1 & ->)].
  { split; [intros q _; reflexivity|]. exists i. split; [apply SA|]. split; [exact OK|]. split; [apply mo_refl|left; reflexivity]. }
  destruct SA as (PO & PP & LK & NZ & ST). rewrite <- I1 in ST, OK |- *. clear I1.
  destruct (msgs_delete_step r o f h1 s1 p key PP RD D1 OK ST) as [(f' & s' & -> & RD' & OK' & MO' & O' & i' & ST' & EI & IM)|(e & ->)].
  2:{ cbn [andthen End]. split; [intros q _; reflexivity|]. exists (st_inst s1). split; [exact ST|]. split; [exact OK|].
      split; [apply mo_refl|left; reflexivity]. }
  rewrite andthen_go.
  assert (station_ok i' /\ messages_only (st_inst s1) i') as (OKI & MOI) by (destruct EI as [->| ->]; split; try assumption; apply mo_refl).
  unfold messages_new. destruct (negb (mo_new o)).
  { rewrite andthen_go. destruct (msgs_list_end r o f' h1 s' OK') as (-> & _ & ->). split; [exact O'|].
    exists i'. split; [exact ST'|]. split; [exact OKI|]. split; [exact MOI|left; reflexivity]. }
  assert (forall x, andthen (End x f' []) (messages_list U ds dg r o) = End x f' []) as AE by reflexivity.
  destruct (r_radiogram r) as [raw|].
  2:{ rewrite AE. split; [exact O'|]. exists i'. split; [exact ST'|]. split; [exact OKI|]. split; [exact MOI|left; reflexivity]. }
  destruct (new_text_message U lb dp (st_inst s') [raw] (r_now r) (r_tape r)) as [i2 [[m t']|e| |]] eqn:EN.
  2,3,4: rewrite AE; (split; [exact O'|]); exists i'; (split; [exact ST'|]); (split; [exact OKI|]); (split; [exact MOI|left; reflexivity]).
  destruct (new_message_spec U lb dp HU _ _ _ _ _ _ _ OK' EN) as (MO2 & OK2 & EM & ID & RG & FR).
  assert (i_groupsize (st_inst s') = i_groupsize (st_inst s1) /\ i_callsign (st_inst s') = i_callsign (st_inst s1)) as (EG & EC)
    by (destruct MO' as (-> & _); split; reflexivity).
  assert (~ In (mid m) (map mid (i_messages (st_inst s')))) as NW.
  { destruct OK2 as (_ & _ & N2 & _). rewrite EM, map_app in N2. cbn [map] in N2. apply NoDup_remove_2 in N2.
    rewrite app_nil_r in N2. exact N2. }
  assert (same_text (to_upper U) (mfrom m) (i_callsign (st_inst s1)) -> exists js, marked_used js (i_keys (st_inst s')) (i_keys i2) /\
    forall ks', marked_used js (i_keys (st_inst s')) ks' -> freshly_enciphered (i_groupsize (st_inst s1)) (i_keys (st_inst s')) ks' m js) as FR2.
  { rewrite <- EC, <- EG. intros S. destruct (FR S) as (js & J1 & J2 & J3 & J4 & J5). exists js. split; [exact J5|].
    intros ks' K. repeat (split; [assumption|]). exact K. }
  destruct (save_ready L (r_env r 2) f' h1 (set_inst s' i2) p key PP RD' D2) as [(NW2 & ->)|(_ & f2 & -> & S2 & O2)].
  - cbn [show End andthen]. split; [exact O'|]. exists i'. split; [exact ST'|]. split; [exact OKI|]. split; [exact MOI|].
    right. exists (st_inst s'), m. split; [reflexivity|]. split; [exact MO'|]. split; [exact OK'|]. split; [exact NW|].
    split; [intros raw' [=<-]; exact RG|].
    split; [discriminate|]. intros S. destruct (FR2 S) as (js & _ & J). exists js. split; [exact J|discriminate].
  - cbn [show Go andthen app]. rewrite files_show, result_show, shown_show.
    destruct (msgs_list_end r o f2 h1 (set_inst s' i2) OK2) as (-> & -> & ->).
    split; [intros q Q; rewrite (O2 q Q); exact (O' q Q)|]. exists i2. split; [exact S2|]. split; [exact OK2|].
    split; [exact (mo_trans _ _ _ MO' MO2)|]. right. exists (st_inst s'), m. split; [reflexivity|]. split; [exact MO'|].
    split; [exact OK'|]. split; [exact NW|]. split; [intros raw' [=<-]; exact RG|]. split; [intros _; split; assumption|].
    intros S. destruct (FR2 S) as (js & J1 & J). exists js. split; [exact J|]. intros _. exact J1.
Qed.

(** A new message, nothing deleted. *)
Lemma cli_msg_new_lemma r g o f h p key i : uni_ok U -> lib_ok L -> store_at L (r_env r 0) (mo_file o) f p key i -> station_ok i ->
  disk_ok (r_env r 2) -> mo_delete o = false -> mo_new o = true ->
  let x := msg_cmd r g o f h in
  (result x = Ok tt /\ same_other_files p f (files x) /\ exists raw m ks, r_radiogram r = Some raw /\ shown x = [m] /\
     stored L (files x) p key (set_messages (set_keys i ks) (i_messages i ++ [m])) /\ more_used (i_keys i) ks /\
     id_ok (mid m) /\ ~ In (mid m) (map mid (i_messages i)) /\ mradiogram m = lb raw /\
     (same_text (to_upper U) (mfrom m) (i_callsign i) -> exists js, freshly_enciphered (i_groupsize i) (i_keys i) ks m js)) \/
  (result x <> Ok tt /\ same_files f (files x) /\
   ~ (key_given L (r_env r 0) g key /\ can_read (r_env r 0) /\ can_write (r_env r 2) /\
      exists raw y, r_radiogram r = Some raw /\ snd (new_text_message U lb dp i [raw] (r_now r) (r_tape r)) = Ok y)).
Proof.
  intros HU HL SA OK D2 OD ON. cbv zeta.
  assert (mo_list o || mo_new o || mo_delete o = true) as NI by (rewrite ON; destruct (mo_list o); reflexivity).
  destruct (msgs_open r g o f h p key i HL NI SA) as [(e & N & -> & NK)|(KG & CR & h1 & s1 & RD & I1 & ->)].
  { right. split; [exact N|]. split; [intros q; reflexivity|]. tauto. }
  destruct SA as (PO & PP & LK & NZ & ST).
  unfold messages_delete. rewrite OD. cbn [negb]. rewrite andthen_go. unfold messages_new. rewrite ON. cbn [negb].
  destruct (r_radiogram r) as [raw|].
  2:{ right. split; [discriminate|]. split; [intros q; reflexivity|]. intros (_ & _ & _ & raw & y & Q & _). discriminate. }
  rewrite I1. destruct (new_text_message U lb dp i [raw] (r_now r) (r_tape r)) as [i2 [[m t']|e| |]] eqn:EN.
  2,3,4: right; split; [discriminate|]; split; [intros q; reflexivity|]; intros (_ & _ & _ & raw' & y & [=<-] & Q);
    rewrite EN in Q; discriminate.
  destruct (new_message_spec U lb dp HU _ _ _ _ _ _ _ OK EN) as ((MO2 & MU2) & OK2 & EM & ID & RG & FR).
  destruct (save_ready L (r_env r 2) f h1 (set_inst s1 i2) p key PP RD D2) as [(NW2 & ->)|(_ & f2 & -> & S2 & O2)].
  - right. split; [discriminate|]. split; [intros q; reflexivity|]. tauto.
  - left. cbn [show Go andthen app]. rewrite files_show, result_show, shown_show.
    destruct (msgs_list_end r o f2 h1 (set_inst s1 i2) OK2) as (-> & -> & ->).
    split; [reflexivity|]. split; [exact O2|]. exists raw, m, (i_keys i2). split; [reflexivity|]. split; [reflexivity|].
    rewrite <- EM, <- MO2. split; [exact S2|]. split; [exact MU2|]. split; [exact ID|]. split; [|split; assumption].
    destruct OK2 as (_ & _ & N2 & _). rewrite EM, map_app in N2. cbn [map] in N2. apply NoDup_remove_2 in N2.
    rewrite app_nil_r in N2. exact N2.
Qed.

(** Deleting messages by ID, without questions. *)
Lemma cli_msg_delete_lemma r g o f h p key i : uni_ok U -> lib_ok L -> store_at L (r_env r 0) (mo_file o) f p key i -> station_ok i ->
  disk_ok (r_env r 1) -> mo_delete o = true -> mo_yes o = true -> mo_new o = false ->
  let x := msg_cmd r g o f h in
  (result x = Ok tt /\ same_other_files p f (files x) /\ shown x = [] /\ exists ms, stored L (files x) p key (set_messages i ms) /\
     forall m, In m ms <-> In m (i_messages i) /\ ~ In (mid m) (vetted_message_ids U (mo_ids o))) \/
  (result x <> Ok tt /\ same_files f (files x) /\
   ~ (key_given L (r_env r 0) g key /\ can_read (r_env r 0) /\ can_write (r_env r 1))).
Proof.
  intros HU HL SA OK D1 OD OY ON. cbv zeta.
  assert (mo_list o || mo_new o || mo_delete o = true) as NI by (rewrite OD; destruct (mo_list o), (mo_new o); reflexivity).
  destruct (msgs_open r g o f h p key i HL NI SA) as [(e & N & -> & NK)|(KG & CR & h1 & s1 & RD & I1 & ->)].
  { right. split; [exact N|]. split; [intros q; reflexivity|]. tauto. }
  destruct SA as (PO & PP & LK & NZ & ST).
  unfold messages_delete. rewrite OD, OY, I1. cbn [negb]. cbv zeta.
  assert (set_messages i (i_messages i) = i) as EI by (destruct i; reflexivity).
  destruct (len (i_messages i) =? 0) eqn:E0.
  { left. split; [reflexivity|]. split; [intros q _; reflexivity|]. split; [reflexivity|]. exists (i_messages i).
    rewrite EI. split; [exact ST|]. apply len_zero in E0. rewrite E0. cbn [In]. tauto. }
  destruct (delete_message (i_messages i) (vetted_message_ids U (mo_ids o))) as [ms n] eqn:E. cbn [fst snd].
  pose proof OK as (G & S & ND & HI). destruct (delete_msg_lemma _ _ _ _ E ND) as (A & B & C).
  assert (station_ok (set_messages i ms)) as OK2.
  { split; [exact G|]. split; [exact S|]. apply (messages_ok_incl _ _ (conj ND HI) A). intros m J. apply C, J. }
  assert (forall f', (fun f h s => andthen (messages_new L U lb dp r o f h s) (messages_list U ds dg r o)) f' h1 (set_inst s1 (set_messages i ms)) =
    messages_list U ds dg r o f' h1 (set_inst s1 (set_messages i ms))) as NN.
  { intros f'. cbv beta. unfold messages_new. rewrite ON. cbn [negb]. apply andthen_go. }
  destruct (0 <? n) eqn:E1.
  - destruct (save_ready L (r_env r 1) f h1 (set_inst s1 (set_messages i ms)) p key PP RD D1) as [(NW & ->)|(_ & f' & -> & S2 & O)].
    { right. split; [discriminate|]. split; [intros q; reflexivity|]. tauto. }
    rewrite andthen_go, NN. destruct (msgs_list_end r o f' h1 (set_inst s1 (set_messages i ms)) OK2) as (-> & -> & ->).
    left. split; [reflexivity|]. split; [exact O|]. split; [reflexivity|]. exists ms. split; [exact S2|exact C].
  - rewrite andthen_go, NN. destruct (msgs_list_end r o f h1 (set_inst s1 (set_messages i ms)) OK2) as (-> & -> & ->).
    left. split; [reflexivity|]. split; [intros q _; reflexivity|]. split; [reflexivity|]. exists (i_messages i). rewrite EI.
    split; [exact ST|]. intros m. split; [|tauto]. intros J. split; [exact J|]. apply C.
    assert (NoDup (i_messages i)) as N1 by (apply NoDup_map_inv in ND; exact ND).
    assert (incl ms (i_messages i)) as IN by (intros y Y; apply C, Y).
    assert (incl (i_messages i) ms) as I2 by (eapply NoDup_length_incl; [exact (NoDup_map_inv _ _ A)|unfold len in B; lia|exact IN]).
    exact (I2 m J).
Qed.

(** Deleting messages picked from the list. *)
Lemma cli_msg_pick_lemma r g o f h p key i : uni_ok U -> lib_ok L -> store_at L (r_env r 0) (mo_file o) f p key i -> station_ok i ->
  disk_ok (r_env r 1) -> mo_delete o = true -> mo_yes o = false -> mo_new o = false ->
  let x := msg_cmd r g o f h in
  let chosen := filter (msg_filter U o) (i_messages i) in
  exists lines, length lines = length chosen /\
  ((result x = Ok tt /\ same_other_files p f (files x) /\ shown x = [] /\
     ((chosen = [] /\ same_files f (files x)) \/ forall js, Forall (fun j => (j < length lines)%nat) js ->
       r_pick r lines = Some (map (fun j => nth j lines []) js) ->
     exists i', stored L (files x) p key i' /\ messages_only i i' /\
       (forall m', In m' (i_messages i') -> exists m, In m (i_messages i) /\ tried U (i_groupsize i) (i_keys i) m m') /\
       forall id, In id (map mid (i_messages i')) <->
         In id (map mid (i_messages i)) /\ ~ exists j m, In j js /\ nth_error chosen j = Some m /\ mid m = id)) \/
  (result x <> Ok tt /\ same_files f (files x) /\
   ~ (key_given L (r_env r 0) g key /\ can_read (r_env r 0) /\ can_write (r_env r 1) /\ r_pick r lines <> None))).
Proof.
  intros HU HL SA OK D1 OD OY ON. cbv zeta.
  assert (mo_list o || mo_new o || mo_delete o = true) as NI by (rewrite OD; destruct (mo_list o), (mo_new o); reflexivity).
  destruct (summary_frame U ds dg (msg_filter U o) i (r_wipe r) OK) as (i1 & hd & lines & sel & ES & MO1 & OK1 & F1 & _ & MM & LN).
  exists lines. split; [symmetry; apply (Forall2_length _ _ _ _ _ LN)|].
  destruct (msgs_open r g o f h p key i HL NI SA) as [(e & N & -> & NK)|(KG & CR & h1 & s1 & RD & I1 & ->)].
  { right. split; [exact N|]. split; [intros q; reflexivity|]. tauto. }
  destruct SA as (PO & PP & LK & NZ & ST).
  unfold messages_delete. rewrite OD, OY, I1. cbn [negb]. cbv zeta.
  destruct (len (i_messages i) =? 0) eqn:E0.
  { left. split; [reflexivity|]. split; [intros q _; reflexivity|]. split; [reflexivity|]. left.
    apply len_zero in E0. rewrite E0. split; [reflexivity|]. intros q; reflexivity. }
  rewrite ES. destruct (len lines =? 0) eqn:E2.
  { left. split; [reflexivity|]. split; [intros q _; reflexivity|]. split; [reflexivity|]. left. split; [|intros q; reflexivity].
    apply Forall2_length in LN. apply len_zero in E2. rewrite E2 in LN. destruct (filter _ _); [reflexivity|discriminate]. }
  destruct (r_pick r lines) as [picked|] eqn:EP.
  2:{ right. split; [discriminate|]. split; [intros q; reflexivity|]. tauto. }
  destruct (delete_messages_by_summary U (i_messages i1) picked) as [ms n] eqn:E. cbn [fst snd].
  pose proof OK1 as (G1 & S1 & ND1 & HI1).
  assert (NoDup (map mid ms)) as NDm.
  { pose proof (delete_summary_nodup U picked (i_messages i1) ND1) as Q. rewrite E in Q. exact Q. }
  assert (incl ms (i_messages i1)) as IN.
  { pose proof (delete_summary_incl U picked (i_messages i1)) as Q. rewrite E in Q. exact Q. }
  assert (station_ok (set_messages i1 ms)) as OK2.
  { split; [exact G1|]. split; [exact S1|]. exact (messages_ok_incl _ _ (conj ND1 HI1) NDm IN). }
  assert (messages_only i (set_messages i1 ms)) as MO2.
  { destruct MO1 as (A & B). split; [|exact B]. rewrite A. reflexivity. }
  assert (forall f', (fun f h s => andthen (messages_new L U lb dp r o f h s) (messages_list U ds dg r o)) f' h1 (set_inst s1 (set_messages i1 ms)) =
    messages_list U ds dg r o f' h1 (set_inst s1 (set_messages i1 ms))) as NN.
  { intros f'. cbv beta. unfold messages_new. rewrite ON. cbn [negb]. apply andthen_go. }
  assert (forall m', In m' (i_messages i1) -> exists m, In m (i_messages i) /\ tried U (i_groupsize i) (i_keys i) m m') as TR.
  { clear - F1. intros m' J. induction F1 as [|a b l l' P F IH]; [destruct J|]. destruct J as [<-|J].
    - exists a. split; [left; reflexivity|]. destruct (msg_filter U o a); [exact P|]. subst b. apply tried_refl.
    - destruct (IH J) as (m & A & B). exists m. split; [right; exact A|exact B]. }
  assert (forall js, Forall (fun j => (j < length lines)%nat) js -> Some picked = Some (map (fun j => nth j lines []) js) ->
    n = len (i_messages i1) - len ms /\ forall id, In id (map mid ms) <->
         In id (map mid (i_messages i)) /\ ~ exists j m, In j js /\ nth_error (filter (msg_filter U o) (i_messages i)) j = Some m /\ mid m = id) as DEL.
  { intros js FJ [=->]. pose proof OK as (_ & _ & _ & HI).
    destruct (lines_delete U i i1 lines (filter (msg_filter U o) (i_messages i)) js OK1 MM LN (incl_filter _ _) HI FJ) as (_ & B & C).
    rewrite E in B, C. cbn [fst snd] in B, C. split; [exact B|]. intros id. rewrite <- MM. rewrite !in_map_iff. split.
    - intros (m & <- & J). apply C in J. destruct J as (J1 & J2). split; [exists m; auto|exact J2].
    - intros ((m & <- & J) & NX). exists m. split; [reflexivity|]. apply C. split; [exact J|exact NX]. }
  destruct (0 <? n) eqn:E1.
  - destruct (save_ready L (r_env r 1) f h1 (set_inst s1 (set_messages i1 ms)) p key PP RD D1) as [(NW & ->)|(_ & f' & -> & S2 & O)].
    { right. split; [discriminate|]. split; [intros q; reflexivity|]. tauto. }
    rewrite andthen_go, NN. destruct (msgs_list_end r o f' h1 (set_inst s1 (set_messages i1 ms)) OK2) as (-> & -> & ->).
    left. split; [reflexivity|]. split; [exact O|]. split; [reflexivity|]. right. intros js FJ PJ.
    exists (set_messages i1 ms). split; [exact S2|]. split; [exact MO2|]. split; [intros m' J; apply TR, IN, J|].
    apply (DEL js FJ PJ).
  - rewrite andthen_go, NN. destruct (msgs_list_end r o f h1 (set_inst s1 (set_messages i1 ms)) OK2) as (-> & -> & ->).
    left. split; [reflexivity|]. split; [intros q _; reflexivity|]. split; [reflexivity|]. right. intros js FJ PJ.
    exists i. split; [exact ST|]. split; [apply mo_refl|]. split; [intros m' J; exists m'; split; [exact J|apply tried_refl]|].
    destruct (DEL js FJ PJ) as (B & C). intros id. split; [|tauto]. intros J. split; [exact J|]. apply C.
    assert (incl (i_messages i1) ms) as IN2.
    { eapply NoDup_length_incl; [exact (NoDup_map_inv _ _ NDm)|unfold len in B; lia|exact IN]. }
    rewrite <- MM in J. apply in_map_iff in J. destruct J as (m & <- & J). apply in_map, IN2, J.
Qed.

(** Listing. *)
Lemma cli_msg_list_lemma r g o f h p key i : uni_ok U -> lib_ok L -> store_at L (r_env r 0) (mo_file o) f p key i -> station_ok i ->
  (forall x, len (ds x) = 12) -> (forall m, In m (i_messages i) -> mfrom m <> []) ->
  mo_delete o = false -> mo_new o = false -> mo_list o = true ->
  let x := msg_cmd r g o f h in
  same_files f (files x) /\ shown x = [] /\
  (result x = Ok tt <-> key_given L (r_env r 0) g key /\ can_read (r_env r 0)) /\
  (result x = Ok tt -> exists sel w2 w3,
     Forall2 (tried U (i_groupsize i) (i_keys i)) (filter (msg_filter U o) (i_messages i)) sel /\
     Forall2 (fun m line => exists a, line = a ++ dg (go_string (mplain m) ++ go_string (mcipher m)) /\
      columns [5; 13; w2; w3] [mid m; ds (mdtg m);
        match mrecipients m with [] => str_nil | l => join [44] (map go_string l) end; mfrom m] a) sel (listed x)).
Proof.
  intros HU HL SA OK DS HF OD ON OL. cbv zeta.
  assert (mo_list o || mo_new o || mo_delete o = true) as NI by (rewrite OL; reflexivity).
  destruct (msgs_open r g o f h p key i HL NI SA) as [(e & N & -> & NK)|(KG & CR & h1 & s1 & RD & I1 & ->)].
  { split; [intros q; reflexivity|]. split; [reflexivity|]. cbn [result End]. split; [tauto|]. intros Q; destruct (N Q). }
  unfold messages_delete, messages_new. rewrite OD, ON. cbn [negb]. rewrite andthen_go, andthen_go.
  unfold messages_list. rewrite OL, I1. cbn [negb]. pose proof OK as (G & S & ND & HI).
  destruct (summary_messages_lemma U ds dg (msg_filter U o) i (r_wipe r) DS (fun m J => proj1 (HI m J)) (fun m J _ => HF m J) G S)
    as (i' & hd & lines & sel & w2 & w3 & -> & _ & _ & _ & S0 & _ & LN & _).
  cbn [files shown result listed End]. split; [intros q; reflexivity|]. split; [reflexivity|]. split; [tauto|].
  intros _. exists sel, w2, w3. split; assumption.
Qed.
End Cmd.
