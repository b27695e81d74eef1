(** Lemmas about the command line program: the operations of the keys command. *)
From Coq Require Import Permutation.
From Verif Require Import Base Model_Unicode Model_Functions Model_Crand Model_Types Model_Cipher Model_Keys Model_Import
  Model_Messages Model_Station Model_Persist Model_Listing Model_Cli Spec Spec_Persist Spec_Cli Spec_Keys Proofs_Functions
  Proofs_KeyOps Proofs_Summary Proofs_Import Proofs_KeyProps Proofs_Station Proofs_Persist Proofs_Cli Proofs_CliRun
  Proofs_CliCmd.

Set Default Proof Using "Type".
Section Ops.
Context (L : lib) (U : Uni) (dp : list rune -> option Z) (ds : Z -> list rune).
Notation keys_cmd := (cmd_keys L U dp ds).

Lemma list_end r o f h s : files (keys_list U ds r o f h s) = f /\ result (keys_list U ds r o f h s) = Ok tt /\
  shown (keys_list U ds r o f h s) = [] /\
  listed (keys_list U ds r o f h s) = if ko_list o then
    snd (summary_of_keys ds (i_groupsize (st_inst s)) (key_filter U (r_now r) o) (i_keys (st_inst s))) else [].
Proof. unfold keys_list. destruct (ko_list o); cbn; tauto. Qed.

(** Opening the file, or the error that ends the command. *)
Lemma keys_open r g o f h p key i : lib_ok L -> keys_idle o = false -> store_at L (r_env r 0) (ko_file o) f p key i ->
  (exists e, e <> Ok tt /\ keys_cmd r g o f h = End e f [] /\ ~ (key_given L (r_env r 0) g key /\ can_read (r_env r 0))) \/
  (key_given L (r_env r 0) g key /\ can_read (r_env r 0) /\ exists h1 s1 salt, ready p key h1 s1 /\ st_inst s1 = i /\
     salt_given g salt /\ ready_salt salt h1 s1 /\
     keys_cmd r g o f h =
       andthen (keys_delete L U ds r o f h1 s1) (fun f h s =>
       andthen (keys_new L U dp r o f h s) (fun f h s =>
       andthen (keys_import L U r o f h s) (fun f h s =>
       andthen (keys_export L U r o f h s) (keys_list U ds r o))))).
Proof.
  intros HL NI (PO & PP & LK & NZ & ST). unfold cmd_keys. rewrite NI.
  destruct (open_stored L U g (r_env r 0) (ko_file o) f h p key i HL NZ PO LK ST)
    as [(x & N & -> & NK)|(KG & CR & h1 & s1 & salt & -> & RD & SG & RS & I1)].
  - left. exists x. split; [exact N|]. split; [reflexivity|exact NK].
  - right. split; [exact KG|]. split; [exact CR|]. exists h1, s1, salt. split; [exact RD|]. split; [exact I1|].
    split; [exact SG|]. split; [exact RS|].
    cbn [andthen Go]. apply show_nil.
Qed.

Lemma no_delete r o f h s : ko_delete o = false -> keys_delete L U ds r o f h s = Go f h s.
Proof. intros E. unfold keys_delete. rewrite E. reflexivity. Qed.
Lemma no_new r o f h s : ko_new o <= 0 -> keys_new L U dp r o f h s = Go f h s.
Proof. intros E. unfold keys_new. replace (0 <? ko_new o) with false by lia. reflexivity. Qed.
Lemma no_import r o f h s : ko_import o = None -> keys_import L U r o f h s = Go f h s.
Proof. intros E. unfold keys_import. rewrite E. reflexivity. Qed.
Lemma no_export r o f h s : ko_export o = None -> keys_export L U r o f h s = Go f h s.
Proof. intros E. unfold keys_export. rewrite E. reflexivity. Qed.
Lemma andthen_go f h s k : andthen (Go f h s) k = k f h s.
Proof. apply show_nil. Qed.

(** Generating keys. *)
Lemma new_keys_total n : forall i now e kp t, 0 < i_groupsize i -> 0 <= i_keylength i ->
  (exists i' t', new_keys U n i now e kp t = Ok (i', t')) \/ new_keys U n i now e kp t = Panic.
Proof.
  induction n as [|n IH]; intros i now e kp t G K; cbn [new_keys]; [left; eauto|].
  destruct (new_key_total U i now e kp t G K) as [(i' & k & t' & E)| ->]; [|right; reflexivity].
  rewrite E. cbn [bind]. apply new_key_any in E. destruct E as (-> & _). apply IH; assumption.
Qed.
Lemma generate_total i n now (x : option (list rune)) kp t : 0 < i_groupsize i -> 0 <= i_keylength i ->
  (forall d, x = Some d -> dp d <> None) ->
  (exists y, generate_keys U i n now (option_map dp x) kp t = Ok y) \/ generate_keys U i n now (option_map dp x) kp t = Panic.
Proof.
  intros G K EX. unfold generate_keys. destruct x as [d|]; cbn [option_map].
  - destruct (dp d) as [v|] eqn:ED; [|destruct (EX d eq_refl ED)].
    edestruct (new_keys_total (Z.to_nat n) i) as [(i' & t' & Q)|Q]; [exact G|exact K|left; exists (i', t'); exact Q|right; exact Q].
  - edestruct (new_keys_total (Z.to_nat n) i) as [(i' & t' & Q)|Q]; [exact G|exact K|left; exists (i', t'); exact Q|right; exact Q].
Qed.
Lemma cli_new_lemma r g o f h p key i : lib_ok L -> store_at L (r_env r 0) (ko_file o) f p key i ->
  0 < i_groupsize i -> 0 <= i_keylength i -> disk_ok (r_env r 2) ->
  ko_delete o = false -> ko_import o = None -> ko_export o = None -> 0 < ko_new o ->
  let x := keys_cmd r g o f h in
  (result x = Ok tt /\ same_other_files p f (files x) /\ exists new,
     stored L (files x) p key (set_keys i (i_keys i ++ new)) /\ len new = ko_new o /\
     (forall k, In k new -> letters (kid k) /\ len (kid k) = i_groupsize i /\ letters (krunes k) /\
       i_keylength i <= len (krunes k) < i_keylength i + i_groupsize i /\
       kused k = false /\ kcompromised k = false /\ kcreated k = r_now r /\ kcomment k = [] /\
       (forall d, ko_expire o = Some d -> dp d = Some (kexpires k)) /\
       (ko_expire o = None -> kexpires k = r_now r + 365 * day) /\
       keepers_named U (ko_keepers o) (i_callsign i) (kkeepers k)) /\
     (forall a k b, new = a ++ k :: b ->
       forall k0, In k0 (i_keys i ++ a) -> ~ same_text (to_upper U) (kid k0) (kid k))) \/
  (result x <> Ok tt /\ same_files f (files x) /\
   (key_given L (r_env r 0) g key -> can_read (r_env r 0) -> can_write (r_env r 2) ->
    (forall d, ko_expire o = Some d -> dp d <> None) -> result x = Panic)).
Proof.
  intros HL SA G K D ND NI NE NN. cbv zeta.
  assert (keys_idle o = false) as ID.
  { unfold keys_idle. replace (ko_new o =? 0) with false by lia. rewrite ND, NI, NE. destruct (ko_list o); reflexivity. }
  destruct (keys_open r g o f h p key i HL ID SA) as [(e & N & -> & NK)|(KG & CR & h1 & s1 & salt & RD & I1 & _ & _ & ->)].
  { right. split; [exact N|]. split; [intros q; reflexivity|]. tauto. }
  rewrite no_delete, andthen_go by exact ND. unfold keys_new. replace (0 <? ko_new o) with true by lia. cbn [negb]. rewrite I1.
  destruct (generate_keys U i (ko_new o) (r_now r) (option_map dp (ko_expire o)) (ko_keepers o) (r_tape r))
    as [[i' t']|e| |] eqn:EG.
  2,3,4: right; split; [discriminate|]; split; [intros q; reflexivity|]; intros _ _ _ EX;
    destruct (generate_total i (ko_new o) (r_now r) (ko_expire o) (ko_keepers o) (r_tape r) G K EX) as [(x & X)|X];
    rewrite EG in X; try discriminate X; reflexivity.
  destruct (c18_generate_lemma U _ _ _ _ _ _ _ _ G K EG) as (new & -> & LN & P1 & P2).
  destruct (save_ready L (r_env r 2) f h1 (set_inst s1 (set_keys i (i_keys i ++ new))) p key (proj1 (proj2 SA)) RD D)
    as [(NW & ->)|(_ & f' & -> & ST & O)].
  { right. split; [discriminate|]. split; [intros q; reflexivity|]. tauto. }
  rewrite andthen_go, no_import, andthen_go, no_export, andthen_go by assumption.
  destruct (list_end r o f' h1 (set_inst s1 (set_keys i (i_keys i ++ new)))) as (-> & -> & _).
  left. split; [reflexivity|]. split; [exact O|]. exists new. split; [exact ST|]. split; [lia|]. split; [|exact P2].
  intros k I. destruct (P1 k I) as (A1 & A2 & A3 & _ & A4 & A5 & A6 & A7 & A8 & A9 & A10 & A11).
  split; [exact A1|]. split; [exact A2|]. split; [exact A3|]. split; [exact A4|]. split; [exact A5|].
  split; [exact A6|]. split; [exact A7|]. split; [exact A8|]. split; [|split; [|exact A11]].
  - intros d E. rewrite E in A9, EG. cbn [option_map] in *. destruct (dp d) as [v|]; [|discriminate].
    rewrite (A9 v eq_refl). reflexivity.
  - intros E. rewrite E in A10. rewrite (A10 eq_refl). unfold day. lia.
Qed.

(** Deleting keys by ID, without questions. *)
Lemma delete_finish r f h s p key ids : plain_path p -> ready p key h s -> disk_ok (r_env r 1) ->
  stored L f p key (st_inst s) -> distinct_ids (to_upper U) (i_keys (st_inst s)) ->
  let x := delete_key U (i_keys (st_inst s)) ids in
  let s1 := set_inst s (set_keys (st_inst s) (fst x)) in
  let y := if 0 <? snd x then save_step L (r_env r 1) f h s1 else Go f h s1 in
  (exists f' ks, y = Go f' h s1 /\ ready p key h s1 /\ same_other_files p f f' /\ fst x = ks /\
     stored L f' p key (set_keys (st_inst s) (if 0 <? snd x then ks else i_keys (st_inst s))) /\
     (forall k, In k (if 0 <? snd x then ks else i_keys (st_inst s)) <-> In k (i_keys (st_inst s)) /\ forall id, In id ids -> ~ same_text (to_upper U) (kid k) id)) \/
  (exists e, e <> Ok tt /\ y = End e f [] /\ ~ can_write (r_env r 1)).
Proof.
  clear dp ds. intros PP RD D ST DI. cbv zeta. destruct (delete_key U (i_keys (st_inst s)) ids) as [ks n] eqn:E. cbn [fst snd].
  destruct (delete_lemma U _ _ _ _ E DI) as (D1 & D2 & D3).
  destruct (0 <? n) eqn:N0.
  - destruct (save_ready L (r_env r 1) f h (set_inst s (set_keys (st_inst s) ks)) p key PP RD D)
      as [(NW & ->)|(_ & f' & -> & S2 & O)].
    + right. exists (Err ErrIO). split; [discriminate|]. split; [reflexivity|exact NW].
    + left. exists f', ks. split; [reflexivity|]. split; [exact RD|]. split; [exact O|]. split; [reflexivity|].
      split; [exact S2|exact D3].
  - left. exists f, ks. split; [reflexivity|]. split; [exact RD|]. split; [intros q _; reflexivity|]. split; [reflexivity|].
    assert (forall k, In k (i_keys (st_inst s)) -> In k ks) as SUB.
    { destruct (delete_any U _ _ _ _ E) as (del & P & LD & _). assert (del = []) as -> by (destruct del; [reflexivity|unfold len in LD; cbn [length] in LD; lia]).
      intros k I. apply (Permutation_in _ P I). }
    split.
    + destruct (st_inst s). exact ST.
    + intros k. split; [|tauto]. intros I. split; [exact I|]. exact (proj2 (proj1 (D3 k) (SUB k I))).
Qed.

Lemma cli_delete_lemma r g o f h p key i : lib_ok L -> store_at L (r_env r 0) (ko_file o) f p key i ->
  distinct_ids (to_upper U) (i_keys i) -> disk_ok (r_env r 1) ->
  ko_delete o = true -> ko_yes o = true -> ko_new o <= 0 -> ko_import o = None -> ko_export o = None ->
  let x := keys_cmd r g o f h in
  (result x = Ok tt /\ same_other_files p f (files x) /\ exists ks, stored L (files x) p key (set_keys i ks) /\
     forall k, In k ks <-> In k (i_keys i) /\
       forall id, In id (vetted_keepers U (ko_ids o)) -> ~ same_text (to_upper U) (kid k) id) \/
  (result x <> Ok tt /\ same_files f (files x) /\
   ~ (key_given L (r_env r 0) g key /\ can_read (r_env r 0) /\ can_write (r_env r 1))).
Proof.
  intros HL SA DI D OD OY NN NI NE. cbv zeta.
  assert (keys_idle o = false) as ID by (unfold keys_idle; rewrite OD; destruct (ko_list o); reflexivity).
  destruct (keys_open r g o f h p key i HL ID SA) as [(e & N & -> & NK)|(KG & CR & h1 & s1 & salt & RD & I1 & _ & _ & ->)].
  { right. split; [exact N|]. split; [intros q; reflexivity|]. tauto. }
  destruct SA as (PO & PP & LK & NZ & ST). rewrite <- I1 in ST, DI.
  unfold keys_delete. rewrite OD, OY. cbn [negb]. cbv zeta.
  destruct (len (i_keys (st_inst s1)) =? 0) eqn:E0.
  { left. split; [reflexivity|]. split; [intros q _; reflexivity|]. exists (i_keys i). split.
    - cbn [andthen End files]. rewrite <- I1. destruct (st_inst s1); exact ST.
    - rewrite <- I1. destruct (i_keys (st_inst s1)); [cbn [In]; tauto|unfold len in E0; cbn [length] in E0; lia]. }
  destruct (delete_finish r f h1 s1 p key (vetted_keepers U (ko_ids o)) PP RD D ST DI)
    as [(f' & ks & -> & RD1 & O & _ & S2 & DK)|(e & N & -> & NW)].
  - rewrite andthen_go, no_new, andthen_go, no_import, andthen_go, no_export, andthen_go by assumption.
    match goal with |- context [keys_list U ds r o f' h1 ?s] => destruct (list_end r o f' h1 s) as (-> & -> & _) end.
    left. split; [reflexivity|]. split; [exact O|]. rewrite <- I1. eexists. split; [exact S2|exact DK].
  - right. split; [exact N|]. split; [intros q; reflexivity|]. tauto.
Qed.

(** Deleting keys picked from the list. *)
Lemma nth_map_nth (lines : list (list rune)) js : Forall (fun j => (j < length lines)%nat) js ->
  incl (map (fun j => nth j lines []) js) lines.
Proof. intros H x I. apply in_map_iff in I. destruct I as (j & <- & J). apply nth_In. rewrite Forall_forall in H. apply H, J. Qed.
Lemma in_index (A : Type) (l : list A) (d : A) picked : incl picked l ->
  exists js, picked = map (fun j => nth j l d) js /\ Forall (fun j => (j < length l)%nat) js.
Proof.
  induction picked as [|x picked IH]; intros H; [exists []; split; [reflexivity|constructor]|].
  destruct IH as (js & E & F); [intros y Y; apply H; right; exact Y|].
  destruct (In_nth l x d (H x (or_introl eq_refl))) as (j & J & K).
  exists (j :: js). split; [cbn [map]; congruence|]. constructor; assumption.
Qed.

Lemma cli_pick_lemma r g o f h p key i : lib_ok L -> store_at L (r_env r 0) (ko_file o) f p key i ->
  0 < i_groupsize i -> store_ok (i_groupsize i) (i_keys i) -> distinct_ids (to_upper U) (i_keys i) ->
  (forall v, len (ds v) = 12) -> disk_ok (r_env r 1) ->
  ko_delete o = true -> ko_yes o = false -> ko_new o <= 0 -> ko_import o = None -> ko_export o = None ->
  let x := keys_cmd r g o f h in
  let chosen := filter (key_filter U (r_now r) o) (i_keys i) in
  let lines := snd (summary_of_keys ds (i_groupsize i) (key_filter U (r_now r) o) (i_keys i)) in
  (result x = Ok tt /\ same_other_files p f (files x) /\
     ((chosen = [] /\ same_files f (files x)) \/ forall js, r_pick r lines = Some (map (fun j => nth j lines []) js) ->
     exists ks, stored L (files x) p key (set_keys i ks) /\
       forall k, In k ks <-> In k (i_keys i) /\ ~ exists j, In j js /\ nth_error chosen j = Some k)) \/
  (result x <> Ok tt /\ same_files f (files x) /\
   ~ (key_given L (r_env r 0) g key /\ can_read (r_env r 0) /\ can_write (r_env r 1) /\ r_pick r lines <> None)).
Proof.
  intros HL SA GS SO DI DS D OD OY NN NI NE. cbv zeta.
  assert (keys_idle o = false) as ID by (unfold keys_idle; rewrite OD; destruct (ko_list o); reflexivity).
  destruct (keys_open r g o f h p key i HL ID SA) as [(e & N & -> & NK)|(KG & CR & h1 & s1 & salt & RD & I1 & _ & _ & ->)].
  { right. split; [exact N|]. split; [intros q; reflexivity|]. tauto. }
  destruct SA as (PO & PP & LK & NZ & ST). rewrite <- I1 in ST, DI, GS, SO |- *. clear I1.
  unfold keys_delete. rewrite OD, OY. cbn [negb]. cbv zeta.
  set (lines := snd (summary_of_keys ds (i_groupsize (st_inst s1)) (key_filter U (r_now r) o) (i_keys (st_inst s1)))).
  set (chosen := filter (key_filter U (r_now r) o) (i_keys (st_inst s1))).
  assert (length lines = length chosen) as LL.
  { unfold lines, chosen, summary_of_keys. cbn [snd]. rewrite !map_length. reflexivity. }
  destruct (len (i_keys (st_inst s1)) =? 0) eqn:E0.
  { left. split; [reflexivity|]. split; [intros q _; reflexivity|]. left. split; [|intros q; reflexivity].
    unfold chosen. destruct (i_keys (st_inst s1)); [reflexivity|unfold len in E0; cbn [length] in E0; lia]. }
  destruct (len lines =? 0) eqn:E1.
  { left. split; [reflexivity|]. split; [intros q _; reflexivity|]. left. split; [|intros q; reflexivity].
    unfold len in E1. rewrite LL in E1. destruct chosen; [reflexivity|cbn [length] in E1; lia]. }
  destruct (r_pick r lines) as [picked|] eqn:EP.
  2:{ right. split; [discriminate|]. split; [intros q; reflexivity|]. tauto. }
  rewrite summary_delete.
  destruct (delete_finish r f h1 s1 p key (flat_map (fun l => vetted_keepers U [cut_space l]) picked) PP RD D ST DI)
    as [(f' & ks & EY & RD1 & O & EK & S2 & DK)|(e & N & -> & NW)].
  2:{ right. split; [exact N|]. split; [intros q; reflexivity|]. tauto. }
  rewrite EY. rewrite andthen_go, no_new, andthen_go, no_import, andthen_go, no_export, andthen_go by assumption.
  match goal with |- context [keys_list U ds r o f' h1 ?s] => destruct (list_end r o f' h1 s) as (-> & -> & _) end.
  left. split; [reflexivity|]. split; [exact O|]. right. intros js [=->].
  eexists. split; [exact S2|]. clear S2 EY.
  destruct (summary_of_keys ds (i_groupsize (st_inst s1)) (key_filter U (r_now r) o) (i_keys (st_inst s1))) as [hd ls] eqn:ES.
  cbn [snd] in lines. fold lines in ES.
  destruct (delete_keys_by_summary U (i_keys (st_inst s1)) (map (fun j => nth j lines []) js)) as [ks2 n2] eqn:EB.
  destruct (c50_delete_lemma U ds _ _ _ _ _ js ks2 n2 GS SO DS ES EB) as (C1 & C2 & C3).
  rewrite summary_delete in EB. rewrite EB in *. cbn [fst snd] in *. subst ks2.
  intros k. etransitivity; [|apply C3]. destruct (0 <? n2) eqn:E2; [tauto|].
  rewrite DK. destruct (delete_lemma U _ _ _ _ EB DI) as (_ & _ & D3). symmetry. apply D3.
Qed.
End Ops.
