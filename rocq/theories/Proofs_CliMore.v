(** Lemmas about the command line program: listing, exporting and importing keys. *)
From Coq Require Import Permutation.
From Verif Require Import Base Model_Unicode Model_Functions Model_Crand Model_Types Model_Cipher Model_Keys Model_Import
  Model_Messages Model_Station Model_Persist Model_Listing Model_Cli Spec Spec_Persist Spec_Cli Proofs_Functions
  Proofs_KeyOps Proofs_Summary Proofs_Import Proofs_KeyProps Proofs_Station Proofs_Persist Proofs_Cli Proofs_CliRun
  Proofs_CliCmd Proofs_CliOps.

Set Default Proof Using "Type".
Section More.
Context (L : lib) (U : Uni) (dp : list rune -> option Z) (ds : Z -> list rune).
Notation keys_cmd := (cmd_keys L U dp ds).

(** Listing. *)
Lemma cli_list_lemma r g o f h p key i : lib_ok L -> store_at L (r_env r 0) (ko_file o) f p key i ->
  (forall k, In k (i_keys i) -> len (kid k) = i_groupsize i) -> (forall x, len (ds x) = 12) ->
  ko_delete o = false -> ko_new o = 0 -> ko_import o = None -> ko_export o = None -> ko_list o = true ->
  let x := keys_cmd r g o f h in
  same_files f (files x) /\ shown x = [] /\
  (result x = Ok tt <-> key_given L (r_env r 0) g key /\ can_read (r_env r 0)) /\
  (result x = Ok tt -> exists w1 w6,
     Forall2 (fun k line => columns [i_groupsize i + 1; w1; 13; 13; 5; 12; w6]
        [kid k; match kkeepers k with [] => str_anonymous | _ => join [44] (map go_string (kkeepers k)) end;
         ds (kcreated k); ds (kexpires k); yes_no (kused k); yes_no (kcompromised k); kcomment k] line)
       (filter (key_filter U (r_now r) o) (i_keys i)) (listed x)).
Proof.
  intros HL SA LK DS OD ON OI OE OL. cbv zeta.
  assert (keys_idle o = false) as ID by (unfold keys_idle; rewrite OL; reflexivity).
  destruct (keys_open L U dp ds r g o f h p key i HL ID SA) as [(e & N & -> & NK)|(KG & CR & h1 & s1 & salt & RD & I1 & _ & _ & ->)].
  { split; [intros q; reflexivity|]. split; [reflexivity|]. cbn [result End]. split; [tauto|]. intros Q; destruct (N Q). }
  rewrite no_delete, andthen_go, no_new, andthen_go, no_import, andthen_go, no_export, andthen_go by (assumption || lia).
  destruct (list_end U ds r o f h1 s1) as (-> & -> & -> & ->). rewrite OL, I1.
  split; [intros q; reflexivity|]. split; [reflexivity|]. split; [tauto|]. intros _.
  destruct (summary_of_keys ds (i_groupsize i) (key_filter U (r_now r) o) (i_keys i)) as [hd lines] eqn:E. cbn [snd].
  destruct (c50_columns_lemma2 ds _ _ _ _ _ LK DS E) as (w1 & w6 & F & _). exists w1, w6. exact F.
Qed.

(** Saving a new instance. *)
Lemma save_new e f h n q key : disk_ok e -> path_of L e (st_path n) q -> st_inter n = true -> len key = 32 ->
  (exists c, st_pfk n = Some c /\ (c < length h)%nat /\ cell h c = key) ->
  (exists n', save_step L e f h n = Go f h n' /\ f q <> None /\ st_over n = false /\ e_term e = true /\ e_confirm e = Some false) \/
  (can_write e /\ (f q = None \/ st_over n = true \/ (e_term e = true /\ e_confirm e = Some true)) /\
   exists n' f', save_step L e f h n = Go f' h n' /\ stored L f' q key (st_inst n) /\ same_other_files q f f') \/
  (exists x, x <> Ok tt /\ save_step L e f h n = End x f [] /\
   ~ (can_write e /\ (f q = None \/ st_over n = true \/ (e_term e = true /\ e_confirm e = Some true)))).
Proof.
  clear dp ds. intros D PO SI LK (c & C1 & C2 & C3). unfold save_step, save, can_write.
  pose proof (path_of_nonempty _ _ _ _ PO) as NE. rewrite (not_empty _ NE). apply path_of_resolve in PO; [|exact NE].
  rewrite PO. cbv zeta. destruct (e_stat_err e).
  { right. right. exists (Err ErrIO). split; [discriminate|]. split; [reflexivity|]. intros ((X & _) & _). discriminate. }
  unfold obtain_key. cbn [st_pfk set_path st_over st_inter]. rewrite C1.
  set (go := if negb (e_open e) then _ else _).
  assert ((e_open e = false /\ go = (Err ErrIO, set_path n q, h, [])) \/
    (e_open e = true /\ exists xs, go = (Ok tt, set_path n q, h, xs) /\ stored L (apply_effects f xs) q key (st_inst n) /\
       same_other_files q f (apply_effects f xs))) as GO.
  { unfold go. destruct (e_open e); [|left; split; reflexivity]. right. split; [reflexivity|]. cbn [negb].
    unfold pfk_bytes. cbn [st_pfk set_path]. rewrite C1, C3. unfold array32. replace (len key <? 32) with false by lia.
    set (b := seal L (firstn 32 key) (e_nonce e) (encode L (st_inst (set_path n q)))).
    assert (fails_early e (pieces (e_cuts e) b) = false) as FE by (unfold fails_early; rewrite D; reflexivity).
    rewrite FE. eexists. split; [reflexivity|]. split.
    - exists (e_nonce e). rewrite effects_file. unfold written. rewrite D, pieces_concat. reflexivity.
    - intros r N. apply effects_other with q; [|exact N].
      intros x [<-|H]; [reflexivity|]. apply in_map_iff in H. destruct H as (y & <- & _). reflexivity. }
  clearbody go.
  assert ((f q = None \/ st_over n = true \/ (e_term e = true /\ e_confirm e = Some true)) ->
    (match go with
     | (Ok _, s1, h1, xs) => Go (apply_effects f xs) h1 s1
     | (r, _, _, xs) => End r (apply_effects f xs) []
     end = match go with
     | (Ok _, s1, h1, xs) => Go (apply_effects f xs) h1 s1
     | (r, _, _, xs) => End r (apply_effects f xs) []
     end) ->
    ((false = false /\ e_open e = true /\ e_fail e = None) /\ (f q = None \/ st_over n = true \/ (e_term e = true /\ e_confirm e = Some true)) /\
     exists n' f', match go with
     | (Ok _, s1, h1, xs) => Go (apply_effects f xs) h1 s1
     | (r, _, _, xs) => End r (apply_effects f xs) []
     end = Go f' h n' /\ stored L f' q key (st_inst n) /\ same_other_files q f f') \/
    (exists x, x <> Ok tt /\ match go with
     | (Ok _, s1, h1, xs) => Go (apply_effects f xs) h1 s1
     | (r, _, _, xs) => End r (apply_effects f xs) []
     end = End x f [] /\
     ~ ((false = false /\ e_open e = true /\ e_fail e = None) /\ (f q = None \/ st_over n = true \/ (e_term e = true /\ e_confirm e = Some true))))) as FIN.
  { intros W _. destruct GO as [(O & ->)|(O & xs & -> & S & OTH)].
    - right. exists (Err ErrIO). split; [discriminate|]. split; [reflexivity|]. rewrite O. intros ((_ & X & _) & _). discriminate.
    - left. split; [split; [reflexivity|split; [exact O|exact D]]|]. split; [exact W|].
      exists (set_path n q), (apply_effects f xs). split; [reflexivity|]. split; assumption. }
  destruct (f q) as [bs|] eqn:EF; [|right; apply FIN; [tauto|reflexivity]].
  destruct (st_over n) eqn:EO; [right; apply FIN; [tauto|reflexivity]|]. rewrite SI. cbn [andb].
  destruct (e_term e) eqn:ET.
  - destruct (e_confirm e) as [[|]|] eqn:EC.
    + right; apply FIN; [tauto|reflexivity].
    + left. exists (set_path n q). split; [reflexivity|]. split; [discriminate|]. tauto.
    + right. right. exists (Err ErrPrompt). split; [discriminate|]. split; [reflexivity|].
      intros (_ & [X|[X|(_ & X)]]); discriminate.
  - right. right. exists (Err ErrFileExists). split; [discriminate|]. split; [reflexivity|].
    intros (_ & [X|[X|(X & _)]]); discriminate.
Qed.

(** Exporting. *)
Lemma cli_export_lemma r g o f h p key i file q : lib_ok L -> store_at L (r_env r 0) (ko_file o) f p key i ->
  disk_ok (r_env r 5) -> ko_export o = Some file -> path_of L (r_env r 5) file q ->
  ko_delete o = false -> ko_new o <= 0 -> ko_import o = None ->
  let x := keys_cmd r g o f h in
  let agreed := f q = None \/ ko_yes o = true \/ (e_term (r_env r 5) = true /\ e_confirm (r_env r 5) = Some true) in
  same_other_files q f (files x) /\
  ((result x = Ok tt /\ agreed /\
    stored L (files x) q key (mkInst (i_groupsize i) (i_keylength i) (i_columns i) (i_keycolumns i)
      (filter (key_filter U (r_now r) o) (i_keys i)) [] (i_callsign i))) \/
   (result x = Ok tt /\ f q <> None /\ ko_yes o = false /\ e_term (r_env r 5) = true /\ e_confirm (r_env r 5) = Some false /\
    files x q = f q) \/
   (result x <> Ok tt /\ files x q = f q /\
    ~ (key_given L (r_env r 0) g key /\ can_read (r_env r 0) /\ can_write (r_env r 5) /\ agreed))).
Proof.
  intros HL SA D OE PQ OD ON OI. cbv zeta.
  assert (keys_idle o = false) as ID.
  { unfold keys_idle. rewrite OE. destruct (ko_list o), (ko_delete o), (negb (ko_new o =? 0)), (ko_import o); reflexivity. }
  destruct (keys_open L U dp ds r g o f h p key i HL ID SA) as [(e & N & -> & NK)|(KG & CR & h1 & s1 & salt & RD & I1 & _ & _ & ->)].
  { split; [intros z _; reflexivity|]. right. right. split; [exact N|]. split; [reflexivity|]. tauto. }
  rewrite no_delete, andthen_go, no_new, andthen_go, no_import, andthen_go by assumption.
  unfold keys_export. rewrite OE, (not_empty file (path_of_nonempty _ _ _ _ PQ)).
  destruct (export_station _ _ _ _ _) as [n h2] eqn:EX.
  destruct (export_path U _ _ _ _ _ _ _ EX) as (P1 & P2 & P3 & _ & P5 & c & C1 & C2 & C3).
  pose proof RD as (_ & _ & R3 & _ & LK & c0 & R4 & R5 & R6). rewrite R4 in C3. cbn [option_map] in C3. rewrite R6, byte_copy_some in C3.
  rewrite I1 in P5. rewrite <- P1 in PQ. rewrite <- P2 in *.
  destruct (save_new (r_env r 5) f h2 n q key D PQ (eq_trans P3 R3) LK (ex_intro _ c (conj C1 (conj C2 C3))))
    as [(n' & -> & A1 & A2 & A3 & A4)|[(W & AG & n' & f' & -> & S & O)|(x & N & -> & NW)]].
  - rewrite andthen_go, andthen_go. destruct (list_end U ds r o f h2 s1) as (-> & -> & _).
    split; [intros z _; reflexivity|]. right. left. repeat (split; [assumption || reflexivity|]). reflexivity.
  - rewrite andthen_go, andthen_go. destruct (list_end U ds r o f' h2 s1) as (-> & -> & _).
    split; [exact O|]. left. split; [reflexivity|]. split; [exact AG|]. rewrite P5 in S. exact S.
  - cbn [andthen End]. split; [intros z _; reflexivity|]. right. right. split; [exact N|]. split; [reflexivity|]. tauto.
Qed.

(** Importing. *)
Definition no_options : gopts := mkG None None None.
Lemma open_no_options e file f h : open_file L U no_options e file f h =
  load_step L e f (h ++ [default_salt]) (mkSt file None (Some (length h)) false true false fresh_inst).
Proof. unfold open_file. rewrite new_plain. unfold set_salt_and_pfk, no_options. cbn [g_pfk g_password g_salt]. rewrite andthen_go, andthen_go. reflexivity. Qed.

Lemma cli_import_lemma r g o f h p key i file q key2 i2 : lib_ok L -> store_at L (r_env r 0) (ko_file o) f p key i ->
  ko_import o = Some file -> store_at L (r_env r 3) file f q key2 i2 ->
  distinct_ids (to_upper U) (i_keys i) -> distinct_ids (to_upper U) (i_keys i2) -> disk_ok (r_env r 4) ->
  ko_delete o = false -> ko_new o <= 0 -> ko_export o = None ->
  let x := keys_cmd r g o f h in
  let candidates := List.filter (fun k => (len (kid k) =? i_groupsize i) && key_filter U (r_now r) o k) (i_keys i2) in
  let asked := List.filter (fun k => (len (kid k) =? i_groupsize i) && key_filter U (r_now r) o k &&
                              taken (to_upper U) (i_keys i) (kid k)) (i_keys i2) in
  let password_typed := e_term (r_env r 3) = true /\
    exists w, e_password (r_env r 3) = Some w /\ key2 = kdf L w default_salt in
  same_other_files p f (files x) /\
  ((result x = Ok tt /\ password_typed /\ exists ks added,
    stored L (files x) p key (set_keys i ks) /\ distinct_ids (to_upper U) ks /\
    incl added candidates /\ NoDup added /\
    (forall k', In k' ks <->
       (In k' (i_keys i) /\ forall k, In k added -> ~ same_text (to_upper U) (kid k') (kid k)) \/
       exists k, In k added /\ k' = import_key U (i_callsign i) (i_callsign i2) k) /\
    (forall k, In k candidates -> taken (to_upper U) (i_keys i) (kid k) = false -> In k added) /\
    forall j k, nth_error asked j = Some k ->
      exists b, nth_error (r_answers r) j = Some (Some b) /\ (In k added <-> b = true)) \/
   (result x <> Ok tt /\ files x p = f p /\
    ~ (key_given L (r_env r 0) g key /\ can_read (r_env r 0) /\ password_typed /\ can_read (r_env r 3) /\
       can_write (r_env r 4) /\
       forall j, (j < length asked)%nat -> exists b, nth_error (r_answers r) j = Some (Some b)))).
Proof.
  intros HL SA OI SA2 DI DI2 D OD ON OE. cbv zeta.
  assert (keys_idle o = false) as ID.
  { unfold keys_idle. rewrite OI. destruct (ko_list o), (ko_delete o), (negb (ko_new o =? 0)), (ko_export o); reflexivity. }
  destruct (keys_open L U dp ds r g o f h p key i HL ID SA) as [(e & N & -> & NK)|(KG & CR & h1 & s1 & salt & RD & I1 & _ & _ & ->)].
  { split; [intros z _; reflexivity|]. right. split; [exact N|]. split; [reflexivity|]. tauto. }
  rewrite no_delete, andthen_go, no_new, andthen_go by assumption.
  destruct SA2 as (PO2 & PP2 & LK2 & NZ2 & ST2).
  unfold keys_import. rewrite OI, (not_empty file (path_of_nonempty _ _ _ _ PO2)).
  destruct (import_station L U (r_env r 3) f h1 s1 _ _ _ _) as [[[x n] s2] h2] eqn:EI.
  destruct (import_ready L U p key _ _ _ _ _ _ _ _ _ _ _ _ RD (proj1 (plain_opts_no_pfk file true)) (proj2 (plain_opts_no_pfk file true)) EI) as (RD2 & _).
  assert (forall w, key_given L (r_env r 3) no_options w <-> (e_term (r_env r 3) = true /\ exists v, e_password (r_env r 3) = Some v /\ w = kdf L v default_salt)) as KGN.
  { intros w. unfold key_given, no_options, salt_given. cbn [g_salt g_pfk g_password]. split.
    - intros (sl & -> & X). exact X.
    - intros X. exists default_salt. split; [reflexivity|exact X]. }
  pose proof (open_stored L U no_options (r_env r 3) file f h1 q key2 i2 HL NZ2 PO2 LK2 ST2) as OS.
  rewrite open_no_options in OS. unfold import_station in EI. rewrite new_plain in EI. unfold load_step in OS.
  destruct (load L (r_env r 3) f (h1 ++ [default_salt]) new_arrays _) as [[[[]|y| |] inc] h3].
  2,3,4: destruct OS as [(z & N & E & NK)|(_ & _ & h' & s' & sl & E & _)]; [|discriminate E];
    injection EI as <- <- <- <-; cbn [andthen End]; split; [intros z' _; reflexivity|]; right; split; [discriminate|];
    split; [reflexivity|]; intros (_ & _ & PT & CR3 & _); apply NK; split; [apply KGN, PT|exact CR3].
  destruct OS as [(z & N & E & NK)|(KG2 & CR2 & h' & s' & sl & E & RD3 & _ & _ & I2)]; [discriminate E|].
  injection E as <- <-. rewrite I2, I1 in EI. apply KGN in KG2.
  assert (st_inter s1 && e_term (r_env r 3) = true) as ASK.
  { destruct RD as (_ & _ & -> & _). destruct KG2 as (-> & _). reflexivity. }
  assert (st_overkeys s1 = false) as OW by (destruct RD as (_ & _ & _ & -> & _); reflexivity).
  rewrite ASK, OW in EI.
  destruct (import_keys U i false true _ i2 (r_answers r)) as [[i' m] err] eqn:EK.
  destruct (wipe_station h3 inc (r_wipe r)) as [[w1 w2] w3]. injection EI as <- <- <- <-.
  destruct (c36_lemma U _ _ _ _ _ _ _ _ _ DI2 DI EK) as (added & A1 & A2 & _ & A4 & A5 & A6 & _ & _ & A7 & A8 & _).
  destruct err as [err|].
  - cbn [andthen End]. split; [intros z _; reflexivity|]. right. split; [discriminate|]. split; [reflexivity|].
    intros (_ & _ & _ & _ & _ & ANS). destruct (A8 eq_refl eq_refl ltac:(discriminate)) as (j & k & J & AJ).
    destruct (ANS j) as (b & B); [|destruct AJ; congruence]. apply nth_error_Some. congruence.
  - destruct (save_ready L (r_env r 4) f w2 (set_inst s1 i') p key (proj1 (proj2 SA)) RD2 D) as [(NW & ->)|(_ & f' & -> & S & O)].
    { cbn [andthen End]. split; [intros z _; reflexivity|]. right. split; [discriminate|]. split; [reflexivity|]. tauto. }
    rewrite andthen_go, no_export, andthen_go by assumption.
    match goal with |- context [keys_list U ds r o f' ?hh ?s] => destruct (list_end U ds r o f' hh s) as (-> & -> & _) end.
    split; [exact O|]. left. split; [reflexivity|]. split; [exact KG2|]. exists (i_keys i'), added.
    cbn [st_inst set_inst] in S. rewrite <- A5. destruct (A7 eq_refl eq_refl eq_refl) as (A71 & A72).
    split; [exact S|]. split; [exact A6|]. split; [exact A1|]. split; [exact A2|]. split; [exact A4|]. split; [exact A71|exact A72].
Qed.
End More.
