(** Lemmas about the command line program: selecting in terms of the specification. *)
From Verif Require Import Base Model_Unicode Model_Functions Model_Crand Model_Types Model_Cipher Model_Keys Model_Import
  Model_Messages Model_Station Model_Persist Model_Listing Model_Cli Spec Spec_Persist Spec_Cli Spec_Listing Proofs_Functions
  Proofs_KeyOps Proofs_Summary Proofs_Import Proofs_KeyProps Proofs_Station Proofs_Persist Proofs_Cli Proofs_CliRun
  Proofs_CliCmd Proofs_CliOps Proofs_CliMore Proofs_CliMsg.

Lemma key_selected_spec U now o k : key_filter U now o k = true <-> key_selected U now o k.
Proof.
  rewrite key_filter_spec. unfold key_selected. split.
  - intros H. exists days. split; [exact days_spec|exact H].
  - intros (lt & B & H). eapply chosen_mono; [| |exact H]; [tauto|]. intros n _. eapply int64_fun; [apply B|apply days_spec].
Qed.
Lemma picked_filter {A} (P : A -> Prop) flt : (forall a, flt a = true <-> P a) -> forall l, picked P l (filter flt l).
Proof.
  intros H l. induction l as [|a l IH]; [constructor|]. cbn [filter]. destruct (flt a) eqn:E.
  - constructor; [apply H, E|exact IH].
  - apply picked_no; [|exact IH]. intros X. apply H in X. congruence.
Qed.
Lemma picked_in {A} (P : A -> Prop) l l' : picked P l l' -> forall a, In a l' <-> In a l /\ P a.
Proof.
  induction 1 as [|b l l' H _ IH|b l l' H _ IH]; intros a; cbn [In]; [tauto| |].
  - rewrite IH. split; [intros [<-|X]; tauto|]. intros ([<-|X] & Y); tauto.
  - rewrite IH. split; [tauto|]. intros ([<-|X] & Y); tauto.
Qed.
Lemma picked_fun {A} (P : A -> Prop) l l' : picked P l l' -> forall l2, picked P l l2 -> l2 = l'.
Proof.
  induction 1 as [|b l l' H _ IH|b l l' H _ IH]; intros l2 H2; inversion H2; subst; try contradiction; auto.
  f_equal. auto.
Qed.

(** A line of SummaryOfKeys. *)
Section Sel.
Context (L : lib) (U : Uni) (dp : list rune -> option Z) (ds : Z -> list rune).
Notation keys_cmd := (cmd_keys L U dp ds).

Lemma sel_list_lemma r g o f h p key i chosen : lib_ok L -> store_at L (r_env r 0) (ko_file o) f p key i ->
  (forall k, In k (i_keys i) -> len (kid k) = i_groupsize i) -> (forall x, len (ds x) = 12) ->
  picked (key_selected U (r_now r) o) (i_keys i) chosen ->
  ko_delete o = false -> ko_new o = 0 -> ko_import o = None -> ko_export o = None -> ko_list o = true ->
  let x := keys_cmd r g o f h in
  same_files f (files x) /\ shown x = [] /\
  (result x = Ok tt <-> key_given L (r_env r 0) g key /\ can_read (r_env r 0)) /\
  (result x = Ok tt -> exists w1 w6,
     Forall2 (fun k line => columns [i_groupsize i + 1; w1; 13; 13; 5; 12; w6]
        [kid k; match kkeepers k with [] => str_anonymous | _ => join [44] (map go_string (kkeepers k)) end;
         ds (kcreated k); ds (kexpires k); yes_no (kused k); yes_no (kcompromised k); kcomment k] line)
       chosen (listed x)).
Proof.
  intros HL SA LK DS PK. rewrite (picked_fun _ _ _ (picked_filter _ _ (key_selected_spec U (r_now r) o) _) _ PK).
  apply cli_list_lemma with p; assumption.
Qed.

Lemma sel_export_lemma r g o f h p key i file q chosen : lib_ok L -> store_at L (r_env r 0) (ko_file o) f p key i ->
  disk_ok (r_env r 5) -> ko_export o = Some file -> path_of L (r_env r 5) file q ->
  ko_delete o = false -> ko_new o <= 0 -> ko_import o = None ->
  picked (key_selected U (r_now r) o) (i_keys i) chosen ->
  let x := keys_cmd r g o f h in
  let agreed := f q = None \/ ko_yes o = true \/ (e_term (r_env r 5) = true /\ e_confirm (r_env r 5) = Some true) in
  same_other_files q f (files x) /\
  ((result x = Ok tt /\ agreed /\
    stored L (files x) q key (mkInst (i_groupsize i) (i_keylength i) (i_columns i) (i_keycolumns i)
      chosen [] (i_callsign i))) \/
   (result x = Ok tt /\ f q <> None /\ ko_yes o = false /\ e_term (r_env r 5) = true /\ e_confirm (r_env r 5) = Some false /\
    files x q = f q) \/
   (result x <> Ok tt /\ files x q = f q /\
    ~ (key_given L (r_env r 0) g key /\ can_read (r_env r 0) /\ can_write (r_env r 5) /\ agreed))).
Proof.
  intros HL SA D E PO A1 A2 A3 PK. rewrite (picked_fun _ _ _ (picked_filter _ _ (key_selected_spec U (r_now r) o) _) _ PK).
  apply cli_export_lemma with p file; assumption.
Qed.

Lemma sel_import_lemma r g o f h p key i file q key2 i2 candidates asked : lib_ok L -> store_at L (r_env r 0) (ko_file o) f p key i ->
  ko_import o = Some file -> store_at L (r_env r 3) file f q key2 i2 ->
  distinct_ids (to_upper U) (i_keys i) -> distinct_ids (to_upper U) (i_keys i2) -> disk_ok (r_env r 4) ->
  ko_delete o = false -> ko_new o <= 0 -> ko_export o = None ->
  picked (fun k => len (kid k) = i_groupsize i /\ key_selected U (r_now r) o k) (i_keys i2) candidates ->
  picked (fun k => exists k0, In k0 (i_keys i) /\ same_text (to_upper U) (kid k0) (kid k)) candidates asked ->
  let x := keys_cmd r g o f h in
  let password_typed := e_term (r_env r 3) = true /\
    exists w, e_password (r_env r 3) = Some w /\ key2 = kdf L w default_salt in
  same_other_files p f (files x) /\
  ((result x = Ok tt /\ password_typed /\ exists ks added,
    stored L (files x) p key (set_keys i ks) /\ distinct_ids (to_upper U) ks /\
    incl added candidates /\ NoDup added /\
    (forall k', In k' ks <->
       (In k' (i_keys i) /\ forall k, In k added -> ~ same_text (to_upper U) (kid k') (kid k)) \/
       exists k, In k added /\ k' = import_key U (i_callsign i) (i_callsign i2) k) /\
    (forall k, In k candidates -> ~ In k asked -> In k added) /\
    forall j k, nth_error asked j = Some k ->
      exists b, nth_error (r_answers r) j = Some (Some b) /\ (In k added <-> b = true)) \/
   (result x <> Ok tt /\ files x p = f p /\
    ~ (key_given L (r_env r 0) g key /\ can_read (r_env r 0) /\ password_typed /\ can_read (r_env r 3) /\
       can_write (r_env r 4) /\
       forall j, (j < length asked)%nat -> exists b, nth_error (r_answers r) j = Some (Some b)))).
Proof.
  intros HL SA OI SB DI DI2 D OD ON OE PC PA. cbv zeta.
  set (cand := List.filter (fun k => (len (kid k) =? i_groupsize i) && key_filter U (r_now r) o k) (i_keys i2)).
  set (ask := List.filter (fun k => (len (kid k) =? i_groupsize i) && key_filter U (r_now r) o k &&
                              taken (to_upper U) (i_keys i) (kid k)) (i_keys i2)).
  assert (candidates = cand) as EC.
  { eapply picked_fun; [|exact PC]. apply picked_filter. intros k. rewrite Bool.andb_true_iff, key_selected_spec. split; intros (A & B); (split; [lia|exact B]). }
  assert (forall k, taken (to_upper U) (i_keys i) (kid k) = true <-> exists k0, In k0 (i_keys i) /\ same_text (to_upper U) (kid k0) (kid k)) as TK.
  { intros k. unfold taken. rewrite existsb_exists. split; intros (k0 & A & B); exists k0; (split; [exact A|]);
      unfold same_text, same_textb in *; destruct (list_eq_dec Z.eq_dec _ _); congruence. }
  assert (asked = ask) as EA.
  { eapply picked_fun; [|exact PA]. unfold ask. replace (List.filter _ (i_keys i2)) with (List.filter (fun k => taken (to_upper U) (i_keys i) (kid k)) cand).
    - subst candidates. apply picked_filter, TK.
    - unfold cand. clear. induction (i_keys i2) as [|k l IH]; [reflexivity|]. cbn [List.filter].
      destruct ((len (kid k) =? i_groupsize i) && key_filter U (r_now r) o k) eqn:E; cbn [andb List.filter];
        [destruct (taken (to_upper U) (i_keys i) (kid k)); rewrite IH; reflexivity|exact IH]. }
  pose proof (cli_import_lemma L U dp ds r g o f h p key i file q key2 i2 HL SA OI SB DI DI2 D OD ON OE) as R.
  cbv zeta in R. fold cand ask in R. rewrite <- EC, <- EA in R. destruct R as (R1 & R2). split; [exact R1|].
  destruct R2 as [(A1 & A2 & ks & added & A3 & A4 & A5 & A6 & A7 & A8 & A9)|R2]; [|right; exact R2].
  left. split; [exact A1|]. split; [exact A2|]. exists ks, added. split; [exact A3|]. split; [exact A4|]. split; [exact A5|].
  split; [exact A6|]. split; [exact A7|]. split; [|exact A9]. intros k I N. apply A8; [exact I|].
  destruct (taken (to_upper U) (i_keys i) (kid k)) eqn:T; [|reflexivity]. exfalso. apply N.
  apply (picked_in _ _ _ PA). split; [exact I|]. apply TK, T.
Qed.

Lemma sel_pick_lemma r g o f h p key i chosen : lib_ok L -> store_at L (r_env r 0) (ko_file o) f p key i ->
  0 < i_groupsize i -> store_ok (i_groupsize i) (i_keys i) ->
  (forall v, len (ds v) = 12) -> disk_ok (r_env r 1) ->
  ko_delete o = true -> ko_yes o = false -> ko_new o <= 0 -> ko_import o = None -> ko_export o = None ->
  picked (key_selected U (r_now r) o) (i_keys i) chosen ->
  let x := keys_cmd r g o f h in
  exists lines w1 w6,
  Forall2 (fun k line => columns [i_groupsize i + 1; w1; 13; 13; 5; 12; w6]
        [kid k; match kkeepers k with [] => str_anonymous | _ => join [44] (map go_string (kkeepers k)) end;
         ds (kcreated k); ds (kexpires k); yes_no (kused k); yes_no (kcompromised k); kcomment k] line) chosen lines /\
  ((result x = Ok tt /\ same_other_files p f (files x) /\
     ((chosen = [] /\ same_files f (files x)) \/ forall js, r_pick r lines = Some (map (fun j => nth j lines []) js) ->
     exists ks, stored L (files x) p key (set_keys i ks) /\
       forall k, In k ks <-> In k (i_keys i) /\ ~ exists j, In j js /\ nth_error chosen j = Some k)) \/
  (result x <> Ok tt /\ same_files f (files x) /\
   ~ (key_given L (r_env r 0) g key /\ can_read (r_env r 0) /\ can_write (r_env r 1) /\ r_pick r lines <> None))).
Proof.
  intros HL SA G SO DS D OD OY ON OI OE PK. cbv zeta.
  assert (chosen = filter (key_filter U (r_now r) o) (i_keys i)) as EC
    by (eapply picked_fun; [|exact PK]; apply picked_filter, key_selected_spec).
  destruct (summary_of_keys ds (i_groupsize i) (key_filter U (r_now r) o) (i_keys i)) as [hd lines] eqn:E.
  assert (forall k, In k (i_keys i) -> len (kid k) = i_groupsize i) as LK by (intros k I; apply (proj2 SO k I)).
  destruct (c50_columns_lemma2 ds _ _ _ _ _ LK DS E) as (w1 & w6 & F & _).
  exists lines, w1, w6. rewrite EC. split; [exact F|].
  pose proof (cli_pick_lemma L U dp ds r g o f h p key i HL SA G SO (store_distinct U _ _ SO) DS D OD OY ON OI OE) as R.
  cbv zeta in R. rewrite E in R. exact R.
Qed.
End Sel.
