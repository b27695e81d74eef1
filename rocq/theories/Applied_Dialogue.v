(** Applications of the theorems on passwords typed in, on pfk, on the questions
    of initialize and on --output to concrete calls. *)
From Coq Require Import Permutation.
From Verif Require Import Base Model_Unicode Model_Crand Model_Functions Model_Types Model_Cipher Model_Keys
  Model_Messages Model_Listing Model_Station Model_Persist Model_Print Model_Cli Model_Ask Model_Pfk Model_Output Model_Initialize
  Spec Spec_Persist Spec_Cli Spec_CliPfk Spec_Ask Spec_Pfk Spec_Output Spec_Initialize Proofs_Functions Proofs_Cli Proofs_CliSel Proofs_Output
  Proofs_Initialize Examples Examples_Persist Props_Messages Examples_Cli Props_Cli Props_CliMore Props_Ask Props_Pfk Props_Output Props_Initialize Applied_Cli.
From Coq Require Import String.
Open Scope list_scope.

(** C99: a weak password, one mistyped, and one repeated. *)
Lemma ax_chosen : chosen (fun w => ax_strong w = true) ax_lines (str "other"%string) [Some (str "more"%string)].
Proof.
  exists (firstn 3 ax_lines). split; [|split; reflexivity].
  apply refused; [vm_compute; discriminate|]. apply mistyped; [reflexivity|vm_compute; discriminate|]. constructor.
Qed.
Example c99_confirmed_applied : ask_and_confirm ax_strong ax_lines = (Ok (str "other"%string), [Some (str "more"%string)]).
Proof. apply c99_confirmed. exact ax_chosen. Qed.
Example c99_old_confirmed_applied : old_ask_and_confirm 3 ax_lines = (Ok (str "other"%string), [Some (str "more"%string)]).
Proof.
  apply c99_old_confirmed. exists (firstn 3 ax_lines). split; [|split; [vm_compute; discriminate|reflexivity]].
  apply refused; [vm_compute; intros H; apply H; reflexivity|]. apply mistyped; [vm_compute; discriminate|vm_compute; discriminate|]. constructor.
Qed.
(** Nothing is chosen if the password is not repeated. *)
Example c99_otherwise_applied : exists rest,
  ask_and_confirm ax_strong [Some (str "other"%string); Some (str "ohter"%string); None] = (Err ErrPasswordInput, rest).
Proof.
  destruct (c99_otherwise ax_strong [Some (str "other"%string); Some (str "ohter"%string); None]) as [(w & rest & H)|(rest & H & _)].
  - exfalso. apply c99_confirmed in H. vm_compute in H. discriminate H.
  - exists rest. exact H.
Qed.
Example c99_old_otherwise_applied : exists rest,
  old_ask_and_confirm 3 [Some (str "other"%string); Some (str "ohter"%string); None] = (Err ErrPasswordInput, rest).
Proof.
  destruct (c99_old_otherwise 3 [Some (str "other"%string); Some (str "ohter"%string); None]) as [(w & rest & H)|(rest & H & _)].
  - exfalso. apply c99_old_confirmed in H. vm_compute in H. discriminate H.
  - exists rest. exact H.
Qed.

(** C100: the key of the password that is typed in, under the default salt. *)
Example c100_same_key_applied : exists x, cmd_gen_pfk ex_lib uni_id ax_strong ax_lines [] (mkG None None None) (Some w_default) false = Ok x /\
  forall e key, key_given ex_lib e (mkG None (Some x) None) key <-> key_given ex_lib e (mkG None None (Some (str "other"%string))) key.
Proof.
  destruct (c100_prints ex_lib uni_id ax_strong ax_lines [] (mkG None None None) (Some w_default) (str "other"%string) [Some (str "more"%string)])
    as (x & X).
  - reflexivity.
  - eexists. cbn [salt_given g_salt]. reflexivity.
  - eexists. vm_compute. reflexivity.
  - right. split; [reflexivity|exact ax_chosen].
  - exists x. split; [exact X|].
    destruct (c100_same_key ex_lib uni_id ax_strong ax_lines [] (mkG None None None) (Some w_default) x ex_lib_ok (proj1 c100_case))
      as (w & _ & [W|(_ & rest & W)] & K); [| |exact X|discriminate W|].
    + assert (B : forallb (fun x => match x with Some w => forallb (fun b => (0 <=? b) && (b <? 256)) w | None => true end) ax_lines = true)
        by (vm_compute; reflexivity).
      rewrite forallb_forall in B. intros w I. specialize (B _ I). cbn in B. rewrite forallb_forall in B.
      apply Forall_forall. intros b Ib. specialize (B b Ib). unfold byte. lia.
    + intros w W. discriminate W.
    + assert (w = str "other"%string) as ->.
      { apply c99_confirmed in W. rewrite c99_confirmed_applied in W. congruence. }
      intros e key. apply (K e None default_salt). reflexivity.
Qed.
Example c100_random_applied : exists x, cmd_gen_pfk ex_lib uni_id ax_strong [] (repeat 300 40) (mkG None None None) None true = Ok x /\
  forall e key, key_given ex_lib e (mkG None (Some x) None) key <-> key = repeat 44 32.
Proof.
  assert (Q : exists x, cmd_gen_pfk ex_lib uni_id ax_strong [] (repeat 300 40) (mkG None None None) None true = Ok x)
    by (eexists; vm_compute; reflexivity). destruct Q as (x & X). exists x. split; [exact X|].
  destruct (c100_random _ _ _ _ _ _ _ _ X) as (words & rest & A & B & K).
  apply (f_equal (firstn 32)) in A. rewrite firstn_app, B, Nat.sub_diag, firstn_O, app_nil_r in A.
  rewrite (firstn_all2 words) in A by lia. intros e key. rewrite (K e None default_salt eq_refl key). rewrite <- A. vm_compute (map _ _). reflexivity.
Qed.
Example c100_weak_applied : exists e, cmd_gen_pfk ex_lib uni_id ax_strong [] [] (mkG None None (Some (str "pw"%string))) None false = Err e.
Proof. apply (c100_weak _ _ _ _ _ _ _ (str "pw"%string)); reflexivity. Qed.
Example c40_generated_fresh_applied : exists x, generate_pfk (repeat 300 40) = Ok (x, repeat 300 8) /\ hex_text (repeat 44 32) x.
Proof.
  assert (Q : exists x, generate_pfk (repeat 300 40) = Ok (x, repeat 300 8)) by (eexists; vm_compute; reflexivity).
  destruct Q as (x & X). exists x. split; [exact X|]. destruct (c40_generated_fresh _ _ _ (or_introl X)) as (d & A & B & H).
  apply (f_equal (firstn 32)) in A. rewrite firstn_app, B, Nat.sub_diag, firstn_O, app_nil_r in A.
  rewrite (firstn_all2 d) in A by lia. rewrite <- A in H. exact H.
Qed.

(** C114: the printed salt is one --salt takes; a key is printed, no file written. *)
Example c114_applied : exists y, qx_do qx_random [] (mkQ false true false (Some ex_path) None None None None None) = (Ok tt, cx_fs ex_store, [y]) /\
  salt_given (mkG (Some y) None None) (repeat 44 32).
Proof.
  pose proof (c114_salt ex_lib uni_id ax_strong qx_random [] cx_g (mkQ false true false (Some ex_path) None None None None None)
    (cx_fs ex_store) eq_refl eq_refl) as S.
  pose proof (c114_no_change ex_lib uni_id ax_strong qx_random [] cx_g (mkQ false true false (Some ex_path) None None None None None)
    (cx_fs ex_store) (or_intror (or_intror eq_refl))) as N.
  unfold qx_do. destruct (cmd_pfk _ _ _ _ _ _ _ _) as [[x f'] out]. subst f'.
  destruct S as [(_ & _ & S)|(-> & y & -> & words & rest & A & B & S)]; [exfalso; vm_compute in S; lia|].
  exists y. split; [reflexivity|]. cbn [r_tape qx_random] in A.
  apply (f_equal (firstn 32)) in A. rewrite firstn_app, B, Nat.sub_diag, firstn_O, app_nil_r in A.
  rewrite (firstn_all2 words) in A by lia. specialize (S None None). rewrite <- A in S. exact S.
Qed.
Example c114_key_applied : exists y, qx_do qx_random [] (mkQ true false true (Some ex_path) None None None None None) = (Ok tt, cx_fs ex_store, [y]).
Proof.
  pose proof (c114_key ex_lib uni_id ax_strong qx_random [] cx_g (mkQ true false true (Some ex_path) None None None None None)
    (cx_fs ex_store) eq_refl eq_refl) as S.
  pose proof (c114_no_change ex_lib uni_id ax_strong qx_random [] cx_g (mkQ true false true (Some ex_path) None None None None None)
    (cx_fs ex_store) (or_intror (or_introl eq_refl))) as N.
  assert (R : fst (fst (cmd_pfk ex_lib uni_id ax_strong qx_random [] cx_g (mkQ true false true (Some ex_path) None None None None None)
    (cx_fs ex_store))) = Ok tt) by (vm_compute; reflexivity).
  unfold qx_do. destruct (cmd_pfk _ _ _ _ _ _ _ _) as [[x f'] out]. cbn [fst] in R. subst f' x.
  destruct S as [(y & _ & -> & _)|(S & _)]; [exists y; reflexivity|congruence].
Qed.
Example c114_both_applied : exists e,
  qx_do qx_random [] (mkQ true true false (Some ex_path) None (Some cx_word) None None (Some true)) = (Err e, cx_fs ex_store, []).
Proof. apply c114_both; reflexivity. Qed.
Example c114_none_applied : qx_do qx_random [] (mkQ false false true None None (Some cx_word) None None (Some true)) = (Ok tt, cx_fs ex_store, []).
Proof. apply c114_none; reflexivity. Qed.

(** C104: the answers as options. *)
Lemma ix_without : without_space uni_id [] [].
Proof. exists [], []. split; [reflexivity|]. split; [constructor|]. split; [constructor|]. split; [discriminate|]. intros c [|? ?]; discriminate. Qed.
Lemma ix_is_none : none_given ix_none.
Proof. repeat split. Qed.
Example c104_answers_applied :
  cmd_initialize_asked uni_id ex_lib ex_dp cx_plain cx_g ix_none (ix_opts []) ix_typed (fun _ => None) [] =
  cmd_initialize ex_lib uni_id ex_dp cx_plain cx_g
    (mkI ex_path false (Some (str "os"%string)) 2 [] [str " vq, la 1"%string] 20 5 30 110) (fun _ => None) [].
Proof.
  destruct (ix_int []) as (A & B & C).
  exact (c104_answers ex_lib uni_id ex_dp cx_plain cx_g ix_none (ix_opts []) ix_typed (fun _ => None) []
    (str "os"%string) 2 (str " vq, la 1"%string) [] 20 5 [] uni_id_ok uni_id_idem uni_id_space A B C ix_is_none eq_refl eq_refl
    ix_dialogue ix_without).
Qed.
Example c104_unanswered_applied :
  let x := cmd_initialize_asked uni_id ex_lib ex_dp cx_plain cx_g ix_none (ix_opts []) (ix_lines ["  "; "3"; ""; ""; ""; ""]%string)
    (cx_fs cx_inst) [] in
  exists e, result x = Err e /\ files x = cx_fs cx_inst /\ shown x = [].
Proof.
  destruct (ix_int []) as (A & B & C).
  exact (c104_unanswered ex_lib uni_id ex_dp cx_plain cx_g ix_none (ix_opts []) _ (cx_fs cx_inst) [] A B C ix_is_none eq_refl eq_refl
    c104_unanswered_nontrivial).
Qed.
Example c104_call_only_applied :
  cmd_initialize_asked uni_id ex_lib ex_dp cx_plain cx_g (mkGiven false true false false false) (ix_opts []) (ix_lines [""; "os"]%string)
    (fun _ => None) [] =
  cmd_initialize ex_lib uni_id ex_dp cx_plain cx_g (mkI ex_path false (Some (str "os"%string)) 0 [] [] 350 5 30 110) (fun _ => None) [].
Proof.
  destruct c104_call_nontrivial as (A & B & _).
  exact (c104_call_only ex_lib uni_id ex_dp cx_plain cx_g _ (ix_opts []) _ (fun _ => None) [] _ _ A eq_refl eq_refl B).
Qed.
Example c104_no_call_applied : let x := cmd_initialize_asked uni_id ex_lib ex_dp cx_plain cx_g (mkGiven false true false false false)
    (mkI ex_path true None 0 [] [] 350 5 30 110) [] (cx_fs cx_inst) [] in
  exists e, result x = Err e /\ files x = cx_fs cx_inst /\ shown x = [].
Proof. apply c104_no_call; [reflexivity|]. intros H. discriminate H. Qed.
Example c104_no_questions_applied : cmd_initialize_asked uni_id ex_lib ex_dp cx_plain cx_g ix_none
    (mkI ex_path false (Some (str "os"%string)) 1 [] [] 20 5 30 110) [] (fun _ => None) [] =
  cmd_initialize ex_lib uni_id ex_dp cx_plain cx_g (mkI ex_path false (Some (str "os"%string)) 1 [] [] 20 5 30 110) (fun _ => None) [].
Proof. apply (c104_no_questions _ _ _ _ _ _ _ _ _ _ (str "os"%string)). reflexivity. Qed.

(** C101: two keys as text; all keys as PDF; with --new 1 beside. *)
Definition ox_two : kopts := mkK ex_path false 0 None false None None [] false [idA; idC] false None false false false false false false.
Lemma ox_text_wanted : text_wanted (mkOut ox_txt None).
Proof. right. right. right. split; [reflexivity|exists [107]; left; reflexivity]. Qed.
Lemma ox_pdf_wanted : pdf_wanted (mkOut ox_txt (Some w_pdf)).
Proof. left. reflexivity. Qed.
Example c101_keys_text_applied : let x := ox_keys cx_plain ox_env cx_g ox_two (mkOut ox_txt None) (cx_fs cx_inst) in
  result x = Ok tt /\ shown x = [] /\ stored ex_lib (files x) ex_path ex_pfk cx_inst /\
  files x ox_txt = Some (page_text [10] (map (ox_ktext cx_inst) [ex_key idA 3 40 [callVQ]; ex_key idC 11 40 [callVQ]])).
Proof.
  pose proof (c101_keys_text (fun s => s) ox_pdf [10] ox_lines ex_lib uni_id ex_dp cx_ds ox_ktext cx_plain ox_env cx_g ox_two
    (mkOut ox_txt None) (cx_fs cx_inst) [] ex_path ex_pfk cx_inst (filter (key_filter uni_id 7 ox_two) (i_keys cx_inst))
    ex_lib_ok ltac:(discriminate) cx_here (cx_chosen ox_two cx_inst) eq_refl eq_refl eq_refl eq_refl ox_text_wanted ltac:(discriminate)) as H.
  cbv zeta in H. cbv zeta. unfold ox_keys.
  match goal with |- context [result ?y] => set (x := y) in * end. destruct H as (S & F & R & W & _).
  assert (N : filter (key_filter uni_id 7 ox_two) (i_keys cx_inst) = [ex_key idA 3 40 [callVQ]; ex_key idC 11 40 [callVQ]])
    by (vm_compute; reflexivity).
  rewrite N in *. split; [|split; [exact S|split]].
  - apply R. split; [split; [exact (cx_key_given _)|exact cx_can_read]|]. left. split; [discriminate|]. split; reflexivity.
  - exists []. rewrite F by (vm_compute; discriminate). unfold cx_fs, cx_put. destruct (list_eq_dec Z.eq_dec ex_path ex_path); [reflexivity|contradiction].
  - destruct W as (c & -> & b' & rest & E & C & T).
    { split; [split; [exact (cx_key_given _)|exact cx_can_read]|]. split; [discriminate|reflexivity]. }
    cbn [oo_file] in E. rewrite E. rewrite (T eq_refl), app_nil_r in C. rewrite C. reflexivity.
Qed.
Example c101_keys_pdf_applied : let x := ox_keys cx_plain ox_env cx_g ox_two (mkOut ox_txt (Some w_pdf)) (cx_fs cx_inst) in
  result x = Ok tt /\ exists ps, files x ox_txt = Some (ox_pdf (map (page_text [10; 10; 10; 10; 10]) ps)) /\
  List.concat ps = map (ox_ktext cx_inst) [ex_key idA 3 40 [callVQ]; ex_key idC 11 40 [callVQ]].
Proof.
  pose proof (c101_keys_pdf (fun s => s) ox_pdf [10] ox_lines ex_lib uni_id ex_dp cx_ds ox_ktext cx_plain ox_env cx_g ox_two
    (mkOut ox_txt (Some w_pdf)) (cx_fs cx_inst) [] ex_path ex_pfk cx_inst (filter (key_filter uni_id 7 ox_two) (i_keys cx_inst))
    ex_lib_ok ltac:(discriminate) cx_here (cx_chosen ox_two cx_inst) eq_refl eq_refl eq_refl eq_refl ox_pdf_wanted ltac:(discriminate)) as H.
  cbv zeta in H. cbv zeta. unfold ox_keys.
  match goal with |- context [result ?y] => set (x := y) in * end. destruct H as (S & F & R & W & _).
  assert (N : filter (key_filter uni_id 7 ox_two) (i_keys cx_inst) = [ex_key idA 3 40 [callVQ]; ex_key idC 11 40 [callVQ]])
    by (vm_compute; reflexivity).
  rewrite N in *. split.
  - apply R. split; [split; [exact (cx_key_given _)|exact cx_can_read]|]. left. split; [discriminate|]. split; reflexivity.
  - destruct W as (c & (ps & outs & -> & _ & _ & O) & b' & rest & E & C & T).
    { split; [split; [exact (cx_key_given _)|exact cx_can_read]|]. split; [discriminate|reflexivity]. }
    destruct O as (-> & O & _). { intros k [<-|[<-|[]]]; vm_compute; discriminate. }
    exists ps. split; [|exact O]. cbn [oo_file] in E. rewrite E. rewrite (T eq_refl), app_nil_r in C. rewrite <- C. reflexivity.
Qed.
Definition ox_m : mopts := mkM ex_path false false false [] [] [] false true false.
Lemma ox_m_chosen : picked (message_chosen uni_id ox_m) (i_messages ex_store) (i_messages ex_store).
Proof.
  replace (i_messages ex_store) with (filter (msg_filter uni_id ox_m) (i_messages ex_store)) at 2 by (vm_compute; reflexivity).
  apply picked_filter, msg_filter_spec.
Qed.
Example c101_messages_applied :
  (let x := ox_messages cx_plain ox_env cx_g ox_m (mkOut ox_txt None) (cx_fs ex_store) in
   result x = Ok tt /\ files x ox_txt = Some (page_text [10] (map (ox_mtext ex_store 80) (i_messages ex_store)))) /\
  (let x := ox_messages cx_plain ox_env cx_g ox_m (mkOut ox_txt (Some w_pdf)) (cx_fs ex_store) in
   result x = Ok tt /\ exists ps, files x ox_txt = Some (ox_pdf (map (page_text [10; 10]) ps)) /\
     List.concat ps = map (ox_mtext ex_store 95) (i_messages ex_store)).
Proof.
  split; cbv zeta.
  - pose proof (c101_messages_text (fun s => s) ox_pdf [10] ox_lines ex_lib uni_id ex_lb ex_dp cx_ds cx_digest ox_mtext cx_plain ox_env cx_g ox_m
      (mkOut ox_txt None) (cx_fs ex_store) [] ex_path ex_pfk ex_store (i_messages ex_store)
      ex_lib_ok ltac:(discriminate) (cx_store_here _) ox_m_chosen eq_refl eq_refl eq_refl ox_text_wanted ltac:(discriminate)) as H.
    cbv zeta in H. unfold ox_messages.
    match goal with |- context [result ?y] => set (x := y) in * end. destruct H as (_ & _ & R & W & _). split.
    + apply R. split; [split; [exact (cx_key_given _)|exact cx_can_read]|]. left. split; [discriminate|]. split; reflexivity.
    + destruct W as (c & -> & b' & rest & E & C & T).
      { split; [split; [exact (cx_key_given _)|exact cx_can_read]|]. split; [discriminate|reflexivity]. }
      cbn [oo_file] in E. rewrite E. rewrite (T eq_refl), app_nil_r in C. rewrite C. reflexivity.
  - pose proof (c101_messages_pdf (fun s => s) ox_pdf [10] ox_lines ex_lib uni_id ex_lb ex_dp cx_ds cx_digest ox_mtext cx_plain ox_env cx_g ox_m
      (mkOut ox_txt (Some w_pdf)) (cx_fs ex_store) [] ex_path ex_pfk ex_store (i_messages ex_store)
      ex_lib_ok ltac:(discriminate) (cx_store_here _) ox_m_chosen eq_refl eq_refl eq_refl ox_pdf_wanted ltac:(discriminate)) as H.
    cbv zeta in H. unfold ox_messages.
    match goal with |- context [result ?y] => set (x := y) in * end. destruct H as (_ & _ & R & W & _). split.
    + apply R. split; [split; [exact (cx_key_given _)|exact cx_can_read]|]. left. split; [discriminate|]. split; reflexivity.
    + destruct W as (c & (ps & outs & -> & _ & _ & O) & b' & rest & E & C & T).
      { split; [split; [exact (cx_key_given _)|exact cx_can_read]|]. split; [discriminate|reflexivity]. }
      destruct O as (-> & O & _). { intros k [<-|[]]; vm_compute; discriminate. }
      exists ps. split; [|exact O]. cbn [oo_file] in E. rewrite E. rewrite (T eq_refl), app_nil_r in C. rewrite <- C. reflexivity.
Qed.
(** The output fails after three bytes: the new key is there nevertheless. *)
Example c101_keys_beside_applied :
  let x := ox_keys cx_plain (mkO true (Some 3%nat)) cx_g (ck_new 1) (mkOut ox_txt None) (cx_fs cx_inst) in
  result x <> Ok tt /\ files x ex_path = files (cx_keys cx_plain cx_g (ck_new 1) (cx_fs cx_inst)) ex_path /\
  files x ex_path <> cx_fs cx_inst ex_path.
Proof.
  cbv zeta. split; [vm_compute; discriminate|].
  destruct (c101_keys_beside (fun s => s) ox_pdf [10] ox_lines ex_lib uni_id ex_dp cx_ds ox_ktext cx_plain (mkO true (Some 3%nat)) cx_g
    (ck_new 1) (mkOut ox_txt None) (cx_fs cx_inst) [] eq_refl) as (_ & _ & F & _).
  split; [apply F; vm_compute; discriminate|]. vm_compute. discriminate.
Qed.
Example c101_messages_beside_applied :
  let x := ox_messages cx_plain ox_env cx_g (cm_delete [mid1] true) (mkOut ox_txt None) (cx_fs ex_store) in
  files x ex_path = files (cx_messages cx_plain cx_g (cm_delete [mid1] true) (cx_fs ex_store)) ex_path.
Proof.
  cbv zeta.
  destruct (c101_messages_beside (fun s => s) ox_pdf [10] ox_lines ex_lib uni_id ex_lb ex_dp cx_ds cx_digest ox_mtext cx_plain ox_env cx_g
    (cm_delete [mid1] true) (mkOut ox_txt None) (cx_fs ex_store) [] eq_refl) as (_ & _ & F & _).
  apply F. vm_compute. discriminate.
Qed.
