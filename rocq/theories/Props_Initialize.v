(** Properties of the questions asked by initialize. *)
From Verif Require Import Base Model_Unicode Model_Functions Model_Crand Model_Types Model_Keys Model_Station Model_Persist Model_Listing
  Model_Cli Model_Initialize Spec Spec_Persist Spec_Cli Spec_CliPfk Spec_Keys Spec_Initialize Proofs_Functions Proofs_CliPfk Proofs_Initialize
  Examples Examples_Persist Props_Messages Examples_Cli.
From Coq Require Import String.
Open Scope list_scope.

(** ** C104: the questions. *)
(** With no option given the command does what the answers say, as if they had
    been given as options. *)
Theorem c104_answers : forall L U dp r g i o l f h call keys keepers expire keylength groupsize date,
  uni_ok U -> uni_upper_idem U -> uni_space_upper U ->
  int64 (io_keys o) -> int64 (io_keylength o) -> int64 (io_groupsize o) ->
  none_given i -> io_call o = None -> io_yes o = false ->
  dialogue U o l call keys keepers expire keylength groupsize -> without_space U expire date ->
  cmd_initialize_asked U L dp r g i o l f h =
  cmd_initialize L U dp r g (mkI (io_file o) false (Some call) keys date (io_keepers o ++ [keepers]) keylength groupsize
    (io_keycolumns o) (io_columns o)) f h.
Proof. exact asked_dialogue. Qed.
Print Assumptions c104_answers.
(** If the questions are not all answered it ends with an error and changes nothing. *)
Theorem c104_unanswered : forall L U dp r g i o l f h,
  int64 (io_keys o) -> int64 (io_keylength o) -> int64 (io_groupsize o) ->
  none_given i -> io_call o = None -> io_yes o = false ->
  (forall call keys keepers expire keylength groupsize, ~ dialogue U o l call keys keepers expire keylength groupsize) ->
  let x := cmd_initialize_asked U L dp r g i o l f h in exists e, result x = Err e /\ files x = f /\ shown x = [].
Proof. exact asked_incomplete. Qed.
Print Assumptions c104_unanswered.
(** With one of the options given only a missing call-sign is asked for, and
    with the call-sign given nothing is. *)
Theorem c104_call_only : forall L U dp r g i o l f h call rest,
  ~ none_given i -> io_call o = None -> io_yes o = false -> call_typed U l call rest ->
  cmd_initialize_asked U L dp r g i o l f h = cmd_initialize L U dp r g (set_call o call) f h.
Proof. exact asked_call. Qed.
Print Assumptions c104_call_only.
Theorem c104_no_call : forall L U dp r g i o l f h, io_call o = None ->
  (io_yes o = false -> forall call rest, ~ call_typed U l call rest) ->
  let x := cmd_initialize_asked U L dp r g i o l f h in exists e, result x = Err e /\ files x = f /\ shown x = [].
Proof. exact asked_no_call. Qed.
Print Assumptions c104_no_call.
Theorem c104_no_questions : forall L U dp r g i o l f h call, io_call o = Some call ->
  cmd_initialize_asked U L dp r g i o l f h = cmd_initialize L U dp r g o f h.
Proof. exact asked_nothing. Qed.
Print Assumptions c104_no_questions.

Definition ix_none : given := mkGiven false false false false false.
Definition ix_opts (expire : list rune) : iopts := mkI ex_path false None 0 expire [] 350 5 30 110.
Definition ix_lines (ss : list string) : lines := map (fun s => Some (str s)) ss.
(** Wrong answers, the help text and a repeated question on the way. *)
Definition ix_typed : lines :=
  ix_lines [""; "os"; "-1"; "two"; "+2"; "?"; " vq, la 1"; ""; "19"; "020"; ""]%string.
Lemma ix_int o : int64 (io_keys (ix_opts o)) /\ int64 (io_keylength (ix_opts o)) /\ int64 (io_groupsize (ix_opts o)).
Proof. unfold int64, ix_opts. cbn. lia. Qed.
Lemma ix_dialogue : dialogue uni_id (ix_opts []) ix_typed (str "os"%string) 2 (str " vq, la 1"%string) [] 20 5.
Proof.
  destruct (ix_int []) as (A & B & C).
  eapply dialogue_of; [exact A|exact B|exact C|vm_compute; reflexivity..].
Qed.
Example c104_nontrivial :
  none_given ix_none /\ dialogue uni_id (ix_opts []) ix_typed (str "os"%string) 2 (str " vq, la 1"%string) [] 20 5 /\
  without_space uni_id [] [] /\
  let x := cmd_initialize_asked uni_id ex_lib ex_dp cx_plain cx_g ix_none (ix_opts []) ix_typed (fun _ => None) [] in
  result x = Ok tt /\
  option_map (fun i => (i_callsign i, map kkeepers (i_keys i), i_keylength i, i_groupsize i)) (cx_read ex_pfk (files x) ex_path) =
  Some (str "OS"%string, [[str "VQ"%string; str "LA"%string; str "1"%string]; [str "VQ"%string; str "LA"%string; str "1"%string]], 20, 5).
Proof.
  split; [repeat split|]. split; [exact ix_dialogue|]. split.
  { exists [], []. split; [reflexivity|]. split; [constructor|]. split; [constructor|]. split; [discriminate|]. intros c [|? ?]; discriminate. }
  cbv zeta. split; vm_compute; reflexivity.
Qed.
Example c104_unanswered_nontrivial : forall call keys keepers expire keylength groupsize,
  ~ dialogue uni_id (ix_opts []) (ix_lines ["  "; "3"; ""; ""; ""; ""]%string) call keys keepers expire keylength groupsize.
Proof.
  intros call keys keepers expire kl gs (l1 & _ & _ & _ & _ & _ & H & _). apply (ask_call_iff uni_id (ix_opts [])) in H; [|reflexivity..]. discriminate.
Qed.
Example c104_call_nontrivial :
  ~ none_given (mkGiven false true false false false) /\ call_typed uni_id (ix_lines [""; "os"]%string) (str "os"%string) [] /\
  result (cmd_initialize_asked uni_id ex_lib ex_dp cx_plain cx_g (mkGiven false true false false false) (ix_opts []) (ix_lines [""; "os"]%string)
    (fun _ => None) []) = Ok tt.
Proof.
  split; [intros (_ & H & _); discriminate|]. split; [|vm_compute; reflexivity]. apply (ask_call_iff uni_id (ix_opts [])); reflexivity.
Qed.

(** ** C105: answers that are accepted make a station: false, the group size is
    compared with the width of the keys only afterwards, and the expiry date is
    not looked at. *)
Theorem c105_groups_refuted : exists r g i o l f call keys keepers expire keylength groupsize,
  none_given i /\ io_call o = None /\ io_yes o = false /\ io_keycolumns o = 30 /\ io_columns o = 110 /\
  dialogue uni_id o l call keys keepers expire keylength groupsize /\
  (forall p, f p = None) /\ disk_ok (r_env r 1) /\ can_write (r_env r 1) /\ (exists key, key_given ex_lib (r_env r 1) g key) /\
  let x := cmd_initialize_asked uni_id ex_lib ex_dp r g i o l f [] in exists e, result x = Err e /\ files x = f.
Proof.
  exists cx_plain, cx_g, ix_none, (ix_opts []), (ix_lines ["os"; ""; ""; ""; ""; "31"]%string), (fun _ => None).
  exists (str "os"%string), 0, [], [], 350, 31. destruct (ix_int []) as (A & B & C).
  split; [repeat split|]. do 4 (split; [reflexivity|]).
  split; [eapply dialogue_of; [exact A|exact B|exact C|vm_compute; reflexivity..]|].
  split; [reflexivity|]. split; [reflexivity|]. split; [vm_compute; auto|]. split; [exists ex_pfk; apply cx_key_given|].
  eexists. split; vm_compute; reflexivity.
Qed.
Print Assumptions c105_groups_refuted.
Definition ix_dp (s : list rune) : option Z := if list_eq_dec Z.eq_dec s (str "011200ZJAN30"%string) then Some 1000 else None.
Theorem c105_date_refuted : exists r g i o l f call keys keepers expire keylength groupsize,
  none_given i /\ io_call o = None /\ io_yes o = false /\ io_keycolumns o = 30 /\ io_columns o = 110 /\ groupsize <= 30 /\
  dialogue uni_id o l call keys keepers expire keylength groupsize /\
  (forall p, f p = None) /\ disk_ok (r_env r 1) /\ can_write (r_env r 1) /\ (exists key, key_given ex_lib (r_env r 1) g key) /\
  let x := cmd_initialize_asked uni_id ex_lib ix_dp r g i o l f [] in exists e, result x = Err e /\ files x = f.
Proof.
  exists cx_plain, cx_g, ix_none, (ix_opts []), (ix_lines ["os"; "1"; ""; "tomorrow"; ""; ""]%string), (fun _ => None).
  exists (str "os"%string), 1, [], (str "tomorrow"%string), 350, 5. destruct (ix_int []) as (A & B & C).
  split; [repeat split|]. do 4 (split; [reflexivity|]). split; [discriminate|].
  split; [eapply dialogue_of; [exact A|exact B|exact C|vm_compute; reflexivity..]|].
  split; [reflexivity|]. split; [reflexivity|]. split; [vm_compute; auto|]. split; [exists ex_pfk; apply cx_key_given|].
  eexists. split; vm_compute; reflexivity.
Qed.
Print Assumptions c105_date_refuted.
(** What is missing in the questions is the only reason, apart from a failing
    random generator. *)
Theorem c105_partial : forall L U dp r g i o l f h q call keys keepers expire keylength groupsize date,
  lib_ok L -> uni_ok U -> uni_upper_idem U -> uni_space_upper U ->
  int64 (io_keys o) -> int64 (io_keylength o) -> int64 (io_groupsize o) ->
  none_given i -> io_call o = None -> io_yes o = false ->
  dialogue U o l call keys keepers expire keylength groupsize -> without_space U expire date ->
  io_file o <> [] -> 85 <= io_columns o -> groupsize <= io_keycolumns o -> (date = [] \/ dp date <> None) ->
  path_of L (r_env r 1) (io_file o) q -> f q = None -> disk_ok (r_env r 1) -> can_write (r_env r 1) ->
  (exists key, key_given L (r_env r 1) g key) ->
  let x := cmd_initialize_asked U L dp r g i o l f h in
  result x = Panic \/
  (result x = Ok tt /\ exists key s, key_given L (r_env r 1) g key /\ stored L (files x) q key s /\
    i_groupsize s = groupsize /\ i_keylength s = keylength /\ len (i_keys s) = keys /\
    (forall k, In k (i_keys s) -> date <> [] -> dp date = Some (kexpires k))).
Proof. exact asked_enough. Qed.
Print Assumptions c105_partial.

(** ** C106: --expire sets the expiry date of the initial keys: false if the
    questions are asked, the answer replaces the option even if it is empty. *)
Theorem c106_expire_refuted : exists r g i o l f x e s,
  none_given i /\ io_call o = None /\ io_yes o = false /\ ex_dp (io_expire o) = Some e /\ io_expire o <> [] /\
  x = cmd_initialize_asked uni_id ex_lib ex_dp r g i o l f [] /\ result x = Ok tt /\ stored ex_lib (files x) ex_path ex_pfk s /\
  exists k, In k (i_keys s) /\ kexpires k <> e.
Proof.
  set (d := str "011200ZJAN30"%string). set (o := ix_opts d). set (l := ix_lines ["os"; "1"; ""; ""; "20"; ""]%string).
  set (x := cmd_initialize_asked uni_id ex_lib ex_dp cx_plain cx_g ix_none o l (fun _ => None) []).
  assert (match cx_read ex_pfk (files x) ex_path with
          | Some i => files x ex_path = Some (complete_file ex_lib ex_pfk [] i) /\ match i_keys i with k :: _ => kexpires k <> 1000 | [] => False end
          | None => False end) as E by (vm_compute; split; [reflexivity|discriminate]).
  destruct (cx_read ex_pfk (files x) ex_path) as [s|]; [|contradiction]. destruct E as (E & K).
  exists cx_plain, cx_g, ix_none, o, l, (fun _ => None), x, 1000, s.
  split; [repeat split|]. do 3 (split; [reflexivity|]). split; [discriminate|]. split; [reflexivity|]. split; [vm_compute; reflexivity|].
  split; [exists []; exact E|]. destruct (i_keys s) as [|k ks]; [contradiction|]. exists k. split; [left; reflexivity|exact K].
Qed.
Print Assumptions c106_expire_refuted.
Theorem c106_expire_partial : forall L U dp r g i o l f h call q, lib_ok L -> uni_upper_idem U -> uni_space_upper U ->
  io_call o = Some call -> disk_ok (r_env r 1) -> path_of L (r_env r 1) (io_file o) q -> io_expire o <> [] -> f q = None ->
  let x := cmd_initialize_asked U L dp r g i o l f h in result x = Ok tt ->
  exists key s, stored L (files x) q key s /\ len (i_keys s) = Z.max 0 (io_keys o) /\
    forall k, In k (i_keys s) -> dp (io_expire o) = Some (kexpires k).
Proof. exact asked_expire. Qed.
Print Assumptions c106_expire_partial.
