(** Properties of the command line program's other commands, and of histories
    of commands. *)
From Verif Require Import Base Model_Unicode Model_Functions Model_Crand Model_Types Model_Cipher Model_Keys Model_Import
  Model_Messages Model_Station Model_Persist Model_Listing Model_Cli Spec Spec_Persist Spec_Cli Spec_Listing Spec_CliPfk Spec_Keys
  Spec_CliHist Proofs_Functions Proofs_Listing Proofs_Cli Proofs_CliRun Proofs_CliCmd Proofs_CliOps Proofs_CliMsg Proofs_CliSel Proofs_CliPfk
  Proofs_CliHist Proofs_CliTop Examples Examples_Persist Props_Messages Examples_Cli Props_Cli.

Definition cx_store_ok : station_ok ex_store := station_okb_ok ex_store ltac:(vm_compute; reflexivity).
Lemma cx_store_here : forall e, store_at ex_lib e ex_path (cx_fs ex_store) ex_path ex_pfk ex_store.
Proof. intros e. apply cx_store_at; [reflexivity|]. unfold no_zero_setting, ex_store. cbn. lia. Qed.

(** ** C74: messages --list. *)
Theorem c74_list : forall L U lb dp ds dg r g o f h p key i chosen, uni_ok U -> lib_ok L ->
  store_at L (r_env r 0) (mo_file o) f p key i -> station_ok i ->
  (forall x, len (ds x) = 12) -> (forall m, In m (i_messages i) -> mfrom m <> []) ->
  mo_delete o = false -> mo_new o = false -> mo_list o = true ->
  picked (message_chosen U o) (i_messages i) chosen ->
  let x := cmd_messages L U lb dp ds dg r g o f h in
  same_files f (files x) /\ shown x = [] /\
  (result x = Ok tt <-> key_given L (r_env r 0) g key /\ can_read (r_env r 0)) /\
  (result x = Ok tt -> exists sel w2 w3,
     Forall2 (tried U (i_groupsize i) (i_keys i)) chosen sel /\
     Forall2 (fun m line => exists a, line = a ++ dg (go_string (mplain m) ++ go_string (mcipher m)) /\
      columns [5; 13; w2; w3] [mid m; ds (mdtg m);
        match mrecipients m with [] => str_nil | l => join [44] (map go_string l) end; mfrom m] a) sel (listed x)).
Proof. exact sel_msg_list_lemma. Qed.
Print Assumptions c74_list.

Example c74_nontrivial : station_ok ex_store /\ (forall m, In m (i_messages ex_store) -> mfrom m <> []) /\
  picked (message_chosen uni_id cm_list) (i_messages ex_store) (i_messages ex_store) /\
  result (cx_messages cx_plain cx_g cm_list (cx_fs ex_store)) = Ok tt /\
  len (listed (cx_messages cx_plain cx_g cm_list (cx_fs ex_store))) = 1.
Proof.
  split; [exact cx_store_ok|]. split; [intros m [<-|[]]; discriminate|]. split.
  { replace (i_messages ex_store) with (filter (msg_filter uni_id cm_list) (i_messages ex_store)) at 2 by (vm_compute; reflexivity).
    apply picked_filter, msg_filter_spec. }
  split; vm_compute; reflexivity.
Qed.

(** ** C84: the messages command changes nothing but messages and used flags,
    in its file only; at most one message is printed, and if the command succeeds
    it is stored and its keys are marked used. *)
Theorem c84_frame : forall L U lb dp ds dg r g o f h p key i, uni_ok U -> lib_ok L ->
  store_at L (r_env r 0) (mo_file o) f p key i -> station_ok i ->
  disk_ok (r_env r 1) -> disk_ok (r_env r 2) ->
  let x := cmd_messages L U lb dp ds dg r g o f h in
  same_other_files p f (files x) /\ exists i', stored L (files x) p key i' /\ station_ok i' /\ messages_only i i' /\
  (shown x = [] \/ exists i1 m, shown x = [m] /\ messages_only i i1 /\ station_ok i1 /\ ~ In (mid m) (map mid (i_messages i1)) /\
     (forall raw, r_radiogram r = Some raw -> mradiogram m = lb raw) /\
     (result x = Ok tt -> messages_only i1 i' /\ i_messages i' = i_messages i1 ++ [m]) /\
     (same_text (to_upper U) (mfrom m) (i_callsign i) -> exists js,
        (forall ks', marked_used js (i_keys i1) ks' -> freshly_enciphered (i_groupsize i) (i_keys i1) ks' m js) /\
        (result x = Ok tt -> marked_used js (i_keys i1) (i_keys i')) )).
Proof. exact msgs_frame_lemma. Qed.
Print Assumptions c84_frame.

(** ** C85: messages --new. *)
Theorem c85_new : forall L U lb dp ds dg r g o f h p key i, uni_ok U -> lib_ok L ->
  store_at L (r_env r 0) (mo_file o) f p key i -> station_ok i ->
  disk_ok (r_env r 2) -> mo_delete o = false -> mo_new o = true ->
  let x := cmd_messages L U lb dp ds dg r g o f h in
  (result x = Ok tt /\ same_other_files p f (files x) /\ exists raw m ks, r_radiogram r = Some raw /\ shown x = [m] /\
     stored L (files x) p key (set_messages (set_keys i ks) (i_messages i ++ [m])) /\ more_used (i_keys i) ks /\
     id_ok (mid m) /\ ~ In (mid m) (map mid (i_messages i)) /\ mradiogram m = lb raw /\
     (same_text (to_upper U) (mfrom m) (i_callsign i) -> exists js, freshly_enciphered (i_groupsize i) (i_keys i) ks m js)) \/
  (result x <> Ok tt /\ same_files f (files x) /\
   ~ (key_given L (r_env r 0) g key /\ can_read (r_env r 0) /\ can_write (r_env r 2) /\
      exists raw y, r_radiogram r = Some raw /\ snd (new_text_message U lb dp i [raw] (r_now r) (r_tape r)) = Ok y)).
Proof. exact cli_msg_new_lemma. Qed.
Print Assumptions c85_new.

Example c85_nontrivial : station_ok ex_store /\ store_at ex_lib (r_env cx_plain 0) (mo_file cm_new) (cx_fs ex_store) ex_path ex_pfk ex_store /\
  let x := cx_messages cx_plain cx_g cm_new (cx_fs ex_store) in
  result x = Ok tt /\ map mkeyid (shown x) = [idA] /\
  option_map (fun i => (len (i_messages i), map kused (i_keys i))) (cx_read ex_pfk (files x) ex_path)
  = Some (2, [true; false; false; false]).
Proof.
  split; [exact cx_store_ok|]. split; [apply cx_store_here|]. cbv zeta. split; [vm_compute; reflexivity|].
  split; vm_compute; reflexivity.
Qed.

(** ** C86: messages --delete, with and without --yes. *)
Theorem c86_delete : forall L U lb dp ds dg r g o f h p key i, uni_ok U -> lib_ok L ->
  store_at L (r_env r 0) (mo_file o) f p key i -> station_ok i ->
  disk_ok (r_env r 1) -> mo_delete o = true -> mo_yes o = true -> mo_new o = false ->
  let x := cmd_messages L U lb dp ds dg r g o f h in
  (result x = Ok tt /\ same_other_files p f (files x) /\ shown x = [] /\ exists ms, stored L (files x) p key (set_messages i ms) /\
     forall m, In m ms <-> In m (i_messages i) /\ ~ In (mid m) (vetted_message_ids U (mo_ids o))) \/
  (result x <> Ok tt /\ same_files f (files x) /\
   ~ (key_given L (r_env r 0) g key /\ can_read (r_env r 0) /\ can_write (r_env r 1))).
Proof. exact cli_msg_delete_lemma. Qed.
Print Assumptions c86_delete.
Theorem c86_pick : forall L U lb dp ds dg r g o f h p key i chosen, uni_ok U -> lib_ok L ->
  store_at L (r_env r 0) (mo_file o) f p key i -> station_ok i ->
  disk_ok (r_env r 1) -> mo_delete o = true -> mo_yes o = false -> mo_new o = false ->
  picked (message_chosen U o) (i_messages i) chosen ->
  let x := cmd_messages L U lb dp ds dg r g o f h in
  exists lines, length lines = length chosen /\
  ((result x = Ok tt /\ same_other_files p f (files x) /\ shown x = [] /\
     ((chosen = [] /\ same_files f (files x)) \/ forall js, Forall (fun j => (j < length lines)%nat) js ->
       r_pick r lines = Some (map (fun j => nth j lines []) js) ->
     exists i', stored L (files x) p key i' /\ messages_only i i' /\
       (forall m', In m' (i_messages i') -> exists m, In m (i_messages i) /\ tried U (i_groupsize i) (i_keys i) m m') /\
       forall id, In id (map mid (i_messages i')) <->
         In id (map mid (i_messages i)) /\ ~ exists j m, In j js /\ nth_error chosen j = Some m /\ mid m = id)) \/
  (result x <> Ok tt /\ same_files f (files x) /\
   ~ (key_given L (r_env r 0) g key /\ can_read (r_env r 0) /\ can_write (r_env r 1) /\ r_pick r lines <> None))).
Proof. exact sel_msg_pick_lemma. Qed.
Print Assumptions c86_pick.

Example c86_nontrivial :
  let i := set_messages ex_store (i_messages ex_store ++ [mkMsg mid2 [callOS] callVQ 7 [] txt_other [] [] []]) in
  station_ok i /\
  option_map (fun i => map mid (i_messages i)) (cx_read ex_pfk (files (cx_messages cx_plain cx_g (cm_delete [mid2] true) (cx_fs i))) ex_path)
  = Some [mid1] /\
  option_map (fun i => map mid (i_messages i)) (cx_read ex_pfk (files (cx_messages cx_plain cx_g (cm_delete [] false) (cx_fs i))) ex_path)
  = Some [mid2].
Proof. cbv zeta. split; [apply station_okb_ok; vm_compute; reflexivity|]. split; vm_compute; reflexivity. Qed.

(** ** C88: the columns of SummaryOfMessages are separated by spaces: false of a
    message with an empty From, where NIL does not fit. *)
Lemma columns_len : forall ws ss a, columns ws ss a -> fold_right (fun s n => len s + 1 + n) 0 ss <= len a.
Proof.
  induction 1 as [|w ws ss n line k H1 H2 H3 IH]; [vm_compute; discriminate|]. cbn [fold_right].
  rewrite !len_app. unfold len in *. rewrite repeat_length. lia.
Qed.
Theorem c88_columns_refuted : exists i m i' header line, i_messages i = [m] /\ station_ok i /\
  summary_of_messages uni_id cx_ds cx_digest (fun _ => true) i [] = Ok (i', header, [line]) /\
  ~ exists a ws, line = a ++ cx_digest (go_string (mplain m) ++ go_string (mcipher m)) /\
    columns ws [mid m; cx_ds (mdtg m); join [44] (map go_string (mrecipients m)); str_nil] a.
Proof.
  set (m := mkMsg mid2 [callOS] [] 7 [] (33 :: txt_other) [] [] []). set (i := set_messages ex_store [m]).
  exists i, m.
  assert (match summary_of_messages uni_id cx_ds cx_digest (fun _ => true) i [] with
          | Ok (i', header, [line]) => len line = 32 | _ => False end) as E by (vm_compute; reflexivity).
  destruct (summary_of_messages uni_id cx_ds cx_digest (fun _ => true) i []) as [((i' & header) & [|line [|? ?]])| | |]; try contradiction.
  exists i', header, line. split; [reflexivity|]. split; [apply station_okb_ok; vm_compute; reflexivity|]. split; [reflexivity|].
  intros (a & ws & -> & C). apply columns_len in C. rewrite len_app in E.
  assert (len (cx_digest (go_string (mplain m) ++ go_string (mcipher m))) = 8) as E2 by (vm_compute; reflexivity).
  assert (fold_right (fun s n => len s + 1 + n) 0 [mid m; cx_ds (mdtg m); join [44] (map go_string (mrecipients m)); str_nil] = 25)
    as E3 by (vm_compute; reflexivity). rewrite E3 in C. rewrite E2 in E. lia.
Qed.
Print Assumptions c88_columns_refuted.
Theorem c88_columns_partial : forall U dtg digest flt i t, (forall x, len (dtg x) = 12) ->
  (forall m, In m (i_messages i) -> len (mid m) = 4) -> (forall m, In m (i_messages i) -> flt m = true -> mfrom m <> []) ->
  0 < i_groupsize i -> store_ok (i_groupsize i) (i_keys i) ->
  exists i' header lines sel w2 w3, summary_of_messages U dtg digest flt i t = Ok (i', header, lines) /\
    i' = set_messages (set_keys i (i_keys i')) (i_messages i') /\ more_used (i_keys i) (i_keys i') /\
    Forall2 (fun m m' => if flt m then tried U (i_groupsize i) (i_keys i) m m' else m' = m) (i_messages i) (i_messages i') /\
    Forall2 (tried U (i_groupsize i) (i_keys i)) (filter flt (i_messages i)) sel /\ incl sel (i_messages i') /\
    Forall2 (fun m line => exists a, line = a ++ digest (go_string (mplain m) ++ go_string (mcipher m)) /\
      columns [5; 13; w2; w3] [mid m; dtg (mdtg m);
        match mrecipients m with [] => str_nil | l => join [44] (map go_string l) end; mfrom m] a) sel lines /\
    exists h, header = h ++ str_digest /\ columns [5; 13; w2; w3] [str_id; str_dtg; str_to; str_de] h.
Proof. exact summary_messages_lemma. Qed.
Print Assumptions c88_columns_partial.

Example c88_nontrivial : match summary_of_messages uni_id cx_ds cx_digest (fun _ => true) ex_store [] with
  | Ok (_, _, [line]) => len line = 5 + 13 + 3 + 3 + 8 | _ => False end.
Proof. vm_compute. reflexivity. Qed.

(** ** C89: no two messages printed by the program are enciphered with the same
    key. False: the first call prints its message, but cannot write the file. *)
Definition cx_no_write : run := cx_run (fun n => if Nat.eqb n 2 then mkEnv None false false None None false [] [] 2 None else ex_env) [].
Definition cx_new_message : call := cx_call (CMessages cm_new).
Theorem c89_failed_save_refuted : exists c1 c2 f m1 m2, store_at ex_lib ex_env ex_path f ex_path ex_pfk ex_store /\
  shown (cx_exec c1 f) = [m1] /\ shown (cx_exec c2 (files (cx_exec c1 f))) = [m2] /\
  result (cx_exec c1 f) = Err ErrIO /\ mkeyid m1 = idA /\ mkeyid m2 = idA /\ mcipher m1 = mcipher m2.
Proof.
  set (c1 := mkCall cx_no_write cx_g (CMessages cm_new)). set (f := cx_fs ex_store).
  exists c1, cx_new_message, f, (hd (ex_msg [] []) (shown (cx_exec c1 f))),
    (hd (ex_msg [] []) (shown (cx_exec cx_new_message (files (cx_exec c1 f))))).
  split; [apply cx_store_here|]. split; [vm_compute; reflexivity|]. split; [vm_compute; reflexivity|].
  split; [vm_compute; reflexivity|]. split; [vm_compute; reflexivity|]. split; vm_compute; reflexivity.
Qed.
Print Assumptions c89_failed_save_refuted.
(** False of two calls at the same time: both read the file before either
    writes it (no lock is taken); the messages differ. *)
Definition rg_other : list rune := firstn 10 rg_out ++ [61; 32; 72; 79; 76; 68; 32; 61; 32; 75].
Definition cx_other_run : run := mkRun 7 (fun _ => ex_env) (ex_tape ++ ex_tape) ex_tape (cx_pick 1) []
  (Some rg_other).
Theorem c89_concurrent_refuted : exists c1 c2 f m1 m2, store_at ex_lib ex_env ex_path f ex_path ex_pfk ex_store /\
  shown (cx_exec c1 f) = [m1] /\ shown (cx_exec c2 f) = [m2] /\ result (cx_exec c1 f) = Ok tt /\
  result (cx_exec c2 f) = Ok tt /\ mplain m1 <> mplain m2 /\ mkeyid m1 = idA /\ mkeyid m2 = idA.
Proof.
  set (f := cx_fs ex_store). set (c2 := mkCall cx_other_run cx_g (CMessages cm_new)).
  exists cx_new_message, c2, f, (hd (ex_msg [] []) (shown (cx_exec cx_new_message f))), (hd (ex_msg [] []) (shown (cx_exec c2 f))).
  split; [apply cx_store_here|]. split; [vm_compute; reflexivity|]. split; [vm_compute; reflexivity|].
  split; [vm_compute; reflexivity|]. split; [vm_compute; reflexivity|]. split; [vm_compute; discriminate|].
  split; vm_compute; reflexivity.
Qed.
Print Assumptions c89_concurrent_refuted.
(** False if a copy of a used key is imported after the key was deleted. *)
Theorem c89_reimport_refuted : exists f m1 m2,
  let c1 := cx_new_message in
  let c2 := cx_call (CKeys (ck_delete [idA] true false)) in
  let c3 := mkCall (cx_run (fun _ => cx_typed true) []) cx_g (CKeys (ck_import cx_in)) in
  let c4 := mkCall cx_other_run cx_g (CMessages cm_new) in
  let x1 := cx_exec c1 f in let x2 := cx_exec c2 (files x1) in
  let x3 := cx_exec c3 (files x2) in let x4 := cx_exec c4 (files x3) in
  result x1 = Ok tt /\ result x2 = Ok tt /\ result x3 = Ok tt /\ result x4 = Ok tt /\
  shown x1 = [m1] /\ shown x4 = [m2] /\ mplain m1 <> mplain m2 /\ mkeyid m1 = idA /\ mkeyid m2 = idA.
Proof.
  set (i := ex_inst [ex_key idA 3 40 [callVQ]]).
  set (f := cx_put cx_in cx_pw (mkInst 5 40 110 80 (i_keys i) [] callVQ) (cx_fs i)). exists f.
  set (x1 := cx_exec cx_new_message f). set (x2 := cx_exec (cx_call (CKeys (ck_delete [idA] true false))) (files x1)).
  set (x3 := cx_exec (mkCall (cx_run (fun _ => cx_typed true) []) cx_g (CKeys (ck_import cx_in))) (files x2)).
  set (x4 := cx_exec (mkCall cx_other_run cx_g (CMessages cm_new)) (files x3)).
  exists (hd (ex_msg [] []) (shown x1)), (hd (ex_msg [] []) (shown x4)). cbv zeta. fold x1 x2 x3 x4.
  do 6 (split; [vm_compute; reflexivity|]). split; [vm_compute; discriminate|]. split; vm_compute; reflexivity.
Qed.
Print Assumptions c89_reimport_refuted.
(** ** C90: over any history of calls (keys, messages, pfk), one after the
    other, without import, in which a call that printed a message succeeded, no
    key is used twice; keys deleted in between included. [i_keys i ++ new] are all
    the keys there ever were, [jss] the keys used for each message. *)
Theorem c90_history : forall L U lb dp ds dg p key f cs f' ms i, uni_ok U -> lib_ok L -> plain_path p -> len key = 32 ->
  no_zero_setting i -> stored L f p key i ->
  station_ok i -> 0 <= i_keylength i -> session L U lb dp ds dg p f cs f' ms ->
  exists key' i' new jss, len key' = 32 /\ stored L f' p key' i' /\ station_ok i' /\ same_settings i i' /\
    Forall2 (fun m js => same_text (to_upper U) (mfrom m) (i_callsign i) ->
      message (i_groupsize i) (i_keys i ++ new) js (map canon (mplain m)) (mcipher m)) ms jss /\
    NoDup (concat jss) /\
    (forall j k, In j (concat jss) -> nth_error (i_keys i) j = Some k -> kused k = false) /\
    exists es, length es = length (i_keys i') /\ NoDup es /\
      forall n e k, nth_error es n = Some e -> nth_error (i_keys i') n = Some k ->
        exists k0, nth_error (i_keys i ++ new) e = Some k0 /\ kid k = kid k0 /\ krunes k = krunes k0 /\
          (kused k0 = true -> kused k = true) /\ (In e (concat jss) -> kused k = true).
Proof. exact history_lemma. Qed.
Print Assumptions c90_history.

Definition cx_session : list call := [cx_new_message; cx_call (CKeys (ck_new 1)); cx_new_message; cx_call (CKeys (ck_delete [idC] true false))].
Lemma cx_call_on : forall c, In c cx_session -> call_on ex_lib ex_path c.
Proof.
  intros c [<-|[<-|[<-|[<-|[]]]]]; (split; [reflexivity|split; [reflexivity|split; [reflexivity|]]]);
    cbn [cx_new_message cx_call c_cmd c_run]; try (split; [|split; [reflexivity|discriminate]]); apply cx_path_of.
Qed.
Example c90_nontrivial : exists f' ms,
  session ex_lib uni_id ex_lb ex_dp cx_ds cx_digest ex_path (cx_fs ex_store) cx_session f' ms /\
  map mkeyid ms = [idA; idB].
Proof.
  eexists _, _. split.
  - unfold cx_session. do 4 (eapply session_call; [apply cx_call_on; unfold cx_session; cbn; tauto|right; vm_compute; reflexivity|]).
    apply session_none.
  - vm_compute. reflexivity.
Qed.

(** ** C91: pfk --change. *)
Theorem c91_change : forall L U r g o f h p key i, lib_ok L -> store_at L (r_env r 0) (po_file o) f p key i -> disk_ok (r_env r 1) ->
  let x := cmd_pfk_change L U r g o f h in
  shown x = [] /\
  ((result x <> Ok tt /\ same_files f (files x) /\
    ~ (old_key L (r_env r 0) g o key /\ can_read (r_env r 0) /\ agreed o /\ (exists b, new_key_given L r g o b) /\
       can_write (r_env r 1))) \/
   (result x = Ok tt /\ same_files f (files x) /\ declined o) \/
   (result x = Ok tt /\ old_key L (r_env r 0) g o key /\ agreed o /\ same_other_files p f (files x) /\
    exists key', new_key_given L r g o key' /\ len key' = 32 /\ stored L (files x) p key' i)).
Proof. exact pfk_lemma. Qed.
Print Assumptions c91_change.

Definition cx_change : popts := mkP ex_path None None (ByPassword cx_word) (Some true).
Example c91_nontrivial :
  let x := cmd_pfk_change ex_lib uni_id cx_plain cx_g cx_change (cx_fs ex_store) [] in
  store_at ex_lib (r_env cx_plain 0) (po_file cx_change) (cx_fs ex_store) ex_path ex_pfk ex_store /\
  result x = Ok tt /\ stored ex_lib (files x) ex_path cx_pw ex_store.
Proof. cbv zeta. split; [apply cx_store_here|]. split; [vm_compute; reflexivity|]. exists []. vm_compute. reflexivity. Qed.

(** ** C92: initialize. *)
Theorem c92_initialize : forall L U dp r g o f h call q, lib_ok L -> uni_upper_idem U -> uni_space_upper U ->
  io_call o = Some call -> disk_ok (r_env r 1) -> path_of L (r_env r 1) (io_file o) q ->
  let x := cmd_initialize L U dp r g o f h in
  shown x = [] /\
  ((result x = Ok tt /\ said_no (r_env r 1) (io_yes o) f q /\ same_files f (files x)) \/
   (result x = Ok tt /\ settings_ok o /\ may_write (r_env r 1) (io_yes o) f q /\ same_other_files q f (files x) /\
    exists key keys call' cs, key_given L (r_env r 1) g key /\
      stored L (files x) q key
        (mkInst (io_groupsize o) (io_keylength o) (io_columns o) (io_keycolumns o) keys [] cs) /\
      call_of U call call' /\ (if 2 <=? len call' then cs = call' else cs = []) /\
      len keys = Z.max 0 (io_keys o) /\
      (forall k, In k keys -> letters (kid k) /\ len (kid k) = io_groupsize o /\ letters (krunes k) /\
        io_keylength o <= len (krunes k) < io_keylength o + io_groupsize o /\
        kused k = false /\ kcompromised k = false /\ kcreated k = r_now r /\ kcomment k = [] /\
        (io_expire o <> [] -> dp (io_expire o) = Some (kexpires k)) /\
        (io_expire o = [] -> kexpires k = r_now r + 365 * day) /\
        keepers_named U (io_keepers o) cs (kkeepers k)) /\
      (forall a k b, keys = a ++ k :: b -> forall k0, In k0 a -> ~ same_text (to_upper U) (kid k0) (kid k))) \/
   (result x <> Ok tt /\ same_files f (files x) /\
    (settings_ok o -> (0 < io_keys o -> io_expire o <> [] -> dp (io_expire o) <> None) ->
     may_write (r_env r 1) (io_yes o) f q -> can_write (r_env r 1) -> (exists key, key_given L (r_env r 1) g key) ->
     result x = Panic))).
Proof. exact init_lemma. Qed.
Print Assumptions c92_initialize.

Definition cx_init (call : list rune) : iopts := mkI ex_path false (Some call) 2 [] [callVQ] 40 5 80 110.
Example c92_nontrivial : settings_ok (cx_init callOS) /\
  let x := cmd_initialize ex_lib uni_id ex_dp cx_plain cx_g (cx_init (32 :: callOS)) (fun _ => None) [] in
  result x = Ok tt /\ option_map (fun i => (len (i_keys i), i_callsign i)) (cx_read ex_pfk (files x) ex_path) = Some (2, callOS).
Proof.
  split; [unfold settings_ok, cx_init; cbn; repeat split; try discriminate; lia|]. cbv zeta. split; vm_compute; reflexivity.
Qed.

(** ** C93: a station has a call-sign of at least two characters: false, a
    shorter one is dropped without an error. *)
Theorem c93_call_refuted : exists r g call f i,
  let x := cmd_initialize ex_lib uni_id ex_dp r g (cx_init call) f [] in
  result x = Ok tt /\ stored ex_lib (files x) ex_path ex_pfk i /\ call <> [] /\ i_callsign i = [].
Proof.
  set (call := [81]). set (x := cmd_initialize ex_lib uni_id ex_dp cx_plain cx_g (cx_init call) (fun _ => None) []).
  assert (match cx_read ex_pfk (files x) ex_path with
          | Some i => files x ex_path = Some (complete_file ex_lib ex_pfk [] i) /\ i_callsign i = []
          | None => False end) as E by (vm_compute; auto).
  destruct (cx_read ex_pfk (files x) ex_path) as [i|]; [|contradiction].
  exists cx_plain, cx_g, call, (fun _ => None), i. cbv zeta. fold x. split; [vm_compute; reflexivity|].
  split; [exists []; apply E|]. split; [discriminate|apply E].
Qed.
Print Assumptions c93_call_refuted.
Theorem c93_call_partial : forall L U dp r g o f h call call' q, lib_ok L -> uni_upper_idem U -> uni_space_upper U ->
  io_call o = Some call -> disk_ok (r_env r 1) -> path_of L (r_env r 1) (io_file o) q ->
  call_of U call call' -> 2 <= len call' -> io_yes o = true ->
  result (cmd_initialize L U dp r g o f h) = Ok tt ->
  exists key keys, stored L (files (cmd_initialize L U dp r g o f h)) q key
    (mkInst (io_groupsize o) (io_keylength o) (io_columns o) (io_keycolumns o) keys [] call').
Proof. exact init_call_lemma. Qed.
Print Assumptions c93_call_partial.

(** ** C95: a call whose options do not give the key of the file changes no
    file, prints nothing and ends with an error. *)
Theorem c95_wrong_key : forall L U lb dp ds dg c f h p key i, lib_ok L ->
  let r := c_run c in let g := c_global c in
  match c_cmd c with
  | CKeys o => store_at L (r_env r 0) (ko_file o) f p key i /\ ~ key_given L (r_env r 0) g key /\
      (ko_list o = true \/ ko_delete o = true \/ ko_new o <> 0 \/ ko_import o <> None \/ ko_export o <> None)
  | CMessages o => store_at L (r_env r 0) (mo_file o) f p key i /\ ~ key_given L (r_env r 0) g key /\
      (mo_list o = true \/ mo_new o = true \/ mo_delete o = true)
  | CPfk o => store_at L (r_env r 0) (po_file o) f p key i /\ ~ old_key L (r_env r 0) g o key
  end ->
  let x := match c_cmd c with
    | CKeys o => cmd_keys L U dp ds r g o f h
    | CMessages o => cmd_messages L U lb dp ds dg r g o f h
    | CPfk o => cmd_pfk_change L U r g o f h
    end in
  result x <> Ok tt /\ same_files f (files x) /\ shown x = [] /\ listed x = [].
Proof. exact wrong_key_lemma. Qed.
Print Assumptions c95_wrong_key.

Example c95_nontrivial : let g := mkG None None (Some cx_word) in
  ~ key_given ex_lib ex_env g ex_pfk /\ result (cx_keys cx_plain g ck_list (cx_fs ex_store)) = Err ErrDecrypt.
Proof.
  cbv zeta. split; [|vm_compute; reflexivity]. intros (s & S & E). cbn in S. subst s. vm_compute in E. discriminate.
Qed.
