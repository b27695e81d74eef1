(** Properties C107 and C108: from one station to another at the command line. *)
From Verif Require Import Base Spec Model_Unicode Model_Crand Model_Functions Model_Types Model_Cipher Model_Keys
  Model_Import Model_Messages Model_Station Model_Persist Model_Listing Model_Cli Model_Regex Model_Print Spec_Persist Spec_Cli Spec_Listing
  Spec_CliImport Spec_EndToEnd Proofs_EndToEnd Examples Examples_Persist Props_Messages Props_Print Examples_Cli Props_Cli Proofs_CliSel.
From Coq Require Import Ascii String.

(** ** C107: messages --new at one station shows [m]; at a station that holds the
    unused keys for its recipients, messages --new with the traffic example of
    [m] shows and stores the same text. *)
Theorem c107_sent_and_read : forall L U lb dp ds dg dtg wrap lbk r g o f h p key i m
    r2 g2 o2 f2 h2 p2 key2 i2 raw2 id t1, uni_ok U -> uni_kelvin U -> lib_ok L ->
  store_at L (r_env r 0) (mo_file o) f p key i -> station_ok i -> disk_ok (r_env r 2) -> mo_delete o = false -> mo_new o = true ->
  let x := cmd_messages L U lb dp ds dg r g o f h in
  result x = Ok tt -> shown x = [m] -> same_text (to_upper U) (mfrom m) (i_callsign i) ->
  keeps_groups U wrap (i_groupsize i) -> sendable dp dtg (i_groupsize i) m ->
  traffic U dtg wrap lbk (i_groupsize i) m = Some (lb raw2) ->
  store_at L (r_env r2 0) (mo_file o2) f2 p2 key2 i2 -> station_ok i2 -> i_groupsize i2 = i_groupsize i ->
  mo_delete o2 = false -> mo_new o2 = true -> r_radiogram r2 = Some raw2 ->
  key_given L (r_env r2 0) g2 key2 -> can_read (r_env r2 0) -> can_write (r_env r2 2) ->
  ~ same_text (to_upper U) (mfrom m) (i_callsign i2) ->
  (forall k, In k (i_keys i) -> eligible (i_groupsize i) (mrecipients m) k -> holds (i_keys i2) k) ->
  new_unique_message_id (i_messages i2) (r_tape r2) = Ok (id, t1) -> (List.length (lb raw2) <= List.length t1)%nat ->
  let y := cmd_messages L U lb dp ds dg r2 g2 o2 f2 h2 in
  result y = Ok tt /\ exists m2 ks2, shown y = [m2] /\ same_other_files p2 f2 (files y) /\
    stored L (files y) p2 key2 (set_messages (set_keys i2 ks2) (i_messages i2 ++ [m2])) /\ more_used (i_keys i2) ks2 /\
    read_as (i_callsign i2) m m2.
Proof. exact sent_and_read. Qed.
Print Assumptions c107_sent_and_read.

(** The station OS sends to VQ; all hypotheses hold. *)
Definition ey_sent : msg := Eval vm_compute in
  match shown (cx_messages cx_plain cx_g cm_new (cx_fs cx_inst)) with m :: _ => m | [] => ex_msg [] [] end.
Definition ey_traffic : list rune := Eval vm_compute in
  match traffic uni_id ex_dtg ex_wrap [10] 5 ey_sent with Some s => s | None => [] end.
Definition ey_receiver : inst := mkInst 5 40 110 80 ex_keys [] callVQ.
Definition ey_run : run := mkRun 7 (fun _ => ex_env) (ex_tape ++ repeat 3 200) ex_tape (cx_pick 1) [] (Some ey_traffic).
Lemma ey_sendable : sendable ex_dp ex_dtg 5 ey_sent.
Proof.
  assert (call_sign callVQ /\ call_sign callOS) as (A & B)
    by (split; (split; [discriminate|]); repeat constructor; vm_compute; intuition discriminate).
  split; [constructor; [exact A|constructor]|]. split; [exact B|]. split; [discriminate|].
  split; [exact ex_dtg_text|]. split; reflexivity.
Qed.
Example c107_case : mplain ey_sent = str "MOVE AT DAWN"%string /\
  let y := cx_messages ey_run cx_g cm_new (cx_fs ey_receiver) in
  result y = Ok tt /\ exists m2 ks2, shown y = [m2] /\ same_other_files ex_path (cx_fs ey_receiver) (files y) /\
    stored ex_lib (files y) ex_path ex_pfk (set_messages (set_keys ey_receiver ks2) [m2]) /\
    more_used (i_keys ey_receiver) ks2 /\ read_as callVQ ey_sent m2.
Proof.
  split; [vm_compute; reflexivity|].
  destruct (new_unique_message_id [] (r_tape ey_run)) as [[id t1]|e| |] eqn:ID; try (vm_compute in ID; discriminate).
  apply (c107_sent_and_read ex_lib uni_id ex_lb ex_dp cx_ds cx_digest ex_dtg ex_wrap [10] cx_plain cx_g cm_new (cx_fs cx_inst) [] ex_path
    ex_pfk cx_inst ey_sent ey_run cx_g cm_new (cx_fs ey_receiver) [] ex_path ex_pfk ey_receiver ey_traffic id t1).
  - exact uni_id_ok.
  - exact uni_id_kelvin.
  - exact ex_lib_ok.
  - apply cx_store_at; [reflexivity|exact cx_no_zero].
  - apply station_okb_ok. vm_compute. reflexivity.
  - reflexivity.
  - reflexivity.
  - reflexivity.
  - vm_compute. reflexivity.
  - vm_compute. reflexivity.
  - reflexivity.
  - exact c60_wrap.
  - exact ey_sendable.
  - vm_compute. reflexivity.
  - apply cx_store_at; [reflexivity|]. unfold no_zero_setting, ey_receiver. cbn. lia.
  - apply station_okb_ok. vm_compute. reflexivity.
  - reflexivity.
  - reflexivity.
  - reflexivity.
  - reflexivity.
  - apply cx_key_given.
  - split; reflexivity.
  - split; [reflexivity|split; reflexivity].
  - vm_compute. discriminate.
  - intros k I _. exists k. split; [exact I|split; reflexivity].
  - exact ID.
  - vm_compute in ID. injection ID as _ <-. apply Nat.leb_le. vm_compute. reflexivity.
Qed.

(** ** C108: the keys are handed over first: keys --export at one station, keys
    --import at the other, then a message as in C107. *)
Theorem c108_handed_and_read : forall L U lb dp ds dg dtg wrap lbk r g o f h p key i file q w r2 g2 o2 f2 h2 p2 key2 i2 file2 q2
    r3 g3 o3 f3 h3 m r4 g4 o4 f4 h4 raw id t1, uni_ok U -> uni_kelvin U -> lib_ok L ->
  store_at L (r_env r 0) (ko_file o) f p key i -> station_ok i -> key = kdf L w default_salt ->
  ko_export o = Some file -> path_of L (r_env r 5) file q -> q <> p ->
  ko_delete o = false -> ko_new o <= 0 -> ko_import o = None -> disk_ok (r_env r 5) ->
  let x := cmd_keys L U dp ds r g o f h in
  result x = Ok tt -> (f q = None \/ ko_yes o = true) ->
  f2 q2 = files x q -> path_of L (r_env r2 3) file2 q2 -> plain_path q2 ->
  store_at L (r_env r2 0) (ko_file o2) f2 p2 key2 i2 -> station_ok i2 -> i_groupsize i2 = i_groupsize i ->
  ko_import o2 = Some file2 -> ko_delete o2 = false -> ko_new o2 <= 0 -> ko_export o2 = None ->
  key_given L (r_env r2 0) g2 key2 -> can_read (r_env r2 0) -> can_read (r_env r2 3) -> can_write (r_env r2 4) ->
  e_term (r_env r2 3) = true -> e_password (r_env r2 3) = Some w ->
  (forall k k0, In k (i_keys i) -> In k0 (i_keys i2) -> kid k0 <> kid k) ->
  let y := cmd_keys L U dp ds r2 g2 o2 f2 h2 in
  f3 p = files x p -> path_of L (r_env r3 0) (mo_file o3) p -> disk_ok (r_env r3 2) -> mo_delete o3 = false -> mo_new o3 = true ->
  let x2 := cmd_messages L U lb dp ds dg r3 g3 o3 f3 h3 in
  result x2 = Ok tt -> shown x2 = [m] -> same_text (to_upper U) (mfrom m) (i_callsign i) ->
  (forall k, In k (i_keys i) -> eligible (i_groupsize i) (mrecipients m) k ->
     key_selected U (r_now r) o k /\ key_selected U (r_now r2) o2 k) ->
  keeps_groups U wrap (i_groupsize i) -> sendable dp dtg (i_groupsize i) m ->
  traffic U dtg wrap lbk (i_groupsize i) m = Some (lb raw) ->
  f4 p2 = files y p2 -> path_of L (r_env r4 0) (mo_file o4) p2 -> mo_delete o4 = false -> mo_new o4 = true -> r_radiogram r4 = Some raw ->
  key_given L (r_env r4 0) g4 key2 -> can_read (r_env r4 0) -> can_write (r_env r4 2) ->
  ~ same_text (to_upper U) (mfrom m) (i_callsign i2) ->
  new_unique_message_id (i_messages i2) (r_tape r4) = Ok (id, t1) -> (List.length (lb raw) <= List.length t1)%nat ->
  let y2 := cmd_messages L U lb dp ds dg r4 g4 o4 f4 h4 in
  result y = Ok tt /\ result y2 = Ok tt /\ exists m2 ks2, shown y2 = [m2] /\ read_as (i_callsign i2) m m2 /\
    stored L (files y2) p2 key2 (set_messages (set_keys i2 ks2) (i_messages i2 ++ [m2])).
Proof. exact handed_and_read. Qed.
Print Assumptions c108_handed_and_read.

(** OS hands its keys to VQ, then sends. *)
Definition ey_g : gopts := mkG None None (Some cx_word).
Definition ey_typed : run := cx_run (fun _ => cx_typed true) [].
Definition ey_fs : fs := cx_put ex_path cx_pw cx_abc (fun _ => None).
Definition ey_sender_files : fs := files (cx_keys ey_typed ey_g (ck_export cx_out false) ey_fs).
Definition ey_newcomer : inst := mkInst 5 40 110 80 [ex_key idD 9 40 []] [] callVQ.
Definition ey_fs2 : fs := fun q => if list_eq_dec Z.eq_dec q cx_in then ey_sender_files cx_out else cx_fs ey_newcomer q.
Definition ey_receiver_files : fs := files (cx_keys ey_typed cx_g (ck_import cx_in) ey_fs2).
Example c108_case :
  shown (cx_messages ey_typed ey_g cm_new ey_sender_files) = [ey_sent] /\
  let y := cx_keys ey_typed cx_g (ck_import cx_in) ey_fs2 in
  let y2 := cx_messages ey_run cx_g cm_new ey_receiver_files in
  result y = Ok tt /\ result y2 = Ok tt /\ exists m2 ks2, shown y2 = [m2] /\ read_as callVQ ey_sent m2 /\
    stored ex_lib (files y2) ex_path ex_pfk (set_messages (set_keys ey_newcomer ks2) [m2]).
Proof.
  split; [vm_compute; reflexivity|].
  destruct (new_unique_message_id [] (r_tape ey_run)) as [[id t1]|e| |] eqn:ID; try (vm_compute in ID; discriminate).
  assert (path_of ex_lib ex_env cx_out cx_out /\ path_of ex_lib ex_env cx_in cx_in /\ plain_path cx_in) as (PO & PI & PP).
  { split; [|split]; [right|right|]; (split; [discriminate|]); [split; [intros rest H; discriminate|reflexivity]..|intros rest H; discriminate]. }
  apply (c108_handed_and_read ex_lib uni_id ex_lb ex_dp cx_ds cx_digest ex_dtg ex_wrap [10]
    ey_typed ey_g (ck_export cx_out false) ey_fs [] ex_path cx_pw cx_abc cx_out cx_out cx_word
    ey_typed cx_g (ck_import cx_in) ey_fs2 [] ex_path ex_pfk ey_newcomer cx_in cx_in
    ey_typed ey_g cm_new ey_sender_files [] ey_sent
    ey_run cx_g cm_new ey_receiver_files [] ey_traffic id t1).
  - exact uni_id_ok.
  - exact uni_id_kelvin.
  - exact ex_lib_ok.
  - apply cx_store_at; [reflexivity|unfold no_zero_setting, cx_abc, ex_inst; cbn; lia].
  - apply station_okb_ok. vm_compute. reflexivity.
  - reflexivity.
  - reflexivity.
  - exact PO.
  - discriminate.
  - reflexivity.
  - cbn. lia.
  - reflexivity.
  - reflexivity.
  - vm_compute. reflexivity.
  - left. vm_compute. reflexivity.
  - vm_compute. reflexivity.
  - exact PI.
  - exact PP.
  - split; [apply cx_path_of|]. split; [apply cx_plain_path|]. split; [reflexivity|].
    split; [unfold no_zero_setting, ey_newcomer; cbn; lia|]. exists []. vm_compute. reflexivity.
  - apply station_okb_ok. vm_compute. reflexivity.
  - reflexivity.
  - reflexivity.
  - reflexivity.
  - cbn. lia.
  - reflexivity.
  - apply cx_key_given.
  - split; reflexivity.
  - split; reflexivity.
  - split; [reflexivity|split; reflexivity].
  - reflexivity.
  - reflexivity.
  - intros k k0 I [<-|[]]. cbn [In i_keys cx_abc ex_inst firstn ex_keys] in I. destruct I as [<-|[<-|[<-|[]]]]; discriminate.
  - reflexivity.
  - apply cx_path_of.
  - reflexivity.
  - reflexivity.
  - reflexivity.
  - vm_compute. reflexivity.
  - vm_compute. reflexivity.
  - reflexivity.
  - intros k I _. cbn [In i_keys cx_abc ex_inst firstn ex_keys] in I.
    destruct I as [<-|[<-|[<-|[]]]]; split; apply key_selected_spec; vm_compute; reflexivity.
  - exact c60_wrap.
  - exact ey_sendable.
  - vm_compute. reflexivity.
  - reflexivity.
  - apply cx_path_of.
  - reflexivity.
  - reflexivity.
  - reflexivity.
  - apply cx_key_given.
  - split; reflexivity.
  - split; [reflexivity|split; reflexivity].
  - vm_compute. discriminate.
  - exact ID.
  - vm_compute in ID. injection ID as _ <-. apply Nat.leb_le. vm_compute. reflexivity.
Qed.
