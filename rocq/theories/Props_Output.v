(** Properties of --output of the keys and messages commands. *)
From Coq Require Import Permutation.
From Verif Require Import Base Model_Unicode Model_Crand Model_Functions Model_Types Model_Cipher Model_Keys
  Model_Messages Model_Listing Model_Station Model_Persist Model_Print Model_Cli Model_Output
  Spec Spec_Persist Spec_Cli Spec_Output Proofs_Cli Proofs_CliSel Proofs_Output Examples Examples_Persist Props_Messages Examples_Cli.

(** ** C101: --output writes what is selected to its file, and nothing elsewhere. *)
(** Text: the texts of the selected keys, a line break after each. Without a
    selected key it is an error, with --list a success. *)
Theorem c101_keys_text : forall utf8 pdf lbk lc L U dp ds ktext r oe g o out f h p key i chosen, lib_ok L -> lbk <> [] ->
  store_at L (r_env r 0) (ko_file o) f p key i ->
  picked (key_selected U (r_now r) o) (i_keys i) chosen ->
  ko_delete o = false -> ko_new o = 0 -> ko_import o = None -> ko_export o = None ->
  text_wanted out -> oo_file out <> [] ->
  let x := cmd_keys_output utf8 pdf lbk lc L U dp ds ktext r oe g o (Some out) f h in
  shown x = [] /\
  wrote oe (oo_file out) f (key_given L (r_env r 0) g key /\ can_read (r_env r 0)) (chosen <> []) (ko_list o = true)
    (fun b => b = utf8 (page_text lbk (map (ktext i) chosen))) x.
Proof. exact keys_text_lemma. Qed.
Print Assumptions c101_keys_text.

(** PDF: pages of which each holds the texts of some selected keys, every key
    once; in order and without too many rows if every text fits a page. *)
Theorem c101_keys_pdf : forall utf8 pdf lbk lc L U dp ds ktext r oe g o out f h p key i chosen, lib_ok L -> lbk <> [] ->
  store_at L (r_env r 0) (ko_file o) f p key i ->
  picked (key_selected U (r_now r) o) (i_keys i) chosen ->
  ko_delete o = false -> ko_new o = 0 -> ko_import o = None -> ko_export o = None ->
  pdf_wanted out -> oo_file out <> [] ->
  let x := cmd_keys_output utf8 pdf lbk lc L U dp ds ktext r oe g o (Some out) f h in
  shown x = [] /\
  wrote oe (oo_file out) f (key_given L (r_env r 0) g key /\ can_read (r_env r 0)) (chosen <> []) True
    (fun b => exists ps outs, b = pdf outs /\
       Forall2 (fun p out => out = page_text (lbk ++ lbk ++ lbk ++ lbk ++ lbk) p \/ p = [out]) ps outs /\
       Permutation (concat ps) (map (ktext i) chosen) /\
       ((forall k, In k chosen -> lc (ktext i k) + 5 <= 87) ->
        outs = map (page_text (lbk ++ lbk ++ lbk ++ lbk ++ lbk)) ps /\ concat ps = map (ktext i) chosen /\
        Forall (fun p => page_rows lc 5 p <= 87 /\ p <> []) ps)) x.
Proof. exact keys_pdf_lemma. Qed.
Print Assumptions c101_keys_pdf.

(** Messages, 80 columns wide as text and 95 as PDF. *)
Theorem c101_messages_text : forall utf8 pdf lbk lc L U lb dp ds dg mtext r oe g o out f h p key i chosen,
  lib_ok L -> lbk <> [] ->
  store_at L (r_env r 0) (mo_file o) f p key i ->
  picked (message_chosen U o) (i_messages i) chosen ->
  mo_delete o = false -> mo_new o = false -> mo_list o = false ->
  text_wanted out -> oo_file out <> [] ->
  let x := cmd_messages_output utf8 pdf lbk lc L U lb dp ds dg mtext r oe g o (Some out) f h in
  shown x = [] /\
  wrote oe (oo_file out) f (key_given L (r_env r 0) g key /\ can_read (r_env r 0)) (chosen <> []) False
    (fun b => b = utf8 (page_text lbk (map (mtext i 80) chosen))) x.
Proof. exact msg_text_lemma. Qed.
Print Assumptions c101_messages_text.

Theorem c101_messages_pdf : forall utf8 pdf lbk lc L U lb dp ds dg mtext r oe g o out f h p key i chosen,
  lib_ok L -> lbk <> [] ->
  store_at L (r_env r 0) (mo_file o) f p key i ->
  picked (message_chosen U o) (i_messages i) chosen ->
  mo_delete o = false -> mo_new o = false -> mo_list o = false ->
  pdf_wanted out -> oo_file out <> [] ->
  let x := cmd_messages_output utf8 pdf lbk lc L U lb dp ds dg mtext r oe g o (Some out) f h in
  shown x = [] /\
  wrote oe (oo_file out) f (key_given L (r_env r 0) g key /\ can_read (r_env r 0)) (chosen <> []) True
    (fun b => exists ps outs, b = pdf outs /\
       Forall2 (fun p out => out = page_text (lbk ++ lbk) p \/ p = [out]) ps outs /\
       Permutation (concat ps) (map (mtext i 95) chosen) /\
       ((forall k, In k chosen -> lc (mtext i 95 k) + 2 <= 65) ->
        outs = map (page_text (lbk ++ lbk)) ps /\ concat ps = map (mtext i 95) chosen /\
        Forall (fun p => page_rows lc 2 p <= 65 /\ p <> []) ps)) x.
Proof. exact msg_pdf_lemma. Qed.
Print Assumptions c101_messages_pdf.

(** Whatever else the call does, it does the same as without --output. *)
Theorem c101_keys_beside : forall utf8 pdf lbk lc L U dp ds ktext r oe g o out f h, keys_idle o = false ->
  beside (oo_file out) (cmd_keys_output utf8 pdf lbk lc L U dp ds ktext r oe g o (Some out) f h) (cmd_keys L U dp ds r g o f h).
Proof. exact keys_beside. Qed.
Print Assumptions c101_keys_beside.
Theorem c101_messages_beside : forall utf8 pdf lbk lc L U lb dp ds dg mtext r oe g o out f h,
  mo_list o || mo_new o || mo_delete o = true ->
  beside (oo_file out) (cmd_messages_output utf8 pdf lbk lc L U lb dp ds dg mtext r oe g o (Some out) f h)
    (cmd_messages L U lb dp ds dg r g o f h).
Proof. exact msg_beside. Qed.
Print Assumptions c101_messages_beside.

(** Without --output the commands are the ones of the other properties. *)
Theorem c101_keys_without : forall utf8 pdf lbk lc L U dp ds ktext r oe g o f h,
  let x := cmd_keys_output utf8 pdf lbk lc L U dp ds ktext r oe g o None f h in let y := cmd_keys L U dp ds r g o f h in
  shown x = shown y /\ listed x = listed y /\ files x = files y /\ result x = result y.
Proof. exact keys_none. Qed.
Print Assumptions c101_keys_without.
Theorem c101_messages_without : forall utf8 pdf lbk lc L U lb dp ds dg mtext r oe g o f h,
  let x := cmd_messages_output utf8 pdf lbk lc L U lb dp ds dg mtext r oe g o None f h in
  let y := cmd_messages L U lb dp ds dg r g o f h in
  shown x = shown y /\ listed x = listed y /\ files x = files y /\ result x = result y.
Proof. exact msg_none. Qed.
Print Assumptions c101_messages_without.

(** Stand-ins for the libraries: UTF-8 of ASCII, a "PDF" that is the pages with a
    form feed after each. *)
Definition ox_pdf (pages : list (list rune)) : list Z := concat (map (fun p => p ++ [12]) pages).
Definition ox_lines (s : list rune) : Z := len (filter (Z.eqb 10) s).
Definition ox_ktext (i : inst) (k : key) : list rune := kid k ++ [10] ++ krunes k.
Definition ox_mtext (i : inst) (w : Z) (m : msg) : list rune := mid m ++ [10] ++ mplain m.
Definition ox_keys r oe g o out f : flow :=
  cmd_keys_output (fun s => s) ox_pdf [10] ox_lines ex_lib uni_id ex_dp cx_ds ox_ktext r oe g o (Some out) f [].
Definition ox_messages r oe g o out f : flow :=
  cmd_messages_output (fun s => s) ox_pdf [10] ox_lines ex_lib uni_id ex_lb ex_dp cx_ds cx_digest ox_mtext r oe g o (Some out) f [].
Definition ox_env : oenv := mkO true None.
Definition ox_txt : list rune := [107; 46; 116; 120; 116].
Definition ox_pdf_file : list rune := [107; 46; 112; 100; 102].

Example c101_case :
  text_wanted (mkOut ox_txt None) /\ pdf_wanted (mkOut ox_pdf_file None) /\ pdf_wanted (mkOut ox_txt (Some w_pdf)) /\
  result (ox_keys cx_plain ox_env cx_g cx_k (mkOut ox_txt None) (cx_fs cx_inst)) = Ok tt /\
  files (ox_keys cx_plain ox_env cx_g cx_k (mkOut ox_txt None) (cx_fs cx_inst)) ox_txt =
    Some (page_text [10] (map (ox_ktext cx_inst) ex_keys)) /\
  result (ox_messages cx_plain ox_env cx_g cm_list (mkOut ox_pdf_file None) (cx_fs ex_store)) = Ok tt /\
  files (ox_messages cx_plain ox_env cx_g cm_list (mkOut ox_pdf_file None) (cx_fs ex_store)) ox_pdf_file <> None.
Proof.
  split; [right; right; right; split; [reflexivity|exists [107]; left; reflexivity]|].
  split; [right; right; split; [reflexivity|]|].
  { intros (a & [E|E]); apply (f_equal (@rev Z)) in E; rewrite rev_app_distr in E; discriminate. }
  split; [left; reflexivity|]. split; [vm_compute; reflexivity|]. split; [vm_compute; reflexivity|].
  split; [vm_compute; reflexivity|]. vm_compute. discriminate.
Qed.

(** ** C102: --output never destroys a store. *)
(** False: the output file may be the file of the store itself. It is replaced
    without a question. *)
Theorem c102_own_file_refuted : exists r oe g o out f i,
  store_at ex_lib (r_env r 0) (ko_file o) f ex_path ex_pfk i /\ i_keys i <> [] /\
  keys_idle o = true /\ result (ox_keys r oe g o out f) = Ok tt /\
  (forall i', ~ stored ex_lib (files (ox_keys r oe g o out f)) ex_path ex_pfk i') /\
  result (cx_keys r g ck_list (files (ox_keys r oe g o out f))) <> Ok tt.
Proof.
  exists cx_plain, ox_env, cx_g, cx_k, (mkOut ex_path (Some w_txt)), (cx_fs cx_inst), cx_inst.
  split; [apply cx_store_at; [reflexivity|]; unfold no_zero_setting; cbn; lia|].
  split; [vm_compute; discriminate|]. split; [reflexivity|]. split; [vm_compute; reflexivity|].
  split; [|vm_compute; discriminate].
  intros i' (nonce & E). apply (f_equal (option_map (fun c => firstn 32 c))) in E. unfold complete_file in E.
  cbn [option_map seal ex_lib] in E. unfold ex_seal in E. change 32%nat with (List.length ex_pfk) in E at 2.
  rewrite firstn_exact in E. vm_compute in E. discriminate.
Qed.
Print Assumptions c102_own_file_refuted.

(** ** C103: success means that the file is there. *)
(** False: a PDF without a selected key, and --list without a selected key. *)
Theorem c103_pdf_refuted : exists r oe g o out f i,
  store_at ex_lib (r_env r 0) (ko_file o) f ex_path ex_pfk i /\
  result (ox_keys r oe g o out f) = Ok tt /\ files (ox_keys r oe g o out f) (oo_file out) = None.
Proof.
  exists cx_plain, ox_env, cx_g, cx_k, (mkOut ox_pdf_file None), (cx_fs (ex_inst [])), (ex_inst []).
  split; [apply cx_store_at; [reflexivity|]; unfold no_zero_setting; cbn; lia|].
  split; vm_compute; reflexivity.
Qed.
Print Assumptions c103_pdf_refuted.
Theorem c103_list_refuted : exists r oe g o out f i,
  store_at ex_lib (r_env r 0) (ko_file o) f ex_path ex_pfk i /\ text_wanted out /\ ko_list o = true /\
  result (ox_keys r oe g o out f) = Ok tt /\ files (ox_keys r oe g o out f) (oo_file out) = None.
Proof.
  exists cx_plain, ox_env, cx_g, ck_list, (mkOut ox_txt None), (cx_fs (ex_inst [])), (ex_inst []).
  split; [apply cx_store_at; [reflexivity|]; unfold no_zero_setting; cbn; lia|].
  split; [right; right; right; split; [reflexivity|exists [107]; left; reflexivity]|].
  split; [reflexivity|]. split; vm_compute; reflexivity.
Qed.
Print Assumptions c103_list_refuted.
