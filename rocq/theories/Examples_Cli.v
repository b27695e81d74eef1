(** Concrete calls of the command line program for the examples. *)
From Verif Require Import Base Spec Model_Unicode Model_Crand Model_Functions Model_Types Model_Cipher Model_Keys
  Model_Import Model_Messages Model_Station Model_Persist Model_Listing Model_Cli Spec_Persist Spec_Cli Spec_Listing
  Spec_CliHist Spec_CliPfk Examples Examples_Persist Props_Messages.
From Coq Require Import Ascii String.

(** An environment without a terminal, and one where the user types in the
    password "pw" and answers questions with [b]. *)
Definition cx_typed (b : bool) : env := mkEnv None false true (Some b) (Some (str "pw"%string)) true [] [] 2 None.
Definition cx_pick (n : nat) (lines : list (list rune)) : option (list (list rune)) := Some (firstn n lines).
Definition cx_ds (x : Z) : list rune := str "010000ZJAN23"%string.
Definition cx_digest (s : list rune) : list rune := firstn 8 s.
Definition cx_run (e : nat -> env) (answers : list (option bool)) : run :=
  mkRun 7 e (ex_tape ++ ex_tape) ex_tape (cx_pick 1) answers (Some rg_out).
Definition cx_plain : run := cx_run (fun _ => ex_env) [].
Definition cx_hex : list rune := Eval vm_compute in hex_encode ex_pfk.
Definition cx_g : gopts := mkG None (Some cx_hex) None.
Definition cx_inst : inst := ex_inst ex_keys.
(** A file system: the file [p] is the file of the store [i] under [key]. *)
Definition cx_put (p : list rune) (key : list Z) (i : inst) (f : fs) : fs :=
  fun q => if list_eq_dec Z.eq_dec q p then Some (complete_file ex_lib key [] i) else f q.
Definition cx_fs (i : inst) : fs := cx_put ex_path ex_pfk i (fun _ => None).
Definition cx_read (key : list Z) (f : fs) (p : list rune) : option inst :=
  match f p with
  | None => None
  | Some c => match ex_unseal key c with None => None | Some b => decode ex_lib b end
  end.
(** Options: none, then some. *)
Definition cx_k : kopts :=
  mkK ex_path false 0 None false None None [] false [] false None false false false false false false.
Definition ck_new n := mkK ex_path false n None false None None [] false [] false None false false false false false false.
Definition ck_list := mkK ex_path true 0 None false None None [] false [] false None false false false false true false.
Definition ck_delete ids yes used := mkK ex_path false 0 None true None None [] false ids false None false false false used false yes.
Definition ck_export file yes := mkK ex_path false 0 None false None (Some file) [callVQ] false [] false None false false false false false yes.
Definition ck_import file := mkK ex_path false 0 None false (Some file) None [] false [] true None false false false false false false.
Definition ck_invalid := mkK ex_path true 0 None false None None [] false [] false None true false false false false false.
Definition ck_valid n := mkK ex_path true 0 None false None None [] false [] false (Some n) false false false false false false.
Definition cm_new := mkM ex_path false true false [] [] [] false false false.
Definition cm_list := mkM ex_path true false false [] [] [] false true false.
Definition cm_delete ids yes := mkM ex_path false false true [] [] ids false (negb yes) yes.
Definition cx_keys r g o f := cmd_keys ex_lib uni_id ex_dp cx_ds r g o f [].
Definition cx_messages r g o f := cmd_messages ex_lib uni_id ex_lb ex_dp cx_ds cx_digest r g o f [].
Definition cx_exec := exec ex_lib uni_id ex_lb ex_dp cx_ds cx_digest.
Definition cx_call c := mkCall cx_plain cx_g c.

Lemma cx_plain_path : plain_path ex_path.
Proof. split; [discriminate|]. intros rest H. discriminate. Qed.
Lemma cx_path_of e : path_of ex_lib e ex_path ex_path.
Proof. right. split; [discriminate|]. split; [|reflexivity]. intros rest H. discriminate. Qed.
Lemma cx_stored f p key i : stored ex_lib (cx_put p key i f) p key i.
Proof. exists []. unfold cx_put. destruct (list_eq_dec Z.eq_dec p p); congruence. Qed.
Lemma cx_store_at e f key i : len key = 32 -> no_zero_setting i -> store_at ex_lib e ex_path (cx_put ex_path key i f) ex_path key i.
Proof.
  intros H N. split; [apply cx_path_of|]. split; [apply cx_plain_path|]. split; [exact H|]. split; [exact N|apply cx_stored].
Qed.
Lemma cx_key_given e : key_given ex_lib e cx_g ex_pfk.
Proof.
  exists default_salt. split; [reflexivity|]. split; [|reflexivity]. split; [|vm_compute; reflexivity].
  unfold ex_pfk. apply Forall_forall. intros x H. apply repeat_spec in H. subst. unfold byte. lia.
Qed.
Lemma cx_no_zero : no_zero_setting cx_inst.
Proof. unfold no_zero_setting, cx_inst, ex_inst. cbn. lia. Qed.

(** Deciding [distinct_ids], [messages_ok], [station_ok]. *)
Definition alnumb (c : rune) : bool := ((48 <=? c) && (c <=? 57)) || ((65 <=? c) && (c <=? 90)) || ((97 <=? c) && (c <=? 122)).
Definition station_okb (i : inst) : bool :=
  (0 <? i_groupsize i) && store_okb (i_groupsize i) (i_keys i) && nodupb (List.map mid (i_messages i)) &&
  forallb (fun m => (len (mid m) =? 4) && forallb alnumb (mid m)) (i_messages i).
Lemma station_okb_ok i : station_okb i = true -> station_ok i.
Proof.
  unfold station_okb. rewrite !andb_true_iff. intros (((G & S) & N) & A). split; [lia|]. split; [apply store_okb_ok, S|].
  split; [apply nodupb_ok, N|]. rewrite forallb_forall in A. intros m I. specialize (A m I). apply andb_true_iff in A.
  destruct A as (A1 & A2). split; [lia|]. rewrite forallb_forall in A2. apply Forall_forall. intros c C.
  specialize (A2 c C). unfold alnum, is_letter, digit. unfold alnumb in A2. lia.
Qed.
