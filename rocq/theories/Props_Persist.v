(** Properties C31-C35, C37, C40, C62-C68: persistence file key and salt, Save
    and Load, exporting to and importing from a file. *)
From Verif Require Import Base Spec Model_Unicode Model_Crand Model_Functions Model_Types Model_Keys Model_Import
  Model_Station Model_Persist Spec_Persist Proofs_Station Proofs_Persist Examples Examples_Persist.
From Coq Require Import Ascii String.

(** The salt in the model is the one in the code (krypto431.go:43). *)
Example default_salt_is : hex_decode
  (str "d14461856f830fc5a1f9ba1b845fae5f61c54767ded39cf943174e6869b44476"%string) = Some default_salt /\
  default_persistence = str "~/.krypto431.gob"%string.
Proof. split; vm_compute; reflexivity. Qed.

(** ** C40: setting PFK and salt *)
Theorem c40_pfk_accepted : forall h s x, Forall hex_digit x -> len x = 64 ->
  exists s' h', set_pfk_from_string h s x = (Ok tt, s', h') /\
    get_pfk_string h' s' = List.map hex_lower x /\
    s' = set_pfk s (st_pfk s') /\ exists b, h' = h ++ [b].
Proof. exact set_pfk_ok. Qed.
Print Assumptions c40_pfk_accepted.
Theorem c40_pfk_rejected : forall h s x, ~ (Forall hex_digit x /\ len x = 64) ->
  exists err, set_pfk_from_string h s x = (Err err, s, h).
Proof. exact set_pfk_fail. Qed.
Print Assumptions c40_pfk_rejected.
Theorem c40_salt_accepted : forall h s x, Forall hex_digit x -> 64 <= len x -> Z.Even (len x) ->
  exists s' h', set_salt_from_string h s x = (Ok tt, s', h') /\
    get_salt_string h' s' = List.map hex_lower x /\
    s' = set_salt s (st_salt s') /\ exists b, h' = h ++ [b].
Proof. exact set_salt_ok. Qed.
Print Assumptions c40_salt_accepted.
Theorem c40_salt_rejected : forall h s x, ~ (Forall hex_digit x /\ 64 <= len x /\ Z.Even (len x)) ->
  exists err, set_salt_from_string h s x = (Err err, s, h).
Proof. exact set_salt_fail. Qed.
Print Assumptions c40_salt_rejected.
Theorem c40_generated : forall t x t', generate_pfk t = Ok (x, t') \/ generate_salt t = Ok (x, t') ->
  Forall hex_digit x /\ len x = 64 /\ List.map hex_lower x = x.
Proof. exact generated_lemma. Qed.
Print Assumptions c40_generated.
Example c40_nontrivial :
  let x := str "D14461856f830fc5a1f9ba1b845fae5f61c54767ded39cf943174e6869b4447A"%string in
  Forall hex_digit x /\ len x = 64 /\
  (exists s' h', set_pfk_from_string ex_mem ex_station x = (Ok tt, s', h') /\
     get_pfk_string h' s' = str "d14461856f830fc5a1f9ba1b845fae5f61c54767ded39cf943174e6869b4447a"%string) /\
  (exists x' t', generate_pfk (repeat 300 40) = Ok (x', t') /\ x' = List.concat (repeat (str "2c"%string) 32)).
Proof.
  cbv zeta. split. { repeat (apply Forall_cons; [unfold hex_digit; vm_compute; intuition discriminate|]). constructor. }
  split; [reflexivity|]. split; (do 2 eexists; split; vm_compute; reflexivity).
Qed.

(** ** C62: when Save writes, and where *)
Theorem c62_save_writes : forall L e f h s r s' h' xs, save L e f h s = (r, s', h', xs) ->
  (xs <> [] <-> exists p key, file_name L e s p /\ e_stat_err e = false /\ may_write e f s p /\
     file_key L e h s key /\ e_open e = true).
Proof. exact save_writes_lemma. Qed.
Print Assumptions c62_save_writes.
Theorem c62_save_changes_nothing_else : forall L e f h s r s' h' xs, save L e f h s = (r, s', h', xs) ->
  st_inst s' = st_inst s /\ forall q, ~ file_name L e s q -> apply_effects f xs q = f q.
Proof. exact save_else_lemma. Qed.
Print Assumptions c62_save_changes_nothing_else.
Example c62_nontrivial :
  (let '(r, _, _, xs) := save ex_lib ex_env ex_fs ex_mem ex_over in r = Ok tt /\ (1 < List.length xs)%nat) /\
  (let '(r, _, _, xs) := save ex_lib ex_env ex_fs_none ex_mem ex_station in r = Ok tt /\ (1 < List.length xs)%nat).
Proof. vm_compute. repeat split; repeat constructor. Qed.

(** ** C31 *)
Theorem c31_untouched : forall L e f h s r s' h' xs, save L e f h s = (r, s', h', xs) ->
  st_path s = [] \/
  (exists p, file_name L e s p /\ f p <> None /\ st_over s = false /\ ~ confirmed e s) \/
  (forall key, ~ file_key L e h s key) ->
  xs = [].
Proof. exact untouched_lemma. Qed.
Print Assumptions c31_untouched.
Example c31_nontrivial : file_name ex_lib ex_env ex_station ex_path /\ ex_fs ex_path <> None /\
  st_over ex_station = false /\ ~ confirmed ex_env ex_station /\
  fst (fst (fst (save ex_lib ex_env ex_fs ex_mem ex_station))) = Err ErrFileExists.
Proof.
  split. { right. split; [discriminate|]. split; [|reflexivity]. intros rest. discriminate. }
  repeat split; try (vm_compute; congruence). intros (H & _). discriminate.
Qed.
(** A wiped key is no usable key either, but then the file is emptied. *)
Definition ex_wiped : station * mem :=
  let '(s, h, _) := wipe_station ex_mem ex_over (repeat 5 100) in (s, h).
Theorem c31_wiped_key_refuted : exists s' h',
  pfk_bytes (snd ex_wiped) (fst ex_wiped) = [] /\
  save ex_lib ex_env ex_fs (snd ex_wiped) (fst ex_wiped) = (Panic, s', h', [Truncate ex_path]) /\
  ex_fs ex_path = Some ex_file_old /\ apply_effects ex_fs [Truncate ex_path] ex_path = Some [].
Proof. do 2 eexists. split; [vm_compute; reflexivity|]. repeat split; vm_compute; reflexivity. Qed.
Print Assumptions c31_wiped_key_refuted.

(** ** C35 *)
Theorem c35_no_key_partial : forall L e f h s, (forall key, ~ file_key L e h s key) ->
  (forall p, ~ declined e f s p) ->
  exists x s' h', save L e f h s = (Err x, s', h', []).
Proof. exact no_key_lemma. Qed.
Print Assumptions c35_no_key_partial.
Example c35_nontrivial : let s := set_pfk ex_over None in
  (forall key, ~ file_key ex_lib ex_env ex_mem s key) /\ (forall p, ~ declined ex_env ex_fs s p) /\
  fst (fst (fst (save ex_lib ex_env ex_fs ex_mem s))) = Err ErrNilPFK.
Proof.
  cbv zeta. split. { intros key [(p & [=] & _)|(_ & [=] & _)]. }
  split; [|reflexivity]. intros p (_ & [=] & _).
Qed.
(** The export of an instance without PFK has an empty key; saving it over an
    existing file empties that file. *)
Theorem c35_export_refuted : exists n h1 s' h',
  st_pfk (set_pfk ex_station None) = None /\
  export_station uni_id ex_mem (set_pfk ex_station None) (fun _ => true)
    [WithPersistence ex_path; WithOverwritePersistenceIfExists true] = (n, h1) /\
  save ex_lib ex_env ex_fs h1 n = (Panic, s', h', [Truncate ex_path]).
Proof. do 4 eexists. repeat split; vm_compute; reflexivity. Qed.
Print Assumptions c35_export_refuted.

(** ** C34 *)
Theorem c34_complete_partial : forall L e f h s s' h' xs p key,
  save L e f h s = (Ok tt, s', h', xs) ->
  file_name L e s p -> ~ declined e f s p ->
  e_fail e = None \/ (exists i n, e_fail e = Some (i, n) /\ (i < e_early e)%nat) ->
  file_key L e h s key ->
  apply_effects f xs p = Some (complete_file L key (e_nonce e) (st_inst s)).
Proof. exact complete_lemma. Qed.
Print Assumptions c34_complete_partial.
Definition ex_env_full : env := mkEnv None false false None None true [] [10; 30; 5]%nat 2 (Some (2, 1)%nat).
Theorem c34_disk_full_refuted : exists s' h' xs c,
  save ex_lib ex_env_full ex_fs ex_mem ex_over = (Ok tt, s', h', xs) /\
  apply_effects ex_fs xs ex_path = Some c /\
  c <> complete_file ex_lib ex_pfk [] ex_store /\ ex_unseal ex_pfk c <> None /\
  fst (fst (load ex_lib ex_env (apply_effects ex_fs xs) ex_mem new_arrays ex_over)) = Err ErrDecrypt.
Proof.
  do 4 eexists. split; [vm_compute; reflexivity|]. split; [vm_compute; reflexivity|].
  split; [vm_compute; discriminate|]. split; [vm_compute; discriminate|]. vm_compute. reflexivity.
Qed.
Print Assumptions c34_disk_full_refuted.

(** ** C33 *)
Theorem c33_crash_partial : forall L e f h s r s' h' xs n, save L e f h s = (r, s', h', xs) ->
  (forall q, ~ file_name L e s q -> apply_effects f (firstn n xs) q = f q) /\
  (forall p, file_name L e s p ->
    apply_effects f (firstn n xs) p = f p \/
    exists c, apply_effects f (firstn n xs) p = Some c /\
      (c = [] \/ exists key rest, file_key L e h s key /\ c ++ rest = complete_file L key (e_nonce e) (st_inst s))).
Proof. exact crash_lemma. Qed.
Print Assumptions c33_crash_partial.
Theorem c33_crash_refuted : exists s' h' xs n,
  save ex_lib ex_env ex_fs ex_mem ex_over = (Ok tt, s', h', xs) /\ (n < List.length xs)%nat /\
  apply_effects ex_fs (firstn n xs) ex_path = Some [] /\ ex_fs ex_path = Some ex_file_old /\
  fst (fst (load ex_lib ex_env (apply_effects ex_fs (firstn n xs)) ex_mem new_arrays ex_over)) = Err ErrDecrypt.
Proof.
  do 3 eexists. exists 1%nat. split; [vm_compute; reflexivity|].
  split; [repeat constructor|]. repeat split; vm_compute; reflexivity.
Qed.
Print Assumptions c33_crash_refuted.

(** ** C32 *)
Theorem c32_restore_partial : forall L, lib_ok L -> forall U e f h s s' h' xs p key,
  save L e f h s = (Ok tt, s', h', xs) -> file_name L e s p -> ~ declined e f s p -> e_fail e = None ->
  file_key L e h s key ->
  forall opts e2 h1 n h2 key2, new_station U h1 opts = (n, h2) -> file_name L e2 n p ->
  e_stat_err e2 = false -> e_open e2 = true -> file_key L e2 h2 n key2 ->
  (key2 = key -> no_zero_setting (st_inst s) -> i_callsign (st_inst s) <> [] \/ i_callsign (st_inst n) = [] ->
   exists n' h3, load L e2 (apply_effects f xs) h2 new_arrays n = (Ok tt, n', h3) /\ st_inst n' = st_inst s) /\
  (len key = 32 -> len key2 = 32 -> key2 <> key ->
   exists x n' h3, load L e2 (apply_effects f xs) h2 new_arrays n = (Err x, n', h3) /\ st_inst n' = st_inst n).
Proof. exact restore_lemma. Qed.
Print Assumptions c32_restore_partial.
Definition ex_pfk_hex : list rune := Eval compute in hex_encode ex_pfk.
Definition ex_opts (pfk : list rune) : list opt := [WithPersistence ex_path; WithPFKString pfk; WithCallSign (str "zz"%string)].
Example c32_nontrivial :
  let '(r, _, _, xs) := save ex_lib ex_env ex_fs ex_mem ex_over in
  let (n, h) := new_station uni_id ex_mem (ex_opts ex_pfk_hex) in
  let (n2, h2) := new_station uni_id ex_mem (ex_opts (repeat 48 64)) in
  r = Ok tt /\ no_zero_setting (st_inst ex_over) /\ i_callsign (st_inst ex_over) <> [] /\
  (let '(r', n', _) := load ex_lib ex_env (apply_effects ex_fs xs) h new_arrays n in
   r' = Ok tt /\ st_inst n' = ex_store) /\
  fst (fst (load ex_lib ex_env (apply_effects ex_fs xs) h2 new_arrays n2)) = Err ErrDecrypt.
Proof. vm_compute. repeat split; discriminate. Qed.
(** A setting that is zero comes back as the default. *)
Theorem c32_zero_setting_refuted : exists s s' h' xs n h2 n' h3,
  save ex_lib ex_env ex_fs ex_mem s = (Ok tt, s', h', xs) /\ e_fail ex_env = None /\
  new_station uni_id ex_mem [WithPersistence ex_path; WithPFKString ex_pfk_hex] = (n, h2) /\
  load ex_lib ex_env (apply_effects ex_fs xs) h2 new_arrays n = (Ok tt, n', h3) /\
  i_keylength (st_inst s) = 0 /\ i_keylength (st_inst n') = 350.
Proof.
  exists (set_inst ex_over (mkInst 5 0 110 80 ex_keys [] callOS)). do 7 eexists.
  split; [vm_compute; reflexivity|]. split; [reflexivity|]. split; [vm_compute; reflexivity|].
  split; [vm_compute; reflexivity|]. split; reflexivity.
Qed.
Print Assumptions c32_zero_setting_refuted.

(** ** C63 *)
Theorem c63_failed_load : forall L e f h a s r s' h', load L e f h a s = (r, s', h') -> r <> Ok tt ->
  st_inst s' = st_inst s.
Proof. exact load_fails. Qed.
Print Assumptions c63_failed_load.
Example c63_nontrivial : fst (fst (load ex_lib ex_env ex_fs ex_mem new_arrays ex_station)) = Err ErrDecrypt /\
  fst (fst (load ex_lib ex_env ex_fs_none ex_mem new_arrays ex_station)) = Err ErrFileMissing.
Proof. split; vm_compute; reflexivity. Qed.

(** ** C64: the key derived from a mistyped password stays in the instance. *)
Definition ex_asking (pwd : list Z) : env := mkEnv None false true None (Some pwd) true [] [] 0 None.
Theorem c64_retry_refuted : exists s0 right wrong s1 h1 xs n1 h2,
  (* saved with the right password *)
  save ex_lib (ex_asking right) ex_fs ex_mem s0 = (Ok tt, s1, h1, xs) /\ st_pfk s0 = None /\
  (* a fresh instance loads it with the right password *)
  fst (fst (load ex_lib (ex_asking right) (apply_effects ex_fs xs) ex_mem new_arrays s0)) = Ok tt /\
  (* but not after one wrong attempt *)
  load ex_lib (ex_asking wrong) (apply_effects ex_fs xs) ex_mem new_arrays s0 = (Err ErrDecrypt, n1, h2) /\
  fst (fst (load ex_lib (ex_asking right) (apply_effects ex_fs xs) h2 new_arrays n1)) = Err ErrDecrypt.
Proof.
  exists (mkSt ex_path None (Some 1%nat) true true false ex_store), [1; 2; 3], [1; 2; 4]. do 5 eexists.
  split; [vm_compute; reflexivity|]. split; [reflexivity|]. split; [vm_compute; reflexivity|].
  split; vm_compute; reflexivity.
Qed.
Print Assumptions c64_retry_refuted.

(** ** C65 *)
Theorem c65_reload : forall L, lib_ok L -> forall e f h s s' h' xs p,
  save L e f h s = (Ok tt, s', h', xs) -> file_name L e s p -> ~ declined e f s p -> e_fail e = None ->
  forall e2 a, file_name L e2 s' p -> e_stat_err e2 = false -> e_open e2 = true ->
  exists s2 h2, load L e2 (apply_effects f xs) h' a s' = (Ok tt, s2, h2) /\ st_inst s2 = st_inst s.
Proof. exact reload_lemma. Qed.
Print Assumptions c65_reload.
Example c65_nontrivial :
  let '(r, s', h', xs) := save ex_lib ex_env ex_fs ex_mem ex_over in
  r = Ok tt /\ fst (fst (load ex_lib ex_env (apply_effects ex_fs xs) h' new_arrays s')) = Ok tt.
Proof. vm_compute. split; reflexivity. Qed.

(** ** C66: loading into an instance that has keys mixes flags: a key that is
    unused in the file is used afterwards because another key stood in its place. *)
Theorem c66_stale_flags_refuted : exists s1 h1 xs mine s2 h2 k k',
  save ex_lib ex_env ex_fs ex_mem ex_over = (Ok tt, s1, h1, xs) /\
  load ex_lib ex_env (apply_effects ex_fs xs) ex_mem new_arrays mine = (Ok tt, s2, h2) /\
  nth_error (i_keys (st_inst ex_over)) 1 = Some k /\ nth_error (i_keys (st_inst s2)) 1 = Some k' /\
  kid k' = kid k /\ kused k = false /\ kused k' = true /\
  (forall x, In x (i_keys (st_inst mine)) -> kid x <> kid k).
Proof.
  do 3 eexists.
  exists (set_inst ex_station (mkInst 5 40 110 80 [ex_key [69; 67; 72; 79; 88] 4 5 []; set_used (ex_key [70; 79; 88; 88; 88] 4 5 []) true] [] callOS)).
  do 4 eexists. split; [vm_compute; reflexivity|]. split; [vm_compute; reflexivity|].
  split; [vm_compute; reflexivity|]. split; [vm_compute; reflexivity|]. repeat split.
  cbn [In i_keys st_inst set_inst]. intros x [<-|[<-|[]]]; discriminate.
Qed.
Print Assumptions c66_stale_flags_refuted.

(** ** C67 *)
Theorem c67_import_keeps_pfk : forall L U e f h s flt opts answers t r cnt s' h',
  import_station L U e f h s flt opts answers t = (r, cnt, s', h') ->
  (forall q, st_pfk s = Some q \/ st_salt s = Some q ->
     (q < List.length h)%nat /\ ~ In (WithPFK (Some q)) opts /\ ~ In (WithSalt (Some q)) opts) ->
  get_pfk_string h' s' = get_pfk_string h s /\ get_salt_string h' s' = get_salt_string h s.
Proof. exact import_keeps_pfk. Qed.
Print Assumptions c67_import_keeps_pfk.
Theorem c67_import_frame : forall L U e f h s flt opts answers t r cnt s' h',
  import_station L U e f h s flt opts answers t = (r, cnt, s', h') ->
  st_pfk s' = st_pfk s /\ st_salt s' = st_salt s /\ st_path s' = st_path s /\ st_over s' = st_over s /\
  i_messages (st_inst s') = i_messages (st_inst s) /\ i_callsign (st_inst s') = i_callsign (st_inst s).
Proof. exact import_frame. Qed.
Print Assumptions c67_import_frame.

(** ** C37: with the documented options the PFK is gone afterwards, and the next
    Save empties the station's own file. *)
Definition ex_fs_import : fs :=
  apply_effects ex_fs (snd (save ex_lib ex_env ex_fs_none ex_mem (set_path ex_over [47; 120]))).
Definition ex_import (opts : list opt) :=
  import_station ex_lib uni_id ex_env ex_fs_import ex_mem
    (set_inst ex_over (mkInst 5 40 110 80 [] [] callVQ)) (fun _ => true) (WithPersistence [47; 120] :: opts) []
    (repeat 5 200).
Theorem c37_documented_call_refuted : exists s' h' s2 h2,
  ex_import [WithPFK (st_pfk ex_over); WithSalt (st_salt ex_over)] = (Ok tt, 4, s', h') /\
  get_pfk_string ex_mem ex_over = ex_pfk_hex /\ get_pfk_string h' s' = [] /\ get_salt_string h' s' = [] /\
  save ex_lib ex_env ex_fs_import h' s' = (Panic, s2, h2, [Truncate ex_path]).
Proof. do 4 eexists. split; [vm_compute; reflexivity|]. repeat split; vm_compute; reflexivity. Qed.
Print Assumptions c37_documented_call_refuted.
Example c67_nontrivial : exists s' h',
  ex_import [WithPFKString ex_pfk_hex] = (Ok tt, 4, s', h') /\ get_pfk_string h' s' = ex_pfk_hex /\
  List.length (i_keys (st_inst s')) = 4%nat.
Proof. do 2 eexists. split; [vm_compute; reflexivity|]. split; vm_compute; reflexivity. Qed.

(** ** C68: handing over keys: export, save, import. *)
Theorem c68_export : forall U h s flt opts n h1, export_station U h s flt opts = (n, h1) ->
  i_keys (st_inst n) = filter flt (i_keys (st_inst s)) /\ i_messages (st_inst n) = [] /\
  (exists l, h1 = h ++ l) /\
  (opts = [] ->
     i_groupsize (st_inst n) = i_groupsize (st_inst s) /\ i_keylength (st_inst n) = i_keylength (st_inst s) /\
     i_columns (st_inst n) = i_columns (st_inst s) /\ i_keycolumns (st_inst n) = i_keycolumns (st_inst s) /\
     i_callsign (st_inst n) = i_callsign (st_inst s) /\ st_path n = [] /\
     get_pfk_string h1 n = get_pfk_string h s /\ get_salt_string h1 n = get_salt_string h s /\
     (forall p, st_pfk n = Some p \/ st_salt n = Some p -> (List.length h <= p)%nat)).
Proof. exact export_lemma. Qed.
Print Assumptions c68_export.
Theorem c68_handover : forall L, lib_ok L -> forall U e f h s flt opts n h1 n' h2 xs p key,
  export_station U h s flt opts = (n, h1) ->
  save L e f h1 n = (Ok tt, n', h2, xs) -> file_name L e n p -> ~ declined e f n p -> e_fail e = None ->
  file_key L e h1 n key -> no_zero_setting (st_inst n) ->
  forall r flt2 opts2 answers t e2 h3 inc h4, new_station U h3 opts2 = (inc, h4) -> file_name L e2 inc p ->
  e_stat_err e2 = false -> e_open e2 = true -> file_key L e2 h4 inc key ->
  i_callsign (st_inst n) <> [] \/ i_callsign (st_inst inc) = [] ->
  exists sent i' cnt x h5,
    i_keys sent = filter flt (i_keys (st_inst s)) /\ i_callsign sent = i_callsign (st_inst n) /\
    import_keys U (st_inst r) (st_overkeys r) (st_inter r && e_term e2) flt2 sent answers = (i', cnt, x) /\
    import_station L U e2 (apply_effects f xs) h3 r flt2 opts2 answers t =
      (match x with None => Ok tt | Some err => Err err end, cnt, set_inst r i', h5).
Proof. exact handover_lemma. Qed.
Print Assumptions c68_handover.
Example c68_nontrivial :
  let (n, h1) := export_station uni_id ex_mem ex_station (fun k => negb (len (kkeepers k) =? 0)) [WithPersistence [47; 120]] in
  let '(r, _, _, xs) := save ex_lib ex_env ex_fs h1 n in
  let '(r2, cnt, s', _) := import_station ex_lib uni_id ex_env (apply_effects ex_fs xs) ex_mem
    (set_inst ex_over (mkInst 5 40 110 80 [] [] callVQ)) (fun _ => true)
    [WithPersistence [47; 120]; WithPFKString ex_pfk_hex] [] [] in
  r = Ok tt /\ no_zero_setting (st_inst n) /\ r2 = Ok tt /\ cnt = 3 /\
  List.map kid (i_keys (st_inst s')) = [idA; idB; idC] /\
  List.map kkeepers (i_keys (st_inst s')) = [[callOS]; [callOS]; [callOS]].
Proof. vm_compute. repeat split; discriminate. Qed.
