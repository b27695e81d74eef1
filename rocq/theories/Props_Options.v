(** Properties C109, C110: the options of New, wiping PFK and salt. *)
From Verif Require Import Base Spec Model_Unicode Model_Crand Model_Types Model_Functions Model_Station Spec_Persist Spec_Cli
  Spec_Options Proofs_Options Examples.

(** ** C109: the last option of each kind decides; the caller's memory is kept. *)
Theorem c109_options : forall U h opts s h', callers_addresses h opts -> new_station U h opts = (s, h') ->
  last_of (fun o n => o = WithGroupSize n) opts 5 (i_groupsize (st_inst s)) /\
  last_of (fun o n => o = WithKeyLength n) opts 350 (i_keylength (st_inst s)) /\
  last_of (fun o n => o = WithColumns n) opts 110 (i_columns (st_inst s)) /\
  last_of (fun o n => o = WithKeyColumns n) opts 30 (i_keycolumns (st_inst s)) /\
  last_of (fun o p => o = WithPersistence p) opts default_persistence (st_path s) /\
  last_of (fun o b => o = WithOverwritePersistenceIfExists b) opts false (st_over s) /\
  last_of (fun o b => o = WithInteractive b) opts false (st_inter s) /\
  last_of (fun o b => o = WithOverwriteExistingKeysOnImport b) opts false (st_overkeys s) /\
  last_of (says_callsign U) opts [] (i_callsign (st_inst s)) /\
  last_of (says_pfk h) opts None (holding h h' (st_pfk s)) /\
  last_of (says_salt h) opts (Some (Own default_salt)) (holding h h' (st_salt s)) /\
  i_keys (st_inst s) = [] /\ i_messages (st_inst s) = [] /\
  exists x, h' = h ++ x.
Proof. exact options_lemma. Qed.
Print Assumptions c109_options.

(** A caller with a 32-byte key at address 0: the second salt is refused, and
    with it the first; the invalid call sign is passed over. *)
Definition eo_mem : mem := [repeat 7 32].
Definition eo_opts : list opt :=
  [WithGroupSize 4; WithSaltString (repeat 97 64); WithCallSign [32; 113; 119; 32]; WithPFK (Some 0%nat);
   WithGroupSize 6; WithCallSign [120]; WithSaltString (repeat 97 62)].
Example c109_case : exists s h', new_station uni_id eo_mem eo_opts = (s, h') /\
  i_groupsize (st_inst s) = 6 /\ i_keylength (st_inst s) = 350 /\ i_callsign (st_inst s) = [81; 87] /\
  holding eo_mem h' (st_pfk s) = Some (Callers 0 (repeat 7 32)) /\ holding eo_mem h' (st_salt s) = None /\
  callers_addresses eo_mem eo_opts /\
  last_of (fun o n => o = WithGroupSize n) eo_opts 5 (i_groupsize (st_inst s)).
Proof.
  do 2 eexists. split; [vm_compute; reflexivity|]. do 5 (split; [vm_compute; reflexivity|]).
  assert (A : callers_addresses eo_mem eo_opts).
  { intros p [I | I]; repeat (destruct I as [I | I]; [try discriminate|]); try solve [destruct I]. injection I as <-. cbn. lia. }
  split; [exact A|]. refine (proj1 (c109_options uni_id eo_mem eo_opts _ _ A _)). vm_compute. reflexivity.
Qed.
(** Without options: the default salt and nothing else. *)
Example c109_defaults : exists s h', new_station uni_id eo_mem [] = (s, h') /\ st_pfk s = None /\
  holding eo_mem h' (st_salt s) = Some (Own default_salt).
Proof. do 2 eexists. split; [vm_compute; reflexivity|]. split; vm_compute; reflexivity. Qed.

(** ** C110: with a working random source, Wipe and Close leave neither PFK nor
    salt, keep all other memory of the caller and use one random byte per byte. *)
Theorem c110_wiped : forall h s t s' h' t', wipe_station h s t = (s', h', t') ->
  (forall q, st_pfk s = Some q -> st_salt s <> Some q) ->
  (length (bytes_at h (st_pfk s)) + length (bytes_at h (st_salt s)) <= length t)%nat ->
  bytes_at h' (st_pfk s) = [] /\ bytes_at h' (st_salt s) = [] /\
  (forall q, st_pfk s <> Some q -> st_salt s <> Some q -> cell h' q = cell h q) /\
  i_keys (st_inst s') = [] /\ i_messages (st_inst s') = [] /\
  exists used, t = used ++ t' /\ length used = (length (bytes_at h (st_pfk s)) + length (bytes_at h (st_salt s)))%nat.
Proof. exact wipe_station_lemma. Qed.
Print Assumptions c110_wiped.
Example c110_case : let '(s, h) := new_station uni_id eo_mem [WithPFK (Some 0%nat)] in
  exists s' h' t', wipe_station h s (repeat 3 70) = (s', h', t') /\
  bytes_at h (st_pfk s) = repeat 7 32 /\ bytes_at h (st_salt s) = default_salt /\
  bytes_at h' (st_pfk s) = [] /\ bytes_at h' (st_salt s) = [] /\ t' = repeat 3 6.
Proof.
  cbv zeta. destruct (new_station uni_id eo_mem [WithPFK (Some 0%nat)]) as [s h] eqn:E.
  vm_compute in E. injection E as <- <-.
  destruct (wipe_station _ _ (repeat 3 70)) as [[s' h'] t'] eqn:W. exists s', h', t'.
  pose proof (c110_wiped _ _ _ _ _ _ W) as C.
  split; [reflexivity|]. split; [vm_compute; reflexivity|]. split; [vm_compute; reflexivity|].
  destruct C as (C1 & C2 & _ & _ & _ & C3).
  - intros q. vm_compute. intros X Y. congruence.
  - vm_compute. repeat constructor.
  - split; [exact C1|]. split; [exact C2|]. vm_compute in W. injection W as <- <- <-. vm_compute. reflexivity.
Qed.
