(** Properties C12, C38, C39, C47, C69-C71: keys and messages that share memory.
    [reach U lb dp i0 ops t = (h, i, t1)]: the operations [ops] lead from the
    file contents [i0] to memory [h] and instance [i]; [keys_of h i],
    [messages_of h i], [inst_of h i] are what the instance then contains. *)
From Verif Require Import Base Spec Model_Unicode Model_Crand Model_Functions Model_Types Model_Cipher
  Model_Keys Model_Import Model_Messages Model_Station Model_Heap Spec_Heap Proofs_Heap Proofs_HeapProps
  Examples Props_Messages Examples_Persist.
From Coq Require Import Ascii String.

Ltac vms := lazymatch goal with
  | |- _ /\ _ => split; [vm_compute; reflexivity|vms]
  | |- _ => vm_compute; reflexivity
  end.

Definition ex_long_tape : tape := ex_tape ++ repeat 7 600.
Definition ex_reach (ops : list hop) := reach uni_id ex_lb ex_dp (ex_inst ex_keys) ops ex_long_tape.
Definition ex_step (op : hop) := hstep uni_id ex_lb ex_dp op.
(** One outgoing radiogram, enciphered with a key chosen by Encipher. *)
Definition ex_sent := ex_reach [HNewText [rg_out] 7].
(** Two keys received from another station. *)
Definition ex_received_keys := ex_reach
  [HImport false false (fun _ => true) (mkInst 5 40 110 80
     [ex_key (str "EEEEE"%string) 3 40 [callOS]; ex_key (str "FFFFF"%string) 5 40 [callOS]] [] callVQ) []].
(** A text that needs more keys than there are. *)
Definition rg_too_long := str "VQ DE OS = "%string ++ repeat 65 200 ++ str " = K"%string.

(** ** C12: a failing Encipher destroys the ID of the key it had chosen. *)
Theorem c12_key_id_refuted : exists h i t1 h' i' e t', ex_reach [] = (h, i, t1) /\
  hnew_text uni_id ex_lb ex_dp h i [rg_too_long] 7 t1 = (h', i', Err e, t') /\
  get_key uni_id idA (keys_of h i) = Some 0%nat /\ get_key uni_id idA (keys_of h' i') = None /\
  List.map kused (keys_of h' i') = List.map kused (keys_of h i).
Proof. do 7 eexists. vms. Qed.
Print Assumptions c12_key_id_refuted.

(** A failing or panicking NewTextMessage (for radiograms to others: a failing
    Encipher) changes nothing in the store except IDs of keys. *)
Theorem c12_failed_new_text_partial : forall U lb dp i0 ops t h i t1 args now h' i' r t', uni_ok U ->
  reach U lb dp i0 ops t = (h, i, t1) ->
  0 < hi_groupsize i -> store_ok (hi_groupsize i) (keys_of h i) ->
  hnew_text U lb dp h i args now t1 = (h', i', r, t') -> r <> Ok tt ->
  Forall2 same_but_id (keys_of h i) (keys_of h' i') /\
  Forall2 same_but_keyid (messages_of h i) (messages_of h' i').
Proof. exact step_failed_text. Qed.
Print Assumptions c12_failed_new_text_partial.
Example c12_failed_new_text_nontrivial : exists h i t1 h' i' e t', ex_sent = (h, i, t1) /\
  (0 < hi_groupsize i /\ store_ok (hi_groupsize i) (keys_of h i)) /\
  hnew_text uni_id ex_lb ex_dp h i [rg_too_long] 7 t1 = (h', i', Err e, t').
Proof.
  do 7 eexists. split; [vm_compute; reflexivity|]. split; [|vm_compute; reflexivity].
  split; [vm_compute; reflexivity|]. apply store_okb_ok. vm_compute. reflexivity.
Qed.

(** ** C38: wiping an exported instance destroys the keys of the source. *)
Theorem c38_wipe_export_refuted : exists h i t1 h1 e h2 e2 t2, ex_reach [] = (h, i, t1) /\
  hexport h i (fun _ => true) = (h1, e) /\ wipe_inst h1 e t1 = (h2, e2, t2) /\
  keys_of h i = ex_keys /\
  List.map (fun k => get_key uni_id k (keys_of h2 i)) [idA; idB; idC; idD] = [None; None; None; None] /\
  List.map krunes (keys_of h2 i) <> List.map krunes ex_keys.
Proof.
  do 8 eexists. split; [vm_compute; reflexivity|]. split; [vm_compute; reflexivity|].
  split; [vm_compute; reflexivity|]. split; [vm_compute; reflexivity|]. split; [vm_compute; reflexivity|].
  vm_compute. discriminate.
Qed.
Print Assumptions c38_wipe_export_refuted.

(** The contents of the export, and exporting alone changes nothing. *)
Theorem c38_export_partial : forall U lb dp i0 ops t h i t1 f h' e,
  reach U lb dp i0 ops t = (h, i, t1) -> hexport h i f = (h', e) ->
  keys_of h' e = filter f (keys_of h i) /\ messages_of h' e = [] /\
  rd h' (hi_callsign e) = rd h (hi_callsign i) /\
  hi_groupsize e = hi_groupsize i /\ hi_keylength e = hi_keylength i /\
  hi_columns e = hi_columns i /\ hi_keycolumns e = hi_keycolumns i /\
  inst_of h' i = inst_of h i.
Proof. exact export_contents_fields. Qed.
Print Assumptions c38_export_partial.
Example c38_export_nontrivial : exists h i t1 h' e, ex_sent = (h, i, t1) /\
  hexport h i (fun k => negb (kused k)) = (h', e) /\ List.map kid (keys_of h' e) = [idB; idC; idD].
Proof. do 5 eexists. split; [vm_compute; reflexivity|]. split; vm_compute; reflexivity. Qed.

(** ** C39: deleting a message destroys the ID of the key it was enciphered with;
    deleting that key destroys the key ID in the message; deleting one imported
    key destroys the keeper of the others. *)
Theorem c39_delete_message_refuted : exists h i t1 ids h' i' t', ex_sent = (h, i, t1) /\
  ids = List.map mid (messages_of h i) /\
  ex_step (HDeleteMessage ids) h i t1 = (h', i', t') /\
  get_key uni_id idA (keys_of h i) = Some 0%nat /\ get_key uni_id idA (keys_of h' i') = None.
Proof. do 7 eexists. vms. Qed.
Print Assumptions c39_delete_message_refuted.
Theorem c39_delete_key_refuted : exists h i t1 h' i' t', ex_sent = (h, i, t1) /\
  ex_step (HDeleteKey [idA]) h i t1 = (h', i', t') /\
  List.map mkeyid (messages_of h i) = [idA] /\ List.map mkeyid (messages_of h' i') <> [idA].
Proof.
  do 6 eexists. split; [vm_compute; reflexivity|]. split; [vm_compute; reflexivity|].
  split; [vm_compute; reflexivity|]. vm_compute. discriminate.
Qed.
Print Assumptions c39_delete_key_refuted.
Theorem c39_imported_keys_refuted : exists h i t1 h' i' t' k k', ex_received_keys = (h, i, t1) /\
  ex_step (HDeleteKey [str "EEEEE"%string]) h i t1 = (h', i', t') /\
  In k (keys_of h i) /\ kid k = str "FFFFF"%string /\ kkeepers k = [callVQ] /\
  In k' (keys_of h' i') /\ kid k' = str "FFFFF"%string /\ kkeepers k' <> [callVQ].
Proof.
  do 6 eexists. do 2 eexists. split; [vm_compute; reflexivity|]. split; [vm_compute; reflexivity|].
  split; [vm_compute; do 5 right; left; reflexivity|]. split; [reflexivity|]. split; [reflexivity|].
  split; [vm_compute; do 4 right; left; reflexivity|]. split; [reflexivity|]. vm_compute. discriminate.
Qed.
Print Assumptions c39_imported_keys_refuted.

(** ** C47: what is in memory and in the result after wiping does not depend on
    what the wiped slices held, also if the random source fails. *)
Theorem c47_key : forall h h' k t, differ_in (key_slices h k) h h' -> wipe_key h k t = wipe_key h' k t.
Proof. exact wipe_key_forgets. Qed.
Print Assumptions c47_key.
Theorem c47_message : forall h h' m t, differ_in (msg_secrets m) h h' -> wipe_msg h m t = wipe_msg h' m t.
Proof. exact wipe_msg_forgets. Qed.
Print Assumptions c47_message.
Theorem c47_instance : forall h h' i t,
  differ_in (flat_map (key_slices h) (hi_keys i) ++ flat_map msg_secrets (hi_messages i)) h h' ->
  wipe_inst h i t = wipe_inst h' i t.
Proof. exact wipe_inst_forgets. Qed.
Print Assumptions c47_instance.
(** Wipe(b) needs the random source. *)
Theorem c47_slice_partial : forall h h' s t, (List.length (rd h s) <= List.length t)%nat ->
  differ_in [s] h h' -> wipe1 h s t = wipe1 h' s t.
Proof. exact wipe_slice_forgets. Qed.
Print Assumptions c47_slice_partial.
(** Two memories with different key letters and texts and a failing random source. *)
Definition ex_other (h : heap) : heap := mkHeap (List.map (List.map (fun r => r + 1)) (h_runes h)) (h_outer h).
Example c47_nontrivial : exists h i t1 m k, ex_sent = (h, i, t1) /\ In m (hi_messages i) /\ In k (hi_keys i) /\
  let h' := wr h (hk_runes k) (rd (ex_other h) (hk_runes k)) in
  rd h' (hk_runes k) <> rd h (hk_runes k) /\ wipe_key h k [] = wipe_key h' k [] /\
  let h'' := wr h (hm_plain m) (rd (ex_other h) (hm_plain m)) in
  rd h'' (hm_plain m) <> rd h (hm_plain m) /\ wipe_msg h m [] = wipe_msg h'' m [].
Proof.
  do 5 eexists. split; [vm_compute; reflexivity|]. split; [left; reflexivity|].
  split; [left; reflexivity|]. cbv zeta.
  split; [vm_compute; discriminate|]. split; [vm_compute; reflexivity|].
  split; [vm_compute; discriminate|]. vm_compute; reflexivity.
Qed.

(** Message.Wipe leaves the radiogram, which contains the plaintext. *)
Theorem c47_radiogram_refuted : exists h i t1 m h' m' t', ex_sent = (h, i, t1) /\
  In m (hi_messages i) /\ wipe_msg h m t1 = (h', m', t') /\
  mplain (msg_of h m) = str "MOVE AT DAWN"%string /\ mradiogram (msg_of h' m') = rg_out.
Proof.
  do 7 eexists. split; [vm_compute; reflexivity|]. split; [left; reflexivity|].
  split; [vm_compute; reflexivity|]. split; vm_compute; reflexivity.
Qed.
Print Assumptions c47_radiogram_refuted.
(** Wipe(b) with a failing random source leaves the text. *)
Theorem c47_random_source_refuted : forall h s, wipe1 h s [] = (h, match rd h s with [] => None | _ => s end, []).
Proof. exact wipe1_fails. Qed.
Print Assumptions c47_random_source_refuted.
(** Krypto431.Wipe with a failing random source leaves the PFK. *)
Theorem c47_pfk_refuted : exists s' h' t', wipe_station ex_mem ex_station [] = (s', h', t') /\
  get_pfk_string h' s' = get_pfk_string ex_mem ex_station /\ get_pfk_string h' s' <> [].
Proof. do 3 eexists. split; [vm_compute; reflexivity|]. split; [vm_compute; reflexivity|]. vm_compute. discriminate. Qed.
Print Assumptions c47_pfk_refuted.

(** ** C69: after any history, an operation on shared memory changes of the other
    items at most the fields that share memory: IDs of keys, key IDs of
    messages, keepers of keys. *)
Theorem c69_delete_key : forall U lb dp i0 ops t h i t1 ids h' i' t', reach U lb dp i0 ops t = (h, i, t1) ->
  hstep U lb dp (HDeleteKey ids) h i t1 = (h', i', t') ->
  Forall2 same_but_keepers (fst (delete_key U (keys_of h i) ids)) (keys_of h' i') /\
  Forall2 same_but_keyid (messages_of h i) (messages_of h' i') /\
  rd h' (hi_callsign i') = rd h (hi_callsign i).
Proof. exact step_delete_key. Qed.
Print Assumptions c69_delete_key.
Theorem c69_delete_message : forall U lb dp i0 ops t h i t1 ids h' i' t', reach U lb dp i0 ops t = (h, i, t1) ->
  hstep U lb dp (HDeleteMessage ids) h i t1 = (h', i', t') ->
  Forall2 same_but_keyid (fst (delete_message (messages_of h i) ids)) (messages_of h' i') /\
  Forall2 same_but_id (keys_of h i) (keys_of h' i') /\
  rd h' (hi_callsign i') = rd h (hi_callsign i).
Proof. exact step_delete_message. Qed.
Print Assumptions c69_delete_message.
Theorem c69_import : forall U lb dp i0 ops t h i t1 overwrite ask filter incoming answers h' i' t',
  reach U lb dp i0 ops t = (h, i, t1) ->
  hstep U lb dp (HImport overwrite ask filter incoming answers) h i t1 = (h', i', t') ->
  let iv := fst (fst (import_keys U (inst_of h i) overwrite ask filter incoming answers)) in
  Forall2 same_but_keepers (i_keys iv) (keys_of h' i') /\
  Forall2 same_but_keyid (messages_of h i) (messages_of h' i').
Proof. exact step_import_keys. Qed.
Print Assumptions c69_import.
Example c69_nontrivial : exists h i t1 h' i' t', ex_reach
  [HNewText [rg_out] 7; HNewText [rg_out] 8;
   HImport false false (fun _ => true) (mkInst 5 40 110 80 [ex_key (str "EEEEE"%string) 3 40 [callOS];
     ex_key (str "FFFFF"%string) 5 40 [callOS]] [] callVQ) []; HDeleteMessage [mid1]] = (h, i, t1) /\
  ex_step (HDeleteKey [idA; str "EEEEE"%string]) h i t1 = (h', i', t') /\
  (List.length (keys_of h i) = 6%nat /\ List.length (keys_of h' i') = 4%nat) /\
  List.length (messages_of h i) = 2%nat /\ messages_of h' i' <> messages_of h i.
Proof.
  do 6 eexists. split; [vm_compute; reflexivity|]. split; [vm_compute; reflexivity|].
  split; [vms|]. split; [vm_compute; reflexivity|]. vm_compute. discriminate.
Qed.

(** ** C70: after any history these operations do on shared memory exactly what
    they do on values, so that the theorems about [new_text_message], [new_key],
    [mark_key_used] and [import_keys] hold for instances that share memory. *)
Theorem c70_new_text : forall U lb dp i0 ops t h i t1 args now h' i' r t',
  reach U lb dp i0 ops t = (h, i, t1) ->
  hnew_text U lb dp h i args now t1 = (h', i', r, t') ->
  (r = Ok tt -> inst_of h' i' = fst (new_text_message U lb dp (inst_of h i) args now t1)) /\
  r = match snd (new_text_message U lb dp (inst_of h i) args now t1) with
      | Ok _ => Ok tt | Err e => Err e | Panic => Panic | Diverge => Diverge
      end.
Proof. exact step_text_result. Qed.
Print Assumptions c70_new_text.
Theorem c70_new_key : forall U lb dp i0 ops t h i t1 now expire keepers iv k tv,
  reach U lb dp i0 ops t = (h, i, t1) ->
  new_key U (inst_of h i) now expire keepers t1 = Ok (iv, k, tv) ->
  exists h' i', hstep U lb dp (HNewKey now expire keepers) h i t1 = (h', i', tv) /\ inst_of h' i' = iv.
Proof. exact step_new_key. Qed.
Print Assumptions c70_new_key.
Theorem c70_mark_key_used : forall U lb dp h i t id used h' i' t',
  hstep U lb dp (HMarkKeyUsed id used) h i t = (h', i', t') ->
  h' = h /\ t' = t /\ inst_of h' i' = set_keys (inst_of h i) (fst (mark_key_used U id used (keys_of h i))).
Proof. exact step_mark. Qed.
Print Assumptions c70_mark_key_used.
Theorem c70_import : forall U lb dp i0 ops t h i t1 filter incoming answers h' i' t',
  reach U lb dp i0 ops t = (h, i, t1) ->
  hstep U lb dp (HImport false false filter incoming answers) h i t1 = (h', i', t') ->
  inst_of h' i' = fst (fst (import_keys U (inst_of h i) false false filter incoming answers)).
Proof. exact step_import_exact. Qed.
Print Assumptions c70_import.
Example c70_nontrivial : exists h i t1 h' i' t' iv k tv, ex_sent = (h, i, t1) /\
  hnew_text uni_id ex_lb ex_dp h i [rg_out] 9 t1 = (h', i', Ok tt, t') /\
  List.map kused (keys_of h' i') = [true; true; false; false] /\
  new_key uni_id (inst_of h i) 5 0 [callVQ] t1 = Ok (iv, k, tv).
Proof.
  do 9 eexists. split; [vm_compute; reflexivity|]. split; [vm_compute; reflexivity|].
  split; vm_compute; reflexivity.
Qed.

(** ** C71: what deleting changes when less is shared. As long as nothing was
    imported since the file was read, DeleteKey leaves the other keys exactly as
    they were; right after reading the file, DeleteKey and DeleteMessage change
    nothing else at all. *)
Theorem c71_delete_key : forall U lb dp i0 ops t h i t1 ids h' i' t', Forall no_import ops ->
  reach U lb dp i0 ops t = (h, i, t1) ->
  hstep U lb dp (HDeleteKey ids) h i t1 = (h', i', t') ->
  keys_of h' i' = fst (delete_key U (keys_of h i) ids).
Proof. exact step_delete_key_exact. Qed.
Print Assumptions c71_delete_key.
Theorem c71_after_load : forall U lb dp i0 t h i, loaded i0 = (h, i) ->
  (forall ids h' i' t', hstep U lb dp (HDeleteKey ids) h i t = (h', i', t') ->
     inst_of h' i' = set_keys i0 (fst (delete_key U (i_keys i0) ids))) /\
  (forall ids h' i' t', hstep U lb dp (HDeleteMessage ids) h i t = (h', i', t') ->
     inst_of h' i' = set_messages i0 (fst (delete_message (i_messages i0) ids))).
Proof. exact after_load. Qed.
Print Assumptions c71_after_load.
Example c71_nontrivial : exists h i t1 h' i' t', ex_sent = (h, i, t1) /\
  ex_step (HDeleteKey [idB]) h i t1 = (h', i', t') /\ List.map kid (keys_of h' i') = [idA; idD; idC] /\
  exists h2 i2 h3 i3 t3, loaded (inst_of h i) = (h2, i2) /\
    ex_step (HDeleteMessage (List.map mid (messages_of h i))) h2 i2 t1 = (h3, i3, t3) /\
    List.map kid (keys_of h3 i3) = [idA; idB; idC; idD] /\ messages_of h3 i3 = [].
Proof.
  do 6 eexists. split; [vm_compute; reflexivity|]. split; [vm_compute; reflexivity|].
  split; [vm_compute; reflexivity|]. do 5 eexists. split; [vm_compute; reflexivity|].
  split; [vm_compute; reflexivity|]. split; vm_compute; reflexivity.
Qed.
