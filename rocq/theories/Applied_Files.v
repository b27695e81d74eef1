(** Theorems on files and on shared memory applied to concrete stations:
    every hypothesis is met. *)
From Verif Require Import Base Spec Model_Unicode Model_Crand Model_Functions Model_Types Model_Cipher Model_Keys Model_Import
  Model_Messages Model_Station Model_Persist Model_Heap Spec_Keys Spec_Messages Spec_Persist Spec_Heap Examples Examples_Persist
  Props_Cipher Props_Keys Props_Messages Props_Persist Props_Heap.

Lemma fl_name : forall (e : env) s, st_path s = ex_path -> file_name ex_lib e s ex_path.
Proof. intros e s E. right. rewrite E. split; [discriminate|]. split; [intros rest X; discriminate X|reflexivity]. Qed.

(** ** Files *)
Example c65_applied : exists s' h' xs s2 h2, save ex_lib ex_env ex_fs ex_mem ex_over = (Ok tt, s', h', xs) /\
  load ex_lib ex_env (apply_effects ex_fs xs) h' new_arrays s' = (Ok tt, s2, h2) /\ st_inst s2 = Examples_Persist.ex_store.
Proof.
  assert (Q : exists s' h' xs, save ex_lib ex_env ex_fs ex_mem ex_over = (Ok tt, s', h', xs) /\ st_path s' = ex_path).
  { do 3 eexists. split; [vm_compute; reflexivity|reflexivity]. }
  destruct Q as (s' & h' & xs & E & P).
  destruct (c65_reload ex_lib ex_lib_ok ex_env ex_fs ex_mem ex_over s' h' xs ex_path E (fl_name ex_env ex_over eq_refl)
    ltac:(intros (_ & X & _); discriminate X) eq_refl ex_env new_arrays (fl_name _ _ P) eq_refl eq_refl) as (s2 & h2 & A & B).
  exists s', h', xs, s2, h2. split; [exact E|]. split; [exact A|exact B].
Qed.
Example c63_applied : exists s' h', load ex_lib ex_env ex_fs ex_mem new_arrays ex_station = (Err ErrDecrypt, s', h') /\
  st_inst s' = Examples_Persist.ex_store.
Proof.
  assert (Q : exists s' h', load ex_lib ex_env ex_fs ex_mem new_arrays ex_station = (Err ErrDecrypt, s', h'))
    by (do 2 eexists; vm_compute; reflexivity).
  destruct Q as (s' & h' & E). exists s', h'. split; [exact E|].
  exact (c63_failed_load ex_lib ex_env ex_fs ex_mem new_arrays ex_station _ s' h' E ltac:(intros X; discriminate X)).
Qed.
Example c35_applied : exists x s' h', save ex_lib ex_env ex_fs ex_mem (set_pfk ex_over None) = (Err x, s', h', []).
Proof.
  apply c35_no_key_partial.
  - intros key [(p & [=] & _)|(_ & [=] & _)].
  - intros p (_ & [=] & _).
Qed.
Example c67_applied : exists s' h', ex_import [WithPFKString ex_pfk_hex] = (Ok tt, 4, s', h') /\
  get_pfk_string h' s' = ex_pfk_hex /\ get_salt_string h' s' = get_salt_string ex_mem ex_over /\
  st_path s' = ex_path /\ i_callsign (st_inst s') = callVQ.
Proof.
  assert (Q : exists s' h', import_station ex_lib uni_id ex_env ex_fs_import ex_mem
    (set_inst ex_over (mkInst 5 40 110 80 [] [] callVQ)) (fun _ => true) [WithPersistence [47; 120]; WithPFKString ex_pfk_hex] []
    (repeat 5 200) = (Ok tt, 4, s', h')) by (do 2 eexists; vm_compute; reflexivity).
  destruct Q as (s' & h' & E). exists s', h'. split; [exact E|].
  destruct (c67_import_keeps_pfk ex_lib uni_id ex_env ex_fs_import ex_mem _ _ _ [] _ (Ok tt) 4 s' h' E) as (A & B).
  { intros q [X|X]; injection X as <-; (split; [cbn [length ex_mem]; lia|]);
      (split; intros [Y|[Y|[]]]; discriminate Y). }
  destruct (c67_import_frame ex_lib uni_id ex_env ex_fs_import ex_mem _ _ _ [] _ (Ok tt) 4 s' h' E) as (_ & _ & P & _ & _ & C).
  split; [rewrite A; vm_compute; reflexivity|]. split; [exact B|]. split; [exact P|exact C].
Qed.
(** Three keys for VQ handed over in a file. *)
Definition fl_flt (k : key) : bool := negb (len (kkeepers k) =? 0).
Definition fl_vq : station := set_inst ex_over (mkInst 5 40 110 80 [] [] callVQ).
Example c68_applied : exists n h1 n' h2 xs sent i' cnt x h5,
  export_station uni_id ex_mem ex_station fl_flt [WithPersistence ex_path; WithOverwritePersistenceIfExists true] = (n, h1) /\
  save ex_lib ex_env ex_fs h1 n = (Ok tt, n', h2, xs) /\
  i_keys sent = filter fl_flt ex_keys /\ i_callsign sent = callOS /\
  import_keys uni_id (st_inst fl_vq) false false (fun _ => true) sent [] = (i', cnt, x) /\
  import_station ex_lib uni_id ex_env (apply_effects ex_fs xs) ex_mem fl_vq (fun _ => true)
    [WithPersistence ex_path; WithPFKString ex_pfk_hex] [] [] =
    (match x with None => Ok tt | Some err => Err err end, cnt, set_inst fl_vq i', h5).
Proof.
  assert (Q : exists n h1 n' h2 xs inc h4,
    export_station uni_id ex_mem ex_station fl_flt [WithPersistence ex_path; WithOverwritePersistenceIfExists true] = (n, h1) /\
    save ex_lib ex_env ex_fs h1 n = (Ok tt, n', h2, xs) /\ st_path n = ex_path /\ st_over n = true /\
    file_key ex_lib ex_env h1 n ex_pfk /\ no_zero_setting (st_inst n) /\ i_callsign (st_inst n) = callOS /\
    new_station uni_id ex_mem [WithPersistence ex_path; WithPFKString ex_pfk_hex] = (inc, h4) /\
    st_path inc = ex_path /\ file_key ex_lib ex_env h4 inc ex_pfk).
  { do 7 eexists. split; [vm_compute; reflexivity|]. split; [vm_compute; reflexivity|]. split; [reflexivity|]. split; [reflexivity|].
    split; [left; eexists; split; [reflexivity|vm_compute; reflexivity]|].
    split; [split; [discriminate|split; [discriminate|split; discriminate]]|].
    split; [reflexivity|]. split; [vm_compute; reflexivity|]. split; [reflexivity|].
    left. eexists. split; [reflexivity|vm_compute; reflexivity]. }
  destruct Q as (n & h1 & n' & h2 & xs & inc & h4 & X & S & P & O & K & Z & C & N & P2 & K2).
  assert (D : ~ declined ex_env ex_fs n ex_path) by (intros (_ & Y & _); congruence).
  assert (CS : i_callsign (st_inst n) <> [] \/ i_callsign (st_inst inc) = []) by (left; rewrite C; intros Y; discriminate Y).
  destruct (c68_handover ex_lib ex_lib_ok uni_id ex_env ex_fs ex_mem ex_station fl_flt _ n h1 n' h2 xs ex_path ex_pfk X S
    (fl_name _ _ P) D eq_refl K Z fl_vq (fun _ => true) _ [] [] ex_env ex_mem inc h4 N (fl_name _ _ P2) eq_refl eq_refl K2 CS)
    as (sent & i' & cnt & x & h5 & A & B & E & F).
  exists n, h1, n', h2, xs, sent, i', cnt, x, h5. split; [exact X|]. split; [exact S|]. split; [exact A|].
  split; [congruence|]. split; [exact E|exact F].
Qed.

(** ** Shared memory *)
Example c12_applied : exists h i t1 h' i' e t', reach uni_id ex_lb ex_dp (ex_inst ex_keys) [HNewText [rg_out] 7] ex_long_tape = (h, i, t1) /\
  hnew_text uni_id ex_lb ex_dp h i [rg_too_long] 7 t1 = (h', i', Err e, t') /\
  Forall2 same_but_id (keys_of h i) (keys_of h' i') /\ Forall2 same_but_keyid (messages_of h i) (messages_of h' i').
Proof.
  assert (Q : exists h i t1 h' i' e t', reach uni_id ex_lb ex_dp (ex_inst ex_keys) [HNewText [rg_out] 7] ex_long_tape = (h, i, t1) /\
    (0 < hi_groupsize i /\ store_ok (hi_groupsize i) (keys_of h i)) /\
    hnew_text uni_id ex_lb ex_dp h i [rg_too_long] 7 t1 = (h', i', Err e, t')).
  { do 7 eexists. split; [vm_compute; reflexivity|]. split; [|vm_compute; reflexivity].
    split; [reflexivity|]. apply store_okb_ok. vm_compute. reflexivity. }
  destruct Q as (h & i & t1 & h' & i' & e & t' & R & (G & S) & N).
  destruct (c12_failed_new_text_partial uni_id ex_lb ex_dp _ _ _ h i t1 _ _ h' i' _ t' uni_id_ok R G S N ltac:(intros X; discriminate X))
    as (A & B).
  exists h, i, t1, h', i', e, t'. split; [exact R|]. split; [exact N|]. split; [exact A|exact B].
Qed.
Example c69_applied : exists h i t1 h' i' t', ex_received_keys = (h, i, t1) /\
  hstep uni_id ex_lb ex_dp (HDeleteKey [idA; [69; 69; 69; 69; 69]]) h i t1 = (h', i', t') /\
  Forall2 same_but_keepers (fst (delete_key uni_id (keys_of h i) [idA; [69; 69; 69; 69; 69]])) (keys_of h' i') /\
  length (keys_of h' i') = 4%nat.
Proof.
  assert (Q : exists h i t1 h' i' t', ex_received_keys = (h, i, t1) /\
    hstep uni_id ex_lb ex_dp (HDeleteKey [idA; [69; 69; 69; 69; 69]]) h i t1 = (h', i', t') /\ length (keys_of h' i') = 4%nat).
  { do 6 eexists. split; [vm_compute; reflexivity|]. split; [vm_compute; reflexivity|]. vm_compute. reflexivity. }
  destruct Q as (h & i & t1 & h' & i' & t' & R & S & N). unfold ex_received_keys, ex_reach in R.
  destruct (c69_delete_key uni_id ex_lb ex_dp _ _ _ h i t1 _ h' i' t' R S) as (A & _ & _).
  exists h, i, t1, h', i', t'. split; [exact R|]. split; [exact S|]. split; [exact A|exact N].
Qed.
Example c70_applied : exists h i t1 h' i' t', reach uni_id ex_lb ex_dp (ex_inst ex_keys) [HNewText [rg_out] 7] ex_long_tape = (h, i, t1) /\
  hnew_text uni_id ex_lb ex_dp h i [rg_out] 9 t1 = (h', i', Ok tt, t') /\
  inst_of h' i' = fst (new_text_message uni_id ex_lb ex_dp (inst_of h i) [rg_out] 9 t1).
Proof.
  assert (Q : exists h i t1 h' i' t', reach uni_id ex_lb ex_dp (ex_inst ex_keys) [HNewText [rg_out] 7] ex_long_tape = (h, i, t1) /\ hnew_text uni_id ex_lb ex_dp h i [rg_out] 9 t1 = (h', i', Ok tt, t')).
  { do 6 eexists. split; [vm_compute; reflexivity|]. vm_compute. reflexivity. }
  destruct Q as (h & i & t1 & h' & i' & t' & R & S).
  destruct (c70_new_text uni_id ex_lb ex_dp _ _ _ h i t1 _ _ h' i' _ t' R S) as (A & _).
  exists h, i, t1, h', i', t'. split; [exact R|]. split; [exact S|exact (A eq_refl)].
Qed.
Example c71_applied : exists h i t1 h' i' t', reach uni_id ex_lb ex_dp (ex_inst ex_keys) [HNewText [rg_out] 7] ex_long_tape = (h, i, t1) /\
  hstep uni_id ex_lb ex_dp (HDeleteKey [idB]) h i t1 = (h', i', t') /\ keys_of h' i' = fst (delete_key uni_id (keys_of h i) [idB]).
Proof.
  assert (Q : exists h i t1 h' i' t', reach uni_id ex_lb ex_dp (ex_inst ex_keys) [HNewText [rg_out] 7] ex_long_tape = (h, i, t1) /\ hstep uni_id ex_lb ex_dp (HDeleteKey [idB]) h i t1 = (h', i', t')).
  { do 6 eexists. split; [vm_compute; reflexivity|]. vm_compute. reflexivity. }
  destruct Q as (h & i & t1 & h' & i' & t' & R & S).
  exists h, i, t1, h', i', t'. split; [exact R|]. split; [exact S|].
  exact (c71_delete_key uni_id ex_lb ex_dp (ex_inst ex_keys) [HNewText [rg_out] 7] ex_long_tape h i t1 _ h' i' t' ltac:(constructor; [exact I|constructor]) R S).
Qed.
Example c38_applied : exists h i t1 h' e, reach uni_id ex_lb ex_dp (ex_inst ex_keys) [HNewText [rg_out] 7] ex_long_tape = (h, i, t1) /\ hexport h i (fun k => negb (kused k)) = (h', e) /\
  keys_of h' e = filter (fun k => negb (kused k)) (keys_of h i) /\ messages_of h' e = [] /\ inst_of h' i = inst_of h i.
Proof.
  assert (Q : exists h i t1 h' e, reach uni_id ex_lb ex_dp (ex_inst ex_keys) [HNewText [rg_out] 7] ex_long_tape = (h, i, t1) /\ hexport h i (fun k => negb (kused k)) = (h', e)).
  { do 5 eexists. split; [vm_compute; reflexivity|]. vm_compute. reflexivity. }
  destruct Q as (h & i & t1 & h' & e & R & S).
  destruct (c38_export_partial uni_id ex_lb ex_dp _ _ _ h i t1 _ h' e R S) as (A & B & _ & _ & _ & _ & _ & C).
  exists h, i, t1, h', e. split; [exact R|]. split; [exact S|]. split; [exact A|]. split; [exact B|exact C].
Qed.
