(** Properties of the command pfk as a whole. *)
From Verif Require Import Base Model_Unicode Model_Functions Model_Crand Model_Types Model_Station Model_Persist
  Model_Cli Model_Ask Model_Pfk Spec Spec_Persist Spec_Cli Spec_CliPfk Spec_Ask Spec_Pfk Proofs_Functions Proofs_CliRun
  Proofs_Pfk Examples Examples_Persist Examples_Cli Props_Cli Props_CliMore Props_Ask.
From Coq Require Import Ascii String.

(** ** C112: after pfk --change the file has the key that was asked for, and a
    random key is printed. *)
Theorem c112_change : forall L U strong r l g q f file p key i, lib_ok L -> store_at L (r_env r 0) file f p key i ->
  disk_ok (r_env r 1) -> q_genpfk q = false -> q_gensalt q = false -> q_change q = Some file ->
  let '(x, f', out) := cmd_pfk L U strong r l g q f in
  (x <> Ok tt /\ same_files f f' /\
     ~ (old_key L (r_env r 0) g (opens_with file q) key /\ can_read (r_env r 0) /\ can_write (r_env r 1) /\ goes_ahead q /\
        exists key' out', asked_for L strong (r_tape r) l g file q key' out')) \/
  (x = Ok tt /\ same_files f f' /\ out = [] /\ q_agree q = Some false /\ ~ goes_ahead q) \/
  (x = Ok tt /\ old_key L (r_env r 0) g (opens_with file q) key /\ goes_ahead q /\ same_other_files p f f' /\
     exists key', asked_for L strong (r_tape r) l g file q key' out /\ len key' = 32 /\ stored L f' p key' i).
Proof. exact change_lemma. Qed.
Print Assumptions c112_change.

Definition qx (random : bool) (new newpfk : option (list Z)) (agree : option bool) : qopts :=
  mkQ false false random (Some ex_path) None new newpfk None agree.
Definition qx_run : run := cx_run (fun _ => cx_typed true) [].
(** A run with enough random words. *)
Definition qx_random : run := mkRun (r_now qx_run) (r_env qx_run) (repeat 300 40) (r_wipe qx_run) (r_pick qx_run)
  (r_answers qx_run) (r_radiogram qx_run).
Definition qx_do (r : run) (l : typed) (q : qopts) := cmd_pfk ex_lib uni_id ax_strong r l cx_g q (cx_fs ex_store).

(** --random, agreed to: the printed key opens the file. *)
Example c112_random : exists y f', qx_do qx_random [] (qx true None None (Some true)) = (Ok tt, f', [y]) /\
  exists key', hex_text key' y /\ stored ex_lib f' ex_path key' ex_store /\ key' = repeat 44 32.
Proof.
  pose proof (c112_change ex_lib uni_id ax_strong qx_random [] cx_g (qx true None None (Some true)) (cx_fs ex_store)
    ex_path ex_path ex_pfk ex_store ex_lib_ok (cx_store_here _) eq_refl eq_refl eq_refl eq_refl) as H.
  unfold qx_do. assert (fst (fst (cmd_pfk ex_lib uni_id ax_strong qx_random [] cx_g (qx true None None (Some true)) (cx_fs ex_store)))
    = Ok tt) as R by (vm_compute; reflexivity).
  destruct (cmd_pfk ex_lib uni_id ax_strong qx_random [] cx_g (qx true None None (Some true)) (cx_fs ex_store)) as [[x f'] out].
  cbn [fst] in R. subst x.
  destruct H as [(H & _)|[(_ & _ & _ & H & _)|(_ & _ & _ & _ & key' & A & B & C)]]; [congruence|discriminate|].
  destruct A as (salt & _ & A). cbn [q_random qx] in A. destruct A as (_ & y & words & rest & -> & A1 & A2 & A3 & A4).
  exists y, f'. split; [reflexivity|]. exists key'. split; [exact A1|]. split; [exact C|].
  subst key'. assert (List.length words = 32%nat) as LW by (unfold len in A2; rewrite map_length in A2; lia).
  cbn [r_tape qx_random] in A3. apply (f_equal (firstn 32)) in A3. rewrite firstn_app, LW, Nat.sub_diag, firstn_O, app_nil_r in A3.
  rewrite (firstn_all2 words) in A3 by lia. rewrite <- A3. vm_compute. reflexivity.
Qed.
(** A password typed in, one typed in weakly first, --new, --new-pfk, a refusal. *)
Example c112_others :
  (exists f', qx_do qx_run ax_lines (qx false None None None) = (Ok tt, f', []) /\
     stored ex_lib f' ex_path (kdf ex_lib (str "other"%string) default_salt) ex_store) /\
  (exists f', qx_do qx_run [] (qx false (Some cx_word) None (Some true)) = (Ok tt, f', []) /\
     stored ex_lib f' ex_path cx_pw ex_store) /\
  (exists f', qx_do qx_run [] (qx false None (Some (hex_encode (repeat 7 32))) (Some true)) = (Ok tt, f', []) /\
     stored ex_lib f' ex_path (repeat 7 32) ex_store) /\
  (exists f', qx_do qx_random [] (qx true None None (Some false)) = (Ok tt, f', [])) /\
  (exists e f', qx_do qx_run [Some (str "other"%string); None] (qx false None None None) = (Err e, f', [])).
Proof.
  split; [eexists; split; [vm_compute; reflexivity|exists []; vm_compute; reflexivity]|].
  split; [eexists; split; [vm_compute; reflexivity|exists []; vm_compute; reflexivity]|].
  split; [eexists; split; [vm_compute; reflexivity|exists []; vm_compute; reflexivity]|].
  split; [eexists; vm_compute; reflexivity|]. do 2 eexists. vm_compute. reflexivity.
Qed.

(** ** C113: two ways to give the new key are refused. *)
(** False of --random and --new-pfk: the key that is given is not used. *)
Theorem c113_random_and_key_refuted : exists L strong r g q f file p key i given key',
  lib_ok L /\ store_at L (r_env r 0) file f p key i /\ q_change q = Some file /\
  q_genpfk q = false /\ q_gensalt q = false /\ q_random q = true /\ q_newpfk q = Some given /\
  let '(x, f', out) := cmd_pfk L uni_id strong r [] g q f in
  x = Ok tt /\ stored L f' p key' i /\ ~ hex_text key' given.
Proof.
  exists ex_lib, ax_strong, qx_random, cx_g, (qx true None (Some (hex_encode (repeat 7 32))) (Some true)), (cx_fs ex_store),
    ex_path, ex_path, ex_pfk, ex_store, (hex_encode (repeat 7 32)), (repeat 44 32).
  split; [exact ex_lib_ok|]. split; [apply cx_store_here|]. do 5 (split; [reflexivity|]).
  set (z := cmd_pfk _ _ _ _ _ _ _ _). 
  assert (fst (fst z) = Ok tt /\ stored ex_lib (snd (fst z)) ex_path (repeat 44 32) ex_store) as (A & B).
  { split; [vm_compute; reflexivity|]. exists []. vm_compute. reflexivity. }
  destruct z as [[x f'] out]. cbn [fst snd] in A, B. split; [exact A|]. split; [exact B|].
  intros H. apply hex_text_decode in H. vm_compute in H. discriminate.
Qed.
Print Assumptions c113_random_and_key_refuted.
(** --new with either of the others is refused: no file changes, nothing is
    printed. *)
Theorem c113_refused : forall L U strong r l g q f file p key i, lib_ok L -> store_at L (r_env r 0) file f p key i ->
  q_genpfk q = false -> q_gensalt q = false -> q_change q = Some file ->
  q_new q <> None -> q_random q = true \/ q_newpfk q <> None ->
  let '(x, f', out) := cmd_pfk L U strong r l g q f in x <> Ok tt /\ same_files f f' /\ out = [].
Proof. exact conflict_lemma. Qed.
Print Assumptions c113_refused.
Example c113_case : exists e f', qx_do qx_random [] (qx true (Some cx_word) None (Some true)) = (Err e, f', []) /\
  same_files (cx_fs ex_store) f'.
Proof.
  pose proof (c113_refused ex_lib uni_id ax_strong qx_random [] cx_g (qx true (Some cx_word) None (Some true)) (cx_fs ex_store)
    ex_path ex_path ex_pfk ex_store ex_lib_ok (cx_store_here _) eq_refl eq_refl eq_refl ltac:(discriminate)
    (or_introl eq_refl)) as H.
  unfold qx_do. assert (fst (fst (cmd_pfk ex_lib uni_id ax_strong qx_random [] cx_g (qx true (Some cx_word) None (Some true)) (cx_fs ex_store)))
    = Err ErrInvalidPFK) as R by (vm_compute; reflexivity).
  destruct (cmd_pfk ex_lib uni_id ax_strong qx_random [] cx_g (qx true (Some cx_word) None (Some true)) (cx_fs ex_store)) as [[x f'] out].
  cbn [fst] in R. subst x. destruct H as (_ & H & ->). do 2 eexists. split; [reflexivity|exact H].
Qed.

(** ** C114: pfk writes no file unless it changes a key. *)
Theorem c114_no_change : forall L U strong r l g q f, q_change q = None \/ q_genpfk q = true \/ q_gensalt q = true ->
  let '(x, f', out) := cmd_pfk L U strong r l g q f in f' = f.
Proof. exact no_change_lemma. Qed.
Print Assumptions c114_no_change.
(** --gen-salt prints a salt of 32 random bytes that --salt accepts. *)
Theorem c114_salt : forall L U strong r l g q f, q_genpfk q = false -> q_gensalt q = true ->
  let '(x, f', out) := cmd_pfk L U strong r l g q f in
  (x = Panic /\ out = [] /\ (List.length (r_tape r) < 32)%nat) \/
  (x = Ok tt /\ exists y, out = [y] /\ exists words rest, r_tape r = words ++ rest /\ List.length words = 32%nat /\
     forall p w, salt_given (mkG (Some y) p w) (map (fun w => w mod 256) words)).
Proof. exact gen_salt_lemma. Qed.
Print Assumptions c114_salt.
(** --gen-pfk prints the key of C100 and nothing else. *)
Theorem c114_key : forall L U strong r l g q f, q_genpfk q = true -> q_gensalt q = false ->
  let '(x, f', out) := cmd_pfk L U strong r l g q f in
  (exists y, x = Ok tt /\ out = [y] /\ cmd_gen_pfk L U strong l (r_tape r) g (q_newsalt q) (q_random q) = Ok y) \/
  (x <> Ok tt /\ out = []).
Proof. exact gen_pfk_same. Qed.
Print Assumptions c114_key.
(** Both together are refused; without any of the three nothing happens. *)
Theorem c114_both : forall L U strong r l g q f, q_genpfk q = true -> q_gensalt q = true ->
  exists e, cmd_pfk L U strong r l g q f = (Err e, f, []).
Proof. exact both_lemma. Qed.
Print Assumptions c114_both.
Theorem c114_none : forall L U strong r l g q f, q_genpfk q = false -> q_gensalt q = false -> q_change q = None ->
  cmd_pfk L U strong r l g q f = (Ok tt, f, []).
Proof. exact help_lemma. Qed.
Print Assumptions c114_none.
Example c114_case : exists y f',
  qx_do qx_random [] (mkQ false true false None None None None None None) = (Ok tt, f', [y]) /\ len y = 64 /\
  salt_given (mkG (Some y) None None) (repeat 44 32) /\
  (exists z, qx_do qx_random [] (mkQ true false true None None None None None None) = (Ok tt, cx_fs ex_store, [z])) /\
  (exists e, qx_do qx_random [] (mkQ true true false None None None None None None) = (Err e, cx_fs ex_store, [])).
Proof.
  exists (hex_encode (repeat 44 32)), (cx_fs ex_store). split; [vm_compute; reflexivity|]. split; [vm_compute; reflexivity|]. split.
  { cbn [salt_given g_salt]. split; [|vm_compute; discriminate]. apply hex_decode_text. vm_compute. reflexivity. }
  split; [eexists; vm_compute; reflexivity|]. eexists. vm_compute. reflexivity.
Qed.

(** ** C115: no file is protected by a weak password. *)
(** False of passwords given as options: whatever the check of strength says,
    pfk --change --new and initialize --password use them. *)
Theorem c115_new_refuted : exists L r g q f file p key i w, forall strong, strong w = false ->
  lib_ok L /\ store_at L (r_env r 0) file f p key i /\ q_change q = Some file /\ q_new q = Some w /\
  let '(x, f', out) := cmd_pfk L uni_id strong r [] g q f in
  x = Ok tt /\ stored L f' p (kdf L w default_salt) i.
Proof.
  exists ex_lib, qx_run, cx_g, (qx false (Some cx_word) None (Some true)), (cx_fs ex_store),
    ex_path, ex_path, ex_pfk, ex_store, cx_word. intros strong _.
  split; [exact ex_lib_ok|]. split; [apply cx_store_here|]. do 2 (split; [reflexivity|]).
  assert (cmd_pfk ex_lib uni_id strong qx_run [] cx_g (qx false (Some cx_word) None (Some true)) (cx_fs ex_store) =
    cmd_pfk ex_lib uni_id ax_strong qx_run [] cx_g (qx false (Some cx_word) None (Some true)) (cx_fs ex_store)) as -> by reflexivity.
  set (z := cmd_pfk _ _ _ _ _ _ _ _).
  assert (fst (fst z) = Ok tt /\ stored ex_lib (snd (fst z)) ex_path (kdf ex_lib cx_word default_salt) ex_store) as (A & B).
  { split; [vm_compute; reflexivity|]. exists []. vm_compute. reflexivity. }
  destruct z as [[x f'] out]. split; [exact A|exact B].
Qed.
Print Assumptions c115_new_refuted.
(** A password that is typed in is strong. *)
Theorem c115_typed : forall L U strong r l g q f file p key i, lib_ok L -> store_at L (r_env r 0) file f p key i ->
  disk_ok (r_env r 1) -> q_genpfk q = false -> q_gensalt q = false -> q_change q = Some file ->
  q_random q = false -> q_new q = None -> q_newpfk q = None ->
  let '(x, f', out) := cmd_pfk L U strong r l g q f in
  x = Ok tt -> exists w salt, strong w = true /\ In (Some w) l /\ new_salt g (opens_with file q) salt /\
    stored L f' p (kdf L w salt) i.
Proof. exact typed_lemma. Qed.
Print Assumptions c115_typed.
Example c115_case : exists f' w salt, qx_do qx_run ax_lines (qx false None None None) = (Ok tt, f', []) /\
  ax_strong w = true /\ In (Some w) ax_lines /\ stored ex_lib f' ex_path (kdf ex_lib w salt) ex_store.
Proof.
  pose proof (c115_typed ex_lib uni_id ax_strong qx_run ax_lines cx_g (qx false None None None) (cx_fs ex_store)
    ex_path ex_path ex_pfk ex_store ex_lib_ok (cx_store_here _) eq_refl eq_refl eq_refl eq_refl eq_refl eq_refl eq_refl) as H.
  assert (exists f', qx_do qx_run ax_lines (qx false None None None) = (Ok tt, f', [])) as (f' & E)
    by (eexists; vm_compute; reflexivity).
  unfold qx_do in E. rewrite E in H. destruct (H eq_refl) as (w & salt & A & B & _ & C).
  exists f', w, salt. split; [exact E|]. split; [exact A|]. split; [exact B|exact C].
Qed.
