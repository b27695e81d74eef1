(** C137: files that hold keys or messages are for their owner only. *)
From Verif Require Import Base Model_Unicode Model_Types Model_Station Model_Persist Model_Print Model_Cli Model_Output Model_Modes
  Spec Spec_Persist Spec_Cli Spec_Output Spec_Modes Proofs_Modes Examples Examples_Persist Examples_Cli Props_Output.

(** Save: a new file is for its owner only, whatever the umask; the permissions
    of files that are there are kept. *)
Theorem c137_save : forall L e f h s r s' h' xs umask w, save L e f h s = (r, s', h', xs) -> known f w ->
  private_files umask w (perms_after umask save_perm w xs) /\ known (apply_effects f xs) (perms_after umask save_perm w xs).
Proof. exact save_private. Qed.
Print Assumptions c137_save.
(** Keys and messages written as text. *)
Theorem c137_text : forall utf8 pdf e o text pages r xs f umask w, output_items utf8 pdf e o text pages = (r, xs) ->
  text_wanted o -> known f w ->
  private_files umask w (perms_after umask (output_perm o) w xs) /\ known (apply_effects f xs) (perms_after umask (output_perm o) w xs).
Proof. exact text_private. Qed.
Print Assumptions c137_text.
(** Output of any type keeps the permissions of files that are there. *)
Theorem c137_kept : forall utf8 pdf e o text pages r xs f umask w, output_items utf8 pdf e o text pages = (r, xs) -> known f w ->
  (forall q b, w q = Some b -> perms_after umask (output_perm o) w xs q = Some b) /\
  known (apply_effects f xs) (perms_after umask (output_perm o) w xs).
Proof. exact output_keeps. Qed.
Print Assumptions c137_kept.

(** False of PDF files: with the usual umask (022) a new PDF with keys is
    readable by everybody. *)
Theorem c137_pdf_refuted : exists o i filter xs w b, pdf_wanted o /\
  output_items (fun s => s) ox_pdf ox_env o (as_text [10] (ox_ktext i) filter (i_keys i))
    (keys_pdf [10] ox_lines (ox_ktext i) filter (i_keys i)) = (Ok tt, xs) /\
  apply_effects ex_fs_none xs (oo_file o) <> None /\ known ex_fs_none w /\
  perms_after 18 (output_perm o) w xs (oo_file o) = Some b /\ others_read b.
Proof.
  exists (mkOut ox_pdf_file None), (ex_inst ex_keys), (fun _ => true). do 2 eexists. exists 420.
  split; [right; right; split; [reflexivity|]; intros (a & [E|E]); apply (f_equal (@rev Z)) in E; rewrite rev_app_distr in E; discriminate|].
  split; [vm_compute; reflexivity|]. split; [vm_compute; discriminate|]. split; [|split; [|reflexivity]].
  - instantiate (1 := fun _ => None). intros q. split; reflexivity.
  - vm_compute. reflexivity.
Qed.
Print Assumptions c137_pdf_refuted.

(** Save makes the file of the store and text output makes its file, with the
    umask 022 and with none; both are 0600. *)
Example c137_nontrivial : exists r s' h' xs, save ex_lib ex_env ex_fs_none ex_mem ex_station = (r, s', h', xs) /\ r = Ok tt /\
  apply_effects ex_fs_none xs ex_path <> None /\
  perms_after 18 save_perm (fun _ => None) xs ex_path = Some 384 /\
  perms_after 0 save_perm (fun _ => None) xs ex_path = Some 384 /\
  private_files 18 (fun _ => None) (perms_after 18 save_perm (fun _ => None) xs).
Proof.
  destruct (save ex_lib ex_env ex_fs_none ex_mem ex_station) as [[[r s'] h'] xs] eqn:E. exists r, s', h', xs.
  split; [reflexivity|].
  assert (Z : (let '(r, _, _, xs) := save ex_lib ex_env ex_fs_none ex_mem ex_station in
    (r, match apply_effects ex_fs_none xs ex_path with Some _ => true | None => false end,
     perms_after 18 save_perm (fun _ => None) xs ex_path, perms_after 0 save_perm (fun _ => None) xs ex_path)) =
    (Ok tt, true, Some 384, Some 384)) by (vm_compute; reflexivity).
  rewrite E in Z. split; [congruence|]. split; [intros N; rewrite N in Z; discriminate Z|]. split; [congruence|]. split; [congruence|].
  apply (proj1 (c137_save _ _ _ _ _ _ _ _ _ 18 (fun _ => None) E (fun q => conj (fun _ => eq_refl) (fun _ => eq_refl)))).
Qed.
Example c137_text_nontrivial : exists xs, text_wanted (mkOut ox_txt None) /\
  output_items (fun s => s) ox_pdf ox_env (mkOut ox_txt None) [65] [] = (Ok tt, xs) /\ known ex_fs_none (fun _ => None) /\
  perms_after 18 (output_perm (mkOut ox_txt None)) (fun _ => None) xs ox_txt = Some 384.
Proof.
  eexists. split; [right; right; right; split; [reflexivity|exists [107]; left; reflexivity]|].
  split; [vm_compute; reflexivity|]. split; [intros q; split; reflexivity|]. vm_compute. reflexivity.
Qed.
