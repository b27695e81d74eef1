(** Theorems applied to concrete data, with all their hypotheses discharged: the
    hypotheses can be met together, and the conclusion says something there. *)
From Verif Require Import Base Spec Model_Unicode Model_Crand Model_Functions Model_Types Model_Cipher Model_Keys
  Model_Import Model_Messages Model_Station Model_Persist Model_Listing Model_Cli Model_Initialize Model_Diana Model_Table Model_Print
  Spec_Persist Spec_Cli Spec_Listing Spec_CliHist Spec_CliPfk Spec_Keys Spec_Initialize
  Proofs_Initialize Proofs_CliPfk Proofs_CliSel
  Props_Diana Props_Cipher Examples Examples_Persist Props_Messages Props_Persist Props_Print Examples_Cli Props_Cli Props_CliMore Props_Initialize.
From Coq Require Import String Permutation.
Open Scope list_scope.

(** ** C06. *)
Example c06_applied : exists header line x, nth_error reciprocal_table 0 = Some header /\
  nth_error reciprocal_table 3 = Some line /\ cell header 1 = Some (66, 32) /\ cell line 1 = Some (67, x + 32).
Proof.
  destruct (c06_table 2 1) as (hd & ln & A & B & C & x & _ & D); [lia..|]. exists hd, ln, x.
  split; [exact A|]. split; [exact B|]. split; [exact C|exact D].
Qed.

(** ** C11. *)
Example c11_applied : exists k, In k ex_keys /\ kid k = idB /\ kcompromised k = false /\ kused k = false.
Proof.
  destruct (encipher uni_id (ex_inst ex_keys) (ex_msg txt_long idB) []) as [[[i' m'] r] t'] eqn:E.
  assert (r = Ok tt) as R.
  { apply (f_equal (fun x => snd (fst x))) in E. cbn [fst snd] in E. rewrite <- E. vm_compute. reflexivity. }
  subst r.
  destruct (c11_compromised_partial uni_id (ex_inst ex_keys) (ex_msg txt_long idB) [] i' m' t' uni_id_ok) as (k & A & B & _ & C & D);
    [vm_compute; reflexivity|exact Props_Cipher.ex_store|discriminate|exact E|].
  exists k. split; [exact A|]. split; [exact B|]. split; [exact C|exact D].
Qed.

(** ** C33, C34, C32: saving over an old file. *)
Lemma ax_name : file_name ex_lib ex_env ex_over ex_path.
Proof. right. split; [discriminate|]. split; [|reflexivity]. intros rest. discriminate. Qed.
Lemma ax_key : file_key ex_lib ex_env ex_mem ex_over ex_pfk.
Proof. left. exists 0%nat. split; reflexivity. Qed.
Lemma ax_not_declined : ~ Spec_Persist.declined ex_env ex_fs ex_over ex_path.
Proof. intros (_ & [=] & _). Qed.
Lemma ax_saved : exists s' h' xs, save ex_lib ex_env ex_fs ex_mem ex_over = (Ok tt, s', h', xs) /\ (1 < List.length xs)%nat.
Proof.
  destruct (save ex_lib ex_env ex_fs ex_mem ex_over) as [[[r s'] h'] xs] eqn:E.
  assert (r = Ok tt /\ (1 < List.length xs)%nat) as (R & N).
  { split.
    - apply (f_equal (fun x => fst (fst (fst x)))) in E. cbn [fst] in E. rewrite <- E. vm_compute. reflexivity.
    - apply (f_equal (fun x => List.length (snd x))) in E. cbn [snd] in E. rewrite <- E. vm_compute. repeat constructor. }
  subst r. exists s', h', xs. split; [reflexivity|exact N].
Qed.
Example c34_applied : exists s' h' xs, save ex_lib ex_env ex_fs ex_mem ex_over = (Ok tt, s', h', xs) /\
  apply_effects ex_fs xs ex_path = Some (complete_file ex_lib ex_pfk [] ex_store).
Proof.
  destruct ax_saved as (s' & h' & xs & E & _). exists s', h', xs. split; [exact E|].
  exact (c34_complete_partial ex_lib ex_env ex_fs ex_mem ex_over s' h' xs ex_path ex_pfk E ax_name ax_not_declined (or_introl eq_refl) ax_key).
Qed.
Example c33_applied : exists s' h' xs, save ex_lib ex_env ex_fs ex_mem ex_over = (Ok tt, s', h', xs) /\
  apply_effects ex_fs (firstn 1 xs) [47; 120] = None /\
  (apply_effects ex_fs (firstn 1 xs) ex_path = Some ex_file_old \/ exists c, apply_effects ex_fs (firstn 1 xs) ex_path = Some c /\
    (c = [] \/ exists key rest, file_key ex_lib ex_env ex_mem ex_over key /\ c ++ rest = complete_file ex_lib key [] ex_store)).
Proof.
  destruct ax_saved as (s' & h' & xs & E & _). exists s', h', xs. split; [exact E|].
  destruct (c33_crash_partial ex_lib ex_env ex_fs ex_mem ex_over (Ok tt) s' h' xs 1 E) as (A & B). split.
  - apply A. intros [(rest & d & X & _)|(_ & _ & X)]; discriminate.
  - exact (B ex_path ax_name).
Qed.
Example c32_applied : exists s' h' xs n h2 n' h3, save ex_lib ex_env ex_fs ex_mem ex_over = (Ok tt, s', h', xs) /\
  new_station uni_id ex_mem (ex_opts ex_pfk_hex) = (n, h2) /\
  load ex_lib ex_env (apply_effects ex_fs xs) h2 new_arrays n = (Ok tt, n', h3) /\ st_inst n' = ex_store.
Proof.
  destruct ax_saved as (s' & h' & xs & E & _).
  destruct (new_station uni_id ex_mem (ex_opts ex_pfk_hex)) as [n h2] eqn:N.
  assert (st_path n = ex_path /\ exists p, st_pfk n = Some p /\ ex_pfk = Model_Station.cell h2 p) as (P & p & B & C).
  { assert (n = fst (new_station uni_id ex_mem (ex_opts ex_pfk_hex))) as -> by (rewrite N; reflexivity).
    assert (h2 = snd (new_station uni_id ex_mem (ex_opts ex_pfk_hex))) as -> by (rewrite N; reflexivity).
    split; [vm_compute; reflexivity|]. eexists. split; vm_compute; reflexivity. }
  destruct (c32_restore_partial ex_lib ex_lib_ok uni_id ex_env ex_fs ex_mem ex_over s' h' xs ex_path ex_pfk E ax_name ax_not_declined eq_refl ax_key
    (ex_opts ex_pfk_hex) ex_env ex_mem n h2 ex_pfk N) as (A & _); [|reflexivity|reflexivity|left; exists p; split; [exact B|exact C]|].
  { right. rewrite P. split; [discriminate|]. split; [|reflexivity]. intros rest. discriminate. }
  destruct A as (n' & h3 & L & I); [reflexivity| |left; discriminate|].
  { unfold no_zero_setting. cbn. lia. }
  exists s', h', xs, n, h2, n', h3. split; [exact E|]. split; [reflexivity|]. split; [exact L|exact I].
Qed.

(** ** The keys command. *)
Lemma ax_picked o ks : picked (key_selected uni_id 7 o) ks (filter (key_filter uni_id 7 o) ks).
Proof. apply picked_filter, key_selected_spec. Qed.
Lemma ax_keys_ok : store_ok 5 (i_keys cx_inst).
Proof. apply store_okb_ok. vm_compute. reflexivity. Qed.
Lemma ax_here e : store_at ex_lib e ex_path (cx_fs cx_inst) ex_path ex_pfk cx_inst.
Proof. apply cx_store_at; [reflexivity|exact cx_no_zero]. Qed.
Notation ax_keys o f := (cmd_keys ex_lib uni_id ex_dp cx_ds cx_plain cx_g o f []).
Example c73_applied : exists w1 w6, same_files (cx_fs cx_inst) (files (ax_keys ck_list (cx_fs cx_inst))) /\
  Forall2 (fun k line => columns [6; w1; 13; 13; 5; 12; w6]
      [kid k; match kkeepers k with [] => str_anonymous | _ => join [44] (map go_string (kkeepers k)) end;
       cx_ds (kcreated k); cx_ds (kexpires k); yes_no (kused k); yes_no (kcompromised k); kcomment k] line)
    ex_keys (listed (ax_keys ck_list (cx_fs cx_inst))).
Proof.
  destruct (c73_list ex_lib uni_id ex_dp cx_ds cx_plain cx_g ck_list (cx_fs cx_inst) [] ex_path ex_pfk cx_inst ex_keys ex_lib_ok (ax_here _))
    as (A & _ & B & C); [|reflexivity| |reflexivity..|].
  - intros k I. vm_compute in I. repeat (destruct I as [<-|I]; [reflexivity|]). contradiction.
  - exact (ax_picked ck_list ex_keys).
  - destruct C as (w1 & w6 & C).
    { apply B. split; [apply cx_key_given|]. vm_compute. auto. }
    exists w1, w6. split; [exact A|exact C].
Qed.
Lemma ax_given r n : (forall k, r_env r k = ex_env) -> key_given ex_lib (r_env r n) cx_g ex_pfk /\ can_read (r_env r n) /\ can_write (r_env r n).
Proof. intros H. rewrite H. split; [apply cx_key_given|]. split; vm_compute; auto. Qed.
Example c76_applied : let x := ax_keys (ck_new 2) (cx_fs cx_inst) in exists new,
  stored ex_lib (files x) ex_path ex_pfk (set_keys cx_inst (ex_keys ++ new)) /\ len new = 2 /\
  forall k, In k new -> letters (kid k) /\ letters (krunes k) /\ 40 <= len (krunes k) < 45 /\ kexpires k = 7 + 365 * day.
Proof.
  cbv zeta.
  destruct (c76_new ex_lib uni_id ex_dp cx_ds cx_plain cx_g (ck_new 2) (cx_fs cx_inst) [] ex_path ex_pfk cx_inst ex_lib_ok (ax_here _))
    as [(_ & _ & new & A & B & C & _)|(N & _)]; try reflexivity; try (vm_compute; discriminate).
  - exists new. split; [exact A|]. split; [exact B|]. intros k I. destruct (C k I) as (C1 & _ & C2 & C3 & _ & _ & _ & _ & _ & C4 & _).
    split; [exact C1|]. split; [exact C2|]. split; [exact C3|]. exact (C4 eq_refl).
  - exfalso. apply N. vm_compute. reflexivity.
Qed.
Example c77_applied : let x := ax_keys (ck_delete [idB] true false) (cx_fs cx_inst) in exists ks,
  stored ex_lib (files x) ex_path ex_pfk (set_keys cx_inst ks) /\
  forall k, In k ks <-> In k ex_keys /\ forall id, In id [idB] -> ~ same_text (to_upper uni_id) (kid k) id.
Proof.
  cbv zeta.
  destruct (c77_delete_ids ex_lib uni_id ex_dp cx_ds cx_plain cx_g (ck_delete [idB] true false) (cx_fs cx_inst) [] ex_path ex_pfk cx_inst ex_lib_ok (ax_here _))
    as [(_ & _ & ks & A & B)|(N & _)]; try reflexivity; try (vm_compute; discriminate).
  - exact (proj1 ax_keys_ok).
  - exists ks. split; [exact A|exact B].
  - exfalso. apply N. vm_compute. reflexivity.
Qed.
Lemma ax_pick_one lines : lines <> [] -> r_pick cx_plain lines = Some (map (fun j => nth j lines []) [O]).
Proof. destruct lines as [|l ls]; [congruence|reflexivity]. Qed.
Example c78_applied : let x := ax_keys (ck_delete [] false false) (cx_fs cx_inst) in exists ks,
  stored ex_lib (files x) ex_path ex_pfk (set_keys cx_inst ks) /\
  forall k, In k ks <-> In k ex_keys /\ ~ exists j, In j [O] /\ nth_error ex_keys j = Some k.
Proof.
  cbv zeta.
  destruct (c78_pick ex_lib uni_id ex_dp cx_ds cx_plain cx_g (ck_delete [] false false) (cx_fs cx_inst) [] ex_path ex_pfk cx_inst ex_keys ex_lib_ok (ax_here _))
    as (lines & w1 & w6 & F & [(_ & _ & [(X & _)|A])|(N & _)]).
  - reflexivity.
  - exact ax_keys_ok.
  - reflexivity.
  - split; vm_compute; reflexivity.
  - reflexivity.
  - reflexivity.
  - vm_compute; discriminate.
  - reflexivity.
  - reflexivity.
  - exact (ax_picked (ck_delete [] false false) ex_keys).
  - discriminate X.
  - apply A. apply ax_pick_one. intros E. rewrite E in F. inversion F.
  - exfalso. apply N. vm_compute. reflexivity.
Qed.
Lemma ax_out : path_of ex_lib ex_env cx_out cx_out.
Proof. right. split; [discriminate|]. split; [|reflexivity]. intros rest H. discriminate. Qed.
Definition ax_three : list key := Eval vm_compute in filter (key_filter uni_id 7 (ck_export cx_out false)) ex_keys.
Ltac ax_side := lazymatch goal with
  | |- _ = _ => reflexivity | |- disk_ok _ => reflexivity | |- forall v, len (cx_ds v) = 12 => reflexivity
  | |- _ <> _ => vm_compute; discriminate | |- _ <= _ => vm_compute; discriminate | |- _ < _ => reflexivity | _ => idtac end.
Example c81_applied : map kid ax_three = [idA; idB; idC] /\
  stored ex_lib (files (ax_keys (ck_export cx_out false) (cx_fs cx_inst))) cx_out ex_pfk (mkInst 5 40 110 80 ax_three [] callOS).
Proof.
  split; [vm_compute; reflexivity|].
  apply (c81_done_partial ex_lib uni_id ex_dp cx_ds cx_plain cx_g (ck_export cx_out false) (cx_fs cx_inst) [] ex_path ex_pfk cx_inst cx_out cx_out ax_three
    ex_lib_ok (ax_here _)); ax_side.
  - exact ax_out.
  - exact (ax_picked (ck_export cx_out false) ex_keys).
  - left. vm_compute. reflexivity.
Qed.

(** ** The messages command. *)
Notation ax_messages o f := (cmd_messages ex_lib uni_id ex_lb ex_dp cx_ds cx_digest cx_plain cx_g o f []).
Example c84_applied : let x := ax_messages cm_new (cx_fs ex_store) in
  same_other_files ex_path (cx_fs ex_store) (files x) /\ exists i' m, stored ex_lib (files x) ex_path ex_pfk i' /\ station_ok i' /\
  shown x = [m] /\ In m (i_messages i') /\ mradiogram m = ex_lb rg_out.
Proof.
  cbv zeta.
  destruct (c84_frame ex_lib uni_id ex_lb ex_dp cx_ds cx_digest cx_plain cx_g cm_new (cx_fs ex_store) [] ex_path ex_pfk ex_store uni_id_ok ex_lib_ok
    (cx_store_here _) cx_store_ok eq_refl eq_refl) as (A & i' & B & C & _ & [D|(i1 & m & D & _ & _ & _ & E & F & _)]).
  - exfalso. revert D. vm_compute. discriminate.
  - split; [exact A|]. exists i', m. split; [exact B|]. split; [exact C|]. split; [exact D|]. split; [|exact (E rg_out eq_refl)].
    destruct F as (_ & F); [vm_compute; reflexivity|]. rewrite F. apply in_or_app. right. left. reflexivity.
Qed.

(** ** initialize. *)
Example c93_applied : exists key keys,
  stored ex_lib (files (cmd_initialize ex_lib uni_id ex_dp cx_plain cx_g (mkI ex_path true (Some (32 :: callOS)) 2 [] [callVQ] 40 5 80 110) ex_fs [])) ex_path key
    (mkInst 5 40 110 80 keys [] callOS).
Proof.
  apply (c93_call_partial ex_lib uni_id ex_dp cx_plain cx_g (mkI ex_path true (Some (32 :: callOS)) 2 [] [callVQ] 40 5 80 110) ex_fs [] (32 :: callOS) callOS ex_path
    ex_lib_ok uni_id_idem uni_id_space eq_refl eq_refl); ax_side.
  - apply cx_path_of.
  - exists [32], callOS, []. split; [reflexivity|]. split; [vm_compute; reflexivity|]. split; [repeat constructor|]. split; [constructor|].
    split; intros c s H.
    + assert (nth_error callOS 0 = Some c) as Q by (rewrite H; reflexivity). vm_compute in Q. injection Q as <-. vm_compute. reflexivity.
    + assert (last callOS 0 = c) as <- by (rewrite H; apply last_last). vm_compute. reflexivity.
Qed.
Definition ax_date : list rune := str "011200ZJAN30"%string.
Definition ax_typed : lines := ix_lines ["os"; "2"; "vq"; "011200ZJAN30"; "20"; ""]%string.
Lemma ax_dialogue : dialogue uni_id (ix_opts []) ax_typed (str "os"%string) 2 (str "vq"%string) ax_date 20 5.
Proof.
  destruct (ix_int []) as (A & B & C).
  eapply dialogue_of; [exact A|exact B|exact C|vm_compute; reflexivity..].
Qed.
Lemma ax_without : without_space uni_id ax_date ax_date.
Proof.
  exists [], []. split; [vm_compute; reflexivity|]. split; [constructor|]. split; [constructor|]. split; intros c s H.
  - assert (nth_error ax_date 0 = Some c) as Q by (rewrite H; reflexivity). vm_compute in Q. injection Q as <-. vm_compute. reflexivity.
  - assert (last ax_date 0 = c) as <- by (rewrite H; apply last_last). vm_compute. reflexivity.
Qed.
Example c105_applied :
  let x := cmd_initialize_asked uni_id ex_lib ix_dp cx_plain cx_g ix_none (ix_opts []) ax_typed (fun _ => None) [] in
  result x = Ok tt /\ exists key s, stored ex_lib (files x) ex_path key s /\ i_groupsize s = 5 /\ i_keylength s = 20 /\ len (i_keys s) = 2 /\
    forall k, In k (i_keys s) -> kexpires k = 1000.
Proof.
  cbv zeta. destruct (ix_int []) as (I1 & I2 & I3).
  destruct (c105_partial ex_lib uni_id ix_dp cx_plain cx_g ix_none (ix_opts []) ax_typed (fun _ => None) [] ex_path (str "os"%string) 2 (str "vq"%string) ax_date 20 5 ax_date
    ex_lib_ok uni_id_ok uni_id_idem uni_id_space I1 I2 I3) as [X|(A & key & s & _ & B & C & D & E & F)]; ax_side.
  - repeat split.
  - exact ax_dialogue.
  - exact ax_without.
  - right. vm_compute. discriminate.
  - apply cx_path_of.
  - vm_compute. auto.
  - exists ex_pfk. apply cx_key_given.
  - exfalso. revert X. vm_compute. discriminate.
  - split; [exact A|]. exists key, s. split; [exact B|]. split; [exact C|]. split; [exact D|]. split; [exact E|].
    intros k I. assert (ix_dp ax_date = Some (kexpires k)) as Q by (apply F; [exact I|discriminate]).
    assert (ix_dp ax_date = Some 1000) as Q2 by (vm_compute; reflexivity). congruence.
Qed.
Example c106_applied :
  let o := mkI ex_path false (Some callOS) 2 ax_date [callVQ] 40 5 80 110 in
  let x := cmd_initialize_asked uni_id ex_lib ix_dp cx_plain cx_g ix_none o [] (fun _ => None) [] in
  exists key s, stored ex_lib (files x) ex_path key s /\ len (i_keys s) = 2 /\ forall k, In k (i_keys s) -> kexpires k = 1000.
Proof.
  cbv zeta.
  destruct (c106_expire_partial ex_lib uni_id ix_dp cx_plain cx_g ix_none (mkI ex_path false (Some callOS) 2 ax_date [callVQ] 40 5 80 110) [] (fun _ => None) [] callOS ex_path
    ex_lib_ok uni_id_idem uni_id_space) as (key & s & A & B & C); ax_side.
  - apply cx_path_of.
  - exists key, s. split; [exact A|]. split; [exact B|]. intros k I. assert (ix_dp ax_date = Some (kexpires k)) as Q by exact (C k I).
    assert (ix_dp ax_date = Some 1000) as Q2 by (vm_compute; reflexivity). congruence.
Qed.
