(** The theorems on the command line program applied to concrete calls: every
    hypothesis is met, and what the theorem says of the call is what remains when
    the alternatives of failure are excluded. *)
From Verif Require Import Base Model_Unicode Model_Functions Model_Crand Model_Types Model_Cipher Model_Keys Model_Import
  Model_Messages Model_Station Model_Persist Model_Listing Model_Cli Spec Spec_Persist Spec_Cli Spec_Listing Spec_CliPfk Spec_Keys
  Spec_CliHist Spec_CliImport Spec_CliSeq Proofs_Cli Proofs_CliSel Examples Examples_Persist Props_Messages Examples_Cli Props_Cli Props_CliMore.

Lemma cx_can_read : can_read ex_env.
Proof. split; reflexivity. Qed.
Lemma cx_can_write : can_write ex_env.
Proof. split; [reflexivity|split; reflexivity]. Qed.
Lemma cx_out_of e : path_of ex_lib e cx_out cx_out.
Proof. right. split; [discriminate|]. split; [|reflexivity]. intros rest H. discriminate. Qed.
Lemma cx_in_of e : path_of ex_lib e cx_in cx_in.
Proof. right. split; [discriminate|]. split; [|reflexivity]. intros rest H. discriminate. Qed.
Lemma cx_here : store_at ex_lib ex_env ex_path (cx_fs cx_inst) ex_path ex_pfk cx_inst.
Proof. apply cx_store_at; [reflexivity|apply cx_no_zero]. Qed.
Lemma cx_distinct : distinct_ids (to_upper uni_id) (i_keys cx_inst).
Proof. unfold distinct_ids, distinct_texts. cbn. repeat constructor; cbn; intuition discriminate. Qed.
Lemma cx_chosen o i : picked (key_selected uni_id 7 o) (i_keys i) (filter (key_filter uni_id 7 o) (i_keys i)).
Proof. apply picked_filter, key_selected_spec. Qed.

(** keys --new 2 --export /t: only the file of the keys and /t change. *)
Example c75_applied :
  let o := mkK ex_path false 2 None false None (Some cx_out) [callVQ] false [] false None false false false false false false in
  let x := cx_keys cx_plain cx_g o (cx_fs cx_inst) in
  result x = Ok tt /\
  (exists ks, stored ex_lib (files x) ex_path ex_pfk (set_keys cx_inst ks) /\ distinct_ids (to_upper uni_id) ks) /\
  forall q, q <> ex_path -> q <> cx_out -> files x q = None.
Proof.
  cbv zeta. set (o := mkK ex_path false 2 None false None (Some cx_out) [callVQ] false [] false None false false false false false false).
  split; [vm_compute; reflexivity|].
  destruct (c75_frame ex_lib uni_id ex_dp cx_ds cx_plain cx_g o (cx_fs cx_inst) [] ex_path ex_pfk cx_inst
    ex_lib_ok cx_no_zero (cx_path_of _) cx_plain_path eq_refl (cx_stored _ _ _ _) eq_refl eq_refl eq_refl) as ((ks & S & D) & F).
  - intros file [= <-] [(rest & d & H & _)|(_ & _ & H)]; discriminate.
  - split; [exists ks; split; [exact S|exact (D cx_distinct)]|].
    intros q N1 N2. unfold cx_keys. rewrite (F q N1).
    + unfold cx_fs, cx_put. destruct (list_eq_dec Z.eq_dec q ex_path); [contradiction|reflexivity].
    + intros file [= <-] [(rest & d & H & _)|(_ & _ & H)]; [discriminate|contradiction].
Qed.

(** keys --new 2. *)
Example c76_applied : let x := cx_keys cx_plain cx_g (ck_new 2) (cx_fs cx_inst) in
  exists k1 k2, stored ex_lib (files x) ex_path ex_pfk (set_keys cx_inst (ex_keys ++ [k1; k2])) /\
    letters (kid k1) /\ len (kid k1) = 5 /\ 40 <= len (krunes k2) < 45 /\ ~ same_text (to_upper uni_id) (kid k1) (kid k2).
Proof.
  cbv zeta.
  destruct (c76_new ex_lib uni_id ex_dp cx_ds cx_plain cx_g (ck_new 2) (cx_fs cx_inst) [] ex_path ex_pfk cx_inst
    ex_lib_ok cx_here eq_refl ltac:(vm_compute; discriminate) eq_refl eq_refl eq_refl eq_refl eq_refl)
    as [(_ & _ & new & S & N & P & Q)|(H & _ & F)].
  - destruct new as [|k1 [|k2 [|k3 new]]]; try (exfalso; unfold len in N; cbn [length ck_new ko_new] in N; lia).
    exists k1, k2. split; [exact S|]. destruct (P k1 (or_introl eq_refl)) as (A1 & A2 & _).
    destruct (P k2 (or_intror (or_introl eq_refl))) as (_ & _ & _ & B & _).
    split; [exact A1|]. split; [exact A2|]. split; [exact B|].
    apply (Q [k1] k2 [] eq_refl). apply in_or_app. right. left. reflexivity.
  - specialize (F (cx_key_given _) cx_can_read cx_can_write). cbn [ck_new ko_expire] in F.
    exfalso. apply H. vm_compute. reflexivity.
Qed.

(** keys --delete --yes --id B. *)
Example c77_applied : let x := cx_keys cx_plain cx_g (ck_delete [idB] true false) (cx_fs cx_inst) in
  exists ks, stored ex_lib (files x) ex_path ex_pfk (set_keys cx_inst ks) /\
    forall k, In k ks <-> In k ex_keys /\ forall id, In id (vetted_keepers uni_id [idB]) -> ~ same_text (to_upper uni_id) (kid k) id.
Proof.
  cbv zeta.
  destruct (c77_delete_ids ex_lib uni_id ex_dp cx_ds cx_plain cx_g (ck_delete [idB] true false) (cx_fs cx_inst) [] ex_path
    ex_pfk cx_inst ex_lib_ok cx_here cx_distinct eq_refl eq_refl eq_refl ltac:(vm_compute; discriminate) eq_refl eq_refl)
    as [(_ & _ & ks & S & E)|(_ & _ & N)].
  - exists ks. split; [exact S|exact E].
  - exfalso. apply N. split; [apply cx_key_given|]. split; [exact cx_can_read|exact cx_can_write].
Qed.

(** keys --export /t --keeper VQ. *)
Example c80_applied : let x := cx_keys cx_plain cx_g (ck_export cx_out false) (cx_fs ex_store) in
  result x = Ok tt /\ same_other_files cx_out (cx_fs ex_store) (files x) /\
  stored ex_lib (files x) cx_out ex_pfk (mkInst 5 40 110 80 (firstn 3 ex_keys) [] callOS).
Proof.
  cbv zeta.
  destruct (c80_export ex_lib uni_id ex_dp cx_ds cx_plain cx_g (ck_export cx_out false) (cx_fs ex_store) [] ex_path ex_pfk ex_store
    cx_out cx_out (firstn 3 ex_keys) ex_lib_ok (cx_store_here _) eq_refl eq_refl (cx_out_of _) eq_refl ltac:(vm_compute; discriminate) eq_refl)
    as (F & [(R & _ & S)|[(_ & N & _)|(_ & _ & N)]]).
  - replace (firstn 3 ex_keys) with (filter (key_filter uni_id 7 (ck_export cx_out false)) (i_keys ex_store)) by (vm_compute; reflexivity).
    apply cx_chosen.
  - split; [exact R|]. split; [exact F|exact S].
  - exfalso. apply N. reflexivity.
  - exfalso. apply N. split; [apply cx_key_given|]. split; [exact cx_can_read|]. split; [exact cx_can_write|]. left. reflexivity.
Qed.

(** keys --import: of the keys B, D, C of the file B is to replace the own one, C
    is not, D is new (the case of [c82_nontrivial]). *)
Definition cx_bdc : inst :=
  mkInst 5 40 110 80 [ex_key idB 4 40 [callOS]; ex_key idD 9 40 [callOS]; ex_key idC 5 40 []] [] callVQ.
Lemma cx_bdc_here : store_at ex_lib (cx_typed true) cx_in (cx_put cx_in cx_pw cx_bdc (cx_fs cx_abc)) cx_in cx_pw cx_bdc.
Proof.
  split; [apply cx_in_of|]. split; [split; [discriminate|intros rest H; discriminate]|]. split; [vm_compute; reflexivity|].
  split; [unfold no_zero_setting, cx_bdc; cbn; lia|apply cx_stored].
Qed.
Lemma cx_abc_here : store_at ex_lib (cx_typed true) ex_path (cx_put cx_in cx_pw cx_bdc (cx_fs cx_abc)) ex_path ex_pfk cx_abc.
Proof.
  split; [apply cx_path_of|]. split; [apply cx_plain_path|]. split; [reflexivity|].
  split; [unfold no_zero_setting, cx_abc, ex_inst; cbn; lia|]. exists []. vm_compute. reflexivity.
Qed.
Example c82_applied :
  let f := cx_put cx_in cx_pw cx_bdc (cx_fs cx_abc) in
  let x := cx_keys (cx_run (fun _ => cx_typed true) [Some true; Some false]) cx_g (ck_import cx_in) f in
  exists ks, stored ex_lib (files x) ex_path ex_pfk (set_keys cx_abc ks) /\ distinct_ids (to_upper uni_id) ks /\
    (exists k, In k ks /\ imported_copy uni_id callOS callVQ (ex_key idB 4 40 [callOS]) k) /\
    (exists k, In k ks /\ imported_copy uni_id callOS callVQ (ex_key idD 9 40 [callOS]) k) /\
    In (ex_key idA 3 40 [callVQ]) ks /\ In (ex_key idC 11 40 [callVQ]) ks.
Proof.
  cbv zeta.
  assert (D1 : distinct_ids (to_upper uni_id) (i_keys cx_abc))
    by (unfold distinct_ids, distinct_texts; cbn; repeat constructor; cbn; intuition discriminate).
  assert (D2 : distinct_ids (to_upper uni_id) (i_keys cx_bdc))
    by (unfold distinct_ids, distinct_texts; cbn; repeat constructor; cbn; intuition discriminate).
  destruct (c82_import ex_lib uni_id ex_dp cx_ds (cx_run (fun _ => cx_typed true) [Some true; Some false]) cx_g (ck_import cx_in)
    (cx_put cx_in cx_pw cx_bdc (cx_fs cx_abc)) [] ex_path ex_pfk cx_abc cx_in cx_in cx_pw cx_bdc (i_keys cx_bdc)
    [ex_key idB 4 40 [callOS]; ex_key idC 5 40 []] ex_lib_ok cx_abc_here eq_refl cx_bdc_here D1 D2 eq_refl eq_refl
    ltac:(vm_compute; discriminate) eq_refl) as (_ & [(_ & _ & ks & added & S & D & I & _ & _ & K & A & B & C)|(_ & _ & N)]).
  - cbn [cx_bdc i_keys].
    repeat (apply picked_yes; [split; [reflexivity|apply key_selected_spec; vm_compute; reflexivity]|]). apply picked_nil.
  - cbn [cx_bdc i_keys]. apply picked_yes; [exists (ex_key idB 5 40 [callVQ]); split; [right; left; reflexivity|reflexivity]|].
    apply picked_no. { intros (k0 & [<-|[<-|[<-|[]]]] & H); discriminate H. }
    apply picked_yes; [exists (ex_key idC 11 40 [callVQ]); split; [right; right; left; reflexivity|reflexivity]|]. apply picked_nil.
  - exists ks. split; [exact S|]. split; [exact D|].
    destruct (C 0%nat _ eq_refl) as (b0 & E0 & W0). destruct (C 1%nat _ eq_refl) as (b1 & E1 & W1).
    cbn [cx_run r_answers nth_error] in E0, E1. assert (b0 = true) by congruence. assert (b1 = false) by congruence. subst b0 b1.
    assert (NC : ~ In (ex_key idC 5 40 []) added) by (intros H; apply W1 in H; discriminate).
    split; [apply A, W0; reflexivity|]. split.
    { apply A, B; [right; left; reflexivity|]. intros [H|[H|[]]]; discriminate H. }
    split; apply K.
    + left. reflexivity.
    + intros k H. destruct (I k H) as [<-|[<-|[<-|[]]]]; discriminate.
    + right. right. left. reflexivity.
    + intros k H. destruct (I k H) as [<-|[<-|[<-|[]]]]; [discriminate|discriminate|contradiction].
  - exfalso. apply N. split; [apply cx_key_given|]. split; [split; reflexivity|]. split.
    { split; [reflexivity|]. exists cx_word. split; reflexivity. }
    split; [split; reflexivity|]. split; [split; [reflexivity|split; reflexivity]|].
    intros [|[|j]] H; [exists true; reflexivity|exists false; reflexivity|cbn [length] in H; lia].
Qed.

(** The handover of [c83_nontrivial]. *)
Definition cx_vq : inst := mkInst 5 40 110 80 [ex_key idD 9 40 []] [] callVQ.
Example c83_applied :
  let r := cx_run (fun _ => cx_typed true) [] in let g := mkG None None (Some cx_word) in
  let f := cx_put ex_path cx_pw cx_abc (fun _ => None) in
  let x := cx_keys r g (ck_export cx_out false) f in
  let f2 := fun q => if list_eq_dec Z.eq_dec q cx_in then files x cx_out else cx_fs cx_vq q in
  let y := cx_keys r cx_g (ck_import cx_in) f2 in
  result y = Ok tt /\ exists ks, stored ex_lib (files y) ex_path ex_pfk (set_keys cx_vq ks) /\
    In (ex_key idD 9 40 []) ks /\ exists k, In k ks /\ imported_copy uni_id callVQ callOS (ex_key idB 5 40 [callVQ]) k.
Proof.
  cbv zeta. unfold cx_keys. set (r := cx_run (fun _ => cx_typed true) []).
  set (f := cx_put ex_path cx_pw cx_abc (fun _ => None)).
  set (f2 := fun q => if list_eq_dec Z.eq_dec q cx_in then files (cmd_keys ex_lib uni_id ex_dp cx_ds r (mkG None None (Some cx_word)) (ck_export cx_out false) f []) cx_out
                      else cx_fs cx_vq q).
  assert (P2 : len cx_pw = 32) by (vm_compute; reflexivity).
  assert (D1 : distinct_ids (to_upper uni_id) (i_keys cx_abc))
    by (unfold distinct_ids, distinct_texts; cbn; repeat constructor; cbn; intuition discriminate).
  assert (D2 : distinct_ids (to_upper uni_id) (i_keys cx_vq))
    by (unfold distinct_ids, distinct_texts; cbn; repeat constructor; cbn; intuition discriminate).
  assert (A1 : store_at ex_lib (cx_typed true) ex_path f ex_path cx_pw cx_abc)
    by (apply cx_store_at; [exact P2|unfold no_zero_setting, cx_abc, ex_inst; cbn; lia]).
  assert (A2 : store_at ex_lib (cx_typed true) ex_path f2 ex_path ex_pfk cx_vq).
  { split; [apply cx_path_of|]. split; [apply cx_plain_path|]. split; [reflexivity|].
    split; [unfold no_zero_setting, cx_vq; cbn; lia|]. exists []. vm_compute. reflexivity. }
  assert (E : f2 cx_in = files (cmd_keys ex_lib uni_id ex_dp cx_ds r (mkG None None (Some cx_word)) (ck_export cx_out false) f []) cx_out).
  { unfold f2. destruct (list_eq_dec Z.eq_dec cx_in cx_in); congruence. }
  assert (R : result (cmd_keys ex_lib uni_id ex_dp cx_ds r (mkG None None (Some cx_word)) (ck_export cx_out false) f []) = Ok tt) by (vm_compute; reflexivity).
  assert (F0 : f cx_out = None) by (vm_compute; reflexivity). clearbody f2. clearbody f.
  assert (P3 : plain_path cx_in) by (split; [discriminate|intros rest H; discriminate H]).
  assert (Z0 : 0 <= 0) by lia.
  pose proof (c83_handover ex_lib uni_id ex_dp cx_ds r (mkG None None (Some cx_word)) (ck_export cx_out false) f [] ex_path cx_pw cx_abc
    cx_out cx_out cx_word r cx_g (ck_import cx_in) f2 [] ex_path ex_pfk cx_vq cx_in cx_in ex_lib_ok A1 eq_refl eq_refl (cx_out_of _)
    eq_refl Z0 eq_refl eq_refl) as H. cbv zeta in H.
  destruct (H R (or_introl F0) D1 E (cx_in_of _) P3 A2 eq_refl eq_refl Z0 eq_refl (cx_key_given _) (conj eq_refl eq_refl)
    (conj eq_refl eq_refl) (conj eq_refl (conj eq_refl eq_refl)) eq_refl eq_refl D2)
    as (Y & ks & S & D & I & _ & K).
  - intros k k0 [<-|[<-|[<-|[]]]] [<-|[]] X; discriminate X.
  - split; [exact Y|]. exists ks. split; [exact S|]. split; [apply I; left; reflexivity|]. apply K.
    split; [right; left; reflexivity|]. split; [apply key_selected_spec; vm_compute; reflexivity|].
    split; [reflexivity|apply key_selected_spec; vm_compute; reflexivity].
Qed.

(** keys --delete --yes --id A --new 2 --list. *)
Example c96_applied :
  let o := mkK ex_path true 2 None true None None [] false [idA] false None false false false false false true in
  let x := cx_keys cx_plain cx_g o (cx_fs cx_inst) in
  result x = Ok tt /\
  in_turn (fun o f => cx_keys cx_plain cx_g o f) (cx_fs cx_inst) (one_by_one o) (result x) (files x) (listed x).
Proof.
  cbv zeta. split; [vm_compute; reflexivity|].
  apply (c96_in_turn ex_lib uni_id ex_dp cx_ds cx_plain cx_g
    (mkK ex_path true 2 None true None None [] false [idA] false None false false false false false true) (cx_fs cx_inst) ex_path ex_pfk
    cx_inst ex_lib_ok cx_here (cx_key_given _) cx_can_read eq_refl eq_refl eq_refl).
  - intros file H. discriminate H.
  - intros _. exists (ex_key idA 3 40 [callVQ]). split; [left; reflexivity|left; reflexivity].
Qed.

(** messages --list. *)
Lemma cx_msgs_chosen o i : picked (message_chosen uni_id o) (i_messages i) (filter (msg_filter uni_id o) (i_messages i)).
Proof. apply picked_filter, msg_filter_spec. Qed.
Example c74_applied : let x := cx_messages cx_plain cx_g cm_list (cx_fs ex_store) in
  result x = Ok tt /\ same_files (cx_fs ex_store) (files x) /\
  exists sel w2 w3, Forall2 (tried uni_id 5 ex_keys) (i_messages ex_store) sel /\
    Forall2 (fun m line => exists a, line = a ++ cx_digest (go_string (mplain m) ++ go_string (mcipher m)) /\
      columns [5; 13; w2; w3] [mid m; cx_ds (mdtg m);
        match mrecipients m with [] => str_nil | l => join [44] (map go_string l) end; mfrom m] a) sel (listed x).
Proof.
  cbv zeta.
  destruct (c74_list ex_lib uni_id ex_lb ex_dp cx_ds cx_digest cx_plain cx_g cm_list (cx_fs ex_store) [] ex_path ex_pfk ex_store
    (i_messages ex_store) uni_id_ok ex_lib_ok (cx_store_here _) cx_store_ok ltac:(intros z; vm_compute; reflexivity)) as (F & _ & R & H).
  - intros m [<-|[]]. discriminate.
  - reflexivity.
  - reflexivity.
  - reflexivity.
  - replace (i_messages ex_store) with (filter (msg_filter uni_id cm_list) (i_messages ex_store)) at 2 by (vm_compute; reflexivity).
    apply cx_msgs_chosen.
  - assert (G : result (cmd_messages ex_lib uni_id ex_lb ex_dp cx_ds cx_digest cx_plain cx_g cm_list (cx_fs ex_store) []) = Ok tt)
      by (apply R; split; [apply cx_key_given|exact cx_can_read]).
    split; [exact G|]. split; [exact F|exact (H G)].
Qed.

(** messages --new: one more message, enciphered with unused keys. *)
Example c85_applied : let x := cx_messages cx_plain cx_g cm_new (cx_fs ex_store) in
  result x = Ok tt /\ exists m ks js, shown x = [m] /\
    stored ex_lib (files x) ex_path ex_pfk (set_messages (set_keys ex_store ks) (i_messages ex_store ++ [m])) /\
    mid m <> mid1 /\ freshly_enciphered 5 ex_keys ks m js.
Proof.
  cbv zeta.
  destruct (c85_new ex_lib uni_id ex_lb ex_dp cx_ds cx_digest cx_plain cx_g cm_new (cx_fs ex_store) [] ex_path ex_pfk ex_store
    uni_id_ok ex_lib_ok (cx_store_here _) cx_store_ok eq_refl eq_refl eq_refl)
    as [(R & _ & raw & m & ks & _ & SH & S & _ & _ & N & _ & J)|(H & _)].
  - split; [exact R|].
    assert (F : mfrom m = callOS).
    { assert (E : map mfrom (shown (cx_messages cx_plain cx_g cm_new (cx_fs ex_store))) = [callOS]) by (vm_compute; reflexivity).
      unfold cx_messages in E. rewrite SH in E. cbn [map] in E. congruence. }
    destruct (J ltac:(rewrite F; reflexivity)) as (js & Q). exists m, ks, js.
    split; [exact SH|]. split; [exact S|]. split; [|exact Q]. intros H. apply N. left. symmetry. exact H.
  - exfalso. apply H. vm_compute. reflexivity.
Qed.

(** messages --delete with and without --yes, in a store with two messages. *)
Definition cx_two : inst := set_messages ex_store (i_messages ex_store ++ [mkMsg mid2 [callOS] callVQ 7 [] txt_other [] [] []]).
Lemma cx_two_ok : station_ok cx_two.
Proof. apply station_okb_ok. vm_compute. reflexivity. Qed.
Lemma cx_two_here : store_at ex_lib ex_env ex_path (cx_fs cx_two) ex_path ex_pfk cx_two.
Proof. apply cx_store_at; [reflexivity|]. unfold no_zero_setting, cx_two, ex_store. cbn. lia. Qed.
Example c86_delete_applied : let x := cx_messages cx_plain cx_g (cm_delete [mid2] true) (cx_fs cx_two) in
  exists ms, stored ex_lib (files x) ex_path ex_pfk (set_messages cx_two ms) /\
    forall m, In m ms <-> In m (i_messages cx_two) /\ ~ In (mid m) (vetted_message_ids uni_id [mid2]).
Proof.
  cbv zeta.
  destruct (c86_delete ex_lib uni_id ex_lb ex_dp cx_ds cx_digest cx_plain cx_g (cm_delete [mid2] true) (cx_fs cx_two) [] ex_path ex_pfk
    cx_two uni_id_ok ex_lib_ok cx_two_here cx_two_ok eq_refl eq_refl eq_refl eq_refl) as [(_ & _ & _ & ms & S & E)|(_ & _ & N)].
  - exists ms. split; [exact S|exact E].
  - exfalso. apply N. split; [apply cx_key_given|]. split; [exact cx_can_read|exact cx_can_write].
Qed.
(** The first line is picked. *)
Example c86_pick_applied : let x := cx_messages cx_plain cx_g (cm_delete [] false) (cx_fs cx_two) in
  exists i', stored ex_lib (files x) ex_path ex_pfk i' /\ messages_only cx_two i' /\
    forall id, In id (map mid (i_messages i')) <-> id = mid2.
Proof.
  cbv zeta.
  destruct (c86_pick ex_lib uni_id ex_lb ex_dp cx_ds cx_digest cx_plain cx_g (cm_delete [] false) (cx_fs cx_two) [] ex_path ex_pfk
    cx_two (i_messages cx_two) uni_id_ok ex_lib_ok cx_two_here cx_two_ok eq_refl eq_refl eq_refl eq_refl)
    as (lines & LL & [(_ & _ & _ & [(N & _)|H])|(_ & _ & N)]).
  - replace (i_messages cx_two) with (filter (msg_filter uni_id (cm_delete [] false)) (i_messages cx_two)) at 2 by (vm_compute; reflexivity).
    apply cx_msgs_chosen.
  - exfalso. discriminate N.
  - destruct lines as [|l1 [|l2 [|l3 lines]]]; try discriminate LL.
    destruct (H [0%nat]) as (i' & S & M & _ & E).
    + apply Forall_cons; [cbn [length]; lia|apply Forall_nil].
    + reflexivity.
    + exists i'. split; [exact S|]. split; [exact M|]. intros id. rewrite E. split.
      * intros ([<-|[<-|[]]] & X); [exfalso|reflexivity]. apply X. exists 0%nat. eexists. split; [left; reflexivity|].
        split; reflexivity.
      * intros ->. split; [right; left; reflexivity|]. intros (j & m & [<-|[]] & Q & I).
        cbn [nth_error i_messages cx_two set_messages ex_store app] in Q. assert (mid m = mid1) by (injection Q as <-; reflexivity).
        rewrite I in H0. discriminate H0.
  - exfalso. apply N. split; [apply cx_key_given|]. split; [exact cx_can_read|]. split; [exact cx_can_write|]. discriminate.
Qed.

(** The history of [c90_nontrivial]: two messages, three keys at least. *)
Example c90_applied : exists f' m1 m2 key' i' new js1 js2,
  session ex_lib uni_id ex_lb ex_dp cx_ds cx_digest ex_path (cx_fs ex_store) cx_session f' [m1; m2] /\
  stored ex_lib f' ex_path key' i' /\
  message 5 (ex_keys ++ new) js1 (map canon (mplain m1)) (mcipher m1) /\
  message 5 (ex_keys ++ new) js2 (map canon (mplain m2)) (mcipher m2) /\ NoDup (js1 ++ js2).
Proof.
  assert (Q : exists f' ms, session ex_lib uni_id ex_lb ex_dp cx_ds cx_digest ex_path (cx_fs ex_store) cx_session f' ms /\
    map mfrom ms = [callOS; callOS]).
  { eexists _, _. split.
    - unfold cx_session.
      do 4 (eapply session_call; [apply cx_call_on; unfold cx_session; cbn; tauto|right; vm_compute; reflexivity|]). apply session_none.
    - vm_compute. reflexivity. }
  destruct Q as (f' & ms & S & X). destruct ms as [|m1 [|m2 [|m3 ms]]]; try discriminate X.
  assert (F1 : mfrom m1 = callOS) by (cbn [map] in X; congruence). assert (F2 : mfrom m2 = callOS) by (cbn [map] in X; congruence).
  destruct (c90_history ex_lib uni_id ex_lb ex_dp cx_ds cx_digest ex_path ex_pfk (cx_fs ex_store) cx_session f' [m1; m2] ex_store
    uni_id_ok ex_lib_ok cx_plain_path eq_refl ltac:(unfold no_zero_setting, ex_store; cbn; lia) (cx_stored _ _ _ _) cx_store_ok
    ltac:(vm_compute; discriminate) S) as (key' & i' & new & jss & _ & ST & _ & _ & M & ND & _).
  inversion M as [|? js1 ? ? M1 M']; subst. inversion M' as [|? js2 ? ? M2 M'']; subst. inversion M''; subst.
  exists f', m1, m2, key', i', new, js1, js2. split; [exact S|]. split; [exact ST|].
  split; [apply M1; rewrite F1; reflexivity|]. split; [apply M2; rewrite F2; reflexivity|].
  cbn [concat] in ND. rewrite app_nil_r in ND. exact ND.
Qed.

(** pfk --change --password pw. *)
Example c91_applied : let x := cmd_pfk_change ex_lib uni_id cx_plain cx_g cx_change (cx_fs ex_store) [] in
  result x = Ok tt /\ same_other_files ex_path (cx_fs ex_store) (files x) /\
  stored ex_lib (files x) ex_path (kdf ex_lib cx_word default_salt) ex_store.
Proof.
  cbv zeta.
  destruct (c91_change ex_lib uni_id cx_plain cx_g cx_change (cx_fs ex_store) [] ex_path ex_pfk ex_store ex_lib_ok (cx_store_here _) eq_refl)
    as (_ & [(_ & _ & N)|[(_ & _ & N)|(R & _ & _ & F & key' & (salt & NS & K) & _ & S)]]).
  - exfalso. apply N. split; [apply cx_key_given|]. split; [exact cx_can_read|]. split; [right; reflexivity|].
    split; [|exact cx_can_write]. eexists. exists default_salt. split; reflexivity.
  - exfalso. destruct N as (_ & N). discriminate N.
  - split; [exact R|]. split; [exact F|]. cbn in NS. subst salt. cbn [cx_change po_how] in K. rewrite <- K. exact S.
Qed.

(** initialize --call " OS" --keys 2. *)
Example c92_applied : let x := cmd_initialize ex_lib uni_id ex_dp cx_plain cx_g (cx_init (32 :: callOS)) (fun _ => None) [] in
  result x = Ok tt /\ exists k1 k2 cs, stored ex_lib (files x) ex_path ex_pfk (mkInst 5 40 110 80 [k1; k2] [] cs) /\
    letters (kid k1) /\ ~ same_text (to_upper uni_id) (kid k1) (kid k2).
Proof.
  cbv zeta.
  destruct (c92_initialize ex_lib uni_id ex_dp cx_plain cx_g (cx_init (32 :: callOS)) (fun _ => None) [] (32 :: callOS) ex_path
    ex_lib_ok uni_id_idem uni_id_space eq_refl eq_refl (cx_path_of _))
    as (_ & [(_ & (N & _) & _)|[(R & _ & _ & _ & key & keys & call' & cs & K & S & _ & _ & N & P & D)|(H & _)]]).
  - exfalso. apply N. reflexivity.
  - split; [exact R|]. destruct keys as [|k1 [|k2 [|k3 keys]]]; try (exfalso; unfold len in N; cbn [length cx_init io_keys] in N; lia).
    exists k1, k2, cs. split.
    + assert (key = ex_pfk) as ->.
      { destruct S as (n & S). assert (E : match files (cmd_initialize ex_lib uni_id ex_dp cx_plain cx_g (cx_init (32 :: callOS)) (fun _ => None) []) ex_path
          with Some c => firstn 32 c | None => [] end = ex_pfk) by (vm_compute; reflexivity).
        rewrite S in E. destruct K as (s0 & _ & _ & LK). unfold complete_file in E. cbn [seal ex_lib] in E. unfold ex_seal in E.
        unfold len in LK. replace 32%nat with (length key) in E by lia.
        rewrite firstn_all, firstn_exact in E. exact E. }
      exact S.
    + destruct (P k1 (or_introl eq_refl)) as (A & _). split; [exact A|]. apply (D [k1] k2 [] eq_refl). left. reflexivity.
  - exfalso. apply H. vm_compute. reflexivity.
Qed.

(** keys --list with a wrong password. *)
Example c95_applied : let x := cx_keys cx_plain (mkG None None (Some cx_word)) ck_list (cx_fs ex_store) in
  result x <> Ok tt /\ same_files (cx_fs ex_store) (files x) /\ shown x = [] /\ listed x = [].
Proof.
  cbv zeta. apply (c95_wrong_key ex_lib uni_id ex_lb ex_dp cx_ds cx_digest
    (mkCall cx_plain (mkG None None (Some cx_word)) (CKeys ck_list)) (cx_fs ex_store) [] ex_path ex_pfk ex_store ex_lib_ok).
  cbn [c_cmd]. split; [apply cx_store_here|]. split; [exact (proj1 c95_nontrivial)|]. left. reflexivity.
Qed.
