(** Several operations in one call of the keys command are done one after the
    other. *)
From Verif Require Import Base Model_Unicode Model_Functions Model_Crand Model_Types Model_Cipher Model_Keys Model_Import
  Model_Messages Model_Station Model_Persist Model_Listing Model_Cli Spec Spec_Persist Spec_Cli Spec_CliSeq Proofs_Functions
  Proofs_KeyOps Proofs_Summary Proofs_Import Proofs_KeyProps Proofs_Station Proofs_Persist Proofs_Cli Proofs_CliRun
  Proofs_CliCmd Proofs_CliOps Proofs_CliMore Proofs_CliSel.

Set Default Proof Using "Type".
Section Seq.
Context (L : lib) (U : Uni) (dp : list rune -> option Z) (ds : Z -> list rune).
Notation keys_cmd := (cmd_keys L U dp ds).

(** Two flows that differ in memory addresses only. *)
Definition sim (p key : list Z) (x y : flow) : Prop :=
  match x, y with
  | GoOn f h s ms, GoOn f' h' s' ms' => f' = f /\ ms = [] /\ ms' = [] /\ ready p key h s /\ ready p key h' s' /\
      st_inst s' = st_inst s /\ stored L f p key (st_inst s) /\ no_zero_setting (st_inst s)
  | Over r f ms out, Over r' f' ms' out' => r' = r /\ f' = f /\ ms' = ms /\ out' = out /\ ms = []
  | _, _ => False
  end.
Lemma sim_go p key f h s h' s' : ready p key h s -> ready p key h' s' -> st_inst s' = st_inst s ->
  stored L f p key (st_inst s) -> no_zero_setting (st_inst s) -> sim p key (Go f h s) (Go f h' s').
Proof. clear U dp ds. intros. cbn. tauto. Qed.
Lemma sim_end p key r f l : sim p key (End r f l) (End r f l).
Proof. clear U dp ds. cbn. tauto. Qed.

Lemma save_same e f h n h' n' key :
  st_path n' = st_path n -> st_over n' = st_over n -> st_inter n' = st_inter n -> st_inst n' = st_inst n ->
  (exists c, st_pfk n = Some c /\ cell h c = key) -> (exists c, st_pfk n' = Some c /\ cell h' c = key) ->
  exists r xs q, save L e f h n = (r, set_path n q, h, xs) /\ save L e f h' n' = (r, set_path n' q, h', xs).
Proof.
  clear U dp ds. intros P O I J (c & C1 & C2) (c' & C1' & C2'). unfold save. rewrite P.
  assert (forall m, set_path m (st_path m) = m) as SP by (intros []; reflexivity).
  destruct (len (st_path n) =? 0).
  { eexists _, _, (st_path n). split; [|rewrite <- P at 1]; rewrite SP; reflexivity. }
  destruct (resolve L e (st_path n)) as [q|].
  2:{ eexists _, _, (st_path n). split; [|rewrite <- P at 1]; rewrite SP; reflexivity. }
  cbv zeta. unfold obtain_key, pfk_bytes. cbn [st_pfk set_path st_over st_inter st_inst]. rewrite C1, C1'.
  cbn [st_pfk set_path st_over st_inter st_inst]. rewrite C1, C1', C2, C2', O, I, J.
  destruct (e_stat_err e); [eexists _, _, q; split; reflexivity|].
  destruct (f q) as [b|].
  - destruct (st_over n).
    + destruct (negb (e_open e)); [eexists _, _, q; split; reflexivity|].
      destruct (array32 key); eexists _, _, q; split; reflexivity.
    + destruct (st_inter n && e_term e); [|eexists _, _, q; split; reflexivity].
      destruct (e_confirm e) as [[|]|]; [|eexists _, _, q; split; reflexivity..].
      destruct (negb (e_open e)); [eexists _, _, q; split; reflexivity|].
      destruct (array32 key); eexists _, _, q; split; reflexivity.
  - destruct (negb (e_open e)); [eexists _, _, q; split; reflexivity|].
    destruct (array32 key); eexists _, _, q; split; reflexivity.
Qed.

Lemma save_sim e f h s h' s' p key : plain_path p -> ready p key h s -> ready p key h' s' -> e_fail e = None ->
  st_inst s' = st_inst s -> no_zero_setting (st_inst s) -> sim p key (save_step L e f h s) (save_step L e f h' s').
Proof.
  clear U dp ds. intros PP RD RD' D J NZ. pose proof RD as (A1 & A2 & A3 & _ & _ & c & C1 & _ & C2).
  pose proof RD' as (B1 & B2 & B3 & _ & _ & c' & C1' & _ & C2').
  destruct (save_same e f h s h' s' key) as (r & xs & q & E1 & E2); try congruence; [exists c; tauto|exists c'; tauto|].
  destruct (save_ready L e f h s p key PP RD D) as [(_ & E)|(_ & f1 & E & ST & _)];
  destruct (save_ready L e f h' s' p key PP RD' D) as [(_ & E')|(_ & f2 & E' & _ & _)]; rewrite E, E';
    unfold save_step in E, E'; rewrite E1 in E; rewrite E2 in E'.
  - apply sim_end.
  - exfalso. destruct r as [[]|x| |]; discriminate.
  - exfalso. destruct r as [[]|x| |]; discriminate.
  - assert (f1 = f2) as <- by (destruct r as [[]|x| |]; try discriminate; unfold Go in *; congruence).
    apply sim_go; assumption.
Qed.

(** An operation does the same on any memory. *)
Definition steady (p key : list Z) (op : fs -> mem -> station -> flow) : Prop :=
  forall f h s h' s', ready p key h s -> ready p key h' s' -> st_inst s' = st_inst s ->
  stored L f p key (st_inst s) -> no_zero_setting (st_inst s) -> sim p key (op f h s) (op f h' s').

Lemma delete1_same ks id : snd (delete_key1 U ks id) = 0 -> fst (delete_key1 U ks id) = ks.
Proof. clear dp ds L. unfold delete_key1. destruct (index_of _ _ _); [discriminate|reflexivity]. Qed.
Lemma delete1_pos ks id : 0 <= snd (delete_key1 U ks id).
Proof. clear dp ds L. unfold delete_key1. destruct (index_of _ _ _); discriminate. Qed.
Lemma delete_pos ids : forall ks, 0 <= snd (delete_key U ks ids).
Proof.
  clear dp ds L. induction ids as [|id ids IH]; intros ks; cbn [delete_key]; [discriminate|].
  pose proof (delete1_pos ks id). destruct (delete_key1 U ks id) as [k1 n1]. specialize (IH k1).
  destruct (delete_key U k1 ids) as [k2 n2]. cbn [snd] in *. lia.
Qed.
Lemma delete_none ids : forall ks, (0 <? snd (delete_key U ks ids)) = false -> fst (delete_key U ks ids) = ks.
Proof.
  clear dp ds L. induction ids as [|id ids IH]; intros ks H; cbn [delete_key] in *; [reflexivity|].
  pose proof (delete1_pos ks id). pose proof (delete1_same ks id). destruct (delete_key1 U ks id) as [k1 n1].
  specialize (IH k1). pose proof (delete_pos ids k1). destruct (delete_key U k1 ids) as [k2 n2]. cbn [fst snd] in *.
  rewrite IH by lia. apply H1. lia.
Qed.
Lemma delete_lines_none lines : forall ks, (0 <? snd (delete_keys_by_summary U ks lines)) = false ->
  0 <= snd (delete_keys_by_summary U ks lines) /\ fst (delete_keys_by_summary U ks lines) = ks.
Proof.
  clear dp ds L.
  assert (forall lines ks, 0 <= snd (delete_keys_by_summary U ks lines)) as POS.
  { clear. induction lines as [|l lines IH]; intros ks; cbn [delete_keys_by_summary]; [discriminate|].
    unfold delete_key_by_string. pose proof (delete_pos (vetted_keepers U [cut_space l]) ks).
    destruct (delete_key U ks _) as [k1 n1]. specialize (IH k1). destruct (delete_keys_by_summary U k1 lines). cbn [snd] in *. lia. }
  intros ks H. split; [apply POS|]. revert ks H.
  induction lines as [|l lines IH]; intros ks H; cbn [delete_keys_by_summary] in *; [reflexivity|].
  unfold delete_key_by_string in *. pose proof (delete_pos (vetted_keepers U [cut_space l]) ks).
  pose proof (delete_none (vetted_keepers U [cut_space l]) ks).
  destruct (delete_key U ks _) as [k1 n1]. specialize (IH k1). specialize (POS lines k1).
  destruct (delete_keys_by_summary U k1 lines) as [k2 n2]. cbn [fst snd] in *. rewrite IH by lia. apply H1. lia.
Qed.

Lemma finish_sim e f h s h' s' p key ks n : plain_path p -> ready p key h s -> ready p key h' s' -> e_fail e = None ->
  st_inst s' = st_inst s -> stored L f p key (st_inst s) -> no_zero_setting (st_inst s) ->
  ((0 <? n) = false -> ks = i_keys (st_inst s)) ->
  sim p key
    (if 0 <? n then save_step L e f h (set_inst s (set_keys (st_inst s) ks)) else Go f h (set_inst s (set_keys (st_inst s) ks)))
    (if 0 <? n then save_step L e f h' (set_inst s' (set_keys (st_inst s) ks)) else Go f h' (set_inst s' (set_keys (st_inst s) ks))).
Proof.
  clear U dp ds. intros PP RD RD' D J ST NZ N. destruct (0 <? n).
  - apply save_sim; try assumption; try reflexivity. 
  - rewrite (N eq_refl). assert (set_keys (st_inst s) (i_keys (st_inst s)) = st_inst s) as E by (destruct (st_inst s); reflexivity).
    rewrite E. apply sim_go; try assumption; reflexivity.
Qed.

Lemma delete_steady p key r o : plain_path p -> disk_ok (r_env r 1) -> steady p key (keys_delete L U ds r o).
Proof.
  clear dp. intros PP D f h s h' s' RD RD' J ST NZ. unfold keys_delete. rewrite J. cbv zeta.
  destruct (negb (ko_delete o)); [apply sim_go; assumption|].
  destruct (len (i_keys (st_inst s)) =? 0); [apply sim_end|].
  destruct (ko_yes o).
  - apply finish_sim; try assumption. intros Z0. apply delete_none, Z0.
  - destruct (len (snd (summary_of_keys _ _ _ _)) =? 0); [apply sim_end|].
    destruct (r_pick r _) as [lines|]; [|apply sim_end].
    apply finish_sim; try assumption. intros Z0. apply delete_lines_none, Z0.
Qed.

Lemma new_steady p key r o : plain_path p -> disk_ok (r_env r 2) -> steady p key (keys_new L U dp r o).
Proof.
  clear ds. intros PP D f h s h' s' RD RD' J ST NZ. unfold keys_new. rewrite J.
  destruct (negb (0 <? ko_new o)); [apply sim_go; assumption|].
  destruct (generate_keys U _ _ _ _ _ _) as [[i t]|x| |] eqn:E; try apply sim_end.
  apply save_sim; try assumption; [reflexivity|].
  pose proof (kc_generate _ _ _ (keys_only_closed U) _ _ _ _ _ _ _ _ E) as (K & _). cbn [st_inst set_inst]. rewrite K. exact NZ.
Qed.

Lemma load_same e f h s h' s' a salt : st_path s' = st_path s -> st_inter s' = st_inter s -> st_inst s' = st_inst s ->
  st_pfk s = None -> st_pfk s' = None ->
  (exists c, st_salt s = Some c /\ cell h c = salt) -> (exists c, st_salt s' = Some c /\ cell h' c = salt) ->
  match load L e f h a s, load L e f h' a s' with
  | (r, t, _), (r', t', _) => r' = r /\ st_inst t' = st_inst t
  end.
Proof.
  clear U dp ds. intros P I J N N' (c & C1 & C2) (c' & C1' & C2'). unfold load. rewrite P.
  destruct (len (st_path s) =? 0); [split; [reflexivity|exact J]|].
  destruct (resolve L e (st_path s)) as [q|]; [|split; [reflexivity|exact J]]. cbv zeta.
  destruct (e_stat_err e); [split; [reflexivity|exact J]|]. destruct (f q) as [b|]; [|split; [reflexivity|exact J]].
  unfold obtain_key, derive_pfk. cbn [st_pfk set_path st_inter st_salt]. rewrite N, N', I, C1, C1'.
  destruct (st_inter s && e_term e); [|split; [reflexivity|exact J]].
  destruct (e_password e) as [w|]; [|split; [reflexivity|exact J]]. rewrite C2, C2'.
  destruct (len salt <? 32); [split; [reflexivity|exact J]|]. cbn [alloc].
  destruct (negb (e_open e)); [split; [reflexivity|exact J]|].
  unfold pfk_bytes. cbn [st_pfk set_pfk]. rewrite !(proj2 (cell_last _ _)).
  destruct (array32 (kdf L w salt)); [|split; [reflexivity|exact J]].
  destruct (unseal L l b); [|split; [reflexivity|exact J]]. destruct (decode L l0); [|split; [reflexivity|exact J]].
  split; [reflexivity|]. cbn [st_inst set_over set_inst set_pfk set_path]. rewrite J. reflexivity.
Qed.

Lemma import_steady p key r o : plain_path p -> disk_ok (r_env r 4) -> steady p key (keys_import L U r o).
Proof.
  clear dp ds. intros PP D f h s h' s' RD RD' J ST NZ. unfold keys_import.
  destruct (ko_import o) as [file|]; [|apply sim_go; assumption]. destruct (len file =? 0); [apply sim_end|].
  destruct (import_station L U (r_env r 3) f h s _ _ _ _) as [[[x n] s1] h1] eqn:E.
  destruct (import_station L U (r_env r 3) f h' s' _ _ _ _) as [[[x' n'] s1'] h1'] eqn:E'.
  destruct (import_ready L U p key _ _ _ _ _ _ _ _ _ _ _ _ RD (proj1 (plain_opts_no_pfk file true)) (proj2 (plain_opts_no_pfk file true)) E) as (RD1 & _).
  destruct (import_ready L U p key _ _ _ _ _ _ _ _ _ _ _ _ RD' (proj1 (plain_opts_no_pfk file true)) (proj2 (plain_opts_no_pfk file true)) E') as (RD1' & _).
  assert (x' = x /\ (x = Ok tt -> st_inst s1' = st_inst s1 /\ no_zero_setting (st_inst s1))) as (-> & K).
  { unfold import_station in E, E'. rewrite new_plain in E, E'.
    pose proof (load_same (r_env r 3) f (h ++ [default_salt]) (mkSt file None (Some (length h)) false true false fresh_inst)
      (h' ++ [default_salt]) (mkSt file None (Some (length h')) false true false fresh_inst) new_arrays default_salt
      eq_refl eq_refl eq_refl eq_refl eq_refl) as LS.
    specialize (LS (ex_intro _ _ (conj eq_refl (proj2 (cell_last _ _)))) (ex_intro _ _ (conj eq_refl (proj2 (cell_last _ _))))).
    destruct (load L (r_env r 3) f (h ++ [default_salt]) new_arrays _) as [[y t] h2].
    destruct (load L (r_env r 3) f (h' ++ [default_salt]) new_arrays _) as [[y' t'] h2']. destruct LS as (-> & JT).
    destruct y as [[]|e| |]; try (injection E as <- <- <- <-; injection E' as <- <- <- <-; split; [reflexivity|discriminate]).
    destruct RD as (_ & _ & I1 & I2 & _). destruct RD' as (_ & _ & I1' & I2' & _).
    rewrite J, JT, I1', I2' in E'. rewrite I1, I2 in E.
    pose proof (kc_import _ _ _ (keys_only_closed U) I (st_inst s) false (true && e_term (r_env r 3)) (key_filter U (r_now r) o) (st_inst t) (r_answers r)) as (KO & _).
    destruct (import_keys U _ _ _ _ _ _) as [[i' m] z]. cbn [fst] in KO.
    destruct (wipe_station h2 t _) as [[a b] c]. destruct (wipe_station h2' t' _) as [[a' b'] c'].
    injection E as <- <- <- <-. injection E' as <- <- <- <-. split; [reflexivity|]. intros _. split; [reflexivity|].
    cbn [st_inst set_inst]. rewrite KO. exact NZ. }
  destruct x as [[]|y| |]; try apply sim_end. destruct (K eq_refl) as (K1 & K2). apply save_sim; assumption.
Qed.

Lemma export_steady p key r o : plain_path p -> export_elsewhere L r o p -> steady p key (keys_export L U r o).
Proof.
  clear dp ds. intros PP EX f h s h' s' RD RD' J ST NZ. unfold keys_export.
  destruct (ko_export o) as [file|] eqn:OE; [|apply sim_go; assumption]. destruct (len file =? 0) eqn:FN; [apply sim_end|].
  pose proof RD as (_ & _ & I1 & _ & LK & c & C1 & C2 & C3). pose proof RD' as (_ & _ & I1' & _ & _ & c' & C1' & C2' & C3').
  destruct (export_station U h s _ _) as [n g] eqn:E. destruct (export_station U h' s' _ _) as [n' g'] eqn:E'.
  destruct (export_path U _ _ _ _ _ _ _ E) as (P1 & P2 & P3 & P4 & P5 & q & Q1 & Q2 & Q3).
  destruct (export_path U _ _ _ _ _ _ _ E') as (P1' & P2' & P3' & P4' & P5' & q' & Q1' & Q2' & Q3').
  destruct (export_grows U _ _ _ _ _ _ E) as (l & ->). destruct (export_grows U _ _ _ _ _ _ E') as (l' & ->).
  assert (byte_copy (option_map (cell h') (st_pfk s')) = byte_copy (option_map (cell h) (st_pfk s))) as BC
    by (rewrite C1, C1'; cbn [option_map]; congruence).
  destruct (save_same (r_env r 5) f (h ++ l) n (h' ++ l') n' (byte_copy (option_map (cell h) (st_pfk s)))) as (y & xs & z & E1 & E2);
    try congruence; [exists q; tauto|exists q'; split; [exact Q1'|congruence]|].
  unfold save_step. rewrite E1, E2. destruct y as [[]|y| |]; try apply sim_end. rewrite !andthen_go.
  destruct (save_else_lemma L _ _ _ _ _ _ _ _ E1) as (_ & OTH).
  apply sim_go; [apply ready_grow, RD|apply ready_grow, RD'|exact J| |exact NZ].
  destruct ST as (no & ST). exists no. rewrite <- ST. apply OTH. unfold file_name. rewrite P1. exact (EX file OE).
Qed.

Definition op_of (n : nat) (r : run) (o : kopts) : fs -> mem -> station -> flow :=
  match n with
  | 0%nat => keys_delete L U ds r o | 1%nat => keys_new L U dp r o | 2%nat => keys_import L U r o
  | 3%nat => keys_export L U r o | _ => keys_list U ds r o
  end.
Definition nth_only (n : nat) (o : kopts) : kopts :=
  match n with
  | 0%nat => only o (ko_delete o) 0 None None false | 1%nat => only o false (ko_new o) None None false
  | 2%nat => only o false 0 (ko_import o) None false | 3%nat => only o false 0 None (ko_export o) false
  | _ => only o false 0 None None (ko_list o)
  end.

Definition alike (x y : flow) : Prop := result x = result y /\ files x = files y /\ listed x = listed y.

Lemma idle_op n r o f h s : keys_idle (nth_only n o) = true -> op_of n r o f h s = Go f h s.
Proof.
  unfold keys_idle. destruct n as [|[|[|[|n]]]]; cbn [nth_only op_of ko_list ko_delete ko_new ko_import ko_export only]; intros E.
  - apply no_delete. destruct (ko_delete o); [discriminate|reflexivity].
  - apply no_new. destruct (ko_new o =? 0) eqn:N; [lia|discriminate].
  - apply no_import. destruct (ko_import o); [discriminate|reflexivity].
  - apply no_export. destruct (ko_export o); [discriminate|reflexivity].
  - unfold keys_list. destruct (ko_list o); [discriminate|reflexivity].
Qed.
Lemma list_steady p key r o : steady p key (keys_list U ds r o).
Proof.
  clear dp. intros f h s h' s' RD RD' J ST NZ. unfold keys_list. rewrite J.
  destruct (negb (ko_list o)); [apply sim_go; assumption|apply sim_end].
Qed.
Lemma op_steady p key n r o : plain_path p -> disk_ok (r_env r 1) -> disk_ok (r_env r 2) -> disk_ok (r_env r 4) ->
  export_elsewhere L r o p -> steady p key (op_of n r o).
Proof.
  intros. destruct n as [|[|[|[|n]]]]; [apply delete_steady|apply new_steady|apply import_steady|apply export_steady|apply list_steady];
    assumption.
Qed.
Lemma sim_alike p key x y : sim p key x y -> alike x y.
Proof. clear U dp ds. destruct x, y; cbn; unfold alike; cbn; try tauto; intros H; decompose [and] H; subst; tauto. Qed.

Lemma only_same n r o : op_of n r (nth_only n o) = op_of n r o.
Proof. destruct n as [|[|[|[|n]]]]; reflexivity. Qed.
Lemma andthen_same x k : (forall f h s, k f h s = Go f h s) -> andthen x k = x.
Proof. clear. intros K. destruct x; cbn [andthen]; [rewrite K; cbn [show Go]; rewrite app_nil_r|]; reflexivity. Qed.

(** One operation alone, on the files as they are. *)
Lemma single r g n o f h s p key i : lib_ok L -> store_at L (r_env r 0) (ko_file o) f p key i ->
  key_given L (r_env r 0) g key -> can_read (r_env r 0) ->
  disk_ok (r_env r 1) -> disk_ok (r_env r 2) -> disk_ok (r_env r 4) -> export_elsewhere L r o p ->
  ready p key h s -> st_inst s = i -> (n < 5)%nat ->
  alike (keys_cmd r g (nth_only n o) f []) (op_of n r o f h s).
Proof.
  intros HL SA KG CR D1 D2 D4 EX RD J N. pose proof SA as (_ & PP & _ & NZ & ST).
  destruct (keys_idle (nth_only n o)) eqn:NI.
  { unfold cmd_keys. rewrite NI, (idle_op n) by exact NI. unfold alike. cbn. tauto. }
  assert (ko_file (nth_only n o) = ko_file o) as KF by (destruct n as [|[|[|[|n]]]]; reflexivity).
  rewrite <- KF in SA.
  destruct (keys_open L U dp ds r g (nth_only n o) f [] p key i HL NI SA) as [(e & _ & _ & NO)|(_ & _ & h1 & s1 & salt & RD1 & J1 & _ & _ & ->)];
    [tauto|].
  assert (alike (op_of n r o f h1 s1) (op_of n r o f h s)) as A.
  { eapply sim_alike, (op_steady p key); try assumption; [congruence|rewrite J1; exact ST|rewrite J1; exact NZ]. }
  assert (alike (op_of n r (nth_only n o) f h1 s1) (op_of n r o f h s)) as A' by (rewrite only_same; exact A).
  clear A. rename A' into A.
  destruct n as [|[|[|[|[|n]]]]]; [..|lia]; cbn [op_of nth_only] in *.
  - rewrite andthen_same; [exact A|]. intros. rewrite no_new, andthen_go, no_import, andthen_go, no_export, andthen_go by (reflexivity || discriminate). reflexivity.
  - rewrite no_delete, andthen_go by reflexivity. rewrite andthen_same; [exact A|]. intros.
    rewrite no_import, andthen_go, no_export, andthen_go by reflexivity. reflexivity.
  - rewrite no_delete, andthen_go, no_new, andthen_go by (reflexivity || discriminate). rewrite andthen_same; [exact A|]. intros.
    rewrite no_export, andthen_go by reflexivity. reflexivity.
  - rewrite no_delete, andthen_go, no_new, andthen_go, no_import, andthen_go by (reflexivity || discriminate).
    rewrite andthen_same; [exact A|]. reflexivity.
  - rewrite no_delete, andthen_go, no_new, andthen_go, no_import, andthen_go, no_export, andthen_go by (reflexivity || discriminate). exact A.
Qed.

Definition unstopped (x : flow) : Prop := match x with Over r _ _ out => r <> Ok tt /\ out = [] | _ => True end.
Lemma save_unstopped e f h s : unstopped (save_step L e f h s).
Proof. clear. unfold save_step. destruct (save L e f h s) as [[[[[]|x| |] a] b] c]; cbn; (exact I || (split; [discriminate|reflexivity])). Qed.
Lemma new_unstopped r o f h s : unstopped (keys_new L U dp r o f h s).
Proof.
  unfold keys_new. destruct (negb _); [exact I|].
  destruct (generate_keys U _ _ _ _ _ _) as [[i t]|x| |]; [apply save_unstopped|..]; (split; [discriminate|reflexivity]).
Qed.
Lemma import_unstopped r o f h s : unstopped (keys_import L U r o f h s).
Proof.
  unfold keys_import. destruct (ko_import o) as [file|]; [|exact I]. destruct (len file =? 0); [split; [discriminate|reflexivity]|].
  destruct (import_station L U _ _ _ _ _ _ _ _) as [[[[[]|x| |] n] s1] h1]; [apply save_unstopped|..]; (split; [discriminate|reflexivity]).
Qed.
Lemma export_unstopped r o f h s : unstopped (keys_export L U r o f h s).
Proof.
  unfold keys_export. destruct (ko_export o) as [file|]; [|exact I]. destruct (len file =? 0); [split; [discriminate|reflexivity]|].
  destruct (export_station U _ _ _ _) as [n h1].
  pose proof (save_unstopped (r_env r 5) f h1 n) as X. destruct (save_step L _ _ _ _); [exact I|exact X].
Qed.

Lemma delete_unstopped r o f h s : deletes U r o (st_inst s) -> unstopped (keys_delete L U ds r o f h s).
Proof.
  intros H. unfold keys_delete. destruct (ko_delete o) eqn:D; [|exact I]. cbn [negb]. destruct (H D) as (k & IN & S).
  cbv zeta. destruct (len (i_keys (st_inst s)) =? 0) eqn:N.
  { exfalso. destruct (i_keys (st_inst s)); [exact IN|]. rewrite len_cons in N. pose proof (len_nonneg _ l). lia. }
  assert (forall ks m, unstopped (if 0 <? m then save_step L (r_env r 1) f h (set_inst s (set_keys (st_inst s) ks))
     else Go f h (set_inst s (set_keys (st_inst s) ks)))) as U1
    by (intros ks m; destruct (0 <? m); [apply save_unstopped|exact I]).
  destruct (ko_yes o); [apply U1|].
  destruct (len (snd (summary_of_keys _ _ _ _)) =? 0) eqn:M.
  { exfalso. revert M. unfold summary_of_keys. cbn [snd]. intros M. destruct S as [S|S]; [discriminate|].
    apply key_selected_spec in S. assert (In k (filter (key_filter U (r_now r) o) (i_keys (st_inst s)))) as IF
      by (apply filter_In; split; assumption).
    destruct (filter _ _) as [|k0 l0]; [exact IF|]. cbn [map] in M. rewrite len_cons in M.
    pose proof (len_nonneg _ (map (summary_line ds (predict_column_sizes (i_groupsize (st_inst s)) (k0 :: l0))) l0)). lia. }
  destruct (r_pick r _); [apply U1|split; [discriminate|reflexivity]].
Qed.

Lemma turn_step run f o os x y k p key : unstopped x -> alike (run o f) x -> sim p key x y ->
  (forall f' h' s', x = Go f' h' s' -> ready p key h' s' -> stored L f' p key (st_inst s') -> no_zero_setting (st_inst s') ->
     in_turn run f' os (result (k f' h' s')) (files (k f' h' s')) (listed (k f' h' s'))) ->
  in_turn run f (o :: os) (result (andthen x k)) (files (andthen x k)) (listed (andthen x k)).
Proof.
  clear U dp ds. intros UN (A1 & A2 & A3) SM K. destruct x as [f' h' s' ms|r f' ms out].
  - destruct y; [|destruct SM]. destruct SM as (_ & -> & _ & R1 & _ & _ & S1 & Z1). fold (Go f' h' s') in *. rewrite andthen_go.
    rewrite <- (app_nil_l (listed (k f' h' s'))). change [] with (listed (Go f' h' s')). rewrite <- A3. 
    apply turn_done; [exact A1|]. rewrite A2. cbn [files Go]. apply K; [reflexivity|assumption..].
  - cbn [andthen]. cbn [result files listed] in *. rewrite <- A1, <- A2, <- A3. apply turn_error. rewrite A1. apply UN.
Qed.

Lemma seq_lemma r g o f p key i : lib_ok L -> store_at L (r_env r 0) (ko_file o) f p key i ->
  key_given L (r_env r 0) g key -> can_read (r_env r 0) ->
  disk_ok (r_env r 1) -> disk_ok (r_env r 2) -> disk_ok (r_env r 4) -> export_elsewhere L r o p -> deletes U r o i ->
  let x := keys_cmd r g o f [] in
  in_turn (fun o f => keys_cmd r g o f []) f (one_by_one o) (result x) (files x) (listed x).
Proof.
  intros HL SA KG CR D1 D2 D4 EX DL. cbv zeta.
  assert (forall n f h s, (n < 5)%nat -> ready p key h s -> stored L f p key (st_inst s) -> no_zero_setting (st_inst s) ->
     alike (keys_cmd r g (nth_only n o) f []) (op_of n r o f h s) /\ sim p key (op_of n r o f h s) (op_of n r o f h s)) as ONE.
  { intros n f0 h0 s0 N RD ST NZ. split.
    - eapply single; try eassumption; [|reflexivity]. destruct SA as (P1 & P2 & P3 & _). split; [exact P1|]. split; [exact P2|]. tauto.
    - apply op_steady; try assumption; try reflexivity. apply SA. }
  destruct (keys_idle o) eqn:NI.
  { unfold cmd_keys at 2 3 4. rewrite NI.
    assert (forall n, (n < 5)%nat -> keys_cmd r g (nth_only n o) f [] = End (Ok tt) f []) as ID.
    { intros n N. unfold cmd_keys. replace (keys_idle (nth_only n o)) with true; [reflexivity|]. symmetry. revert NI. unfold keys_idle.
      destruct n as [|[|[|[|[|n]]]]]; [..|lia]; cbn [nth_only only ko_list ko_delete ko_new ko_import ko_export];
      destruct (ko_list o), (ko_delete o), (ko_new o =? 0), (ko_import o), (ko_export o); (discriminate || reflexivity). }
    cbn [result files listed End].
    assert (forall n os, (n < 5)%nat -> in_turn (fun o f => keys_cmd r g o f []) f os (Ok tt) f [] ->
      in_turn (fun o f => keys_cmd r g o f []) f (nth_only n o :: os) (Ok tt) f []) as T.
    { intros n os N H. pose proof (turn_done (fun o f => keys_cmd r g o f []) f (nth_only n o) os (Ok tt) f []) as X. cbv beta in X.
      rewrite (ID n N) in X. cbn [result files listed End app] in X. exact (X eq_refl H). }
    apply (T 0%nat), (T 1%nat), (T 2%nat), (T 3%nat), (T 4%nat), turn_none; lia. }
  destruct (keys_open L U dp ds r g o f [] p key i HL NI SA) as [(e & _ & _ & NO)|(_ & _ & h1 & s1 & salt & RD1 & J1 & _ & _ & ->)];
    [tauto|].
  destruct SA as (_ & PP & _ & NZ & ST). rewrite <- J1 in ST, NZ, DL.
  destruct (ONE 0%nat f h1 s1 ltac:(lia) RD1 ST NZ) as (A0 & B0). cbn [op_of] in A0, B0.
  eapply turn_step; [apply delete_unstopped, DL|exact A0|exact B0|].
  clear RD1 ST NZ A0 B0. intros f1 h11 s11 _ RD1 ST NZ. destruct (ONE 1%nat f1 h11 s11 ltac:(lia) RD1 ST NZ) as (A0 & B0). cbn [op_of] in A0, B0.
  eapply turn_step; [apply new_unstopped|exact A0|exact B0|].
  clear RD1 ST NZ A0 B0. intros f2 h21 s21 _ RD1 ST NZ. destruct (ONE 2%nat f2 h21 s21 ltac:(lia) RD1 ST NZ) as (A0 & B0). cbn [op_of] in A0, B0.
  eapply turn_step; [apply import_unstopped|exact A0|exact B0|].
  clear RD1 ST NZ A0 B0. intros f3 h31 s31 _ RD1 ST NZ. destruct (ONE 3%nat f3 h31 s31 ltac:(lia) RD1 ST NZ) as (A0 & B0). cbn [op_of] in A0, B0.
  eapply turn_step; [apply export_unstopped|exact A0|exact B0|].
  clear RD1 ST NZ A0 B0. intros f4 h41 s41 _ RD1 ST NZ. destruct (ONE 4%nat f4 h41 s41 ltac:(lia) RD1 ST NZ) as ((A1 & A2 & A3) & _). cbn [op_of] in A1, A2, A3.
  destruct (list_end U ds r o f4 h41 s41) as (L1 & L2 & _). rewrite <- A1, <- A2, <- A3.
  rewrite <- (app_nil_r (listed _)). apply (turn_done (fun o f => keys_cmd r g o f [])); [rewrite A1; exact L2|].
  rewrite A1, L2. apply turn_none.
Qed.
End Seq.
