(** Lemmas about the command line program: the keys command. *)
From Coq Require Import Permutation.
From Verif Require Import Base Model_Unicode Model_Functions Model_Crand Model_Types Model_Cipher Model_Keys Model_Import
  Model_Messages Model_Station Model_Persist Model_Listing Model_Cli Spec Spec_Persist Spec_Cli Proofs_Functions
  Proofs_KeyOps Proofs_Summary Proofs_Import Proofs_KeyProps Proofs_Station Proofs_Persist Proofs_Cli Proofs_CliRun.

Lemma show_nil x : show [] x = x.
Proof. destruct x; reflexivity. Qed.
Lemma files_show ms x : files (show ms x) = files x.
Proof. destruct x; reflexivity. Qed.
Lemma result_show ms x : result (show ms x) = result x.
Proof. destruct x; reflexivity. Qed.
Lemma listed_show ms x : listed (show ms x) = listed x.
Proof. destruct x; reflexivity. Qed.
Lemma shown_show ms x : shown (show ms x) = ms ++ shown x.
Proof. destruct x; reflexivity. Qed.

Set Default Proof Using "Type".
Section Cmd.
Implicit Type R : inst -> inst -> Prop.
Context (L : lib) (U : Uni) (lb : list rune -> list rune) (dp : list rune -> option Z)
  (ds : Z -> list rune) (dg : list rune -> list rune).

(** A command, or part of one, that started with files [f0] and store [i0]:
    the file [p] is as it was or holds a store that [R] allows, of the other
    files those in [Q] are unchanged. *)
Definition follows (p key : list Z) (R : inst -> inst -> Prop) (Q : list rune -> Prop) (f0 : fs) (i0 : inst)
    (x : flow) : Prop :=
  (forall q, q <> p -> Q q -> files x q = f0 q) /\
  (files x p = f0 p \/ exists i', R i0 i' /\ stored L (files x) p key i') /\
  match x with
  | GoOn _ h s _ => ready p key h s /\ R i0 (st_inst s)
  | Over _ _ _ _ => True
  end.

Lemma follows_show p key R Q f0 i0 ms x : follows p key R Q f0 i0 x -> follows p key R Q f0 i0 (show ms x).
Proof. destruct x; exact (fun H => H). Qed.
Lemma follows_andthen p key (R : inst -> inst -> Prop) Q f0 i0 x k : (forall a b c, R a b -> R b c -> R a c) ->
  follows p key R Q f0 i0 x ->
  (forall f h s, ready p key h s -> follows p key R Q f (st_inst s) (k f h s)) ->
  follows p key R Q f0 i0 (andthen x k).
Proof.
  intros T H K. destruct x as [f h s ms|r f ms out]; cbn [andthen]; [|exact H].
  destruct H as (H1 & H2 & H3 & H4). cbn [files] in *. destruct (K f h s H3) as (K1 & K2 & K3).
  apply follows_show. split; [|split].
  - intros q N QQ. rewrite (K1 q N QQ). exact (H1 q N QQ).
  - destruct K2 as [K2|(i' & R1 & S1)].
    + destruct H2 as [H2|(i' & R1 & (n & S1))]; [left; congruence|]. right. exists i'. split; [exact R1|]. exists n. congruence.
    + right. exists i'. split; [exact (T _ _ _ H4 R1)|exact S1].
  - destruct (k f h s); [|exact I]. destruct K3 as (K3 & K4). split; [exact K3|exact (T _ _ _ H4 K4)].
Qed.
Lemma follows_end p key R Q f i r out : follows p key R Q f i (End r f out).
Proof. split; [reflexivity|]. split; [left; reflexivity|exact I]. Qed.
Lemma follows_go p key (R : inst -> inst -> Prop) Q f h s i0 : ready p key h s -> R i0 (st_inst s) ->
  follows p key R Q f i0 (Go f h s).
Proof. intros A B. split; [reflexivity|]. split; [left; reflexivity|]. split; assumption. Qed.
Lemma follows_save p key (R : inst -> inst -> Prop) Q e f h s i0 : plain_path p -> ready p key h s -> disk_ok e ->
  R i0 (st_inst s) -> follows p key R Q f i0 (save_step L e f h s).
Proof.
  intros PP RD D RR.
  destruct (save_ready L e f h s p key PP RD D) as [(_ & ->)|(_ & f' & -> & ST & O)]; [apply follows_end|].
  split; [intros q N _; exact (O q N)|]. split; [right; exists (st_inst s); split; assumption|]. split; assumption.
Qed.

(** ** The steps of the keys command *)
Record keys_closed (imp : Prop) (R : inst -> inst -> Prop) : Prop := mkKC {
  kc_refl : forall i, R i i;
  kc_trans : forall a b c, R a b -> R b c -> R a c;
  kc_delete : forall i ids, R i (set_keys i (fst (delete_key U (i_keys i) ids)));
  kc_generate : forall i n now e kp t i' t', generate_keys U i n now e kp t = Ok (i', t') -> R i i';
  kc_import : imp -> forall i ow ask flt inc ans, R i (fst (fst (import_keys U i ow ask flt inc ans)))
}.

Lemma delete_step imp p key R Q r o f h s : keys_closed imp R -> plain_path p -> disk_ok (r_env r 1) -> ready p key h s ->
  follows p key R Q f (st_inst s) (keys_delete L U ds r o f h s).
Proof.
  intros KC PP D RD. unfold keys_delete. destruct (negb (ko_delete o)); [apply follows_go; [exact RD|apply (kc_refl _ _ KC)]|].
  cbv zeta. destruct (len (i_keys (st_inst s)) =? 0); [apply follows_end|].
  assert (forall ids, follows p key R Q f (st_inst s)
    (if 0 <? snd (delete_key U (i_keys (st_inst s)) ids)
     then save_step L (r_env r 1) f h (set_inst s (set_keys (st_inst s) (fst (delete_key U (i_keys (st_inst s)) ids))))
     else Go f h (set_inst s (set_keys (st_inst s) (fst (delete_key U (i_keys (st_inst s)) ids)))))) as FIN.
  { intros ids. destruct (0 <? _).
    - apply follows_save; [exact PP|exact RD|exact D|]. apply (kc_delete _ _ KC).
    - apply follows_go; [exact RD|]. apply (kc_delete _ _ KC). }
  destruct (ko_yes o); [apply FIN|]. destruct (len _ =? 0); [apply follows_end|].
  destruct (r_pick r _) as [picked|]; [|apply follows_end]. rewrite summary_delete. apply FIN.
Qed.

Lemma new_step imp p key R Q r o f h s : keys_closed imp R -> plain_path p -> disk_ok (r_env r 2) -> ready p key h s ->
  follows p key R Q f (st_inst s) (keys_new L U dp r o f h s).
Proof.
  intros KC PP D RD. unfold keys_new. destruct (negb (0 <? ko_new o)); [apply follows_go; [exact RD|apply (kc_refl _ _ KC)]|].
  destruct (generate_keys _ _ _ _ _ _ _) as [[i t']|e| |] eqn:E; try apply follows_end.
  apply follows_save; [exact PP|exact RD|exact D|]. apply (kc_generate _ _ KC _ _ _ _ _ _ _ _ E).
Qed.

Lemma import_ready p key e f h s flt opts ans t r n s' h' : ready p key h s ->
  (forall q, ~ In (WithPFK (Some q)) opts) -> (forall q, ~ In (WithSalt (Some q)) opts) ->
  import_station L U e f h s flt opts ans t = (r, n, s', h') -> ready p key h' s' /\
  (st_salt s' = st_salt s) /\ (forall c, (c < length h)%nat -> cell h' c = cell h c).
Proof.
  intros RD O1 O2 E. pose proof RD as (A & B & C & D & LK & q & Q1 & Q2 & Q3).
  assert (forall c, (c < length h)%nat -> cell h' c = cell h c) as ME
    by (intros c HC; exact (import_memory L _ _ _ _ _ _ _ _ _ _ _ _ _ c E HC (O1 c) (O2 c))).
  destruct (import_frame L _ _ _ _ _ _ _ _ _ _ _ _ _ E) as (F1 & F2 & F3 & F4 & F5 & F6).
  assert (st_inter s' = st_inter s /\ st_overkeys s' = st_overkeys s) as (G1 & G2).
  { unfold import_station in E. destruct (new_station U h opts) as [inc h1].
    destruct (load L e f h1 new_arrays inc) as [[[[]|x| |] inc'] h2]; try (injection E as <- <- <- <-; split; reflexivity).
    destruct (import_keys U _ _ _ _ _ _) as [[i' m] x]. destruct (wipe_station h2 inc' t) as [[a b] c].
    injection E as <- <- <- <-. split; reflexivity. }
  split; [|split; [exact F2|exact ME]]. split; [congruence|]. split; [congruence|]. split; [congruence|]. split; [congruence|].
  split; [exact LK|]. exists q. split; [congruence|]. rewrite (ME q Q2). split; [|exact Q3].
  destruct (Nat.lt_ge_cases q (length h')) as [Y|Y]; [exact Y|]. exfalso.
  assert (cell h' q = []) as Z0 by (unfold cell; apply nth_overflow, Y). rewrite (ME q Q2), Q3 in Z0.
  rewrite Z0 in LK. discriminate.
Qed.
Lemma plain_opts_no_pfk file b : (forall q, ~ In (WithPFK (Some q)) [WithPersistence file; WithInteractive b]) /\
  (forall q, ~ In (WithSalt (Some q)) [WithPersistence file; WithInteractive b]).
Proof. split; intros q [X|[X|[]]]; discriminate. Qed.

Lemma import_step (imp : Prop) p key R Q r o f h s : keys_closed imp R -> (ko_import o <> None -> imp) -> plain_path p -> disk_ok (r_env r 4) -> ready p key h s ->
  follows p key R Q f (st_inst s) (keys_import L U r o f h s).
Proof.
  intros KC IM PP D RD. unfold keys_import. destruct (ko_import o) as [file|]; [|apply follows_go; [exact RD|apply (kc_refl _ _ KC)]].
  destruct (len file =? 0); [apply follows_end|].
  destruct (import_station _ _ _ _ _ _ _ _ _ _) as [[[x n] s1] h1] eqn:E.
  destruct (import_ready _ _ _ _ _ _ _ _ _ _ _ _ _ _ RD (proj1 (plain_opts_no_pfk file true)) (proj2 (plain_opts_no_pfk file true)) E) as (RD1 & _).
  assert (x = Ok tt -> R (st_inst s) (st_inst s1)) as RR.
  { unfold import_station in E. destruct (new_station U h _) as [inc h2].
    destruct (load L _ f h2 new_arrays inc) as [[[[]|y| |] inc'] h3]; try (intros ->; discriminate).
    pose proof (kc_import _ _ KC (IM ltac:(discriminate)) (st_inst s) (st_overkeys s) (st_inter s && e_term (r_env r 3)) (key_filter U (r_now r) o)
      (st_inst inc') (r_answers r)) as K.
    destruct (import_keys U _ _ _ _ _ _) as [[i' m] y]. destruct (wipe_station h3 inc' _) as [[a b] c].
    injection E as <- <- <- <-. intros _. exact K. }
  destruct x as [[]|y| |]; try apply follows_end. apply follows_save; [exact PP|exact RD1|exact D|apply RR; reflexivity].
Qed.

Lemma export_path h s flt file b n h1 :
  export_station U h s flt [WithPersistence file; WithOverwritePersistenceIfExists b] = (n, h1) ->
  st_path n = file /\ st_over n = b /\ st_inter n = st_inter s /\ st_overkeys n = false /\
  st_inst n = export_keys (st_inst s) flt /\
  exists q, st_pfk n = Some q /\ (q < length h1)%nat /\ cell h1 q = byte_copy (option_map (cell h) (st_pfk s)).
Proof.
  clear lb dp ds dg. unfold export_station. cbn [alloc fold_left apply_opt set_path set_over set_inst st_path st_pfk st_salt st_over st_inter st_overkeys st_inst i_keys i_messages i_groupsize i_keylength i_columns i_keycolumns i_callsign app set_keys].
  intros [=<- <-]. cbn [st_path st_pfk st_salt st_over st_inter st_overkeys st_inst].
  split; [reflexivity|]. split; [reflexivity|]. split; [reflexivity|]. split; [reflexivity|]. split; [reflexivity|].
  exists (length h). split; [reflexivity|]. unfold cell. rewrite <- app_assoc. split.
  - rewrite app_length. cbn [length app]. lia.
  - rewrite app_nth2 by lia. rewrite Nat.sub_diag. reflexivity.
Qed.
Lemma byte_copy_some (l : list Z) : byte_copy (Some l) = l.
Proof. reflexivity. Qed.

Lemma ready_grow p key h l s : ready p key h s -> ready p key (h ++ l) s.
Proof. intros H. apply (ready_mem _ _ _ _ _ H). intros q. apply cell_app. Qed.
Lemma export_grows h s flt opts n h1 : export_station U h s flt opts = (n, h1) -> exists l, h1 = h ++ l.
Proof. intros E. destruct (export_lemma U h s flt opts n h1 E) as (_ & _ & G & _). exact G. Qed.
Lemma save_grows e f h s r s' h' xs : save L e f h s = (r, s', h', xs) -> exists l, h' = h ++ l.
Proof.
  intros E. destruct (save_dec L e f h s) as [(p & key & (N & S & W & K & O))|C].
  - destruct (save_yes L e f h s p key N S W K O) as (s1 & h1 & E1 & _ & _ & _ & _ & G). rewrite E1 in E. injection E as _ _ <- _. exact G.
  - unfold save in E. destruct (len (st_path s) =? 0); [injection E as _ _ <- _; exists []; symmetry; apply app_nil_r|].
    destruct (resolve L e (st_path s)) as [p|]; [|injection E as _ _ <- _; exists []; symmetry; apply app_nil_r].
    cbv zeta in E. destruct (e_stat_err e); [injection E as _ _ <- _; exists []; symmetry; apply app_nil_r|].
    assert (forall r2 s2 h2, obtain_key L e h (set_path s p) = (r2, s2, h2) -> exists l, h2 = h ++ l) as OB.
    { unfold obtain_key, derive_pfk. intros r2 s2 h2. cbn [st_pfk set_path st_inter st_salt].
      destruct (st_pfk s); [intros [=_ _ <-]; exists []; symmetry; apply app_nil_r|].
      destruct (st_inter s && e_term e); [|intros [=_ _ <-]; exists []; symmetry; apply app_nil_r].
      destruct (e_password e); [|intros [=_ _ <-]; exists []; symmetry; apply app_nil_r].
      destruct (st_salt s); [|intros [=_ _ <-]; exists []; symmetry; apply app_nil_r].
      destruct (len (cell h n) <? 32); [intros [=_ _ <-]; exists []; symmetry; apply app_nil_r|].
      cbn [alloc]. intros [=_ _ <-]. eexists. reflexivity. }
    destruct (obtain_key L e h (set_path s p)) as [[r2 s2] h2]. specialize (OB _ _ _ eq_refl).
    assert (exists l, h = h ++ l) as NIL by (exists []; symmetry; apply app_nil_r).
    destruct r2 as [[]|x| |]; cbn [st_over st_inter set_path] in E.
    + destruct (negb (e_open e)), (array32 (pfk_bytes h2 s2)), (f p), (st_over s), (st_inter s && e_term e), (e_confirm e) as [[|]|];
        injection E as _ _ <- _; assumption.
    + destruct (f p), (st_over s), (st_inter s && e_term e), (e_confirm e) as [[|]|]; injection E as _ _ <- _; assumption.
    + destruct (f p), (st_over s), (st_inter s && e_term e), (e_confirm e) as [[|]|]; injection E as _ _ <- _; assumption.
    + destruct (f p), (st_over s), (st_inter s && e_term e), (e_confirm e) as [[|]|]; injection E as _ _ <- _; assumption.
Qed.

Lemma export_step p key (R : inst -> inst -> Prop) (Q : list rune -> Prop) r o f h s : (forall i, R i i) -> plain_path p -> ready p key h s ->
  (forall file, ko_export o = Some file -> ~ path_of L (r_env r 5) file p) ->
  (forall file q, ko_export o = Some file -> Q q -> ~ path_of L (r_env r 5) file q) ->
  follows p key R Q f (st_inst s) (keys_export L U r o f h s).
Proof.
  intros RR PP RD NP NQ. unfold keys_export. destruct (ko_export o) as [file|]; [|apply follows_go; [exact RD|apply RR]].
  destruct (len file =? 0); [apply follows_end|].
  destruct (export_station _ _ _ _ _) as [n h1] eqn:E.
  destruct (export_path _ _ _ _ _ _ _ E) as (P1 & _). destruct (export_grows _ _ _ _ _ _ E) as (l & ->).
  unfold save_step. destruct (save L (r_env r 5) f (h ++ l) n) as [[[x n'] h2] xs] eqn:ES.
  destruct (save_else_lemma L _ _ _ _ _ _ _ _ ES) as (_ & OTH).
  destruct (save_grows _ _ _ _ _ _ _ _ ES) as (l2 & ->).
  assert (forall q, ~ path_of L (r_env r 5) file q -> apply_effects f xs q = f q) as O2.
  { intros q N. apply OTH. unfold file_name. rewrite P1. exact N. }
  assert (follows p key R Q f (st_inst s) (Go (apply_effects f xs) ((h ++ l) ++ l2) s)) as G.
  { split; [|split; [|split]].
    - intros q _ QQ. cbn [files Go]. apply O2. exact (NQ file q eq_refl QQ).
    - left. cbn [files Go]. apply O2. exact (NP file eq_refl).
    - apply ready_grow, ready_grow, RD.
    - apply RR. }
  destruct x as [[]|y| |]; cbn [andthen Go End]; [rewrite show_nil; exact G|..];
    (split; [exact (proj1 G)|]; split; [exact (proj1 (proj2 G))|exact I]).
Qed.

Lemma list_step_follows p key (R : inst -> inst -> Prop) Q r o f h s : (forall i, R i i) -> ready p key h s ->
  follows p key R Q f (st_inst s) (keys_list U ds r o f h s).
Proof.
  intros RR RD. unfold keys_list. destruct (negb (ko_list o)); [apply follows_go; [exact RD|apply RR]|apply follows_end].
Qed.

(** ** The whole keys command *)
Definition export_elsewhere (r : run) (o : kopts) (p : list rune) : Prop :=
  forall file, ko_export o = Some file -> ~ path_of L (r_env r 5) file p.
Definition not_exported (r : run) (o : kopts) (q : list rune) : Prop :=
  forall file, ko_export o = Some file -> ~ path_of L (r_env r 5) file q.

Lemma keys_follows (imp : Prop) R r g o f h p key i : lib_ok L -> keys_closed imp R -> (ko_import o <> None -> imp) -> no_zero_setting i ->
  path_of L (r_env r 0) (ko_file o) p -> plain_path p -> len key = 32 -> stored L f p key i ->
  disk_ok (r_env r 1) -> disk_ok (r_env r 2) -> disk_ok (r_env r 4) -> export_elsewhere r o p ->
  follows p key R (not_exported r o) f i (cmd_keys L U dp ds r g o f h).
Proof.
  intros HL KC IM NZ PO PP LK ST D1 D2 D4 EX. unfold cmd_keys. destruct (keys_idle o); [apply follows_end|].
  destruct (open_stored L U g (r_env r 0) (ko_file o) f h p key i HL NZ PO LK ST)
    as [(x & _ & -> & _)|(_ & _ & h1 & s1 & salt & -> & RD & _ & _ & I1)]; [apply follows_end|].
  cbn [andthen Go]. rewrite show_nil. rewrite <- I1.
  apply follows_andthen; [apply (kc_trans _ _ KC)|apply (delete_step imp p key R); assumption|].
  clear f ST h1 s1 RD I1 h. intros f h s RD.
  apply follows_andthen; [apply (kc_trans _ _ KC)|apply (new_step imp p key R); assumption|].
  clear f h s RD. intros f h s RD.
  apply follows_andthen; [apply (kc_trans _ _ KC)|apply (import_step imp p key R); assumption|].
  clear f h s RD. intros f h s RD.
  apply follows_andthen; [apply (kc_trans _ _ KC)|apply (export_step p key R); [apply (kc_refl _ _ KC)|assumption..|]|].
  { intros file q E N. exact (N file E). }
  clear f h s RD. intros f h s RD. apply list_step_follows; [apply (kc_refl _ _ KC)|exact RD].
Qed.

Lemma follows_stored p key (R : inst -> inst -> Prop) Q f i x : (forall j, R j j) -> stored L f p key i -> follows p key R Q f i x ->
  (exists i', stored L (files x) p key i' /\ R i i') /\ forall q, q <> p -> Q q -> files x q = f q.
Proof.
  intros RR (n & S) (A & B & _). split; [|exact A]. destruct B as [B|(i' & B & C)].
  - exists i. split; [exists n; congruence|apply RR].
  - exists i'. split; assumption.
Qed.

(** *** An instance: the keys change, IDs stay distinct, nothing else changes *)
Definition keys_only (i i' : inst) : Prop :=
  i' = set_keys i (i_keys i') /\
  (distinct_ids (to_upper U) (i_keys i) -> distinct_ids (to_upper U) (i_keys i')).
Lemma new_keys_only n : forall i now e kp t i' t', new_keys U n i now e kp t = Ok (i', t') -> i' = set_keys i (i_keys i').
Proof.
  induction n as [|n IH]; intros i now e kp t i' t' H; cbn [new_keys] in H.
  - injection H as <- <-. destruct i; reflexivity.
  - destruct (new_key U i now e kp t) as [[[i1 k] t1]|x| |] eqn:E; try discriminate. cbn [bind] in H.
    apply new_key_any in E. destruct E as (-> & _). apply IH in H. rewrite H. reflexivity.
Qed.
Lemma keys_only_closed : keys_closed True keys_only.
Proof.
  constructor.
  - intros i. split; [destruct i; reflexivity|auto].
  - intros a b c (A1 & A2) (B1 & B2). split; [|auto]. rewrite B1, A1. reflexivity.
  - intros i ids. split; [reflexivity|]. intros D. destruct (delete_key U (i_keys i) ids) as [ks n] eqn:E.
    exact (proj1 (delete_lemma U _ _ _ _ E D)).
  - intros i n now e kp t i' t' E. split; [|exact (generate_distinct U _ _ _ _ _ _ _ _ E)].
    unfold generate_keys in E. destruct e as [[e|]|]; [|discriminate|]; exact (new_keys_only _ _ _ _ _ _ _ _ E).
  - intros _ i ow ask flt inc ans. unfold import_keys.
    destruct (import_loop _ _ _ _ _ _ _ _ _ _ _) as [[ks n] e] eqn:E. cbn [fst]. split; [reflexivity|].
    cbn [i_keys set_keys]. exact (import_distinct U _ _ _ _ _ _ _ _ _ _ _ _ _ E).
Qed.

Lemma keys_frame_lemma r g o f h p key i : lib_ok L -> no_zero_setting i ->
  path_of L (r_env r 0) (ko_file o) p -> plain_path p -> len key = 32 -> stored L f p key i ->
  disk_ok (r_env r 1) -> disk_ok (r_env r 2) -> disk_ok (r_env r 4) -> export_elsewhere r o p ->
  let x := cmd_keys L U dp ds r g o f h in
  (exists ks, stored L (files x) p key (set_keys i ks) /\
     (distinct_ids (to_upper U) (i_keys i) -> distinct_ids (to_upper U) ks)) /\
  (forall q, q <> p -> not_exported r o q -> files x q = f q).
Proof.
  intros HL NZ PO PP LK ST D1 D2 D4 EX x.
  pose proof (keys_follows True keys_only r g o f h p key i HL keys_only_closed (fun _ => I) NZ PO PP LK ST D1 D2 D4 EX) as F.
  destruct (follows_stored p key keys_only _ f i _ (kc_refl _ _ keys_only_closed) ST F) as ((i' & S & E1 & E2) & O).
  split; [|exact O]. exists (i_keys i'). rewrite <- E1. split; [exact S|exact E2].
Qed.
End Cmd.
