(** A concrete library satisfying the assumptions [lib_ok], and concrete
    stations for the examples beside the persistence theorems. *)
From Verif Require Import Base Model_Unicode Model_Types Model_Station Model_Persist Spec_Persist Examples.

(** A simple serialisation: lists are preceded by their length. *)
Definition parser (A : Type) := list Z -> option (A * list Z).
Definition inverse {A} (w : A -> list Z) (p : parser A) : Prop := forall x r, p (w x ++ r) = Some (x, r).

Definition w_z (x : Z) : list Z := [x].
Definition p_z : parser Z := fun s => match s with x :: r => Some (x, r) | [] => None end.
Definition w_b (x : bool) : list Z := [if x then 1 else 0].
Definition p_b : parser bool := fun s => match s with x :: r => Some (x =? 1, r) | [] => None end.
Definition w_list {A} (w : A -> list Z) (l : list A) : list Z := len l :: flat_map w l.
Fixpoint p_many {A} (p : parser A) (n : nat) : parser (list A) := fun s =>
  match n with
  | O => Some ([], s)
  | S n' => match p s with
            | None => None
            | Some (x, r) => match p_many p n' r with None => None | Some (l, r') => Some (x :: l, r') end
            end
  end.
Definition p_list {A} (p : parser A) : parser (list A) := fun s =>
  match s with [] => None | n :: r => p_many p (Z.to_nat n) r end.
Definition p_bind {A B} (p : parser A) (k : A -> parser B) : parser B := fun s =>
  match p s with None => None | Some (x, r) => k x r end.

Lemma inv_z : inverse w_z p_z. Proof. intros x r. reflexivity. Qed.
Lemma inv_b : inverse w_b p_b. Proof. intros [|] r; reflexivity. Qed.
Lemma inv_list {A} (w : A -> list Z) p : inverse w p -> inverse (w_list w) (p_list p).
Proof.
  intros H l r. unfold w_list, p_list, len. cbn [app]. rewrite Nat2Z.id. revert r.
  induction l as [|x l IH]; intros r; [reflexivity|].
  cbn [length flat_map p_many]. rewrite <- app_assoc, H, IH. reflexivity.
Qed.
Lemma inv_bind {A B} (w : A -> list Z) p (k : A -> parser B) x s : inverse w p ->
  p_bind p k (w x ++ s) = k x s.
Proof. intros H. unfold p_bind. rewrite H. reflexivity. Qed.

Definition w_runes := w_list w_z.
Definition w_key (k : key) : list Z :=
  w_runes (kid k) ++ w_runes (krunes k) ++ w_list w_runes (kkeepers k) ++ w_z (kcreated k) ++
  w_z (kexpires k) ++ w_b (kused k) ++ w_b (kcompromised k) ++ w_runes (kcomment k).
Definition w_msg (m : msg) : list Z :=
  w_runes (mid m) ++ w_list w_runes (mrecipients m) ++ w_runes (mfrom m) ++ w_z (mdtg m) ++
  w_runes (mkeyid m) ++ w_runes (mplain m) ++ w_runes (mbinary m) ++ w_runes (mcipher m) ++ w_runes (mradiogram m).
Definition w_inst (i : inst) : list Z :=
  w_z (i_groupsize i) ++ w_z (i_keylength i) ++ w_z (i_columns i) ++ w_z (i_keycolumns i) ++
  w_list w_key (i_keys i) ++ w_list w_msg (i_messages i) ++ w_runes (i_callsign i).
Definition p_ret {A} (x : A) : parser A := fun s => Some (x, s).
Definition p_runes := p_list p_z.
Definition p_key : parser key :=
  p_bind p_runes (fun a => p_bind p_runes (fun b => p_bind (p_list p_runes) (fun c => p_bind p_z (fun d =>
  p_bind p_z (fun e => p_bind p_b (fun f => p_bind p_b (fun g => p_bind p_runes (fun h =>
  p_ret (mkKey a b c d e f g h))))))))).
Definition p_msg : parser msg :=
  p_bind p_runes (fun a => p_bind (p_list p_runes) (fun b => p_bind p_runes (fun c => p_bind p_z (fun d =>
  p_bind p_runes (fun e => p_bind p_runes (fun f => p_bind p_runes (fun g => p_bind p_runes (fun h =>
  p_bind p_runes (fun i => p_ret (mkMsg a b c d e f g h i)))))))))).
Definition p_inst : parser inst :=
  p_bind p_z (fun a => p_bind p_z (fun b => p_bind p_z (fun c => p_bind p_z (fun d =>
  p_bind (p_list p_key) (fun e => p_bind (p_list p_msg) (fun f => p_bind p_runes (fun g =>
  p_ret (mkInst a b c d e f g)))))))).
Lemma inv_runes : inverse w_runes p_runes. Proof. apply inv_list, inv_z. Qed.
Ltac inv_step := rewrite <- ?app_assoc; rewrite inv_bind by
  (exact inv_runes || exact inv_z || exact inv_b || exact (inv_list _ _ inv_runes)).
Lemma inv_key : inverse w_key p_key.
Proof. intros k r. unfold w_key, p_key. repeat inv_step. destruct k; reflexivity. Qed.
Lemma inv_msg : inverse w_msg p_msg.
Proof. intros k r. unfold w_msg, p_msg. repeat inv_step. destruct k; reflexivity. Qed.
Lemma inv_inst : inverse w_inst p_inst.
Proof.
  intros k r. unfold w_inst, p_inst. do 4 inv_step.
  rewrite <- ?app_assoc. rewrite inv_bind by exact (inv_list _ _ inv_key).
  rewrite <- ?app_assoc. rewrite inv_bind by exact (inv_list _ _ inv_msg). inv_step. destruct k; reflexivity.
Qed.

Definition ex_seal (k n b : list Z) : list Z := k ++ b.
Definition ex_unseal (k c : list Z) : option (list Z) :=
  if list_eq_dec Z.eq_dec (firstn (length k) c) k then Some (skipn (length k) c) else None.
Definition ex_lib : lib := mkLib
  w_inst (fun s => match p_inst s with Some (i, []) => Some i | _ => None end)
  ex_seal ex_unseal
  (fun p s => firstn 32 (p ++ s ++ repeat 0 32))
  (fun d r => d ++ [47] ++ r).
Lemma firstn_exact {A} (k b : list A) : firstn (length k) (k ++ b) = k.
Proof. rewrite firstn_app, Nat.sub_diag, firstn_all, firstn_O, app_nil_r. reflexivity. Qed.
Lemma ex_lib_ok : lib_ok ex_lib.
Proof.
  repeat split.
  - intros i. cbn [decode encode ex_lib]. rewrite <- (app_nil_r (w_inst i)), inv_inst. reflexivity.
  - intros k n b. cbn [unseal seal ex_lib]. unfold ex_unseal, ex_seal. rewrite firstn_exact.
    destruct (list_eq_dec Z.eq_dec k k); [|congruence].
    rewrite skipn_app, Nat.sub_diag, skipn_all. reflexivity.
  - intros k k' n b E E' N. cbn [unseal seal ex_lib]. unfold ex_unseal, ex_seal, len in *.
    replace (length k') with (length k) by lia. rewrite firstn_exact.
    destruct (list_eq_dec Z.eq_dec k k'); [contradiction|reflexivity].
  - intros p s. cbn [kdf ex_lib]. unfold len. rewrite firstn_length, !app_length, repeat_length. lia.
Qed.

(** Stations, environments, file systems. *)
Definition ex_pfk : list Z := repeat 17 32.
Definition ex_path : list rune := [47; 115].          (* /s *)
Definition ex_mem : mem := [ex_pfk; default_salt].
Definition ex_store : inst :=
  mkInst 5 40 110 80 ex_keys [mkMsg mid1 [callVQ] callOS 7 idA txt_hello [] txt_other []] callOS.
Definition ex_station : station := mkSt ex_path (Some 0%nat) (Some 1%nat) false false false ex_store.
Definition ex_over : station := set_over ex_station true.
Definition ex_env : env := mkEnv None false false None None true [] [10; 30; 5]%nat 2 None.
Definition ex_file_old : list Z := [9; 9; 9].
Definition ex_fs : fs := fun p => if list_eq_dec Z.eq_dec p ex_path then Some ex_file_old else None.
Definition ex_fs_none : fs := fun _ => None.
