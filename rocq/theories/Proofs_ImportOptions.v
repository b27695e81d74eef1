(** Lemmas: options about overwriting do not matter to ImportKeys. *)
From Verif Require Import Base Spec_ImportOptions Model_Unicode Model_Functions Model_Crand Model_Types Model_Keys Model_Import
  Model_Station Model_Persist.

Definition norm (s : station) : station := mkSt (st_path s) (st_pfk s) (st_salt s) false (st_inter s) false (st_inst s).
Definition N (sh : station * mem) : station * mem := (norm (fst sh), snd sh).

Section U.
Context (L : lib) (U : Uni).
Set Default Proof Using "Type".

Lemma N_apply : forall sh o, N (apply_opt U sh o) = if about_overwriting o then N sh else apply_opt U (N sh) o.
Proof.
  intros [[p k q a b c i] h] o. destruct o as [[x|]|x|[x|]|x|x|n|n|n|n|x|v|v|v]; try reflexivity; cbn [about_overwriting].
  - unfold apply_opt, N, norm. cbn [fst snd st_inst st_path st_pfk st_salt st_inter]. destruct (negb (len x =? 64)); [reflexivity|].
    destruct (hex_decode x); reflexivity.
  - unfold apply_opt, N, norm. cbn [fst snd st_inst st_path st_pfk st_salt st_inter]. destruct (hex_decode x); [|reflexivity].
    destruct (len l <? 32); reflexivity.
  - unfold apply_opt, N, norm, set_call_sign. cbn [fst snd st_inst st_path st_pfk st_salt st_inter].
    destruct (len (str_upper U (trim_space U x)) <? 2); reflexivity.
Qed.
Lemma N_fold : forall opts sh, N (fold_left (apply_opt U) opts sh) = fold_left (apply_opt U) (other_options opts) (N sh).
Proof.
  induction opts as [|o opts IH]; intros sh; [reflexivity|]. unfold other_options. cbn [fold_left filter]. rewrite IH, N_apply.
  destruct (about_overwriting o); reflexivity.
Qed.
Lemma N_new : forall h opts, N (new_station U h opts) = new_station U h (other_options opts).
Proof. intros h opts. unfold new_station. cbn [alloc]. rewrite N_fold. reflexivity. Qed.

Lemma N_load : forall e f h a s, exists r s1 s2 h1,
  load L e f h a s = (r, s1, h1) /\ load L e f h a (norm s) = (r, s2, h1) /\ norm s2 = norm s1.
Proof.
  intros e f h a [p k q w i x t]. unfold load, norm. cbn [st_path st_pfk st_salt st_inter st_inst].
  destruct (len p =? 0); [do 4 eexists; repeat split|]. destruct (resolve L e p) as [p'|]; [|do 4 eexists; repeat split].
  cbv zeta. destruct (e_stat_err e); [do 4 eexists; repeat split|]. destruct (f p') as [c|]; [|do 4 eexists; repeat split].
  unfold obtain_key, set_path. cbn [st_path st_pfk st_salt st_inter st_inst st_over st_overkeys].
  assert (G : forall kk hh, exists r s1 s2 h1,
    (let s2 := mkSt p' kk q w i x t in
     if negb (e_open e) then (Err ErrIO, s2, hh)
     else match array32 (pfk_bytes hh s2) with
     | None => (Panic, s2, hh)
     | Some key => match unseal L key c with
        | None => (Err ErrDecrypt, s2, hh)
        | Some b => match decode L b with
            | None => (Err ErrDecrypt, s2, hh)
            | Some i => (Ok tt, set_over (set_inst s2 (merge_inst a i (st_inst s2))) true, hh)
            end end end) = (r, s1, h1) /\
    (let s2 := mkSt p' kk q false i false t in
     if negb (e_open e) then (Err ErrIO, s2, hh)
     else match array32 (pfk_bytes hh s2) with
     | None => (Panic, s2, hh)
     | Some key => match unseal L key c with
        | None => (Err ErrDecrypt, s2, hh)
        | Some b => match decode L b with
            | None => (Err ErrDecrypt, s2, hh)
            | Some i => (Ok tt, set_over (set_inst s2 (merge_inst a i (st_inst s2))) true, hh)
            end end end) = (r, s2, h1) /\ norm s2 = norm s1).
  { intros kk hh. cbv zeta. unfold pfk_bytes. cbn [st_pfk]. destruct (negb (e_open e)); [do 4 eexists; repeat split|].
    destruct (array32 _); [|do 4 eexists; repeat split]. destruct (unseal L l c); [|do 4 eexists; repeat split].
    destruct (decode L l0); do 4 eexists; repeat split. }
  destruct k as [k|]; [apply G|]. destruct (i && e_term e); [|do 4 eexists; repeat split].
  destruct (e_password e) as [pwd|]; [|do 4 eexists; repeat split].
  unfold derive_pfk. cbn [st_salt]. destruct q as [q|]; [|do 4 eexists; repeat split].
  destruct (len (cell h q) <? 32); [do 4 eexists; repeat split|]. cbn [alloc]. apply (G (Some (length h))).
Qed.
Lemma import_options : forall e f h s flt opts opts' answers t, other_options opts = other_options opts' ->
  import_station L U e f h s flt opts answers t = import_station L U e f h s flt opts' answers t.
Proof.
  intros e f h s flt opts opts' answers t E.
  assert (G : forall o, import_station L U e f h s flt o answers t = import_station L U e f h s flt (other_options o) answers t).
  { intros o. unfold import_station. pose proof (N_new h o) as EN. destruct (new_station U h o) as [n h1].
    destruct (new_station U h (other_options o)) as [n' h1']. unfold N in EN. cbn [fst snd] in EN. injection EN as <- <-.
    destruct (N_load e f h1 new_arrays n) as (r & s1 & s2 & h2 & -> & -> & EQ).
    assert (EI : st_inst s2 = st_inst s1) by (apply (f_equal st_inst) in EQ; exact EQ).
    destruct r as [?|?| |]; try reflexivity. rewrite EI. destruct (import_keys _ _ _ _ _ _ _) as [[i' n'] x].
    unfold wipe_station. replace (st_pfk s2) with (st_pfk s1) by (symmetry; apply (f_equal st_pfk) in EQ; exact EQ).
    replace (st_salt s2) with (st_salt s1) by (symmetry; apply (f_equal st_salt) in EQ; exact EQ).
    destruct (wipe_bytes h2 (st_pfk s1) t) as [h3 t1]. destruct (wipe_bytes h3 (st_salt s1) t1) as [h4 t2]. reflexivity. }
  rewrite (G opts), (G opts'), E. reflexivity.
Qed.
End U.
