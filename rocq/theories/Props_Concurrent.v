(** Properties of goroutines that encipher at the same time. *)
From Verif Require Import Base Model_Unicode Model_Crand Model_Types Model_Cipher Model_Concurrent Spec Spec_Concurrent
  Proofs_Concurrent Proofs_Concurrent3 Examples.

(** Two messages "HI" and "NO" to VQ; one that cannot be enciphered. *)
Definition co_hi : msg * tape := (ex_msg [72; 73] [], repeat 0 100).
Definition co_no : msg * tape := (ex_msg [78; 79] [], repeat 1 100).
Definition co_bad : msg * tape := (ex_msg [72; 1] [], repeat 2 100).
Definition co_inst : inst := ex_inst ex_keys.
Definition co_run (schedule : list nat) (calls : list (msg * tape)) : system :=
  run_schedule uni_id 5 schedule (start uni_id co_inst calls).

(** Deciding the hypotheses. *)
Definition co_out (y : system) (n : nat) : option outcome :=
  match nth_error (snd y) n with Some (_, Return o) => Some o | _ => None end.
Lemma co_returned y n m r t : co_out y n = Some (m, r, t) -> returned y n m r t.
Proof.
  unfold co_out, returned. destruct (nth_error (snd y) n) as [[d [o| | |]]|]; try discriminate. intros [=->]. exists d. reflexivity.
Qed.
Fixpoint co_turns (busy : doing -> bool) (schedule : list nat) (y : system) : bool :=
  match schedule with
  | [] => true
  | n :: schedule' =>
      forallb (fun q => match nth_error (snd y) q with Some (d, _) => negb (busy d) || Nat.eqb q n | None => true end)
        (seq 0 (length (snd y))) && co_turns busy schedule' (turn uni_id 5 n y)
  end.
Lemma co_undisturbed (busy : doing -> Prop) busyb schedule : (forall d, busy d -> busyb d = true) -> forall y,
  co_turns busyb schedule y = true -> undisturbed uni_id busy 5 schedule y.
Proof.
  intros B. induction schedule as [|n schedule IH]; intros y H; cbn [undisturbed]; [exact I|].
  cbn [co_turns] in H. apply andb_prop in H. destruct H as (H1 & H2). split; [|apply IH, H2].
  intros q [d p] N D. rewrite forallb_forall in H1. specialize (H1 q). rewrite N in H1. rewrite (B d D) in H1.
  apply Nat.eqb_eq. apply H1. apply in_seq. split; [apply Nat.le_0_l|]. apply nth_error_Some. congruence.
Qed.
Definition is_taking (d : doing) : bool := match d with Taking => true | _ => false end.
Definition is_busy (d : doing) : bool := match d with Nothing => false | _ => true end.

(** The model of one goroutine is that of Encipher. *)
Theorem c97_alone : forall U i m t i' m' r t', encipher U i m t = (i', m', r, t') ->
  exists n, let y := run_schedule U (i_groupsize i) (repeat 0%nat n) (start U i [(m, t)]) in
  fst y = i_keys i' /\ returned y 0 m' r t'.
Proof. exact alone_lemma. Qed.
Print Assumptions c97_alone.

Example c97_alone_nontrivial : exists m' t', returned (co_run [0; 0]%nat [co_hi]) 0 m' (Ok tt) t' /\ len (mcipher m') = 5.
Proof. eexists _, _. split; [apply co_returned; vm_compute; reflexivity|vm_compute; reflexivity]. Qed.

(** ** C48: goroutines that encipher different messages never use the same
    key. False: both look for a key before one of them marks it. *)
Theorem c48_shared_refuted : exists i calls schedule m1 m2 t1 t2,
  store_ok (i_groupsize i) (i_keys i) /\ (forall c, In c calls -> mkeyid (fst c) = []) /\
  let y := run_schedule uni_id (i_groupsize i) schedule (start uni_id i calls) in
  returned y 0 m1 (Ok tt) t1 /\ returned y 1 m2 (Ok tt) t2 /\ mkeyid m1 = mkeyid m2 /\ mcipher m1 <> mcipher m2.
Proof.
  exists co_inst, [co_hi; co_no], [0; 1; 0; 1]%nat. eexists _, _, _, _.
  split; [apply store_okb_ok; vm_compute; reflexivity|]. split; [intros c [<-|[<-|[]]]; reflexivity|]. cbv zeta.
  split; [apply co_returned; vm_compute; reflexivity|]. split; [apply co_returned; vm_compute; reflexivity|].
  split; [vm_compute; reflexivity|vm_compute; discriminate].
Qed.
Print Assumptions c48_shared_refuted.

(** ** C97: goroutines none of which gets a turn while another one is taking or
    giving back keys. *)
Theorem c97_different_keys : forall U i calls schedule, uni_ok U -> 0 < i_groupsize i ->
  store_ok (i_groupsize i) (i_keys i) -> (forall c, In c calls -> mkeyid (fst c) = []) ->
  undisturbed U (fun d => d <> Nothing) (i_groupsize i) schedule (start U i calls) ->
  let y := run_schedule U (i_groupsize i) schedule (start U i calls) in
  exists taken : nat -> list nat,
    (forall a b j, In j (taken a) -> In j (taken b) -> a = b) /\
    forall n m t m' t', nth_error calls n = Some (m, t) -> returned y n m' (Ok tt) t' ->
      message (i_groupsize i) (i_keys i) (taken n) (map canon (mplain m)) (mcipher m') /\
      (exists j k, hd_error (taken n) = Some j /\ nth_error (i_keys i) j = Some k /\ mkeyid m' = kid k) /\
      NoDup (taken n) /\
      forall j, In j (taken n) -> (exists k, nth_error (i_keys i) j = Some k /\ eligible (i_groupsize i) (mrecipients m) k) /\
        (exists k, nth_error (fst y) j = Some k /\ kused k = true).
Proof. exact concurrent_lemma. Qed.
Print Assumptions c97_different_keys.

(** Three goroutines, the first of which fails and gives its key back. *)
Example c97_nontrivial : undisturbed uni_id (fun d => d <> Nothing) 5 [0; 0; 1; 1; 0; 0; 2; 2]%nat (start uni_id co_inst [co_bad; co_hi; co_no]) /\
  map kused (fst (co_run [0; 0; 1; 1; 0; 0; 2; 2]%nat [co_bad; co_hi; co_no])) = [true; true; false; false].
Proof.
  split; [|vm_compute; reflexivity].
  apply (co_undisturbed _ is_busy); [intros []; (reflexivity || contradiction)|vm_compute; reflexivity].
Qed.

(** ** C98: it is enough to take keys undisturbed. False: a key given back is
    marked unused twice, the second time when another goroutine has it. *)
Theorem c98_taking_refuted : exists i calls schedule m1 m2 t1 t2,
  store_ok (i_groupsize i) (i_keys i) /\ (forall c, In c calls -> mkeyid (fst c) = []) /\
  undisturbed uni_id (fun d => d = Taking) (i_groupsize i) schedule (start uni_id i calls) /\
  let y := run_schedule uni_id (i_groupsize i) schedule (start uni_id i calls) in
  returned y 1 m1 (Ok tt) t1 /\ returned y 2 m2 (Ok tt) t2 /\ mkeyid m1 = mkeyid m2 /\ mcipher m1 <> mcipher m2.
Proof.
  exists co_inst, [co_bad; co_hi; co_no], [0; 0; 0; 1; 1; 0; 2; 2]%nat. eexists _, _, _, _.
  split; [apply store_okb_ok; vm_compute; reflexivity|]. split; [intros c [<-|[<-|[<-|[]]]]; reflexivity|]. split.
  { apply (co_undisturbed _ is_taking); [intros ? ->; reflexivity|vm_compute; reflexivity]. }
  cbv zeta. split; [apply co_returned; vm_compute; reflexivity|]. split; [apply co_returned; vm_compute; reflexivity|].
  split; [vm_compute; reflexivity|vm_compute; discriminate].
Qed.
Print Assumptions c98_taking_refuted.
