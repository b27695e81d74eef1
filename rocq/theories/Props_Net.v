(** C156: a key handed over serves one message only, whoever sends it (false).
    C157: when keys are one-time in a net of stations.
    C158: who can read a message sent in a net of stations. *)
From Verif Require Import Base Spec Model_Unicode Model_Crand Model_Types Model_Cipher Model_Keys Model_Import Model_Net Spec_Net
  Proofs_Net Examples.

(** Two stations, OS with keys for VQ, and VQ without keys. *)
Definition nx_vq : inst := mkInst 5 40 110 80 nil nil callVQ.
Definition nx_start : net := mkNet [ex_inst ex_keys; nx_vq] [] [] (fun _ => []).
Definition nx_all (k : key) : bool := true.
Definition nx_reply (text : list rune) : msg := mkMsg mid2 [callOS] callVQ 0 nil text nil nil nil.
Definition nx_shared : list nop := [NExport 0 nx_all; NImport 0 1 nx_all false false []].

Lemma nx_start_ok : net_start 5 nx_start.
Proof.
  split; [lia|]. split; [|split; [intros f []|split; [|split; reflexivity]]].
  - intros [|[|a]] i N; cbn [nx_start nt_stations nth_error] in N.
    + injection N as <-. split; [reflexivity|]. split; [vm_compute; discriminate|]. apply store_okb_ok. vm_compute. reflexivity.
    + injection N as <-. split; [reflexivity|]. split; [vm_compute; discriminate|]. apply store_okb_ok. vm_compute. reflexivity.
    + destruct a; discriminate.
  - assert (Q : forall k, key_somewhere nx_start k -> In k ex_keys).
    { intros k [(a & i & N & I)|(f & [] & _)]. destruct a as [|[|a]]; cbn [nx_start nt_stations nth_error] in N.
      - injection N as <-. exact I.
      - injection N as <-. destruct I.
      - destruct a; discriminate. }
    intros k k' A B E. apply Q in A, B. f_equal. apply (store_same 5 ex_keys); auto. apply store_okb_ok. vm_compute. reflexivity.
Qed.
Lemma nx_no_new n os : Forall (fun o => match o with NGenerate _ _ _ _ _ _ => False | _ => True end) os -> all_along uni_id (new_ids uni_id) n os.
Proof. intros F. revert n. induction F as [|o os H F IH]; intros n; [exact I|]. split; [|apply IH]. destruct o; [destruct H|exact I..]. Qed.

(** C156 is false: both stations have the key and neither knows that the other
    has used it. *)
Theorem c156_both_send_refuted : exists n os e1 e2 id, net_start 5 n /\ all_along uni_id (new_ids uni_id) n os /\
  nt_air (nt_run uni_id n os) = [e1; e2] /\ en_text e1 <> en_text e2 /\ en_keys e1 = [id; id] /\ en_keys e2 = [id; id].
Proof.
  exists nx_start, (nx_shared ++ [NSend 0 (ex_msg txt_hello []) []; NSend 1 (nx_reply txt_other) []]).
  do 3 eexists. split; [exact nx_start_ok|]. split; [apply nx_no_new; repeat constructor|]. split; [vm_compute; reflexivity|].
  split; [discriminate|]. split; reflexivity.
Qed.
Print Assumptions c156_both_send_refuted.

(** Listening does not help if one key of the message is missing: Decipher fails
    and marks none of the others used. *)
Definition nx_first (k : key) : bool := if list_eq_dec Z.eq_dec (kid k) idA then true else false.
Theorem c156_listening_refuted : exists n os1 os2 e1 e2 id, net_start 5 n /\ all_along uni_id (new_ids uni_id) n (os1 ++ os2) /\
  (exists j m t, last os1 (NDelete 0 []) = NRead 1 j m t /\ j = 0%nat) /\
  (exists a m t, os2 = [NSend a m t] /\ a = 1%nat) /\
  nt_air (nt_run uni_id n (os1 ++ os2)) = [e1; e2] /\ In id (en_keys e1) /\ In id (en_keys e2).
Proof.
  exists nx_start, ([NExport 0 nx_first; NImport 0 1 nx_all false false []; NSend 0 (ex_msg txt_primary []) []; NRead 1 0 (ex_received [] []) []]),
    [NSend 1 (nx_reply txt_other) []].
  do 2 eexists. exists idA. split; [exact nx_start_ok|]. split; [apply nx_no_new; repeat constructor|].
  split; [do 3 eexists; split; reflexivity|]. split; [do 3 eexists; split; reflexivity|]. split; [vm_compute; reflexivity|].
  split; left; reflexivity.
Qed.
Print Assumptions c156_listening_refuted.

(** Nor if the key file is imported again afterwards, replacing the keys: they
    come back unused. *)
Theorem c156_again_refuted : exists n os1 os2 e1 e2 id, net_start 5 n /\ all_along uni_id (new_ids uni_id) n (os1 ++ os2) /\
  all_along uni_id reads_first n os1 /\ In 0%nat (nt_heard (nt_run uni_id n os1) 1) /\
  (exists f m t, os2 = [NImport f 1 nx_all true false []; NSend 1 m t]) /\
  nt_air (nt_run uni_id n (os1 ++ os2)) = [e1; e2] /\ In id (en_keys e1) /\ In id (en_keys e2).
Proof.
  exists nx_start, (nx_shared ++ [NSend 0 (ex_msg txt_primary []) []; NRead 1 0 (ex_received [] []) []]),
    [NImport 0 1 nx_all true false []; NSend 1 (nx_reply txt_primary) []].
  do 2 eexists. exists idA. split; [exact nx_start_ok|]. split; [apply nx_no_new; repeat constructor|].
  split. { cbn [nx_shared app all_along]. split; [exact I|]. split; [exact I|]. split; [|split; exact I]. split; [reflexivity|].
           intros j e k N. vm_compute in N. destruct j; discriminate. }
  split; [vm_compute; auto|]. split; [do 3 eexists; reflexivity|]. split; [vm_compute; reflexivity|]. split; vm_compute; auto.
Qed.
Print Assumptions c156_again_refuted.

(** C157. Whatever keys are generated, handed over, imported again or deleted at
    whichever stations: if every station leaves the choice of keys to Encipher,
    and sends only when it has sent or deciphered, since it last imported keys,
    every message enciphered with a key it has, then no two messages sent in the
    net share a key, provided that generated IDs are new in the net. *)
Theorem c157_one_time : forall U gs n os j1 j2 e1 e2 id, uni_ok U -> net_start gs n ->
  all_along U (new_ids U) n os -> all_along U reads_first n os ->
  nth_error (nt_air (nt_run U n os)) j1 = Some e1 -> nth_error (nt_air (nt_run U n os)) j2 = Some e2 ->
  In id (en_keys e1) -> In id (en_keys e2) -> j1 = j2.
Proof. exact net_one_time. Qed.
Print Assumptions c157_one_time.

(** C158. Whatever happened in the net (keys named by senders included), at any
    time: a station that has the keys of a message (keys with their IDs) reads
    the text that was sent, and exactly these keys become used; a station that
    lacks one of them gets an error, and its store does not change. *)
Theorem c158_read : forall U gs n os e b i m t, uni_ok U -> net_start gs n -> all_along U (new_ids U) n os ->
  In e (nt_air (nt_run U n os)) -> nth_error (nt_stations (nt_run U n os)) b = Some i ->
  mkeyid m = en_keyid e -> mcipher m = en_cipher e -> mid m <> [] -> (length (mplain m) <= length t)%nat ->
  ((forall id, In id (en_keys e) -> In id (map kid (i_keys i))) ->
   exists i' t', decipher U i m t = (i', set_mplain m (map canon (en_text e)), Ok tt, t') /\ i' = set_keys i (i_keys i') /\
    forall x, nth_error (i_keys i') x =
      option_map (fun k => if in_dec (list_eq_dec Z.eq_dec) (kid k) (en_keys e) then set_used k true else k) (nth_error (i_keys i) x)) /\
  ((exists id, In id (en_keys e) /\ ~ In id (map kid (i_keys i))) ->
   exists m' er t', decipher U i m t = (i, m', Err er, t')).
Proof. exact net_read. Qed.
Print Assumptions c158_read.

(** Both theorems on a conversation: OS generates a key, hands over its keys, and
    the stations answer each other. *)
Lemma all_heard n a m t : mkeyid m = [] ->
  forallb (fun j => existsb (Nat.eqb j) (nt_heard n a)) (seq 0 (length (nt_air n))) = true -> reads_first n (NSend a m t).
Proof.
  intros M H. split; [exact M|]. intros j e k N _ _. rewrite forallb_forall in H.
  specialize (H j). rewrite existsb_exists in H. destruct H as (x & X1 & X2).
  - apply in_seq. cbn. split; [lia|]. apply nth_error_Some. congruence.
  - apply Nat.eqb_eq in X2. subst x. exact X1.
Qed.
Definition nx_talk : list nop := nx_shared ++
  [NSend 0 (ex_msg txt_primary []) []; NRead 1 0 (ex_received [] []) []; NSend 1 (nx_reply txt_other) [];
   NDelete 1 [idA]; NRead 0 1 (ex_received [] []) []].
Definition nx_ops : list nop := NGenerate 0 1 0 None [callVQ] (ex_tape ++ ex_tape) :: nx_talk.

Lemma nx_new : all_along uni_id (new_ids uni_id) nx_start nx_ops.
Proof.
  split; [|apply nx_no_new; repeat constructor]. intros k (i & N & I).
  assert (Q : exists new, nth_error (nt_stations (nt_step uni_id nx_start (NGenerate 0 1 0 None [callVQ] (ex_tape ++ ex_tape)))) 0 =
      Some (set_keys (ex_inst ex_keys) (ex_keys ++ [new])) /\ existsb (fun k => if list_eq_dec Z.eq_dec (kid k) (kid new) then true else false) ex_keys = false).
  { eexists. split; vm_compute; reflexivity. }
  destruct Q as (new & Q1 & Q2). rewrite Q1 in N. injection N as <-. change (In k (ex_keys ++ [new])) in I. apply in_app_iff in I. destruct I as [I|[<-|[]]].
  - left. exists (ex_inst ex_keys). split; [reflexivity|exact I].
  - right. intros [(k & [(a & x & A & J)|(f & [] & _)] & E)|(e & [] & _)].
    assert (In k ex_keys) as IK.
    { destruct a as [|[|a]]; cbn [nx_start nt_stations nth_error] in A; [injection A as <-; exact J|injection A as <-; destruct J|destruct a; discriminate]. }
    apply not_true_iff_false in Q2. apply Q2. apply existsb_exists. exists k. split; [exact IK|]. destruct (list_eq_dec Z.eq_dec (kid k) (kid new)); [reflexivity|contradiction].
Qed.
Lemma nx_reads : all_along uni_id reads_first nx_start nx_ops.
Proof.
  unfold nx_ops, nx_talk, nx_shared. cbn [app all_along]. split; [exact I|]. split; [exact I|]. split; [exact I|].
  split; [apply all_heard; vm_compute; reflexivity|]. split; [exact I|]. split; [apply all_heard; vm_compute; reflexivity|]. split; [exact I|]. split; exact I.
Qed.

Example c157_applied : length (nt_air (nt_run uni_id nx_start nx_ops)) = 2%nat /\
  forall e1 e2 id, nth_error (nt_air (nt_run uni_id nx_start nx_ops)) 0 = Some e1 -> nth_error (nt_air (nt_run uni_id nx_start nx_ops)) 1 = Some e2 ->
    In id (en_keys e1) -> ~ In id (en_keys e2).
Proof.
  split; [vm_compute; reflexivity|]. intros e1 e2 id A B I J.
  pose proof (c157_one_time uni_id 5 nx_start nx_ops 0 1 e1 e2 id uni_id_ok nx_start_ok nx_new nx_reads A B I J). discriminate.
Qed.

(** VQ has deleted the first key of the first message and cannot read it any
    more; OS can read the answer. *)
Example c158_applied : exists e0 e1 i0 i1, nt_air (nt_run uni_id nx_start nx_ops) = [e0; e1] /\ en_text e1 = txt_other /\
  nt_stations (nt_run uni_id nx_start nx_ops) = [i0; i1] /\
  (exists i' t', decipher uni_id i0 (ex_received (en_keyid e1) (en_cipher e1)) [] = (i', set_mplain (ex_received (en_keyid e1) (en_cipher e1)) txt_other, Ok tt, t')) /\
  (exists m' er t', decipher uni_id i1 (ex_received (en_keyid e0) (en_cipher e0)) [] = (i1, m', Err er, t')).
Proof.
  assert (Q : exists e0 e1 i0 i1, nt_air (nt_run uni_id nx_start nx_ops) = [e0; e1] /\
    nt_stations (nt_run uni_id nx_start nx_ops) = [i0; i1] /\ en_text e1 = txt_other /\ map canon txt_other = txt_other /\
    Forall (fun id => In id (map kid (i_keys i0))) (en_keys e1) /\ In idA (en_keys e0) /\
    forallb (fun k => if list_eq_dec Z.eq_dec (kid k) idA then false else true) (i_keys i1) = true).
  { do 4 eexists. split; [vm_compute; reflexivity|]. split; [vm_compute; reflexivity|]. split; [vm_compute; reflexivity|].
    split; [vm_compute; reflexivity|]. split; [cbn [en_keys i_keys map kid]; repeat (apply Forall_cons; [vm_compute; auto 10|]); apply Forall_nil|].
    split; [vm_compute; auto|vm_compute; reflexivity]. }
  destruct Q as (e0 & e1 & i0 & i1 & QA & QS & X1 & QC & Y1 & X0 & Y0).
  exists e0, e1, i0, i1. split; [exact QA|]. split; [exact X1|]. split; [exact QS|]. split.
  - destruct (c158_read uni_id 5 nx_start nx_ops e1 0 i0 (ex_received (en_keyid e1) (en_cipher e1)) [] uni_id_ok nx_start_ok nx_new) as (A & _);
      [rewrite QA; right; left; reflexivity|rewrite QS; reflexivity|reflexivity|reflexivity|discriminate|apply Nat.le_refl|].
    destruct A as (i' & t' & D & _).
    { intros id I. rewrite Forall_forall in Y1. exact (Y1 id I). }
    exists i', t'. rewrite D. rewrite X1, QC. reflexivity.
  - destruct (c158_read uni_id 5 nx_start nx_ops e0 1 i1 (ex_received (en_keyid e0) (en_cipher e0)) [] uni_id_ok nx_start_ok nx_new) as (_ & A);
      [rewrite QA; left; reflexivity|rewrite QS; reflexivity|reflexivity|reflexivity|discriminate|apply Nat.le_refl|].
    apply A. exists idA. split; [exact X0|]. intros I. apply in_map_iff in I. destruct I as (k & E & I).
    rewrite forallb_forall in Y0. specialize (Y0 k I). destruct (list_eq_dec Z.eq_dec (kid k) idA); [discriminate|contradiction].
Qed.
