(** C159: what is sent in a net of stations tells nothing about the texts,
    whoever sends (false).
    C160: what is sent in a net of stations that read before they send tells
    nothing about the texts. *)
From Verif Require Import Base Spec Spec_Secrecy Model_Unicode Model_Crand Model_Types Model_Cipher Model_Keys Model_Import Model_Net Spec_Net
  Spec_NetSecret Proofs_Secrecy2 Proofs_Net Proofs_NetSecret Examples Props_Net.

(** C159 is false: two stations with the same keys send the same text; whatever
    the letters of the keys, what they send is the same, and everyone can see it. *)
Definition sy_both : net := mkNet [ex_inst ex_keys; ex_inst ex_keys] [] [] (fun _ => []).
Lemma sy_keys k : key_somewhere sy_both k -> In k ex_keys.
Proof.
  intros [(a & i & N & I)|(f & [] & _)]. destruct a as [|[|a]]; cbn [sy_both nt_stations nth_error] in N; [injection N as <-; exact I..|destruct a; discriminate].
Qed.
Lemma ex_keys_ok : store_ok 5 ex_keys.
Proof. apply store_okb_ok. vm_compute. reflexivity. Qed.
Lemma sy_start : net_start 5 sy_both.
Proof.
  split; [lia|]. split; [|split; [intros f []|split; [|split; reflexivity]]].
  - intros [|[|a]] i N; cbn [sy_both nt_stations nth_error] in N; [| |destruct a; discriminate];
      (injection N as <-; split; [reflexivity|]; split; [vm_compute; discriminate|exact ex_keys_ok]).
  - intros k k' A B E. apply sy_keys in A, B. f_equal. exact (store_same 5 ex_keys k k' ex_keys_ok A B E).
Qed.

Theorem c159_both_send_refuted : exists gs n ks m t cs, net_start gs n /\ keys_of_net gs n ks /\ mkeyid m = [] /\
  let os := [NSend 0 m t; NSend 1 m t] in
  Forall2 (fun e c => letters c /\ length c = length (en_cipher e)) (nt_air (nt_run uni_id n os)) cs /\
  forall ks2, refilled ks ks2 -> map en_cipher (nt_air (nt_run uni_id (filled ks2 n) os)) <> cs.
Proof.
  assert (Q : exists e, nt_air (nt_run uni_id sy_both [NSend 0 (ex_msg txt_hello []) []; NSend 1 (ex_msg txt_hello []) []]) = [e; e] /\ (0 < length (en_cipher e))%nat).
  { eexists. split; [vm_compute; reflexivity|]. cbn [en_cipher length]. lia. }
  destruct Q as (e & Q & L).
  exists 5, sy_both, ex_keys, (ex_msg txt_hello []), [], [repeat 65 (length (en_cipher e)); repeat 66 (length (en_cipher e))].
  split; [exact sy_start|]. split; [split; [exact ex_keys_ok|]; intros k K; exists k; split; [exact (sy_keys k K)|auto]|]. split; [reflexivity|].
  cbv zeta. split.
  - rewrite Q. assert (LT : forall c k, 65 <= c <= 90 -> letters (repeat c k)) by (intros c k ?; apply Forall_forall; intros y Y; apply repeat_spec in Y; subst; unfold is_letter; lia).
    constructor; [split; [apply LT; lia|apply repeat_length]|]. constructor; [split; [apply LT; lia|apply repeat_length]|constructor].
  - intros ks2 _. cbn [nt_run]. unfold nt_step at 2. cbn [filled nt_stations sy_both map nth_error].
    destruct (encipher uni_id (with_keys ks2 (ex_inst ex_keys)) (set_mcipher (ex_msg txt_hello []) []) []) as [[[i' m'] r] t'] eqn:E.
    assert (AIR : forall n, nth_error (nt_stations n) 1 = Some (with_keys ks2 (ex_inst ex_keys)) ->
      map en_cipher (nt_air (nt_step uni_id n (NSend 1 (ex_msg txt_hello []) []))) = map en_cipher (nt_air n) ++ match r with Ok _ => [mcipher m'] | _ => [] end).
    { intros n N. unfold nt_step. rewrite N, E. destruct r; cbn [on_air hear set_station nt_air]; rewrite ?map_app, ?app_nil_r; reflexivity. }
    destruct r as [u|er| |].
    + rewrite AIR by reflexivity. cbn [on_air hear set_station nt_air app map en_cipher].
      destruct (length (en_cipher e)) as [|x]; [lia|]. cbn [repeat]. intros D.
      pose proof (f_equal (fun l => nth 0 l []) D) as D1. pose proof (f_equal (fun l => nth 1 l []) D) as D2. cbn [filled sy_both nt_air app map en_cipher nth] in D1, D2. congruence.
    + rewrite AIR by reflexivity. discriminate.
    + rewrite AIR by reflexivity. discriminate.
    + rewrite AIR by reflexivity. discriminate.
Qed.
Print Assumptions c159_both_send_refuted.

(** C160. Whatever the stations of a net send each other, hand over, import and
    delete (without generating keys), if every station leaves the choice of keys
    to Encipher and sends only when it has sent or deciphered, since it last
    imported keys, every message enciphered with a key it has: were the keys
    filled with other letters, then the same messages would be sent with the
    same keys; and any sequence of ciphertexts of these lengths would be sent for
    equally many fillings of the keys, 26 to the power of the number of letters
    of the keys that are left. *)
Theorem c160_secret : forall U gs n os ks, uni_ok U -> net_start gs n -> keys_of_net gs n ks ->
  Forall plain_op os -> all_along U reads_first n os ->
  (forall ks2, refilled ks ks2 -> Forall2 same_sending (nt_air (nt_run U n os)) (nt_air (nt_run U (filled ks2 n) os))) /\
  forall cs, Forall2 (fun e c => letters c /\ length c = length (en_cipher e)) (nt_air (nt_run U n os)) cs ->
  exists l, NoDup l /\ (forall ks2, In ks2 l <-> refilled ks ks2 /\ map en_cipher (nt_air (nt_run U (filled ks2 n) os)) = cs) /\
    Z.of_nat (length l) = 26 ^ (key_letters ks - len (concat cs)) /\ len (concat cs) <= key_letters ks.
Proof. exact net_secret. Qed.
Print Assumptions c160_secret.

(** So what is heard does not tell apart two conversations, between whomever,
    with ciphertexts of the same lengths. *)
Theorem c160_indistinct : forall U gs n ks os os', uni_ok U -> net_start gs n -> keys_of_net gs n ks ->
  Forall plain_op os -> all_along U reads_first n os -> Forall plain_op os' -> all_along U reads_first n os' ->
  map (fun e => length (en_cipher e)) (nt_air (nt_run U n os)) = map (fun e => length (en_cipher e)) (nt_air (nt_run U n os')) ->
  forall cs, Forall2 (fun e c => letters c /\ length c = length (en_cipher e)) (nt_air (nt_run U n os)) cs ->
  exists l l', NoDup l /\ NoDup l' /\ length l = length l' /\ (0 < length l)%nat /\
    (forall ks2, In ks2 l <-> refilled ks ks2 /\ map en_cipher (nt_air (nt_run U (filled ks2 n) os)) = cs) /\
    (forall ks2, In ks2 l' <-> refilled ks ks2 /\ map en_cipher (nt_air (nt_run U (filled ks2 n) os')) = cs).
Proof. exact net_indistinct. Qed.
Print Assumptions c160_indistinct.

(** On a conversation: OS hands over its keys to VQ, which answers. *)
Definition sy_talk (reply : list rune) : list nop := nx_shared ++
  [NSend 0 (ex_msg txt_primary []) []; NRead 1 0 (ex_received [] []) []; NSend 1 (nx_reply reply) [];
   NDelete 1 [idA]; NRead 0 1 (ex_received [] []) []].
Lemma sy_net : keys_of_net 5 nx_start ex_keys.
Proof.
  split; [exact ex_keys_ok|]. intros k K. exists k. split; [|auto]. destruct K as [(a & i & N & I)|(f & [] & _)].
  destruct a as [|[|a]]; cbn [nx_start nt_stations nth_error] in N; [injection N as <-; exact I|injection N as <-; destruct I|destruct a; discriminate].
Qed.
Lemma sy_plain reply : Forall plain_op (sy_talk reply).
Proof.
  assert (blind nx_all) by (intros k k' _; reflexivity).
  unfold sy_talk, nx_shared. cbn [app]. repeat (apply Forall_cons; [first [exact I|assumption]|]). apply Forall_nil.
Qed.
Lemma sy_reads : all_along uni_id reads_first nx_start (sy_talk txt_other).
Proof.
  unfold sy_talk, nx_shared. cbn [app all_along]. split; [exact I|]. split; [exact I|].
  split; [apply all_heard; vm_compute; reflexivity|]. split; [exact I|]. split; [apply all_heard; vm_compute; reflexivity|]. split; [exact I|]. split; exact I.
Qed.
Lemma sy_reads2 : all_along uni_id reads_first nx_start (sy_talk (rev txt_other)).
Proof.
  unfold sy_talk, nx_shared. cbn [app all_along]. split; [exact I|]. split; [exact I|].
  split; [apply all_heard; vm_compute; reflexivity|]. split; [exact I|]. split; [apply all_heard; vm_compute; reflexivity|]. split; [exact I|]. split; exact I.
Qed.
Definition sy_heard : list (list rune) := map (fun e => repeat 65 (length (en_cipher e))) (nt_air (nt_run uni_id nx_start (sy_talk txt_other))).
Lemma sy_possible : Forall2 (fun e c => letters c /\ length c = length (en_cipher e)) (nt_air (nt_run uni_id nx_start (sy_talk txt_other))) sy_heard.
Proof.
  unfold sy_heard. generalize (nt_air (nt_run uni_id nx_start (sy_talk txt_other))) as h. intros h.
  induction h as [|e h IH]; [constructor|]. cbn [map]. constructor; [|exact IH]. split; [|apply repeat_length].
  apply Forall_forall. intros y Y. apply repeat_spec in Y. subst. unfold is_letter. lia.
Qed.

(** Both messages could have been heard as nothing but the letter A. *)
Example c160_applied : map (fun c => len c) sy_heard = [55; 15] /\ key_letters ex_keys = 160 /\
  exists l, NoDup l /\ Z.of_nat (length l) = 26 ^ 90 /\
    forall ks2, In ks2 l <-> refilled ex_keys ks2 /\ map en_cipher (nt_air (nt_run uni_id (filled ks2 nx_start) (sy_talk txt_other))) = sy_heard.
Proof.
  assert (L : map (fun c => len c) sy_heard = [55; 15] /\ len (concat sy_heard) = 70 /\ key_letters ex_keys = 160) by (split; [|split]; vm_compute; reflexivity).
  destruct L as (L1 & L2 & L3). split; [exact L1|]. split; [exact L3|].
  destruct (c160_secret uni_id 5 nx_start (sy_talk txt_other) ex_keys uni_id_ok nx_start_ok sy_net (sy_plain txt_other) sy_reads) as (_ & Q).
  destruct (Q sy_heard sy_possible) as (l & N & S & E & _). exists l. split; [exact N|]. split; [|exact S]. rewrite E, L2, L3. reflexivity.
Qed.
Example c160_indistinct_applied : rev txt_other <> txt_other /\ exists l l', NoDup l /\ NoDup l' /\ length l = length l' /\ (0 < length l)%nat /\
    (forall ks2, In ks2 l <-> refilled ex_keys ks2 /\ map en_cipher (nt_air (nt_run uni_id (filled ks2 nx_start) (sy_talk txt_other))) = sy_heard) /\
    (forall ks2, In ks2 l' <-> refilled ex_keys ks2 /\ map en_cipher (nt_air (nt_run uni_id (filled ks2 nx_start) (sy_talk (rev txt_other)))) = sy_heard).
Proof.
  split; [vm_compute; discriminate|].
  exact (c160_indistinct uni_id 5 nx_start ex_keys (sy_talk txt_other) (sy_talk (rev txt_other)) uni_id_ok nx_start_ok sy_net
    (sy_plain txt_other) sy_reads (sy_plain (rev txt_other)) sy_reads2 ltac:(vm_compute; reflexivity) sy_heard sy_possible).
Qed.
