(** C162: what is sent in a net whose keys one station has generated tells
    nothing about the texts, in terms of the random source. *)
From Verif Require Import Base Spec Spec_Secrecy Model_Unicode Model_Crand Model_Types Model_Cipher Model_Keys Model_Import Model_Net Spec_Net
  Spec_NetSecret Proofs_NetSource Examples Props_Net Props_NetSecret.

(** A net without keys; station [a] generates keys from the random source [t].
    Of the sources of [N] words those with which the keys get the IDs they got
    with [t0], and with which [cs] is heard, are equally many for two
    conversations with ciphertexts of the same lengths; there are some if [t0] is
    such a source. *)
Theorem c162_from_the_source : forall U gs n a i c now x keepers N t0 i0 t0' os os' cs,
  uni_ok U -> net_start gs n -> (forall k, ~ key_somewhere n k) -> nth_error (nt_stations n) a = Some i ->
  generate_keys U i c now x keepers t0 = Ok (i0, t0') ->
  let start t := nt_step U n (NGenerate a c now x keepers t) in
  Forall plain_op os -> all_along U reads_first (start t0) os ->
  Forall plain_op os' -> all_along U reads_first (start t0) os' ->
  map (fun e => length (en_cipher e)) (nt_air (nt_run U (start t0) os)) =
  map (fun e => length (en_cipher e)) (nt_air (nt_run U (start t0) os')) ->
  Forall2 (fun e c => letters c /\ length c = length (en_cipher e)) (nt_air (nt_run U (start t0) os)) cs ->
  let source os t := length t = N /\ Forall (fun w => 0 <= w < 2 ^ 64) t /\
    exists i1 t1, generate_keys U i c now x keepers t = Ok (i1, t1) /\ map kid (i_keys i1) = map kid (i_keys i0) /\
      map en_cipher (nt_air (nt_run U (start t) os)) = cs in
  exists l l', NoDup l /\ NoDup l' /\ length l = length l' /\
    (length t0 = N -> Forall (fun w => 0 <= w < 2 ^ 64) t0 -> l <> []) /\
    (forall t, In t l <-> source os t) /\ (forall t, In t l' <-> source os' t).
Proof. exact net_source. Qed.
Print Assumptions c162_from_the_source.

(** OS generates four keys and hands them over to VQ; they talk. *)
Definition so_start : net := mkNet [ex_inst []; nx_vq] [] [] (fun _ => []).
Definition so_words : tape := ex_tape ++ ex_tape ++ ex_tape ++ ex_tape.
Definition so_talk (reply : list rune) : list nop := nx_shared ++
  [NSend 0 (ex_msg txt_primary []) []; NRead 1 0 (ex_received [] []) []; NSend 1 (nx_reply reply) []; NRead 0 1 (ex_received [] []) []].
Lemma so_start_ok : net_start 5 so_start /\ forall k, ~ key_somewhere so_start k.
Proof.
  assert (E : forall k, ~ key_somewhere so_start k).
  { intros k [(a & i & N & I)|(f & [] & _)]. destruct a as [|[|a]]; cbn [so_start nt_stations nth_error] in N; [injection N as <-; destruct I..|destruct a; discriminate]. }
  split; [|exact E]. split; [lia|]. split; [|split; [intros f []|split; [|split; reflexivity]]].
  - intros [|[|a]] i N; cbn [so_start nt_stations nth_error] in N; [| |destruct a; discriminate];
      (injection N as <-; split; [reflexivity|]; split; [vm_compute; discriminate|]; apply store_okb_ok; vm_compute; reflexivity).
  - intros k k' K. destruct (E k K).
Qed.
Lemma so_plain reply : Forall plain_op (so_talk reply).
Proof.
  assert (blind nx_all) by (intros k k' _; reflexivity).
  unfold so_talk, nx_shared. cbn [app]. repeat (apply Forall_cons; [first [exact I|assumption]|]). apply Forall_nil.
Qed.
Lemma so_reads : all_along uni_id reads_first (nt_step uni_id so_start (NGenerate 0 4 0 None [callVQ] so_words)) (so_talk txt_other).
Proof.
  unfold so_talk, nx_shared. cbn [app all_along]. split; [exact I|]. split; [exact I|].
  split; [apply all_heard; vm_compute; reflexivity|]. split; [exact I|]. split; [apply all_heard; vm_compute; reflexivity|]. split; exact I.
Qed.
Lemma so_reads2 : all_along uni_id reads_first (nt_step uni_id so_start (NGenerate 0 4 0 None [callVQ] so_words)) (so_talk (rev txt_other)).
Proof.
  unfold so_talk, nx_shared. cbn [app all_along]. split; [exact I|]. split; [exact I|].
  split; [apply all_heard; vm_compute; reflexivity|]. split; [exact I|]. split; [apply all_heard; vm_compute; reflexivity|]. split; exact I.
Qed.
Definition so_heard : list (list rune) := map (fun e => repeat 65 (length (en_cipher e)))
  (nt_air (nt_run uni_id (nt_step uni_id so_start (NGenerate 0 4 0 None [callVQ] so_words)) (so_talk txt_other))).
Lemma only_a h : Forall2 (fun e c => letters c /\ length c = length (en_cipher e)) h (map (fun e => repeat 65 (length (en_cipher e))) h).
Proof.
  induction h as [|e h IH]; [constructor|]. cbn [map]. constructor; [|exact IH]. split; [|apply repeat_length].
  apply Forall_forall. intros y Y. apply repeat_spec in Y. subst. unfold is_letter. lia.
Qed.
(** The two messages may be heard as nothing but the letter A, whichever reply
    was sent. *)
Example c162_applied : map (fun c => len c) so_heard = [55; 15] /\ exists i0 t0',
  generate_keys uni_id (ex_inst []) 4 0 None [callVQ] so_words = Ok (i0, t0') /\ len (i_keys i0) = 4 /\
  let source os t := length t = 256%nat /\ Forall (fun w => 0 <= w < 2 ^ 64) t /\
    exists i1 t1, generate_keys uni_id (ex_inst []) 4 0 None [callVQ] t = Ok (i1, t1) /\ map kid (i_keys i1) = map kid (i_keys i0) /\
      map en_cipher (nt_air (nt_run uni_id (nt_step uni_id so_start (NGenerate 0 4 0 None [callVQ] t)) os)) = so_heard in
  exists l l', NoDup l /\ NoDup l' /\ length l = length l' /\ l <> [] /\
    (forall t, In t l <-> source (so_talk txt_other) t) /\ (forall t, In t l' <-> source (so_talk (rev txt_other)) t).
Proof.
  split; [vm_compute; reflexivity|].
  assert (Q : exists i0 t0', generate_keys uni_id (ex_inst []) 4 0 None [callVQ] so_words = Ok (i0, t0') /\ len (i_keys i0) = 4).
  { do 2 eexists. split; [vm_compute; reflexivity|]. vm_compute. reflexivity. }
  destruct Q as (i0 & t0' & G & L4). exists i0, t0'. split; [exact G|]. split; [exact L4|]. cbv zeta.
  destruct (c162_from_the_source uni_id 5 so_start 0 (ex_inst []) 4 0 None [callVQ] 256 so_words i0 t0' (so_talk txt_other)
    (so_talk (rev txt_other)) so_heard uni_id_ok (proj1 so_start_ok) (proj2 so_start_ok) eq_refl G (so_plain _) so_reads (so_plain _) so_reads2)
    as (l & l' & A & B & C & D & F & H).
  - vm_compute. reflexivity.
  - unfold so_heard. apply only_a.
  - exists l, l'. split; [exact A|]. split; [exact B|]. split; [exact C|]. split; [|split; [exact F|exact H]].
    apply D; [reflexivity|]. apply Forall_forall. intros w W.
    assert (X : forallb (fun w => (0 <=? w) && (w <? 2 ^ 64)) so_words = true) by (vm_compute; reflexivity).
    rewrite forallb_forall in X. specialize (X w W). lia.
Qed.
