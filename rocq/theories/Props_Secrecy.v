(** Properties C124-C126: the ciphertexts of messages tell nothing about the texts
    but their lengths, as long as Encipher chooses the keys. *)
From Coq Require Import String.
From Verif Require Import Base Spec Spec_Secrecy Model_Unicode Model_Diana Model_Crand Model_Functions Model_Types Model_Keys
  Model_Cipher Proofs_Keys Proofs_Secrecy2 Proofs_SecretGen Examples Props_Cipher.

(** The letters in the keys decide nothing but the letters in the ciphertexts:
    whether messages can be sent, which keys they take, their lengths and all
    else is the same for every filling of the keys. *)
Theorem c124_same_but_cipher : forall U gs ks ks2 calls, uni_ok U -> 0 < gs -> store_ok gs ks ->
  Forall (automatic gs) calls -> refilled ks ks2 ->
  match sent U ks calls, sent U ks2 calls with
  | Some out, Some out2 =>
      Forall2 (fun m m2 => same_but_cipher m m2 /\ List.length (mcipher m2) = List.length (mcipher m)) out out2
  | None, None => True
  | _, _ => False
  end.
Proof. intros U gs ks ks2 calls HU. exact (c124_same_lemma U HU gs ks ks2 calls). Qed.
Print Assumptions c124_same_but_cipher.

(** For messages that are sent one after the other and any ciphertexts [cs] of
    the right lengths: the fillings of the keys that make these texts come out as
    [cs] are 26^(letters in the keys - letters in cs) many, whatever the texts
    and whatever [cs]. *)
Theorem c124_equally_often : forall U gs ks calls out cs, uni_ok U -> 0 < gs -> store_ok gs ks ->
  Forall (automatic gs) calls -> sent U ks calls = Some out ->
  Forall2 (fun m c => letters c /\ List.length c = List.length (mcipher m)) out cs ->
  exists l, NoDup l /\
    (forall ks2, In ks2 l <-> refilled ks ks2 /\ option_map (List.map mcipher) (sent U ks2 calls) = Some cs) /\
    Z.of_nat (List.length l) = 26 ^ (key_letters ks - len (List.concat cs)) /\ len (List.concat cs) <= key_letters ks.
Proof. intros U gs ks calls out cs HU. exact (c124_count_lemma U HU gs ks calls out cs). Qed.
Print Assumptions c124_equally_often.

(** Two series of messages whose ciphertexts have the same lengths: any
    ciphertexts come from equally many, and some, fillings of the keys. *)
Theorem c124_no_difference : forall U gs ks calls calls' out out' cs, uni_ok U -> 0 < gs -> store_ok gs ks ->
  Forall (automatic gs) calls -> Forall (automatic gs) calls' ->
  sent U ks calls = Some out -> sent U ks calls' = Some out' ->
  List.map (fun m => len (mcipher m)) out = List.map (fun m => len (mcipher m)) out' ->
  Forall2 (fun m c => letters c /\ List.length c = List.length (mcipher m)) out cs ->
  exists l l', NoDup l /\ NoDup l' /\ List.length l = List.length l' /\ l <> [] /\
    (forall ks2, In ks2 l <-> refilled ks ks2 /\ option_map (List.map mcipher) (sent U ks2 calls) = Some cs) /\
    (forall ks2, In ks2 l' <-> refilled ks ks2 /\ option_map (List.map mcipher) (sent U ks2 calls') = Some cs).
Proof. intros U gs ks calls calls' out out' cs HU. exact (c124_any_two_lemma U HU gs ks calls calls' out out' cs). Qed.
Print Assumptions c124_no_difference.

(** It does not help to know keys that were used before. *)
Theorem c124_known_keys : forall U known gs ks calls out cs, uni_ok U -> 0 < gs -> store_ok gs ks ->
  Forall (automatic gs) calls -> (forall k, In k ks -> known k = true -> kused k = true) ->
  sent U ks calls = Some out ->
  Forall2 (fun m c => letters c /\ List.length c = List.length (mcipher m)) out cs ->
  exists l, NoDup l /\
    (forall ks2, In ks2 l <-> refilled_but known ks ks2 /\ option_map (List.map mcipher) (sent U ks2 calls) = Some cs) /\
    Z.of_nat (List.length l) = 26 ^ (key_letters (filter (fun k => negb (known k)) ks) - len (List.concat cs)) /\
    len (List.concat cs) <= key_letters (filter (fun k => negb (known k)) ks).
Proof. intros U known gs ks calls out cs HU. exact (c124_known_lemma U HU known gs ks calls out cs). Qed.
Print Assumptions c124_known_keys.

(** Two messages each, the first spanning two keys: whatever 55 and 15 letters
    are sent, they may as well be the other two messages. *)
Definition ex_call (text : list rune) : call := (ex_inst [], ex_msg text [], []).
Definition ex_series : list call := [ex_call txt_long; ex_call txt_other].
Definition ex_series' : list call :=
  [ex_call (str "STAY 3 weeks at hill 21T-47. Done"); ex_call (str "RETREAT AT SIX")].
Definition ex_ciphers : list (list rune) := [ex_runes 17 55; ex_runes 4 15].
Example c124_nontrivial : exists l l', List.length l = List.length l' /\ l <> [] /\
  (forall ks2, In ks2 l <-> refilled ex_keys ks2 /\ option_map (List.map mcipher) (sent uni_id ks2 ex_series) = Some ex_ciphers) /\
  (forall ks2, In ks2 l' <-> refilled ex_keys ks2 /\ option_map (List.map mcipher) (sent uni_id ks2 ex_series') = Some ex_ciphers).
Proof.
  destruct (c124_no_difference uni_id 5 ex_keys ex_series ex_series'
    (match sent uni_id ex_keys ex_series with Some o => o | None => [] end)
    (match sent uni_id ex_keys ex_series' with Some o => o | None => [] end) ex_ciphers uni_id_ok)
    as (l & l' & _ & _ & A & B & C & D).
  - reflexivity.
  - exact ex_store.
  - repeat constructor.
  - repeat constructor.
  - vm_compute. reflexivity.
  - vm_compute. reflexivity.
  - vm_compute. reflexivity.
  - vm_compute (sent _ _ _). repeat apply Forall2_cons; [..|constructor];
      (split; [apply lettersb_ok; vm_compute; reflexivity|vm_compute; reflexivity]).
  - exists l, l'. auto.
Qed.
Example c124_count_nontrivial : exists l,
  (forall ks2, In ks2 l <-> refilled ex_keys ks2 /\ option_map (List.map mcipher) (sent uni_id ks2 ex_series) = Some ex_ciphers) /\
  Z.of_nat (List.length l) = 26 ^ 90.
Proof.
  destruct (c124_equally_often uni_id 5 ex_keys ex_series
    (match sent uni_id ex_keys ex_series with Some o => o | None => [] end) ex_ciphers uni_id_ok)
    as (l & _ & A & B & _).
  - reflexivity.
  - exact ex_store.
  - repeat constructor.
  - vm_compute. reflexivity.
  - vm_compute (sent _ _ _). repeat apply Forall2_cons; [..|constructor];
      (split; [apply lettersb_ok; vm_compute; reflexivity|vm_compute; reflexivity]).
  - exists l. split; [exact A|]. exact B.
Qed.

(** Not so for keys that are chosen explicitly: the key is not marked used (C10),
    and the same text sent twice under it is seen to be the same. Ciphertexts
    that differ do not occur. *)
Definition ex_given : call := (ex_inst [], ex_msg txt_other idA, []).
Theorem c124_explicit_key_refuted : exists ks calls out cs, store_ok 5 ks /\
  sent uni_id ks calls = Some out /\
  Forall2 (fun m c => letters c /\ List.length c = List.length (mcipher m)) out cs /\
  forall ks2, refilled ks ks2 -> option_map (List.map mcipher) (sent uni_id ks2 calls) <> Some cs.
Proof.
  exists [ex_key idA 3 40 [callVQ]], [ex_given; ex_given].
  eexists. exists [ex_runes 17 15; ex_runes 4 15]. split; [apply store_okb_ok; vm_compute; reflexivity|].
  split; [vm_compute; reflexivity|]. split.
  { repeat apply Forall2_cons; [..|constructor]; (split; [apply lettersb_ok; vm_compute; reflexivity|vm_compute; reflexivity]). }
  intros ks2 K H. assert (Hs := refilled_store 5 _ ks2 (store_okb_ok 5 [ex_key idA 3 40 [callVQ]] eq_refl) K).
  inversion K as [|k0 k2 x y OL N E1 E2]; subst. inversion N; subst. destruct OL as (OL & _).
  cbn [sent ex_given] in H. set (i := set_keys (ex_inst []) [k2]) in *.
  destruct (encipher uni_id i (ex_msg txt_other idA) []) as [[[i' m'] r] t'] eqn:E. destruct r as [[]|?| |]; try discriminate.
  destruct (c10_explicit_key_partial uni_id i (ex_msg txt_other idA) [] i' m' t' uni_id_ok eq_refl Hs) as
    (j & js & k & _ & _ & _ & _ & _ & _ & _ & _ & M & _); [discriminate|left; reflexivity|exact E|].
  assert (X : i_keys i' = [k2] \/ i_keys i' = [set_used k2 true]).
  { unfold marked_used in M. cbn [i i_keys set_keys] in M. destruct (i_keys i') as [|a l]; [specialize (M O); discriminate|].
    assert (A := M O). cbn [nth_error option_map] in A. specialize (M 1%nat). cbn [nth_error option_map] in M.
    destruct l; [|discriminate]. destruct (existsb (Nat.eqb 0) js); injection A as ->; auto. }
  destruct X as [X|X]; rewrite X in H.
  - fold i in H. rewrite E in H. cbn [option_map List.map] in H. injection H as H1 H2. rewrite H1 in H2.
    vm_compute in H2. discriminate.
  - rewrite OL in H. vm_compute in H. discriminate.
Qed.
Print Assumptions c124_explicit_key_refuted.

(** C126. The keys are made by GenerateKeys, all keys before are used up. Of the
    random sources of [N] words those that lead to the same key IDs and to
    ciphertexts [cs] are equally many for two series of messages whose
    ciphertexts have the same lengths; there are some if [t0] is such a source. *)
Theorem c126_from_the_source : forall U i n now x keepers N t0 i0 t0' calls calls' out out' cs,
  uni_ok U -> 0 < i_groupsize i -> 0 <= i_keylength i ->
  store_ok (i_groupsize i) (i_keys i) -> (forall k, In k (i_keys i) -> kused k = true) ->
  generate_keys U i n now x keepers t0 = Ok (i0, t0') ->
  Forall (automatic (i_groupsize i)) calls -> Forall (automatic (i_groupsize i)) calls' ->
  sent U (i_keys i0) calls = Some out -> sent U (i_keys i0) calls' = Some out' ->
  List.map (fun m => len (mcipher m)) out = List.map (fun m => len (mcipher m)) out' ->
  Forall2 (fun m c => letters c /\ List.length c = List.length (mcipher m)) out cs ->
  let source c t := List.length t = N /\ Forall (fun w => 0 <= w < 2 ^ 64) t /\
    exists i1 t1, generate_keys U i n now x keepers t = Ok (i1, t1) /\
      List.map kid (i_keys i1) = List.map kid (i_keys i0) /\
      option_map (List.map mcipher) (sent U (i_keys i1) c) = Some cs in
  exists l l', NoDup l /\ NoDup l' /\ List.length l = List.length l' /\
    (List.length t0 = N -> Forall (fun w => 0 <= w < 2 ^ 64) t0 -> l <> []) /\
    (forall t, In t l <-> source calls t) /\ (forall t, In t l' <-> source calls' t).
Proof.
  intros U i n now x keepers N t0 i0 t0' calls calls' out out' cs HU Hg Hl Hs Ho H. unfold generate_keys in *.
  destruct x as [[e|]|]; [|discriminate|];
    exact (sources_lemma U _ i now _ keepers Hg Hl N HU t0 i0 t0' calls calls' out out' cs Hs Ho H).
Qed.
Print Assumptions c126_from_the_source.

(** Four new keys after one that is used up; two series of messages. *)
Definition ex_used : list key := [set_used (ex_key idD 2 40 []) true].
Definition ex_words : tape := ex_tape ++ ex_tape ++ ex_tape ++ ex_tape.
Definition ex_gen := generate_keys uni_id (ex_inst ex_used) 4 0 None [callVQ] ex_words.
Definition ex_made : inst := match ex_gen with Ok (i, _) => i | _ => ex_inst [] end.
Example c126_nontrivial :
  let source c t := List.length t = 256%nat /\ Forall (fun w => 0 <= w < 2 ^ 64) t /\
    exists i1 t1, generate_keys uni_id (ex_inst ex_used) 4 0 None [callVQ] t = Ok (i1, t1) /\
      List.map kid (i_keys i1) = List.map kid (i_keys ex_made) /\
      option_map (List.map mcipher) (sent uni_id (i_keys i1) c) = Some ex_ciphers in
  exists l l', NoDup l /\ NoDup l' /\ List.length l = List.length l' /\ l <> [] /\
    (forall t, In t l <-> source ex_series t) /\ (forall t, In t l' <-> source ex_series' t).
Proof.
  cbv zeta. assert (G : exists t', ex_gen = Ok (ex_made, t')) by (eexists; vm_compute; reflexivity). destruct G as (t' & G).
  destruct (c126_from_the_source uni_id (ex_inst ex_used) 4 0 None [callVQ] 256 ex_words ex_made t' ex_series ex_series'
    (match sent uni_id (i_keys ex_made) ex_series with Some o => o | None => [] end)
    (match sent uni_id (i_keys ex_made) ex_series' with Some o => o | None => [] end) ex_ciphers uni_id_ok)
    as (l & l' & A & B & C & D & E & F).
  - reflexivity.
  - vm_compute. discriminate.
  - apply store_okb_ok. vm_compute. reflexivity.
  - intros k [<-|[]]. reflexivity.
  - exact G.
  - repeat constructor.
  - repeat constructor.
  - vm_compute. reflexivity.
  - vm_compute. reflexivity.
  - vm_compute. reflexivity.
  - vm_compute (sent _ _ _). repeat apply Forall2_cons; [..|constructor];
      (split; [apply lettersb_ok; vm_compute; reflexivity|vm_compute; reflexivity]).
  - exists l, l'. split; [exact A|]. split; [exact B|]. split; [exact C|]. split; [|split; [exact E|exact F]].
    apply D; [reflexivity|]. apply Forall_forall. intros w W.
    assert (X : forallb (fun w => (0 <=? w) && (w <? 2 ^ 64)) ex_words = true) by (vm_compute; reflexivity).
    rewrite forallb_forall in X. specialize (X w W). lia.
Qed.
