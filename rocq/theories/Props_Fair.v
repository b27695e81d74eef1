(** Property C129: what is drawn at random is drawn fairly. *)
From Verif Require Import Base Spec Spec_Persist Spec_Crand Model_Unicode Model_Crand Model_Functions Model_Types Model_Keys Model_Cipher Model_Station
  Examples Proofs_Fair2.

(** A new message ID is any ID that is free, each equally often. There are
    14776336 IDs; if all are taken, no ID is found. *)
Theorem c129_message_id : forall ms, len ms < 62 ^ 4 ->
  fair (new_unique_message_id ms) (fun id => len id = 4 /\ Forall alnum id /\ ~ In id (map mid ms)).
Proof. exact message_id_fair. Qed.
Print Assumptions c129_message_id.
(** The ID and the letters of a new key are any free ID and any letters. *)
Theorem c129_new_key : forall U i now e keepers, 0 < i_groupsize i -> 0 <= i_keylength i -> len (i_keys i) < 26 ^ i_groupsize i ->
  fair (fun t => let* (_, k, t') := new_key U i now e keepers t in Ok (kid k, krunes k, t'))
    (fun r => letters (fst r) /\ len (fst r) = i_groupsize i /\
       (forall k, In k (i_keys i) -> ~ same_text (to_upper U) (kid k) (fst r)) /\
       letters (snd r) /\ (exists q, len (snd r) = q * i_groupsize i) /\
       i_keylength i <= len (snd r) < i_keylength i + i_groupsize i).
Proof. exact new_key_fair. Qed.
Print Assumptions c129_new_key.
(** A generated PFK or salt is any text of 64 hexadecimal digits. *)
Theorem c129_pfk : fair generate_pfk (fun x => len x = 64 /\ Forall hex_digit x /\ map hex_lower x = x).
Proof. exact (generated_fair generate_pfk (or_introl eq_refl)). Qed.
Print Assumptions c129_pfk.
Theorem c129_salt : fair generate_salt (fun x => len x = 64 /\ Forall hex_digit x /\ map hex_lower x = x).
Proof. exact (generated_fair generate_salt (or_intror eq_refl)). Qed.
Print Assumptions c129_salt.

Example c129_nontrivial :
  (exists N l l', sources_of N (new_unique_message_id [set_mid (ex_msg [72] []) [65; 98; 48; 48]]) [65; 98; 48; 57] l /\
     sources_of N (new_unique_message_id [set_mid (ex_msg [72] []) [65; 98; 48; 48]]) [122; 90; 65; 65] l' /\ length l = length l' /\ l <> []) /\
  (exists N l l', let f t := let* (_, k, t') := new_key uni_id (ex_inst ex_keys) 10 20 [callVQ] t in Ok (kid k, krunes k, t') in
     sources_of N f (repeat 90 5, repeat 65 40) l /\ sources_of N f (repeat 89 5, repeat 90 40) l' /\ length l = length l' /\ l <> []) /\
  (exists N l l', sources_of N generate_pfk (repeat 48 64) l /\ sources_of N generate_pfk (repeat 102 64) l' /\ length l = length l' /\ l <> []).
Proof.
  assert (G : forall A f (P : A -> Prop) a b, fair f P -> P a -> P b ->
    exists N l l', sources_of N f a l /\ sources_of N f b l' /\ length l = length l' /\ l <> []).
  { intros A f P a b (_ & F & N & E) Pa Pb. destruct (F N) as (c & H). destruct (H a Pa) as (l & X & X'), (H b Pb) as (l' & Y & Y').
    exists N, l, l'. split; [exact X|]. split; [exact Y|]. split; [congruence|]. intros ->. destruct (E a Pa) as (l2 & Z & D).
    destruct l2 as [|x l2]; [contradiction|]. apply (proj2 X x). apply (proj2 Z x). left. reflexivity. }
  split; [|split].
  - apply (G _ _ _ _ _ (c129_message_id [set_mid (ex_msg [72] []) [65; 98; 48; 48]] ltac:(vm_compute; reflexivity))).
    + split; [reflexivity|]. split; [repeat constructor; unfold alnum, is_letter, digit; lia|]. intros [H|[]]. discriminate H.
    + split; [reflexivity|]. split; [repeat constructor; unfold alnum, is_letter, digit; lia|]. intros [H|[]]. discriminate H.
  - cbv zeta. apply (G _ _ _ (repeat 90 5%nat, repeat 65 40%nat) (repeat 89 5%nat, repeat 90 40%nat)
      (c129_new_key uni_id (ex_inst ex_keys) 10 20 [callVQ] eq_refl ltac:(vm_compute; discriminate) eq_refl)); cbn [fst snd].
    + split; [apply lettersb_ok; reflexivity|]. split; [reflexivity|]. split; [|split; [apply lettersb_ok; reflexivity|split; [exists 8; reflexivity|vm_compute; split; [discriminate|reflexivity]]]].
      intros k K E. assert (X : forallb (fun k => negb (runes_eqb (map (to_upper uni_id) (kid k)) (map (to_upper uni_id) (repeat 90 5)))) (i_keys (ex_inst ex_keys)) = true)
        by (vm_compute; reflexivity).
      rewrite forallb_forall in X. specialize (X k K). rewrite E in X. vm_compute in X. discriminate X.
    + split; [apply lettersb_ok; reflexivity|]. split; [reflexivity|]. split; [|split; [apply lettersb_ok; reflexivity|split; [exists 8; reflexivity|vm_compute; split; [discriminate|reflexivity]]]].
      intros k K E. assert (X : forallb (fun k => negb (runes_eqb (map (to_upper uni_id) (kid k)) (map (to_upper uni_id) (repeat 89 5)))) (i_keys (ex_inst ex_keys)) = true)
        by (vm_compute; reflexivity).
      rewrite forallb_forall in X. specialize (X k K). rewrite E in X. vm_compute in X. discriminate X.
  - apply (G _ _ _ _ _ c129_pfk).
    + split; [reflexivity|]. split; [|reflexivity]. apply Forall_forall. intros x X. apply repeat_spec in X. subst x. unfold hex_digit. lia.
    + split; [reflexivity|]. split; [|reflexivity]. apply Forall_forall. intros x X. apply repeat_spec in X. subst x. unfold hex_digit. lia.
Qed.
