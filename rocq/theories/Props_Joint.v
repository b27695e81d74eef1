(** Property C132: what is drawn one after the other is drawn independently. *)
From Verif Require Import Base Spec Spec_Persist Spec_Crand Spec_Joint Model_Unicode Model_Crand Model_Functions Model_Types Model_Keys Model_Station
  Examples Proofs_Fair2 Proofs_Joint.

(** The keys made by one call are any keys with different free IDs: the letters
    of a key say nothing about the letters of another, and its ID only that no
    other has it. *)
Theorem c132_keys : forall U i n now x keepers, x <> Some None -> 0 < i_groupsize i -> 0 <= i_keylength i ->
  len (i_keys i) + Z.max 0 n <= 26 ^ i_groupsize i ->
  fair (fun t => let* (i', t') := generate_keys U i n now x keepers t in
                 Ok (map (fun k => (kid k, krunes k)) (skipn (length (i_keys i)) (i_keys i')), t'))
    (fun rs => len rs = Z.max 0 n /\ NoDup (map fst rs) /\
       Forall (fun r => letters (fst r) /\ len (fst r) = i_groupsize i /\
         (forall k, In k (i_keys i) -> ~ same_text (to_upper U) (kid k) (fst r)) /\
         letters (snd r) /\ (exists q, len (snd r) = q * i_groupsize i) /\
         i_keylength i <= len (snd r) < i_keylength i + i_groupsize i) rs).
Proof. exact generated_joint. Qed.
Print Assumptions c132_keys.
(** PFKs and salts made in any order. *)
Theorem c132_secrets : forall gs, Forall (fun g => g = generate_pfk \/ g = generate_salt) gs ->
  fair (in_turn gs) (fun xs => length xs = length gs /\ Forall (fun x => len x = 64 /\ Forall hex_digit x /\ map hex_lower x = x) xs).
Proof. exact secrets_joint. Qed.
Print Assumptions c132_secrets.
(** Slices filled by ReadRunes, as when memory is overwritten, and by Read. *)
Theorem c132_runes : forall ns, fair (in_turn (map (fun n => drawn_or_panic (read_runes n)) ns))
  (fun ls => Forall2 (fun n l => length l = n /\ Forall (fun v => - 2 ^ 31 <= v < 2 ^ 31) l) ns ls).
Proof. exact runes_joint. Qed.
Print Assumptions c132_runes.
Theorem c132_bytes : forall ns, fair (in_turn (map (fun n => drawn_or_panic (read_bytes n)) ns))
  (fun ls => Forall2 (fun n l => length l = n /\ Forall (fun v => 0 <= v < 256) l) ns ls).
Proof. exact bytes_joint. Qed.
Print Assumptions c132_bytes.

(** Two keys, an "easy" and another pair; a salt and a PFK that are the same and
    that differ; an overwritten slice. *)
Example c132_nontrivial :
  (exists N l l', let f t := let* (i', t') := generate_keys uni_id (ex_inst ex_keys) 2 10 (Some (Some 20)) [callVQ] t in
       Ok (map (fun k => (kid k, krunes k)) (skipn (length ex_keys) (i_keys i')), t') in
     sources_of N f [(repeat 90 5, repeat 65 40); (repeat 89 5, repeat 65 40)] l /\
     sources_of N f [(repeat 88 5, repeat 66 40); (repeat 90 5, repeat 67 40)] l' /\ length l = length l' /\ l <> []) /\
  (exists N l l', let f := in_turn [generate_salt; generate_pfk] in
     sources_of N f [repeat 48 64; repeat 48 64] l /\ sources_of N f [repeat 48 64; repeat 102 64] l' /\ length l = length l' /\ l <> []) /\
  (exists N l l', let f := in_turn [drawn_or_panic (read_runes 2); drawn_or_panic (read_runes 1)] in
     sources_of N f [[0; -1]; [0]] l /\ sources_of N f [[-2147483648; 2147483647]; [5]] l' /\ length l = length l' /\ l <> []).
Proof.
  assert (G : forall A f (P : A -> Prop) a b, fair f P -> P a -> P b ->
    exists N l l', sources_of N f a l /\ sources_of N f b l' /\ length l = length l' /\ l <> []).
  { intros A f P a b (_ & F & N & E) Pa Pb. destruct (F N) as (c & H). destruct (H a Pa) as (l & X & X'), (H b Pb) as (l' & Y & Y').
    exists N, l, l'. split; [exact X|]. split; [exact Y|]. split; [congruence|]. intros ->. destruct (E a Pa) as (l2 & Z & D).
    destruct l2 as [|x l2]; [contradiction|]. apply (proj2 X x). apply (proj2 Z x). left. reflexivity. }
  assert (free : forall id, forallb (fun k => negb (runes_eqb (map (to_upper uni_id) (kid k)) (map (to_upper uni_id) id))) ex_keys = true ->
    forall k, In k ex_keys -> ~ same_text (to_upper uni_id) (kid k) id).
  { intros id X k K E. rewrite forallb_forall in X. specialize (X k K). unfold same_text in E. rewrite E in X.
    assert (R : runes_eqb (map (to_upper uni_id) id) (map (to_upper uni_id) id) = true) by apply runes_eqb_refl.
    rewrite R in X. discriminate X. }
  split; [|split].
  - cbv zeta. apply (G _ _ _ [(repeat 90 5%nat, repeat 65 40%nat); (repeat 89 5%nat, repeat 65 40%nat)]
      [(repeat 88 5%nat, repeat 66 40%nat); (repeat 90 5%nat, repeat 67 40%nat)]
      (c132_keys uni_id (ex_inst ex_keys) 2 10 (Some (Some 20)) [callVQ] ltac:(discriminate) eq_refl ltac:(vm_compute; discriminate) ltac:(vm_compute; discriminate))).
    all: (split; [reflexivity|]; split; [constructor; [intros [H|[]]; discriminate H|constructor; [intros []|constructor]]|]).
    all: repeat constructor; cbn [fst snd]; try (apply lettersb_ok; reflexivity); try (apply free; vm_compute; reflexivity);
      try (exists 8; reflexivity); try (vm_compute; discriminate); try (vm_compute; reflexivity).
  - apply (G _ _ _ _ _ (c132_secrets [generate_salt; generate_pfk] ltac:(repeat constructor; auto))).
    all: split; [reflexivity|]; repeat (apply Forall_cons || apply Forall_nil).
    all: split; [reflexivity|]; split; [|reflexivity]; apply Forall_forall; intros x X; apply repeat_spec in X; subst x; unfold hex_digit; lia.
  - apply (G _ _ _ [[0; -1]; [0]] [[-2147483648; 2147483647]; [5]] (c132_runes [2; 1]%nat)).
    all: repeat constructor; discriminate.
Qed.
