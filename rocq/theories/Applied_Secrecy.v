(** Applications of the theorems of Props_Secrecy, Props_Settings and
    Props_Recipients to concrete stores, settings and lists. *)
From Coq Require Import String.
From Verif Require Import Base Spec Spec_Secrecy Spec_Recipients Model_Unicode Model_Diana Model_Crand Model_Functions
  Model_Types Model_Keys Model_Messages Model_Station Model_Cipher Proofs_Keys Examples Props_Cipher Props_Secrecy Props_Recipients.
From Verif Require Props_Settings.

(** C124: one key is used up and known to the enemy. *)
Definition ex_opened : list key := 
  [ex_key idA 3 40 [callVQ]; ex_key idB 5 40 [callVQ]; ex_key idC 11 40 [callVQ]; set_used (ex_key idD 2 40 []) true].
Definition ex_known (k : key) : bool := kused k.
Example c124_known_keys_applied : exists l,
  (forall ks2, In ks2 l <-> refilled_but ex_known ex_opened ks2 /\
     option_map (List.map mcipher) (sent uni_id ks2 ex_series) = Some ex_ciphers) /\
  Z.of_nat (List.length l) = 26 ^ 50.
Proof.
  destruct (c124_known_keys uni_id ex_known 5 ex_opened ex_series
    (match sent uni_id ex_opened ex_series with Some o => o | None => [] end) ex_ciphers uni_id_ok)
    as (l & _ & A & B & _).
  - reflexivity.
  - apply store_okb_ok. vm_compute. reflexivity.
  - repeat constructor.
  - intros k _ X. exact X.
  - vm_compute. reflexivity.
  - vm_compute (sent _ _ _). repeat apply Forall2_cons; [..|constructor];
      (split; [apply lettersb_ok; vm_compute; reflexivity|vm_compute; reflexivity]).
  - exists l. split; [exact A|]. exact B.
Qed.

(** And of the unknown letters nothing but the ciphertexts depends. *)
Definition ex_refilled : list key :=
  [ex_key idA 7 40 [callVQ]; ex_key idB 1 40 [callVQ]; ex_key idC 9 40 [callVQ]; ex_key idD 25 40 []].
Example c124_same_but_cipher_applied : exists out out2,
  sent uni_id ex_keys ex_series = Some out /\ sent uni_id ex_refilled ex_series = Some out2 /\
  Forall2 (fun m m2 => same_but_cipher m m2 /\ List.length (mcipher m2) = List.length (mcipher m)) out out2 /\
  List.map mcipher out <> List.map mcipher out2.
Proof.
  assert (R : refilled ex_keys ex_refilled).
  { unfold refilled, ex_keys, ex_refilled. do 4 (apply Forall2_cons;
      [split; [reflexivity|]; split; [apply lettersb_ok; vm_compute; reflexivity|vm_compute; reflexivity]|]). constructor. }
  assert (H := c124_same_but_cipher uni_id 5 ex_keys ex_refilled ex_series uni_id_ok eq_refl ex_store
    ltac:(repeat constructor) R).
  destruct (sent uni_id ex_keys ex_series) as [out|] eqn:E1; [|vm_compute in E1; discriminate E1].
  destruct (sent uni_id ex_refilled ex_series) as [out2|] eqn:E2; [|vm_compute in E2; discriminate E2].
  exists out, out2. split; [reflexivity|]. split; [reflexivity|]. split; [exact H|].
  assert (A : option_map (List.map mcipher) (sent uni_id ex_keys ex_series) <>
              option_map (List.map mcipher) (sent uni_id ex_refilled ex_series)) by (vm_compute; discriminate).
  rewrite E1, E2 in A. cbn [option_map] in A. congruence.
Qed.

(** C49: a group of 19 letters in a key of 20, one letter is sent. *)
Example c49_usable_applied : exists i' k t' i2 m2 t3,
  new_key uni_id (st_inst (Props_Settings.ex_settings 19 20)) 5 9 [callVQ] Props_Settings.ex_words = Ok (i', k, t') /\
  encipher uni_id i' (ex_msg [65] []) ex_tape = (i2, m2, Ok tt, t3).
Proof.
  assert (Q : exists i' k t',
    new_key uni_id (st_inst (Props_Settings.ex_settings 19 20)) 5 9 [callVQ] Props_Settings.ex_words = Ok (i', k, t') /\
    kkeepers k = [callVQ]).
  { do 3 eexists. split; [vm_compute; reflexivity|]. vm_compute. reflexivity. }
  destruct Q as (i' & k & t' & N & K). exists i', k, t'.
  destruct (Props_Settings.c49_usable_partial uni_id (Props_Settings.ex_settings 19 20) 5 9 [callVQ] Props_Settings.ex_words
    i' k t' (ex_msg [65] []) ex_tape uni_id_ok) as (i2 & m2 & t3 & E).
  - vm_compute. reflexivity.
  - vm_compute. reflexivity.
  - vm_compute. reflexivity.
  - exact N.
  - vm_compute. discriminate.
  - reflexivity.
  - reflexivity.
  - rewrite K. reflexivity.
  - exists 65. split; [reflexivity|]. left. left. lia.
  - exists i2, m2, t3. split; [exact N|exact E].
Qed.

(** C72: two keys of one group, and no message whatever. *)
Example c72_unusable_applied : exists i' t',
  generate_keys uni_id (st_inst (Props_Settings.ex_settings 20 20)) 2 5 None [callVQ] Props_Settings.ex_words = Ok (i', t') /\
  forall m t2 i2 m2 r t3, encipher uni_id i' m t2 = (i2, m2, r, t3) -> r <> Ok tt.
Proof.
  assert (Q : exists i' t',
    generate_keys uni_id (st_inst (Props_Settings.ex_settings 20 20)) 2 5 None [callVQ] Props_Settings.ex_words = Ok (i', t')).
  { do 2 eexists. vm_compute. reflexivity. }
  destruct Q as (i' & t' & G). exists i', t'. split; [exact G|]. intros m t2 i2 m2 r t3.
  refine (Props_Settings.c72_unusable uni_id (Props_Settings.ex_settings 20 20) 2 5 None [callVQ] Props_Settings.ex_words
    i' t' m t2 i2 m2 r t3 _ _ _ G).
  - vm_compute. reflexivity.
  - vm_compute. discriminate.
  - vm_compute. reflexivity.
Qed.
Example c72_short_keys_applied : forall m t i' m' r t',
  encipher uni_id (ex_inst [ex_key idA 3 5 [callVQ]; ex_key idB 4 3 [callVQ]]) m t = (i', m', r, t') -> r <> Ok tt.
Proof.
  intros m t i' m' r t'. apply Props_Settings.c72_short_keys; [reflexivity|].
  intros k [<-|[<-|[]]]; vm_compute; discriminate.
Qed.
Example c72_assert_applied : assert_settings (Props_Settings.ex_settings 20 20) = Ok tt /\
  assert_settings (Props_Settings.ex_settings 0 20) <> Ok tt /\ assert_settings (Props_Settings.ex_settings 5 19) <> Ok tt.
Proof.
  split; [|split].
  - apply Props_Settings.c72_assert. vm_compute. repeat split; discriminate.
  - intros X. apply Props_Settings.c72_assert in X. destruct X as (_ & X & _). vm_compute in X. apply X. reflexivity.
  - intros X. apply Props_Settings.c72_assert in X. destruct X as (_ & _ & X & _). vm_compute in X. apply X. reflexivity.
Qed.

(** C111: keepers are added and removed; B remains, VQ does not. *)
Example c111_keepers_applied :
  let l' := fold_left (fun l (o : bool * list rune) => if fst o then add_keeper uni_id l [snd o] else remove_keeper uni_id l [snd o])
    er_ops [callVQ; [65]] in
  listed_call (to_upper uni_id) l' [97] /\ listed_call (to_upper uni_id) l' [98] /\ ~ listed_call (to_upper uni_id) l' callVQ.
Proof.
  assert (D : distinct_texts (to_upper uni_id) [callVQ; [65]]).
  { unfold distinct_texts. vm_compute. repeat constructor; cbn; intuition discriminate. }
  destruct (c111_keepers uni_id [callVQ; [65]] er_ops D) as (_ & M). cbv zeta. split; [|split].
  - apply M. right. split.
    + intros p I. repeat (destruct I as [<-|I]; [vm_compute; discriminate|]). destruct I.
    + exists [65]. split; [right; left; reflexivity|vm_compute; reflexivity].
  - apply M. left. exists (firstn 4 er_ops), [66], [(true, callOS)]. split; [reflexivity|]. split; [vm_compute; reflexivity|].
    intros p [<-|[]]. vm_compute. discriminate.
  - intros X. apply M in X. destruct X as [(before & o & after & E & S1 & A)|(U & _)].
    + assert (Y : forall n p, nth_error er_ops n = Some p -> fst p = true -> ~ same_text (to_upper uni_id) (snd p) callVQ).
      { intros n p N F. do 6 (destruct n as [|n]; [injection N as <-; try discriminate F; vm_compute; discriminate|]).
        destruct n; discriminate N. }
      apply (Y (List.length before) (true, o)); [|reflexivity|exact S1]. rewrite E, nth_error_app2, Nat.sub_diag by apply le_n. reflexivity.
    + apply (U (false, [118; 113])); [right; left; reflexivity|vm_compute; reflexivity].
Qed.
Example c111_contains_applied : contains_recipient uni_id [callVQ; callOS] [[118; 113]; callOS] = true /\
  contains_recipient uni_id [callVQ] [callVQ; callOS] = false.
Proof.
  split.
  - apply c111_contains. intros x [<-|[<-|[]]]; [exists callVQ|exists callOS]; (split; [vm_compute; tauto|vm_compute; reflexivity]).
  - destruct (contains_recipient uni_id [callVQ] [callVQ; callOS]) eqn:E; [|reflexivity]. exfalso.
    destruct (proj1 (c111_contains uni_id [callVQ] [callVQ; callOS]) E callOS) as (y & [<-|[]] & S1); [right; left; reflexivity|].
    vm_compute in S1. discriminate S1.
Qed.
