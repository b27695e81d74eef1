(** Theorems on messages between stations applied to concrete messages: every
    hypothesis is met. *)
From Verif Require Import Base Spec Model_Unicode Model_Crand Model_Functions Model_Types Model_Cipher Model_Messages Model_Print
  Spec_Messages Examples Props_Cipher Props_Messages Props_Print Props_Applied2.

Lemma tr_store : store_ok 5 ex_keys.
Proof. apply store_okb_ok. vm_compute. reflexivity. Qed.
Lemma tr_same : forall k, In k ex_keys -> holds ex_keys k.
Proof. intros k I. exists k. split; [exact I|]. split; reflexivity. Qed.
Lemma tr_vq : call_sign callVQ.
Proof. split; [intros X; discriminate X|]. repeat (apply Forall_cons; [vm_compute; intuition discriminate|]). apply Forall_nil. Qed.
Lemma tr_os : call_sign callOS.
Proof. split; [intros X; discriminate X|]. repeat (apply Forall_cons; [vm_compute; intuition discriminate|]). apply Forall_nil. Qed.

(** A text with a dotless i is read back with an i. *)
Example c07_any_applied : exists i' m' t', encipher uni_id (ex_inst ex_keys) (ex_msg [72; 305; 49] []) [] = (i', m', Ok tt, t') /\
  exists ri' tr', decipher uni_id (ex_inst ex_keys) (ex_received (mkeyid m') (mcipher m')) [] =
    (ri', set_mplain (ex_received (mkeyid m') (mcipher m')) [72; 105; 49], Ok tt, tr').
Proof.
  assert (Q : exists i' m' t', encipher uni_id (ex_inst ex_keys) (ex_msg [72; 305; 49] []) [] = (i', m', Ok tt, t'))
    by (apply ay_surj; vm_compute; reflexivity).
  destruct Q as (i' & m' & t' & E). exists i', m', t'. split; [exact E|].
  destruct (c07_roundtrip_any uni_id (ex_inst ex_keys) (ex_msg [72; 305; 49] []) [] i' m' t' (ex_inst ex_keys)
    (ex_received (mkeyid m') (mcipher m')) [] uni_id_ok eq_refl eq_refl tr_store tr_store (fun k I _ => tr_same k I)
    (or_introl eq_refl) E eq_refl eq_refl ltac:(intros X; discriminate X) (le_n _)) as (ri & mr & tr & D & M).
  exists ri, tr. rewrite D, M. reflexivity.
Qed.

(** The line that OS prints, received by VQ. *)
Definition tr_msg : msg := mkMsg [77] [callVQ] callOS 1000 [] txt_hello [] [] [].
Definition tr_line : list rune := Eval vm_compute in ex_line callOS.
Definition tr_ri : inst := mkInst 5 40 110 80 ex_keys [] callVQ.
Definition tr_tape : tape := ex_tape ++ repeat 3 200.
Example c60_applied : exists i' m' t' ri' m2 t2,
  encipher uni_id (ex_inst ex_keys) tr_msg [] = (i', m', Ok tt, t') /\
  traffic uni_id ex_dtg ex_wrap [10] 5 m' = Some tr_line /\
  new_text_message uni_id ex_lb ex_dp tr_ri [tr_line] 7 tr_tape = (ri', Ok (m2, t2)) /\
  mplain m2 = txt_hello /\ mfrom m2 = callOS /\ mrecipients m2 = [callVQ] /\ mkeyid m2 = mkeyid m'.
Proof.
  assert (Q : exists i' m' t' id t1, encipher uni_id (ex_inst ex_keys) tr_msg [] = (i', m', Ok tt, t') /\
    traffic uni_id ex_dtg ex_wrap [10] 5 m' = Some tr_line /\ len (mcipher m') / 5 < 9999 /\
    new_unique_message_id [] tr_tape = Ok (id, t1) /\ (length tr_line <= length t1)%nat).
  { do 5 eexists. split; [vm_compute; reflexivity|]. split; [vm_compute; reflexivity|]. split; [vm_compute; reflexivity|].
    split; [vm_compute; reflexivity|]. vm_compute. lia. }
  destruct Q as (i' & m' & t' & id & t1 & E & T & N & I & L).
  assert (LB : ex_lb tr_line = tr_line) by (vm_compute; reflexivity).
  assert (F : Forall call_sign [callVQ]) by (constructor; [exact tr_vq|constructor]).
  assert (DE : callOS <> [68; 69]) by (intros X; discriminate X).
  assert (NS : ~ same_text (to_upper uni_id) callOS callVQ) by (intros X; discriminate X).
  assert (T' : traffic uni_id ex_dtg ex_wrap [10] 5 m' = Some (ex_lb tr_line)) by (rewrite LB; exact T).
  assert (L' : (length (ex_lb tr_line) <= length t1)%nat) by (rewrite LB; exact L).
  destruct (c60_traffic_received uni_id uni_id_kelvin uni_id_ok ex_dtg ex_wrap ex_lb ex_dp [10] (ex_inst ex_keys) tr_msg [] i' m' t'
    tr_ri tr_line 7 tr_tape id t1 eq_refl eq_refl tr_store tr_store (fun k I _ => tr_same k I) (or_introl eq_refl) E F tr_os DE
    ex_dtg_text eq_refl c60_wrap N NS T' I L') as (ri' & m2 & t2 & A & B & C & _ & D & G & _).
  exists i', m', t', ri', m2, t2. split; [exact E|]. split; [exact T|]. split; [exact A|].
  split; [rewrite B; reflexivity|]. split; [exact C|]. split; [exact D|exact G].
Qed.
Example c58_applied : exists id t1, parse_radiogram uni_id ex_lb ex_dp (ex_inst []) rg_short 7 ex_tape =
  Ok (mkMsg id [callVQ; [76; 65; 47; 49]] callOS 1000 [] [77; 101; 101; 116; 32; 97; 116; 32; 53; 56; 46; 54; 32; 61; 32; 81; 84; 72; 63]
    [] [] rg_short, t1).
Proof.
  assert (Q : exists id t1, new_unique_message_id [] ex_tape = Ok (id, t1)) by (do 2 eexists; vm_compute; reflexivity).
  destruct Q as (id & t1 & I). exists id, t1.
  assert (F : Forall call_sign [callVQ; [76; 65; 47; 49]]).
  { constructor; [exact tr_vq|]. constructor; [|constructor]. exact (proj1 (proj2 c58_nontrivial)). }
  rewrite (c58_short_radiogram uni_id ex_lb ex_dp uni_id_kelvin (ex_inst []) rg_short 7 ex_tape [callVQ; [76; 65; 47; 49]] callOS
    (ex_dtg 1000) [52] [77; 101; 101; 116; 32; 97; 116; 32; 53; 56; 46; 54; 32; 61; 32; 81; 84; 72; 63] id t1 F tr_os).
  - reflexivity.
  - intros X; discriminate X.
  - exact ex_dtg_text.
  - constructor; [|constructor]. vm_compute. split; discriminate.
  - cbn [length]. lia.
  - do 2 eexists. split; reflexivity.
  - exists [77; 101; 101; 116; 32; 97; 116; 32; 53; 56; 46; 54; 32; 61; 32; 81; 84; 72], 63.
    split; [reflexivity|]. split; [reflexivity|]. split; discriminate.
  - intros H. repeat (destruct H as [H|H]; [discriminate H|]). exact H.
  - intros a b H. repeat (destruct a as [|? a]; [discriminate H|]; injection H as _ H). destruct a; discriminate H.
  - vm_compute. reflexivity.
  - exact I.
Qed.

(** ** Deciphering part by part *)
(** The part HI of a message, after which key B is named, in front of what was
    enciphered with key B. *)
Definition tr_kA : key := ex_key idA 3 40 [callVQ].
Definition tr_kB : key := ex_key idB 5 40 [callVQ].
Definition tr_s : list rune := [72; 73; 90; 89] ++ idB.
Definition tr_c2 : list rune := Eval vm_compute in diana_text (krunes tr_kB) [71; 79; 90; 90; 90].
Example c54_applied : exists i1' t1',
  decipher uni_id (ex_inst ex_keys) (ex_received idA (diana_text (krunes tr_kA) tr_s ++ tr_c2)) [] =
    (i1', set_mplain (ex_received idA (diana_text (krunes tr_kA) tr_s ++ tr_c2)) [72; 73; 71; 79], Ok tt, t1').
Proof.
  assert (Q : exists i2 t2, decipher uni_id (ex_inst ex_keys) (ex_received idB tr_c2) [] =
    (i2, set_mplain (ex_received idB tr_c2) [71; 79], Ok tt, t2)) by (do 2 eexists; vm_compute; reflexivity).
  destruct Q as (i2 & t2 & E).
  refine (c54_parts_independent uni_id (ex_inst ex_keys) (ex_received idA (diana_text (krunes tr_kA) tr_s ++ tr_c2))
    (ex_received idB tr_c2) [] [] tr_kA tr_s [72; 73] 1 tr_kB i2 _ t2 eq_refl tr_store _ _ (le_n _) (le_n _) _ _ _ eq_refl _ eq_refl
    eq_refl eq_refl E).
  - intros X; discriminate X.
  - intros X; discriminate X.
  - left; reflexivity.
  - repeat (apply Forall_cons; [vm_compute; split; discriminate|]); apply Forall_nil.
  - vm_compute. lia.
  - vm_compute. reflexivity.
Qed.
Example c54_padding_applied : exists i1' t1' i2' t2',
  decipher uni_id (ex_inst ex_keys) (ex_received idA (diana_text (krunes tr_kA) [72; 69; 76; 76; 79])) [] =
    (i1', set_mplain (ex_received idA (diana_text (krunes tr_kA) [72; 69; 76; 76; 79])) [72; 69; 76; 76; 79], Ok tt, t1') /\
  decipher uni_id (ex_inst ex_keys) (ex_received idA (diana_text (krunes tr_kA) ([72; 69; 76; 76; 79] ++ repeat 90 3))) [] =
    (i2', set_mplain (ex_received idA (diana_text (krunes tr_kA) ([72; 69; 76; 76; 79] ++ repeat 90 3))) [72; 69; 76; 76; 79], Ok tt, t2').
Proof.
  refine (c54_padding_adds_nothing uni_id (ex_inst ex_keys)
    (ex_received idA (diana_text (krunes tr_kA) [72; 69; 76; 76; 79]))
    (ex_received idA (diana_text (krunes tr_kA) ([72; 69; 76; 76; 79] ++ repeat 90 3))) [] [] tr_kA [72; 69; 76; 76; 79] 3 _
    eq_refl tr_store _ _ (le_n _) (le_n _) _ _ _ _ _ eq_refl eq_refl eq_refl eq_refl).
  - intros X; discriminate X.
  - intros X; discriminate X.
  - left; reflexivity.
  - repeat (apply Forall_cons; [vm_compute; split; discriminate|]); apply Forall_nil.
  - vm_compute. lia.
  - vm_compute. discriminate.
  - vm_compute. reflexivity.
Qed.
