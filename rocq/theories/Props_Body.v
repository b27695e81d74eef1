(** C138: what a printed message shows. *)
From Verif Require Import Base Spec Spec_Body Model_Unicode Model_Crand Model_Functions Model_Types Model_Cipher Model_Print Model_Body
  Proofs_Body Examples Props_Cipher Props_Garble.

(** A message that was enciphered: its text, the key ID and all groups, and the
    traffic example with the right number of groups; each under its title. *)
Theorem c138_sent : forall U, uni_kelvin U -> uni_ok U -> forall dtg wrap unbreak lb head i m t i' m' t',
  0 < i_groupsize i -> store_ok (i_groupsize i) (i_keys i) ->
  mcipher m = [] \/ (mid m <> [] /\ (length (mcipher m) <= length t)%nat) ->
  encipher U i m t = (i', m', Ok tt, t') ->
  Forall call_sign (mrecipients m) -> call_sign (mfrom m) -> wraps_groups (i_groupsize i) wrap ->
  exists groups count cipher, message_string U dtg wrap unbreak lb head (i_groupsize i) m' =
      head m' ++ part lb TEXT (wrap (unbreak (go_string (mplain m')))) ++ section lb CIPHER cipher ++
      section lb TRAFFIC_EXAMPLE (wrap (short_radiogram (mrecipients m) (mfrom m) (dtg (mdtg m)) count (join [32] (mkeyid m' :: groups)))) /\
    broken (mkeyid m' :: groups) cipher /\ layout cipher (mkeyid m' ++ mcipher m') /\
    concat groups = mcipher m' /\ Forall (fun g => len g = i_groupsize i) groups /\ decimal count (1 + len groups).
Proof. exact sent_lemma. Qed.
Print Assumptions c138_sent.
(** A message that was not: its text only. *)
Theorem c138_unsent : forall U dtg wrap unbreak lb head gs m, 0 < gs -> mcipher m = [] -> wrap [] = [] ->
  message_string U dtg wrap unbreak lb head gs m = head m ++ part lb TEXT (wrap (unbreak (go_string (mplain m)))).
Proof. exact unsent_lemma. Qed.
Print Assumptions c138_unsent.
(** What stands under =CIPHER=, typed in as it is, is read by a receiver. *)
Theorem c138_read : forall U, uni_kelvin U -> uni_ok U -> forall dtg wrap unbreak lb head i m t i' m' t',
  0 < i_groupsize i -> store_ok (i_groupsize i) (i_keys i) ->
  mcipher m = [] \/ (mid m <> [] /\ (length (mcipher m) <= length t)%nat) ->
  encipher U i m t = (i', m', Ok tt, t') ->
  Forall call_sign (mrecipients m) -> call_sign (mfrom m) -> wraps_groups (i_groupsize i) wrap ->
  exists cipher rest, message_string U dtg wrap unbreak lb head (i_groupsize i) m' =
      head m' ++ part lb TEXT (wrap (unbreak (go_string (mplain m)))) ++ section lb CIPHER cipher ++ rest /\
    layout cipher (mkeyid m' ++ mcipher m') /\
    forall ri mr tr, i_groupsize ri = i_groupsize i -> store_ok (i_groupsize i) (i_keys ri) ->
     (forall k, In k (i_keys i) -> eligible (i_groupsize i) (mrecipients m) k \/ kid k = mkeyid m' -> holds (i_keys ri) k) ->
     mplain mr = cipher -> mkeyid mr = [] -> mid mr <> [] -> (length (mplain mr) <= length tr)%nat ->
     exists ri' mr' tr', try_decipher U ri mr false tr = (ri', mr', Ok tt, tr') /\
       mplain mr' = map canon (mplain m) /\ mkeyid mr' = mkeyid m' /\ mcipher mr' = mcipher m'.
Proof. exact read_lemma. Qed.
Print Assumptions c138_read.

(** A wrapping that puts every group on a line of its own. *)
Definition each_line (s : list rune) : list rune := map (fun c => if c =? 32 then 10 else c) s.
Lemma each_line_wraps : wraps_groups 5 each_line.
Proof.
  intros ws F. assert (L : forall w, letters w -> each_line w = w).
  { intros w H. unfold each_line. unfold letters in H. induction H as [|c w C _ IH]; [reflexivity|]. cbn [map]. rewrite IH. f_equal.
    destruct (c =? 32) eqn:E; [|reflexivity]. unfold is_letter in C. lia. }
  induction F as [|w ws (W & _) F IH]; [constructor|]. destruct ws as [|v ws].
  - cbn [join]. rewrite L by exact W. constructor.
  - change (join [32] (w :: v :: ws)) with (w ++ [32] ++ join [32] (v :: ws)). unfold each_line. rewrite !map_app.
    fold (each_line w). rewrite L by exact W. apply broken_more; [discriminate|discriminate| |exact IH].
    constructor; [|constructor]. unfold white. cbn. tauto.
Qed.
(** HELLO printed, and read from the print. *)
Definition hello_head (m : msg) : list rune := mid m ++ [10].
Example c138_nontrivial : exists i' m' t',
  encipher uni_id (ex_inst ex_keys) (ex_msg hello []) [] = (i', m', Ok tt, t') /\
  message_string uni_id (fun _ => [68]) each_line (fun s => s) [10] hello_head 5 m' =
    hello_head m' ++ [61; 84; 69; 88; 84; 61; 10] ++ hello ++ [10] ++
    [61; 67; 73; 80; 72; 69; 82; 61; 10] ++ idA ++ [10] ++ mcipher m' ++ [10] ++
    section [10] TRAFFIC_EXAMPLE (callVQ ++ [10; 68; 69; 10] ++ callOS ++ [10; 68; 10; 50; 10; 61; 10] ++ idA ++ [10] ++ mcipher m' ++
      [10; 61; 10; 75]) /\
  message_string uni_id (fun _ => [68]) each_line (fun s => s) [10] hello_head 5 (ex_msg hello []) =
    hello_head (ex_msg hello []) ++ [61; 84; 69; 88; 84; 61; 10] ++ hello ++ [10].
Proof. do 3 eexists. split; [vm_compute; reflexivity|]. split; vm_compute; reflexivity. Qed.
Example c138_read_nontrivial : exists i' m' t' cipher rest, encipher uni_id (ex_inst ex_keys) (ex_msg hello []) [] = (i', m', Ok tt, t') /\
  message_string uni_id (fun _ => [68]) each_line (fun s => s) [10] hello_head 5 m' =
    hello_head m' ++ section [10] TEXT hello ++ section [10] CIPHER cipher ++ rest /\
  exists ri' mr' tr', try_decipher uni_id (ex_inst ex_keys) (set_mplain (ex_received [] []) cipher) false ex_tape = (ri', mr', Ok tt, tr') /\
    mplain mr' = hello.
Proof.
  do 3 eexists. exists (idA ++ [10] ++ mcipher hello_sent). eexists. split; [vm_compute; reflexivity|]. split; [vm_compute; reflexivity|].
  do 3 eexists. split; vm_compute; reflexivity.
Qed.
Example c138_conditions : wraps_groups (i_groupsize (ex_inst ex_keys)) each_line /\ each_line [] = [] /\
  Forall call_sign (mrecipients (ex_msg hello [])) /\ call_sign (mfrom (ex_msg hello [])).
Proof.
  split; [exact each_line_wraps|]. split; [reflexivity|]. split.
  - repeat constructor; vm_compute; intuition discriminate.
  - split; [discriminate|]. repeat constructor; vm_compute; intuition discriminate.
Qed.
