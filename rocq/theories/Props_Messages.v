(** Properties C26, C41-C43, C55-C57: creating, parsing and deleting messages.
    [lb] is blox.ReplaceLineBreaks(_, " "), [dp] parses Date-Time Groups; both
    are arbitrary. *)
From Coq Require Import Permutation.
From Verif Require Import Base Spec Model_Unicode Model_Crand Model_Functions Model_Types Model_Cipher
  Model_Messages Spec_Messages Proofs_Messages Proofs_MsgProps Examples.
From Coq Require Import Ascii String.

(** Libraries for the examples: line breaks become spaces, any group is accepted. *)
Definition ex_lb (s : list rune) : list rune := List.map (fun c => if c =? 10 then 32 else c) s.
Definition ex_dp (s : list rune) : option Z := Some 1000.
Definition ex_parse := parse_radiogram uni_id ex_lb ex_dp.
Definition ex_new := new_text_message uni_id ex_lb ex_dp.
Definition rg_out := Eval compute in str "VQ DE OS 012345A JAN 23 = MOVE AT DAWN = K"%string.
Definition rg_in := Eval compute in str "OS, LA/1 DE VQ = QTH 5 = +"%string.
Definition rg_tab := Eval compute in
  (str "VQ" ++ [9] ++ str "LA DE OS = HELLO = K")%list%string.
Lemma uni_id_kelvin : uni_kelvin uni_id.
Proof. split; reflexivity. Qed.

(** C26. *)
Theorem c26_new_id : forall U lb dp i raw now t m t', parse_radiogram U lb dp i raw now t = Ok (m, t') ->
  List.length (mid m) = 4%nat /\ Forall alnum (mid m) /\ ~ In (mid m) (List.map mid (i_messages i)).
Proof. exact parse_id. Qed.
Print Assumptions c26_new_id.

Theorem c26_unique : forall U lb dp i, messages_reached U lb dp i -> NoDup (List.map mid (i_messages i)).
Proof. exact c26_lemma. Qed.
Print Assumptions c26_unique.

Example c26_nontrivial : exists i, messages_reached uni_id ex_lb ex_dp i /\ len (i_messages i) = 2.
Proof.
  exists (fst (ex_new (fst (ex_new (ex_inst ex_keys) [rg_out] 7 ex_tape)) [rg_in] 8 (tl ex_tape))).
  split; [apply reached_create, reached_create, reached_new; reflexivity|vm_compute; reflexivity].
Qed.

(** C41 is false: an outgoing radiogram with one more argument panics, always. *)
Theorem c41_refuted : exists i raw key t, ~ exists i' r, r <> Panic /\ ex_new i [raw; key] 7 t = (i', r).
Proof.
  exists (ex_inst ex_keys), rg_out, idA, ex_tape. intros (i' & r & N & H).
  assert (E : snd (ex_new (ex_inst ex_keys) [rg_out; idA] 7 ex_tape) = Panic) by (vm_compute; reflexivity).
  rewrite H in E. contradiction.
Qed.
Print Assumptions c41_refuted.

Theorem c41_two_arguments_panic : forall U lb dp i raw x now t p t1,
  parse_radiogram U lb dp i raw now t = Ok (p, t1) -> same_text (to_upper U) (mfrom p) (i_callsign i) ->
  new_text_message U lb dp i [raw; x] now t = (i, Panic).
Proof. exact two_arguments_lemma. Qed.
Print Assumptions c41_two_arguments_panic.

(** What is true: the key ID is taken from the third argument; a message
    returned then was enciphered with that key first, and that key was unused. *)
Theorem c41_third_argument_partial : forall U lb dp, uni_ok U ->
  forall i raw x q rest now t p t1 id i' m t',
  0 < i_groupsize i -> store_ok (i_groupsize i) (i_keys i) ->
  parse_radiogram U lb dp i raw now t = Ok (p, t1) -> same_text (to_upper U) (mfrom p) (i_callsign i) ->
  letters id -> id <> [] -> query_for id q ->
  new_text_message U lb dp i (raw :: x :: q :: rest) now t = (i', Ok (m, t')) ->
  mid m = mid p /\ mfrom m = mfrom p /\ mdtg m = mdtg p /\ mradiogram m = mradiogram p /\
  mrecipients m = mrecipients p /\ mplain m = mplain p /\
  exists j js k, nth_error (i_keys i) j = Some k /\ mkeyid m = kid k /\ kid k = id /\ kused k = false /\
    message (i_groupsize i) (i_keys i) (j :: js) (List.map canon (mplain p)) (mcipher m).
Proof. exact three_arguments_lemma. Qed.
Print Assumptions c41_third_argument_partial.

Example c41_nontrivial :
  match ex_parse (ex_inst ex_keys) rg_out 7 ex_tape,
        ex_new (ex_inst ex_keys) [rg_out; []; (32 :: idB)%list] 7 ex_tape with
  | Ok (p, _), (_, Ok (m, _)) => same_text (to_upper uni_id) (mfrom p) callOS /\ mkeyid m = idB
  | _, _ => False
  end.
Proof. vm_compute. split; reflexivity. Qed.

(** C42. A returned message is appended; keys change in their used flags only,
    settings not at all. On any failure nothing at all changes. *)
Theorem c42_one_or_none : forall U lb dp, uni_ok U ->
  forall i args now t i' r, 0 < i_groupsize i -> store_ok (i_groupsize i) (i_keys i) ->
  new_text_message U lb dp i args now t = (i', r) ->
  match r with
  | Ok (m, _) => i_messages i' = (i_messages i ++ [m])%list /\
                 i' = set_messages (set_keys i (i_keys i')) (i_messages i') /\
                 same_but_used (i_keys i) (i_keys i')
  | _ => i' = i
  end.
Proof. exact c42_lemma. Qed.
Print Assumptions c42_one_or_none.

(** The messages part for any store and settings whatever. *)
Theorem c42_messages : forall U lb dp i args now t i' r, new_text_message U lb dp i args now t = (i', r) ->
  (exists m t', r = Ok (m, t') /\ i_messages i' = (i_messages i ++ [m])%list /\
     List.length (mid m) = 4%nat /\ Forall alnum (mid m) /\ ~ In (mid m) (List.map mid (i_messages i))) \/
  (i_messages i' = i_messages i /\ forall m t', r <> Ok (m, t')).
Proof. exact ntm_messages. Qed.
Print Assumptions c42_messages.

(** An incoming message that parses is always stored: either with its text
    intact and no key touched, or deciphered. In the latter case the letters
    of its text are a key ID followed by the cipher text, and the plain text
    is what that cipher text says under that key. Without recipients, it is
    for this station. *)
Theorem c42_incoming : forall U lb dp,
  forall i raw rest now t p t1, 0 < i_groupsize i -> store_ok (i_groupsize i) (i_keys i) ->
  parse_radiogram U lb dp i raw now t = Ok (p, t1) -> ~ same_text (to_upper U) (mfrom p) (i_callsign i) ->
  exists i' m t', new_text_message U lb dp i (raw :: rest) now t = (i', Ok (m, t')) /\
    mid m = mid p /\ mfrom m = mfrom p /\ mdtg m = mdtg p /\ mradiogram m = mradiogram p /\
    mrecipients m = match mrecipients p with [] => [i_callsign i] | l => l end /\
    ((mplain m = mplain p /\ mcipher m = [] /\ i_keys i' = i_keys i) \/
     exists d, letters (d ++ mcipher m)%list /\
       (d ++ mcipher m)%list = List.map (to_upper U) (filter (fun c => negb (is_space U c || (c =? 61))) (mplain p)) /\
       ((List.length (mplain p) <= List.length t1)%nat ->
        exists j js k, nth_error (i_keys i) j = Some k /\ kid k = d /\ mkeyid m = d /\
          message (i_groupsize i) (i_keys i) (j :: js) (mplain m) (mcipher m) /\
          marked_used (j :: js) (i_keys i) (i_keys i'))).
Proof. exact incoming_lemma. Qed.
Print Assumptions c42_incoming.

(** An outgoing message is the parsed one, enciphered. *)
Theorem c42_outgoing : forall U lb dp, uni_ok U ->
  forall i raw now t p t1 i' m t', 0 < i_groupsize i -> store_ok (i_groupsize i) (i_keys i) ->
  parse_radiogram U lb dp i raw now t = Ok (p, t1) -> same_text (to_upper U) (mfrom p) (i_callsign i) ->
  new_text_message U lb dp i [raw] now t = (i', Ok (m, t')) ->
  mid m = mid p /\ mfrom m = mfrom p /\ mdtg m = mdtg p /\ mradiogram m = mradiogram p /\
  mrecipients m = mrecipients p /\ mplain m = mplain p /\
  exists j js k, nth_error (i_keys i) j = Some k /\ mkeyid m = kid k /\ kused k = false /\
    message (i_groupsize i) (i_keys i) (j :: js) (List.map canon (mplain p)) (mcipher m).
Proof. exact outgoing_lemma. Qed.
Print Assumptions c42_outgoing.

Example c42_nontrivial : store_ok 5 ex_keys /\
  match ex_new (ex_inst ex_keys) [rg_out] 7 ex_tape, ex_new (ex_inst ex_keys) [rg_in] 7 ex_tape,
        ex_new (ex_inst ex_keys) [str "NO RADIOGRAM"] 7 ex_tape with
  | (_, Ok (m, _)), (_, Ok (m2, _)), (_, Err _) => mplain m2 = str "QTH 5" /\ mcipher m <> []
  | _, _, _ => False
  end.
Proof. split; [apply store_okb_ok; reflexivity|]. vm_compute. split; [reflexivity|discriminate]. Qed.

(** C43 is false: recipients separated by a tab become one, with the tab in it. *)
Theorem c43_refuted : exists i raw t m t', ex_parse i raw 7 t = Ok (m, t') /\
  ~ Forall call_sign (mrecipients m).
Proof.
  exists (ex_inst ex_keys), rg_tab, ex_tape.
  destruct (ex_parse (ex_inst ex_keys) rg_tab 7 ex_tape) as [[m t']|e| |] eqn:E.
  - exists m, t'. split; [reflexivity|]. intros H.
    assert (Q : mrecipients m = [[86; 81; 9; 76; 65]]).
    { change (match Ok (m, t') with Ok (m, _) => mrecipients m | _ => [] end = [[86; 81; 9; 76; 65]]).
      rewrite <- E. vm_compute. reflexivity. }
    rewrite Q in H. inversion H as [|x l (_ & F) _]. rewrite Forall_forall in F.
    specialize (F 9). cbn [In] in F. unfold call_char, is_letter, digit in F.
    assert (X : 86 = 9 \/ 81 = 9 \/ 9 = 9 \/ 76 = 9 \/ 65 = 9 \/ False) by auto. specialize (F X). lia.
  - exfalso. assert (Q : match ex_parse (ex_inst ex_keys) rg_tab 7 ex_tape with Ok _ => true | _ => false end = true) by (vm_compute; reflexivity). rewrite E in Q. discriminate.
  - exfalso. assert (Q : match ex_parse (ex_inst ex_keys) rg_tab 7 ex_tape with Ok _ => true | _ => false end = true) by (vm_compute; reflexivity). rewrite E in Q. discriminate.
  - exfalso. assert (Q : match ex_parse (ex_inst ex_keys) rg_tab 7 ex_tape with Ok _ => true | _ => false end = true) by (vm_compute; reflexivity). rewrite E in Q. discriminate.
Qed.
Print Assumptions c43_refuted.

(** What is true: without tabs, line feeds, form feeds, carriage returns and
    the Kelvin sign (8490, a K to the expressions) in the radiogram ... *)
Theorem c43_call_signs_partial : forall U lb dp, uni_kelvin U ->
  forall i raw now t m t', parse_radiogram U lb dp i raw now t = Ok (m, t') ->
  (forall c, In c (lb raw) -> ~ In c [8490; 9; 10; 12; 13]) ->
  call_sign (mfrom m) /\ Forall call_sign (mrecipients m).
Proof. exact c43_plain_lemma. Qed.
Print Assumptions c43_call_signs_partial.

(** C57, the same. *)
Theorem c57_plain_call_signs : forall U lb dp, uni_kelvin U ->
  forall i raw now t m t', parse_radiogram U lb dp i raw now t = Ok (m, t') ->
  (forall c, In c (lb raw) -> ~ In c [8490; 9; 10; 12; 13]) ->
  call_sign (mfrom m) /\ Forall call_sign (mrecipients m).
Proof. exact c43_plain_lemma. Qed.
Print Assumptions c57_plain_call_signs.

(** C55 and the rest of C43, for every string: sender, recipients and text come from
    the radiogram, in this order, around the word DE. *)
Theorem c55_parsed_parts : forall U lb dp, uni_kelvin U ->
  forall i raw now t m t', parse_radiogram U lb dp i raw now t = Ok (m, t') ->
  exists pre to sep de sp from mid post,
    lb raw = (pre ++ to ++ sep ++ de ++ sp ++ from ++ mid ++ mplain m ++ post)%list /\
    same_text (to_upper U) de [68; 69] /\
    mfrom m = List.map (to_upper U) from /\
    mfrom m <> [] /\ Forall (fun c => call_char c \/ (c = 8490 /\ In c from)) (mfrom m) /\
    Forall (fun r => r <> [] /\ Forall (fun c => call_char c \/ (In c [8490; 9; 10; 12; 13] /\ In c to)) r)
      (mrecipients m) /\
    mrecipients m = vetted_keepers U [to] /\
    (forall c r, mplain m = (c :: r)%list -> is_space U c = false) /\
    (forall c r, mplain m = (r ++ [c])%list -> is_space U c = false /\ c <> 43 /\ c <> 61).
Proof. exact c43_lemma. Qed.
Print Assumptions c55_parsed_parts.

Example c43_nontrivial :
  match ex_parse (ex_inst ex_keys) rg_in 7 ex_tape with
  | Ok (m, _) => mrecipients m = [str "OS"; str "LA/1"] /\ mfrom m = str "VQ" /\ mplain m = str "QTH 5"
  | _ => False
  end.
Proof. vm_compute. repeat split; reflexivity. Qed.

(** C56. *)
Theorem c56_delete_message : forall ms ids ms' n, delete_message ms ids = (ms', n) ->
  NoDup (List.map mid ms) ->
  NoDup (List.map mid ms') /\ n = len ms - len ms' /\
  forall m, In m ms' <-> In m ms /\ ~ In (mid m) ids.
Proof. exact delete_msg_lemma. Qed.
Print Assumptions c56_delete_message.

Example c56_nontrivial :
  let ms := [ex_msg txt_hello []; set_mplain (ex_received [] []) txt_other] in
  NoDup (List.map mid ms) /\ delete_message ms [mid1; callVQ] = ([set_mplain (ex_received [] []) txt_other], 1).
Proof. split; [apply nodupb_ok; reflexivity|reflexivity]. Qed.
