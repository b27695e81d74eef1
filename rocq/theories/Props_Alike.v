(** Property C131: radiograms are read without regard to letter case. [lb] is
    blox.ReplaceLineBreaks(_, " "), [dp] parses Date-Time Groups; both are
    arbitrary. *)
From Verif Require Import Base Spec Spec_Alike Model_Unicode Model_Crand Model_Functions Model_Types Model_Cipher
  Model_Messages Proofs_Alike Examples Props_Messages.
From Coq Require Import Ascii String.

Theorem c131_case : forall U lb dp i raw raw' now t m t1, List.map big (lb raw) = List.map big (lb raw') ->
  parse_radiogram U lb dp i raw now t = Ok (m, t1) ->
  exists m', parse_radiogram U lb dp i raw' now t = Ok (m', t1) /\
    mid m' = mid m /\ mrecipients m' = mrecipients m /\ mfrom m' = mfrom m /\ mdtg m' = mdtg m /\
    List.map big (mplain m') = List.map big (mplain m).
Proof. exact c131_case_ok. Qed.
Print Assumptions c131_case.

Theorem c131_case_fails : forall U lb dp i raw raw' now t e, List.map big (lb raw) = List.map big (lb raw') ->
  parse_radiogram U lb dp i raw now t = Err e -> parse_radiogram U lb dp i raw' now t = Err e.
Proof. exact c131_case_err. Qed.
Print Assumptions c131_case_fails.

Theorem c131_signs : forall U lb dp i raw raw' now t,
  List.map plain_sign (lb raw) = List.map plain_sign (lb raw') ->
  (parse_radiogram U lb dp i raw now t = Err ErrParsingRadiogram <->
   parse_radiogram U lb dp i raw' now t = Err ErrParsingRadiogram).
Proof. exact c131_signs_lemma. Qed.
Print Assumptions c131_signs.

Definition rg_small := Eval compute in
  (str "vq de o" ++ [383] ++ str " 012345a jan 23 = Move at Dawn = k")%list%string.
Example c131_case_nontrivial : exists m m',
  ex_parse (ex_inst ex_keys) rg_out 7 ex_tape = Ok (m, skipn 4 ex_tape) /\
  ex_parse (ex_inst ex_keys) rg_small 7 ex_tape = Ok (m', skipn 4 ex_tape) /\
  mrecipients m' = [callVQ] /\ mfrom m' = callOS /\ mdtg m' = mdtg m /\ mid m' = mid m /\
  mplain m = str "MOVE AT DAWN"%string /\ mplain m' = str "Move at Dawn"%string.
Proof.
  destruct (ex_parse (ex_inst ex_keys) rg_out 7 ex_tape) as [[m t1]|e| |] eqn:E;
    [|vm_compute in E; discriminate..].
  destruct (c131_case uni_id ex_lb ex_dp (ex_inst ex_keys) rg_out rg_small 7 ex_tape m t1 ltac:(vm_compute; reflexivity) E)
    as (m' & E' & H1 & H2 & H3 & H4 & _).
  exists m, m'. unfold ex_parse in *.
  assert (T : t1 = skipn 4 ex_tape /\ mrecipients m = [callVQ] /\ mfrom m = callOS /\ mplain m = str "MOVE AT DAWN"%string).
  { clear E' H1 H2 H3 H4. vm_compute in E. injection E as <- <-. vm_compute. auto. }
  assert (P : mplain m' = str "Move at Dawn"%string).
  { clear E H1 H2 H3 H4 T. vm_compute in E'. injection E' as <- <-. vm_compute. reflexivity. }
  destruct T as (-> & T2 & T3 & T4). rewrite E', H1, H2, H3, H4, T2, T3, T4, P. auto 10.
Qed.

Definition rg_bad := Eval compute in str "VQ OS 012345A"%string.
Definition rg_bad_small := Eval compute in str "vQ os 012345a"%string.
Example c131_fails_nontrivial :
  ex_parse (ex_inst ex_keys) rg_bad_small 7 ex_tape = Err ErrParsingRadiogram.
Proof.
  apply (c131_case_fails uni_id ex_lb ex_dp (ex_inst ex_keys) rg_bad rg_bad_small 7 ex_tape ErrParsingRadiogram);
    vm_compute; reflexivity.
Qed.

(** Tabs for spaces, a Kelvin sign for the K of OKT. *)
Definition rg_signs := Eval compute in
  (str "VQ" ++ [9] ++ str "DE" ++ [13; 9] ++ str "OS 012345A" ++ [12] ++ str "o" ++ [8490] ++ str "t23 = A = K")%list%string.
Definition rg_spaces := Eval compute in str "VQ DE  OS 012345A OKT23 = A = K"%string.
Example c131_signs_nontrivial :
  ex_parse (ex_inst ex_keys) rg_signs 7 ex_tape <> Err ErrParsingRadiogram.
Proof.
  intros H. apply (c131_signs uni_id ex_lb ex_dp (ex_inst ex_keys) rg_signs rg_spaces 7 ex_tape) in H.
  - vm_compute in H. discriminate.
  - vm_compute. reflexivity.
Qed.
