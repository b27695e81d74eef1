(** Properties C44, C51, C58-C60: printed messages and keys, radiograms in the
    short form. Parameters, all arbitrary: [dtg] is DTG.String(), [wrap]
    blox.WrapString(_, w), [lbk] LineBreak, [lb] blox.ReplaceLineBreaks(_, " "),
    [dp] dtg.Parse, [lines] blox.LineCount, [text] Key.String() and
    Message.String(95). *)
From Coq Require Import Permutation.
From Verif Require Import Base Spec Model_Unicode Model_Crand Model_Functions Model_Types Model_Codec Model_Cipher
  Model_Messages Model_Print Proofs_Messages Proofs_Print Examples Props_Messages.
From Coq Require Import Ascii String.

(** ** C58: radiograms in the short form *)
Theorem c58_short_radiogram : forall U lb dp, uni_kelvin U ->
  forall i raw now t to from d count text id t1,
  Forall call_sign to -> call_sign from -> from <> [68; 69] -> dtg_text d ->
  Forall digit count -> (1 <= List.length count <= 4)%nat ->
  (exists c r, text = c :: r /\ is_space U c = false) ->
  (exists r c, text = r ++ [c] /\ is_space U c = false /\ c <> 43 /\ c <> 61) ->
  ~ In 10 text -> (forall a b, text <> a ++ 61 :: 61 :: b) ->
  lb raw = short_radiogram to from d count text ->
  new_unique_message_id (i_messages i) t = Ok (id, t1) ->
  parse_radiogram U lb dp i raw now t =
    match dp d with
    | None => Err ErrDTG
    | Some w => Ok (mkMsg id to from w [] text [] [] (lb raw), t1)
    end.
Proof. exact c58_lemma. Qed.
Print Assumptions c58_short_radiogram.

Definition ex_dtg (w : Z) : list rune := Eval compute in str "012345AJAN23"%string.
Lemma ex_dtg_text : dtg_text (ex_dtg 1000).
Proof.
  exists (str "012345"%string), 65, (str "JAN"%string), (str "23"%string). split; [reflexivity|].
  split; [reflexivity|]. split; [repeat constructor; unfold digit; vm_compute; intuition discriminate|].
  split; [unfold is_letter; lia|]. split; [left; reflexivity|]. split; [reflexivity|].
  repeat constructor; unfold digit; vm_compute; intuition discriminate.
Qed.
Definition rg_short := Eval compute in
  str "VQ LA/1 DE OS 012345AJAN23 4 = Meet at 58.6 = QTH? = K"%string.
Example c58_nontrivial :
  rg_short = short_radiogram [callVQ; str "LA/1"%string] callOS (ex_dtg 1000) (str "4"%string)
    (str "Meet at 58.6 = QTH?"%string) /\
  call_sign (str "LA/1"%string) /\
  exists id t1, ex_parse (ex_inst []) rg_short 7 ex_tape =
    Ok (mkMsg id [callVQ; str "LA/1"%string] callOS 1000 [] (str "Meet at 58.6 = QTH?"%string) [] [] rg_short, t1).
Proof.
  split; [vm_compute; reflexivity|]. split; [|do 2 eexists; vm_compute; reflexivity].
  split; [discriminate|]. repeat constructor; unfold call_char, is_letter, digit; vm_compute; intuition discriminate.
Qed.

(** ** C44 is false for a station with call-sign DE: what it prints is read as a
    message from "012345AJAN23". *)
Definition ex_wrap (s : list rune) : list rune := s.
Definition ex_print (from : list rune) := let m := mkMsg [77] [callVQ] from 1000 [] txt_hello [] [] [] in
  encipher uni_id (ex_inst ex_keys) m [].
Definition ex_line (from : list rune) : list rune :=
  match traffic uni_id ex_dtg ex_wrap [10] 5 (snd (fst (fst (ex_print from)))) with Some s => s | None => [] end.
Theorem c44_refuted : exists m i' m' t' line id t1 p t2,
  encipher uni_id (ex_inst ex_keys) m [] = (i', m', Ok tt, t') /\ call_sign (mfrom m) /\
  traffic uni_id ex_dtg ex_wrap [10] 5 m' = Some line /\
  new_unique_message_id [] ex_tape = Ok (id, t1) /\
  ex_parse (ex_inst []) line 7 ex_tape = Ok (p, t2) /\ mfrom p <> mfrom m.
Proof.
  exists (mkMsg [77] [callVQ] [68; 69] 1000 [] txt_hello [] [] []). do 8 eexists.
  split; [vm_compute; reflexivity|].
  split. { split; [discriminate|]. repeat constructor; vm_compute; intuition discriminate. }
  split; [vm_compute; reflexivity|]. split; [vm_compute; reflexivity|]. split; [vm_compute; reflexivity|].
  vm_compute. discriminate.
Qed.
Print Assumptions c44_refuted.

(** ** C60: for every other sender. The form of the traffic example. [wrap] is
    only assumed to keep words of group size. *)
Theorem c60_traffic_form : forall U dtg wrap lbk, uni_kelvin U -> uni_ok U -> forall i m t i' m' t',
  0 < i_groupsize i -> store_ok (i_groupsize i) (i_keys i) ->
  mcipher m = [] \/ (mid m <> [] /\ (List.length (mcipher m) <= List.length t)%nat) ->
  encipher U i m t = (i', m', Ok tt, t') ->
  Forall call_sign (mrecipients m) -> call_sign (mfrom m) ->
  (forall ws, Forall (fun w => letters w /\ len w = i_groupsize i) ws ->
     fields U (wrap (join [32] ws)) = ws) ->
  exists groups count,
    traffic U dtg wrap lbk (i_groupsize i) m' =
      Some (short_radiogram (mrecipients m) (mfrom m) (dtg (mdtg m)) count (join [32] (mkeyid m' :: groups))) /\
    List.concat groups = mcipher m' /\ Forall (fun g => len g = i_groupsize i) groups /\
    decimal count (1 + len groups).
Proof. exact c60_form_lemma. Qed.
Print Assumptions c60_traffic_form.

Theorem c60_traffic_received : forall U, uni_kelvin U -> uni_ok U -> forall dtg wrap lb dp,
  forall lbk si m t si' m' t' ri raw now tr id t1,
  0 < i_groupsize si -> i_groupsize ri = i_groupsize si ->
  store_ok (i_groupsize si) (i_keys si) -> store_ok (i_groupsize si) (i_keys ri) ->
  (forall k, In k (i_keys si) -> eligible (i_groupsize si) (mrecipients m) k \/ kid k = mkeyid m' ->
     holds (i_keys ri) k) ->
  mcipher m = [] \/ (mid m <> [] /\ (List.length (mcipher m) <= List.length t)%nat) ->
  encipher U si m t = (si', m', Ok tt, t') ->
  Forall call_sign (mrecipients m) -> call_sign (mfrom m) -> mfrom m <> [68; 69] ->
  dtg_text (dtg (mdtg m)) -> dp (dtg (mdtg m)) = Some (mdtg m) ->
  (forall ws, Forall (fun w => letters w /\ len w = i_groupsize si) ws ->
     fields U (wrap (join [32] ws)) = ws) ->
  len (mcipher m') / i_groupsize si < 9999 ->
  ~ same_text (to_upper U) (mfrom m) (i_callsign ri) ->
  traffic U dtg wrap lbk (i_groupsize si) m' = Some (lb raw) ->
  new_unique_message_id (i_messages ri) tr = Ok (id, t1) -> (List.length (lb raw) <= List.length t1)%nat ->
  exists ri' m2 t2, new_text_message U lb dp ri [raw] now tr = (ri', Ok (m2, t2)) /\
    mplain m2 = List.map canon (mplain m) /\ mfrom m2 = mfrom m /\ mdtg m2 = mdtg m /\
    mrecipients m2 = (match mrecipients m with [] => [i_callsign ri] | l => l end) /\
    mkeyid m2 = mkeyid m' /\ mcipher m2 = mcipher m'.
Proof. exact c44_lemma. Qed.
Print Assumptions c60_traffic_received.

Example c60_nontrivial :
  ex_line callOS =
    str "VQ DE OS 012345AJAN23 8 = ALPHA PNRDY DBICB NXBXW PFMPT PCBPS DQRNA SPNXT = K"%string /\
  exists i m t, ex_new (mkInst 5 40 110 80 ex_keys [] callVQ) [ex_line callOS] 7 (ex_tape ++ repeat 3 200) = (i, Ok (m, t)) /\
    mplain m = txt_hello /\ mfrom m = callOS.
Proof.
  split.
  - vm_compute. reflexivity.
  - do 3 eexists. split; [vm_compute; reflexivity|]. split; reflexivity.
Qed.
(** The wrapping of the example satisfies the assumption. *)
Example c60_wrap : forall ws, Forall (fun w => letters w /\ len w = 5) ws ->
  fields uni_id (ex_wrap (join [32] ws)) = ws.
Proof.
  intros ws H. apply fields_words. eapply Forall_impl; [|exact H]. intros w (L & E).
  split; [intros ->; discriminate|exact L].
Qed.

(** ** C59: the coding legend. [column line n] is what the line shows under
    letter number n. *)
Definition column (line : list rune) (n : nat) : rune := nth (4 + 2 * n) line 0.
(** A sign of the legend stands for the control letter it explains, any other
    character for itself. *)
Theorem c59_legend : forall n, (n < 26)%nat ->
  column legend_idx n = 65 + Z.of_nat n /\
  nth n table_primary 0 = (if existsb (fun p => fst p =? column legend_ct1 n) legend_signs
    then specialOpChar else column legend_ct1 n) /\
  nth n table_secondary 0 = (if existsb (fun p => fst p =? column legend_ct2 n) legend_signs
    then specialOpChar else column legend_ct2 n) /\
  (forall l, In (column legend_ct1 n, l) legend_signs -> l = 65 + Z.of_nat n) /\
  (forall l, In (column legend_ct2 n, l) legend_signs -> l = 65 + Z.of_nat n).
Proof. exact legend_lemma. Qed.
Print Assumptions c59_legend.
(** The letters explained are those the coding uses: reading [l] in a table. *)
Theorem c59_signs : forall sign l, In (sign, l) legend_signs ->
  (sign = 62 /\ forall sec sh s, read_part sec sh (l :: s) = read_part (negb sec) sh s) \/
  (sign = 8597 /\ forall sh s, read_part true sh (l :: s) = read_part true (negb sh) s) \/
  (sign = 8594 /\ forall sh s, read_part true sh (l :: s) = Some ([], Some s)) \/
  (sign = 164 /\ forall sh, read_part true sh [l] = Some ([], None)).
Proof. exact signs_lemma. Qed.
Print Assumptions c59_signs.
Theorem c59_characters : forall n sh s, (n < 26)%nat ->
  (~ In (column legend_ct1 n) (List.map fst legend_signs) ->
   read_part false sh (65 + Z.of_nat n :: s) =
     match read_part false sh s with
     | Some (p, tl) => Some ((if sh then lower_case (column legend_ct1 n) else column legend_ct1 n) :: p, tl)
     | None => None end) /\
  (~ In (column legend_ct2 n) (List.map fst legend_signs) ->
   read_part true sh (65 + Z.of_nat n :: s) =
     match read_part true sh s with
     | Some (p, tl) => Some ((if sh then lower_case (column legend_ct2 n) else column legend_ct2 n) :: p, tl)
     | None => None end).
Proof. exact characters_lemma. Qed.
Print Assumptions c59_characters.
Example c59_nontrivial : column legend_ct1 16 = 32 /\ column legend_ct2 12 = 197 /\
  ~ In (column legend_ct2 12) (List.map fst legend_signs) /\ In (column legend_ct2 24, 89) legend_signs.
Proof. vm_compute. repeat split; try reflexivity; intuition discriminate. Qed.

(** ** C51 is false: a key that does not fit a page comes before the keys
    printed earlier, and the page being filled then gets too many rows. *)
Definition ex_high (n : Z) (id : list rune) : key := mkKey id (repeat 65 (Z.to_nat n)) [] 0 0 false false [].
Definition ex_lines (s : list rune) : Z := len s.
Theorem c51_order_refuted : exists k1 k2,
  keys_pdf [10] ex_lines krunes (fun _ => true) [k1; k2] =
    [krunes k2; page_text [10; 10; 10; 10; 10] [krunes k1]] /\ krunes k1 <> krunes k2.
Proof.
  exists (ex_high 20 [65]), (ex_high 90 [66]). split; [vm_compute; reflexivity|]. vm_compute. discriminate.
Qed.
Print Assumptions c51_order_refuted.
Theorem c51_rows_refuted : exists k1 k2,
  ex_lines (krunes k1) + 5 <= 87 /\
  keys_pdf [10] ex_lines krunes (fun _ => true) [k1; k2; k1] =
    [krunes k2; page_text [10; 10; 10; 10; 10] [krunes k1; krunes k1]] /\
  87 < page_rows ex_lines 5 [krunes k1; krunes k1].
Proof.
  exists (ex_high 80 [65]), (ex_high 90 [66]). split; [vm_compute; discriminate|]. split; vm_compute; reflexivity.
Qed.
Print Assumptions c51_rows_refuted.

(** What holds for all selections: every item is printed exactly once. *)
Theorem c51_keys_once_partial : forall lbk lines text f ks,
  exists ps, Forall2 (fun p out => out = page_text (lbk ++ lbk ++ lbk ++ lbk ++ lbk) p \/ p = [out])
      ps (keys_pdf lbk lines text f ks) /\
    Permutation (List.concat ps) (List.map text (filter f ks)).
Proof. exact keys_once_lemma. Qed.
Print Assumptions c51_keys_once_partial.
Theorem c51_messages_once_partial : forall lbk lines text f ms,
  exists ps, Forall2 (fun p out => out = page_text (lbk ++ lbk) p \/ p = [out])
      ps (messages_pdf lbk lines text f ms) /\
    Permutation (List.concat ps) (List.map text (filter f ms)).
Proof. exact messages_once_lemma. Qed.
Print Assumptions c51_messages_once_partial.

(** C61. If every item fits a page: in order, no page has too many rows, none is empty. *)
Theorem c61_keys_pages : forall lbk lines text f ks,
  (forall k, In k ks -> f k = true -> lines (text k) + 5 <= 87) ->
  exists ps, keys_pdf lbk lines text f ks = List.map (page_text (lbk ++ lbk ++ lbk ++ lbk ++ lbk)) ps /\
    List.concat ps = List.map text (filter f ks) /\
    Forall (fun p => page_rows lines 5 p <= 87 /\ p <> []) ps.
Proof. exact keys_pages_lemma. Qed.
Print Assumptions c61_keys_pages.
Theorem c61_messages_pages : forall lbk lines text f ms,
  (forall m, In m ms -> f m = true -> lines (text m) + 2 <= 65) ->
  exists ps, messages_pdf lbk lines text f ms = List.map (page_text (lbk ++ lbk)) ps /\
    List.concat ps = List.map text (filter f ms) /\
    Forall (fun p => page_rows lines 2 p <= 65 /\ p <> []) ps.
Proof. exact messages_pages_lemma. Qed.
Print Assumptions c61_messages_pages.
(** Text output. *)
Theorem c61_text : forall (A : Type) lbk (text : A -> list rune) f xs,
  as_text lbk text f xs = page_text lbk (List.map text (filter f xs)).
Proof. exact as_text_lemma. Qed.
Print Assumptions c61_text.

Example c61_nontrivial :
  keys_pdf [10] ex_lines krunes (fun k => negb (kused k)) [ex_high 40 [65]; ex_high 30 [66]; ex_high 41 [67]] =
  [page_text [10; 10; 10; 10; 10] [repeat 65 40; repeat 65 30]; page_text [10; 10; 10; 10; 10] [repeat 65 41]] /\
  as_text [10] krunes (fun k => negb (kused k)) [ex_high 2 [65]; ex_high 3 [66]] = [65; 65; 10; 65; 65; 65; 10].
Proof. vm_compute. split; reflexivity. Qed.
