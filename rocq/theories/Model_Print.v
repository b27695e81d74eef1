(** Model of print.go: the coding legend, the traffic example of a printed
    message and the distribution of texts over pages. The layout of Key.String
    is in Model_Canvas.v; that of the head of Message.String, done by the blox
    library, is not modelled. Library functions are parameters: [dtg_string] (DTG.String()),
    [wrap] (blox.WrapString(_, w)), [line_count] (blox.LineCount), [key_text]
    (Key.String()), [message_text] (Message.String(95)). Definitions only. *)
From Verif Require Import Base Model_Unicode Model_Functions Model_Types.

(** print.go:26-30 KeyFooter: the lines CODING LEGEND, IDX, CT1 and CT2, up to the
    explanations on the right (column 58 on). *)
Definition legend_idx : list rune :=
  [73;68;88;32; 65;32;66;32;67;32;68;32;69;32;70;32;71;32;72;32;73;32;74;32;75;32;76;32;77;32;
   78;32;79;32;80;32;81;32;82;32;83;32;84;32;85;32;86;32;87;32;88;32;89;32;90;32;32;32].
Definition legend_ct1 : list rune :=
  [67;84;49;32; 65;32;66;32;67;32;68;32;69;32;70;32;71;32;72;32;73;32;74;32;75;32;76;32;77;32;
   78;32;79;32;80;32;32;32;82;32;83;32;84;32;85;32;86;32;87;32;88;32;89;32;62;32;32;32].
Definition legend_ct2 : list rune :=
  [67;84;50;32; 48;32;49;32;50;32;51;32;52;32;53;32;54;32;55;32;56;32;57;32;63;32;45;32;197;32;
   196;32;214;32;46;32;81;32;44;32;90;32;58;32;43;32;47;32;164;32;8597;32;8594;32;62;32;32;32].
(** The explanations: '>' Switch table (Z), '¤' Toggle binary mode (W),
    '↕' Toggle case (X), '→' Change key (Y). *)
Definition legend_signs : list (rune * rune) := [(62, 90); (164, 87); (8597, 88); (8594, 89)].

(** strconv of a non-negative int, as printed by %d. *)
Fixpoint itoa_loop (fuel : nat) (n : Z) (acc : list rune) : list rune :=
  match fuel with
  | O => acc
  | S f =>
      let acc1 := (48 + n mod 10) :: acc in
      if n <? 10 then acc1 else itoa_loop f (n / 10) acc1
  end.
Definition itoa (n : Z) : list rune := itoa_loop (S (Z.to_nat (Z.log2 n))) n [].

Section Traffic.
Context (U : Uni) (dtg_string : Z -> list rune) (wrap : list rune -> list rune).

(** strings.Fields *)
Definition fields (s : list rune) : list (list rune) := fields_func (is_space U) s.

(** messages.go:365-368 Groups; a nil result is an empty slice (print.go:132-136). *)
Definition message_groups (lb : list rune) (gs : Z) (m : msg) : list rune :=
  match groups lb (Some (mcipher m)) gs 0 with Ok g => g | _ => [] end.

(** print.go:141-144 *)
Definition with_key (lb : list rune) (gs : Z) (m : msg) : list rune :=
  let g := message_groups lb gs m in
  if 0 <? len g then go_string (mkeyid m) ++ [32] ++ go_string g else [].

(** print.go:145-151 the traffic example without the wrapping of line 149:
    "%s DE %s %s %d = %s = K"; [None] if it is not printed. *)
Definition traffic (lb : list rune) (gs : Z) (m : msg) : option (list rune) :=
  let gk := with_key lb gs m in
  let wrapped := wrap gk in
  if 0 <? len wrapped then
    Some (trim_space U
      (join_runes (mrecipients m) [32] ++ [32; 68; 69; 32] ++ go_string (mfrom m) ++ [32] ++
       dtg_string (mdtg m) ++ [32] ++ itoa (len (fields wrapped)) ++ [32; 61; 32] ++ gk ++ [32; 61; 32; 75]))
  else None.
End Traffic.

Section Pages.
Context (lb : list rune) (line_count : list rune -> Z).

(** print.go:252-274, 295-317 the loop over the texts; [extra] line breaks after
    each text. Result: the pages, in the order of AddPage. *)
Fixpoint pages_loop (maxRows : Z) (extra : nat) (texts : list (list rune)) (rowCount : Z)
    (page : list rune) : list (list rune) :=
  match texts with
  | [] => [page]
  | text :: rest =>
      let textLines := line_count text + Z.of_nat extra in
      if maxRows <? textLines then text :: pages_loop maxRows extra rest 0 page
      else
        let rowCount1 := rowCount + textLines in
        let add p := p ++ text ++ concat (repeat lb extra) in
        if maxRows <? rowCount1 then page :: pages_loop maxRows extra rest textLines (add [])
        else pages_loop maxRows extra rest rowCount1 (add page)
  end.

(** print.go:235-276 KeysPDF; no file is written if no key is selected. *)
Definition keys_pdf (key_text : key -> list rune) (filter : key -> bool) (ks : list key)
  : list (list rune) :=
  let kp := List.filter filter ks in
  if len kp =? 0 then [] else pages_loop 87 5 (map key_text kp) 0 [].
(** print.go:278-319 MessagesPDF *)
Definition messages_pdf (message_text : msg -> list rune) (filter : msg -> bool) (ms : list msg)
  : list (list rune) :=
  let mp := List.filter filter ms in
  if len mp =? 0 then [] else pages_loop 65 2 (map message_text mp) 0 [].

(** print.go:161-199 KeysAsText, MessagesAsText (the same loop; the empty string if
    nothing is selected). *)
Definition as_text {A} (text : A -> list rune) (filter : A -> bool) (xs : list A) : list rune :=
  fold_left (fun out x => out ++ text x ++ lb) (List.filter filter xs) [].
End Pages.
