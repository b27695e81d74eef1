(** Model of the encoder/decoder of cipher.go (lines 13-382). Definitions only. *)
From Verif Require Import Base Model_Unicode.

(** cipher.go:14 CharacterTablePrimary `ABCDEFGHIJKLMNOP RSTUVWXY¤` *)
Definition table_primary : list rune :=
  [65;66;67;68;69;70;71;72;73;74;75;76;77;78;79;80; 32; 82;83;84;85;86;87;88;89; 164].
(** cipher.go:15 CharacterTableSecondary `0123456789?-ÅÄÖ.Q,Z:+/¤¤¤¤` *)
Definition table_secondary : list rune :=
  [48;49;50;51;52;53;54;55;56;57; 63; 45; 197; 196; 214; 46; 81; 44; 90; 58; 43; 47;
   164; 164; 164; 164].
(** cipher.go:35-37 *)
Definition character_tables : list (list rune) := [table_primary; table_secondary].

(** cipher.go:40-71 constants *)
Definition primaryTable : Z := 0.
Definition secondaryTable : Z := 1.
Definition specialOpChar : rune := 164.    (* ¤ *)
Definition binaryToggleChar : rune := 87.  (* W *)
Definition caseToggleChar : rune := 88.    (* X *)
Definition changeKeyChar : rune := 89.     (* Y *)
Definition nextTableChar : rune := 90.     (* Z *)
Definition spaceChar : rune := 32.
Definition ControlCharactersNeededToChangeKey : Z := 2.

(** cipher.go:98-108 codecState *)
Record codec_state := mkCS {
  cs_keyIndex : Z;
  cs_table : Z;
  cs_numberOfTables : Z;
  cs_charCounter : Z;
  cs_gotChangeKeyChar : bool;
  cs_keyChange : bool;
  cs_shift : bool;
  cs_binary : bool;
  cs_lowerNibble : bool
}.

(** cipher.go:110-122 newState *)
Definition new_state : codec_state :=
  mkCS 0 0 (len character_tables) 0 false false false false false.

(** cipher.go:150-160 reset *)
Definition cs_reset (st : codec_state) : codec_state :=
  mkCS 0 0 (len character_tables) 0 false false false false false.

Definition set_table (st : codec_state) (t : Z) : codec_state :=
  mkCS (cs_keyIndex st) t (cs_numberOfTables st) (cs_charCounter st)
       (cs_gotChangeKeyChar st) (cs_keyChange st) (cs_shift st) (cs_binary st)
       (cs_lowerNibble st).
Definition add_count (st : codec_state) (n : Z) : codec_state :=
  mkCS (cs_keyIndex st) (cs_table st) (cs_numberOfTables st) (cs_charCounter st + n)
       (cs_gotChangeKeyChar st) (cs_keyChange st) (cs_shift st) (cs_binary st)
       (cs_lowerNibble st).
Definition set_shift (st : codec_state) (b : bool) : codec_state :=
  mkCS (cs_keyIndex st) (cs_table st) (cs_numberOfTables st) (cs_charCounter st)
       (cs_gotChangeKeyChar st) (cs_keyChange st) b (cs_binary st)
       (cs_lowerNibble st).
Definition set_binary (st : codec_state) (b : bool) : codec_state :=
  mkCS (cs_keyIndex st) (cs_table st) (cs_numberOfTables st) (cs_charCounter st)
       (cs_gotChangeKeyChar st) (cs_keyChange st) (cs_shift st) b
       (cs_lowerNibble st).
Definition set_change (st : codec_state) (got kc : bool) : codec_state :=
  mkCS (cs_keyIndex st) (cs_table st) (cs_numberOfTables st) (cs_charCounter st)
       got kc (cs_shift st) (cs_binary st) (cs_lowerNibble st).

(** An output parameter of type [*[]rune]: [None] is the nil pointer. *)
Definition output := option (list rune).
Definition out_app (o : output) (r : list rune) : output :=
  match o with Some l => Some (l ++ r) | None => None end.
Definition out_nil (o : output) : bool :=
  match o with Some _ => false | None => true end.

(** cipher.go:162-168 nextTable *)
Definition next_table (st : codec_state) (o : output) : codec_state * output :=
  let st1 := set_table st (Z.rem (cs_table st + 1) (cs_numberOfTables st)) in
  if out_nil o then (st1, o) else (add_count st1 1, out_app o [nextTableChar]).

(** cipher.go:215-220, the loop of gotoTable. Fuel: the number of tables
    suffices (proved); running out of fuel is [Diverge]. *)
Fixpoint goto_loop (fuel : nat) (t : Z) (st : codec_state) (o : output)
  : res (codec_state * output) :=
  if t =? cs_table st then Ok (st, o)
  else match fuel with
       | O => Diverge
       | S f => let '(st1, o1) := next_table st o in goto_loop f t st1 o1
       end.

(** cipher.go:199-222 gotoTable *)
Definition goto_table (st : codec_state) (t : Z) (o : output)
  : res (codec_state * output) :=
  if (t <? 0) || (cs_numberOfTables st <=? t) then Err ErrTableRange
  else if cs_table st =? t then Ok (st, o)
  else goto_loop (Z.to_nat (cs_numberOfTables st)) t st o.

(** cipher.go:170-181 toggleCase *)
Definition toggle_case (st : codec_state) (o : output) : res (codec_state * output) :=
  let* (st1, o1) :=
    (if out_nil o then Ok (st, o)
     else let* (s, o') := goto_table st secondaryTable o in
          Ok (add_count s 1, out_app o' [caseToggleChar])) in
  Ok (set_shift st1 (negb (cs_shift st1)), o1).

(** cipher.go:183-194 toggleBinary *)
Definition toggle_binary (st : codec_state) (o : output) : res (codec_state * output) :=
  let* (st1, o1) :=
    (if out_nil o then Ok (st, o)
     else let* (s, o') := goto_table st secondaryTable o in
          Ok (add_count s 1, out_app o' [binaryToggleChar])) in
  Ok (set_binary st1 (negb (cs_binary st1)), o1).

(** cipher.go:230-243 changeKey; [keyid] is [key.Id] of a non-nil key. *)
Definition change_key (st : codec_state) (keyid : list rune) (o : output)
  : res (codec_state * output) :=
  if out_nil o then Err ErrNilPointer
  else
    let* (st1, o1) := goto_table st secondaryTable o in
    let o2 := out_app o1 [changeKeyChar] in
    let st2 := add_count st1 1 in
    Ok (add_count st2 (len keyid), out_app o2 keyid).

(** cipher.go:249-258 pad (a negative number adds nothing). *)
Definition pad (st : codec_state) (n : Z) (o : output) : res (codec_state * output) :=
  if out_nil o then Err ErrNilPointer
  else Ok (add_count st (Z.max 0 n), out_app o (repeat nextTableChar (Z.to_nat n))).

(** cipher.go:281-303, the search: first table, then first column whose
    character is not [specialOpChar] and equals [c]. *)
Fixpoint find_col (t : list rune) (c : rune) (i : Z) : option Z :=
  match t with
  | [] => None
  | tc :: t' =>
      if tc =? specialOpChar then find_col t' c (i + 1)
      else if c =? tc then Some i
      else find_col t' c (i + 1)
  end.
Fixpoint find_char (ts : list (list rune)) (c : rune) (t : Z) : option (Z * Z) :=
  match ts with
  | [] => None
  | tab :: ts' =>
      match find_col tab c 0 with
      | Some i => Some (t, i)
      | None => find_char ts' c (t + 1)
      end
  end.

(** cipher.go:265-312 encodeCharacter; a character in no table panics
    (line 308). *)
Definition encode_character (U : Uni) (st : codec_state) (input : rune) (o : output)
  : res (codec_state * output) :=
  if cs_binary st then Err ErrBinaryMode
  else
    let* (st1, o1) :=
      (if (is_upper U input && cs_shift st) || (is_lower U input && negb (cs_shift st))
       then toggle_case st o else Ok (st, o)) in
    match find_char character_tables (to_upper U input) 0 with
    | Some (t, i) =>
        let* (st2, o2) := goto_table st1 t o1 in
        Ok (add_count st2 1, out_app o2 [i + 65])
    | None => Panic
    end.

(** cipher.go:316-382 decodeCharacter; [o] is the non-nil output slice. *)
Definition decode_character (U : Uni) (st : codec_state) (input : rune) (o : list rune)
  : res (codec_state * list rune) :=
  if (input <? 65) || (90 <? input) then Err ErrInvalidCoding
  else if cs_binary st then Err ErrBinaryMode
  else
    let st1 := if cs_gotChangeKeyChar st then set_change st false true else st in
    if cs_keyChange st1 then Ok (st1, o)
    else
      match nth_error character_tables (Z.to_nat (cs_table st1)) with
      | None => Panic                               (* index out of range *)
      | Some tab =>
          match nth_error tab (Z.to_nat (input - 65)) with
          | None => Err ErrTableTooShort
          | Some char =>
              if char =? specialOpChar then
                if cs_table st1 =? primaryTable then
                  if input =? nextTableChar then Ok (fst (next_table st1 None), o)
                  else Err ErrInvalidControlChar
                else if cs_table st1 =? secondaryTable then
                  if input =? binaryToggleChar then
                    let* (s, _) := toggle_binary st1 None in Ok (s, o)
                  else if input =? caseToggleChar then
                    let* (s, _) := toggle_case st1 None in Ok (s, o)
                  else if input =? changeKeyChar then
                    Ok (set_change st1 true (cs_keyChange st1), o)
                  else if input =? nextTableChar then
                    Ok (fst (next_table st1 None), o)
                  else Err ErrInvalidControlChar
                else Err ErrUnsupportedTable
              else
                let char' := if cs_shift st1 && negb (char =? spaceChar)
                             then to_lower U char else char in
                Ok (add_count st1 1, o ++ [char'])
          end
      end.
