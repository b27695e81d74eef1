(** Model of package diana (diana/diana.go). Definitions only. *)
From Verif Require Import Base.

(** diana/diana.go:88-100 TrigraphRune. The three arguments are the pointees
    ([None] = nil pointer); the result is the pointee of [writeTo] afterwards
    and the error. [%] is Go's truncated remainder. *)
Definition trigraph_rune (writeTo x y : option rune) : option rune * option goerr :=
  match writeTo, x, y with
  | Some _, Some a, Some b =>
      if ((a <? 65) || (90 <? a)) || ((b <? 65) || (90 <? b)) then
        (writeTo, Some ErrOutOfRange)
      else
        (Some (65 + Z.rem (Z.rem (25 - (a - 65) - (b - 65)) 26 + 26) 26), None)
  | _, _, _ => (writeTo, Some ErrNilPointer)
  end.

(** Conversion [byte(n)]. *)
Definition to_byte (n : Z) : Z := n mod 256.

(** diana/diana.go:71-84 TrigraphByte; bytes are 0..255. *)
Definition trigraph_byte (writeTo x y : option Z) : option Z * option goerr :=
  match writeTo, x, y with
  | Some _, Some a, Some b =>
      if ((a <? 65) || (90 <? a)) || ((b <? 65) || (90 <? b)) then
        (writeTo, Some ErrOutOfRange)
      else
        (Some (to_byte (65 + Z.rem (Z.rem (25 - (a - 65) - (b - 65)) 26 + 26) 26)), None)
  | _, _, _ => (writeTo, Some ErrNilPointer)
  end.

(** diana/diana.go:106-108, 114-116 ZeroKeyByte, ZeroKeyRune. *)
Definition zero_key_byte (writeTo c : option Z) := trigraph_byte writeTo c c.
Definition zero_key_rune (writeTo c : option rune) := trigraph_rune writeTo c c.

(** Arguments of AppendTrigraphByteByKey: pointees of writeTo, character, key,
    keyIndex. *)
Record atk_state := mkAtk {
  atk_out : option (list Z);
  atk_char : option Z;
  atk_key : option (list Z);
  atk_index : option Z
}.

(** diana/diana.go:127-148 AppendTrigraphByteByKey. The state after the call
    and the outcome. Line 135 compares the key index with the length of the
    output, line 139 indexes the key. *)
Definition append_trigraph_byte_by_key (s : atk_state) : atk_state * res unit :=
  match atk_out s, atk_char s, atk_key s, atk_index s with
  | Some out, Some c, Some key, Some i =>
      if i <? 0 then (s, Err ErrNegativeKeyIndex)
      else if len out <? i then (s, Err ErrKeyIndexOutOfBounds)
      else
        match nth_error key (Z.to_nat i) with
        | None => (s, Panic)
        | Some k =>
            match trigraph_byte (Some 0) (Some c) (Some k) with
            | (_, Some e) => (s, Err e)
            | (Some b, None) =>
                (mkAtk (Some (out ++ [b])) (atk_char s) (atk_key s) (Some (i + 1)), Ok tt)
            | (None, None) => (s, Panic)
            end
        end
  | _, _, _, _ => (s, Err ErrNilPointer)
  end.

(** Call of TrigraphRune with a local variable as destination, as in
    cipher.go:638-642 and 700-708. *)
Definition trigraph (x y : rune) : res rune :=
  match trigraph_rune (Some 0) (Some x) (Some y) with
  | (_, Some e) => Err e
  | (Some r, None) => Ok r
  | (None, None) => Panic
  end.
