(** Model of SummaryOfMessages (messages.go:406-469, functions.go:334-371).
    Library code that is not modelled: [digest] is blox.CutLineShort of
    blox.WithoutLineBreaks (line 455), [dtg_string] is dtg.DTG.String.
    Definitions only. *)
From Verif Require Import Base Model_Unicode Model_Crand Model_Functions Model_Types Model_Cipher
  Model_Keys Model_Messages.

(** messages.go:25 NilRunes *)
Definition w_nil : list rune := [78; 73; 76].

(** messages.go:420 the column headers ID, DTG, TO, DE, DIGEST *)
Definition message_headers : list (list rune) :=
  [[73; 68]; [68; 84; 71]; [84; 79]; [68; 69]; [68; 73; 71; 69; 83; 84]].

(** functions.go:346-369, the columns of recipients and sender. *)
Definition predict_msg_step (c : Z * Z) (m : msg) : Z * Z :=
  let c2 :=
    if len (mrecipients m) =? 0 then (if fst c <? 3 then 3 else fst c)
    else
      let rl := fold_left (fun a x => a + (len x + 1)) (mrecipients m) 0 in
      if (0 <? rl) && (fst c <? rl) then rl - 1 else fst c in
  let c3 := if snd c <? len (mfrom m) then len (mfrom m) else snd c in
  (c2, c3).

(** functions.go:334-371 predictColumnSizesOfMessages; no pointer is nil. *)
Definition predict_msg_sizes (ms : list msg) : list Z :=
  let c := fold_left predict_msg_step ms (2, 2) in
  [4; 12; fst c; snd c; 35].

(** messages.go:441-466 one line *)
Definition message_line (dtg_string : Z -> list rune) (digest : list rune -> list rune)
    (sizes : list Z) (m : msg) : list rune :=
  let sz n := nth n sizes 0 + 1 in
  with_padding (mid m) (sz 0%nat) ++
  with_padding (dtg_string (mdtg m)) (sz 1%nat) ++
  with_padding (if 0 <? len (mrecipients m) then join_runes (mrecipients m) [44] else w_nil) (sz 2%nat) ++
  with_padding (if 0 <? len (mfrom m) then mfrom m else w_nil) (sz 3%nat) ++
  digest (go_string (mplain m) ++ go_string (mcipher m)).

Section WithUnicode.
Context (U : Uni).

(** messages.go:408-416 the loop: a message that is selected is deciphered if
    its text is a known key ID and ciphertext; [m]: the messages in front of it
    have been dealt with. Result: instance, selected messages; [Panic] of
    TryDecipherPlainText. *)
Definition list_step (i : inst) (n : nat) (m : msg) (t : tape) : res (inst * msg * tape) :=
  let put (r : inst * msg * tape) :=
    let '(i1, m1, t1) := r in
    (set_messages i1 (list_update (i_messages i1) n m1), m1, t1) in
  match try_decipher U i m true t with
  | (i1, m1, Ok _, t1) =>
      match try_decipher U i1 m1 false t1 with
      | (i2, m2, Ok _, t2) | (i2, m2, Err _, t2) => Ok (put (i2, m2, t2))
      | (_, _, Panic, _) => Panic
      | (_, _, Diverge, _) => Diverge
      end
  | (i1, m1, Err _, t1) => Ok (put (i1, m1, t1))
  | (_, _, Panic, _) => Panic
  | (_, _, Diverge, _) => Diverge
  end.

Fixpoint list_loop (filter : msg -> bool) (ms : list msg) (n : nat) (i : inst) (t : tape)
  : res (inst * list msg * tape) :=
  match ms with
  | [] => Ok (i, [], t)
  | m :: ms' =>
      if filter m then
        let* (i1, m1, t1) := list_step i n m t in
        let* (i2, sel, t2) := list_loop filter ms' (S n) i1 t1 in
        Ok (i2, m1 :: sel, t2)
      else list_loop filter ms' (S n) i t
  end.

(** messages.go:406-469 SummaryOfMessages: the instance afterwards, header and
    lines. *)
Definition summary_of_messages (dtg_string : Z -> list rune) (digest : list rune -> list rune)
    (filter : msg -> bool) (i : inst) (t : tape) : res (inst * list rune * list (list rune)) :=
  let* (i', sel, _) := list_loop filter (i_messages i) 0 i t in
  let sizes := predict_msg_sizes sel in
  Ok (i', summary_header sizes message_headers, map (message_line dtg_string digest sizes) sel).
End WithUnicode.
