(** Model of messages.go on the value level. Library functions that are not
    part of the repository are parameters: [dtg_parse] (dtg.Parse, [None] =
    error), [line_breaks] (blox.ReplaceLineBreaks(_, " ")). Warnings printed to
    stderr are not modelled. Definitions only. *)
From Verif Require Import Base Model_Unicode Model_Crand Model_Functions Model_Types Model_Cipher
  Model_Keys Model_Regex.

(** ** The regular expressions, messages.go:48-83 *)
(** The classes of the recipients, [A-Z0-9/,\s], and of the sender, [A-Z0-9/]. *)
Definition c_to (c : rune) : bool := c_alpha c || c_digit c || (c =? 47) || (c =? 44) || c_space c.
Definition c_call (c : rune) : bool := c_alpha c || c_digit c || (c =? 47).
Definition r_sp : re := RStar c_space.                     (* white space, any number *)
Definition r_eq : re := RChr (c_lit 61).                   (* = *)

(** JAN FEB MAR APR MAY MAJ JUN JUL AUG SEP OCT OKT NOV DEC *)
Definition months : list (list rune) :=
  [[74; 65; 78]; [70; 69; 66]; [77; 65; 82]; [65; 80; 82]; [77; 65; 89]; [77; 65; 74];
   [74; 85; 78]; [74; 85; 76]; [65; 85; 71]; [83; 69; 80]; [79; 67; 84]; [79; 75; 84];
   [78; 79; 86]; [68; 69; 67]].
(** The Date-Time Group:
    [[0-9]{6}[A-Z]{0,1}(?:JAN|...|DEC){0,1}(?:[0-9]{2}){0,1}] *)
Definition r_dtg : re :=
  rseq [rrep 6 c_digit; ropt (RChr c_alpha); ropt (ralt (map rlit months)); ropt (rrep 2 c_digit)].
(** The common beginning:
    group 1 = any number of [A-Z0-9/,\s]; \s+ or ^; DE\s+; group 2 =
    [A-Z0-9/]+; \s*; optionally group 3 = Date-Time Group; \s*; followed by [r]. *)
Definition r_head (r : list re) : re :=
  rseq ([RCap 1 (RStar c_to); RAlt (rplus c_space) RBegin; RChr (c_lit 68); RChr (c_lit 69);
         rplus c_space; RCap 2 (rplus c_call); r_sp; ropt (RCap 3 r_dtg); r_sp] ++ r).
Definition r_text : re := RCap 4 (RStar c_any).            (* group 4, any text *)

(** messages.go:48 MessageRegexpFull *)
Definition r_full : re :=
  r_head [r_eq; r_eq; r_sp; RStar c_to; r_sp; r_eq; r_eq; r_sp;
          RStar (fun c => c_alpha c || c_space c); r_sp; RStar c_digit; r_sp; r_eq; r_sp; r_text].
(** messages.go:58 MessageRegexpSemi *)
Definition r_semi : re :=
  r_head [r_eq; r_eq; r_sp; RStar c_to; r_sp; RStar c_digit; r_sp; r_eq; r_sp; r_text].
(** messages.go:69 MessageRegexpShort *)
Definition r_short : re :=
  r_head [ruptot 4 c_alpha; r_sp; ruptot 4 c_digit; r_sp; r_eq; r_sp; r_text].
(** messages.go:78 MessageRegexpMini *)
Definition r_mini : re := r_head [RStar (c_lit 61); r_sp; r_text].

(** messages.go:83 MessageTrailRegexp
    \s*=\s*[K+] or \s[K+] or \s*\[AR\] or \s*=\s*AR, then \s*$ *)
Definition c_kplus (c : rune) : bool := c_lit 75 c || (c =? 43).
Definition r_trail : re :=
  rseq [ralt [rseq [r_sp; r_eq; r_sp; RChr c_kplus];
              rseq [RChr c_space; RChr c_kplus];
              rseq [r_sp; rlit [91; 65; 82; 93]];
              rseq [r_sp; r_eq; r_sp; rlit [65; 82]]];
        r_sp; REnd].
(** messages.go:240 [MessageTrailRegexp.ReplaceAllString(s, "")]: a match
    extends to the end of the text, so there is at most one. *)
Definition remove_trail (s : list rune) : list rune :=
  match re_search r_trail s with
  | Some (n, _) => firstn n s
  | None => s
  end.

Section WithUnicode.
Context (U : Uni).

(** messages.go:241-243 *)
Definition end_sign (r : rune) : bool := is_space U r || (r =? 43) || (r =? 61).

(** messages.go:216-247, a radiogram split into recipients, sender, Date-Time
    Group and text by the first expression that matches. *)
Fixpoint split_radiogram (rs : list re) (s : list rune)
  : option (list (list rune) * list rune * list rune * list rune) :=
  match rs with
  | [] => None
  | r :: rs' =>
      match re_search r s with
      | Some (_, q) =>
          Some (vetted_keepers U [group 1 q], str_upper U (trim_space U (group 2 q)),
                str_upper U (trim_space U (group 3 q)),
                trim_right_rune_func (trim_space U (remove_trail (group 4 q))) end_sign)
      | None => split_radiogram rs' s
      end
  end.
Definition regexps : list re := [r_full; r_semi; r_short; r_mini].

Section WithLibraries.
Context (line_breaks : list rune -> list rune) (dtg_parse : list rune -> option Z).

(** messages.go:210-249 ParseRadiogram; [now] is time.Now(). *)
Definition parse_radiogram (i : inst) (raw : list rune) (now : Z) (t : tape) : res (msg * tape) :=
  let s := line_breaks raw in
  let* (id, t1) := new_unique_message_id (i_messages i) t in
  match split_radiogram regexps s with
  | None => Err ErrParsingRadiogram
  | Some (to, from, d, text) =>
      match (if len d =? 0 then Some now else dtg_parse d) with
      | None => Err ErrDTG
      | Some when => Ok (mkMsg id to from when [] text [] [] s, t1)
      end
  end.

(** messages.go:267-275, 293-300 ContainsRecipient, AddRecipient *)
Definition contains_recipient (rs args : list (list rune)) : bool :=
  if len args =? 0 then len rs =? 0 else all_needles U (Some args) (Some rs) true.
Definition add_recipient1 (rs : list (list rune)) (x : list rune) : list (list rune) :=
  if contains_recipient rs [x] then rs else rs ++ [x].
Definition add_recipient (rs xs : list (list rune)) : list (list rune) :=
  fold_left add_recipient1 xs rs.

(** messages.go:304-315 RemoveRecipient *)
Definition remove_recipient1 (rs : list (list rune)) (x : list rune) : list (list rune) :=
  match index_of (fun r => equal_runes_fold U (Some x) (Some r)) rs 0 with
  | Some i => swap_remove rs i
  | None => rs
  end.
Definition remove_recipient (rs xs : list (list rune)) : list (list rune) :=
  fold_left remove_recipient1 xs rs.

(** messages.go:394-396 IsMyCall *)
Definition is_my_call (i : inst) (m : msg) : bool :=
  equal_runes_fold U (Some (mfrom m)) (Some (i_callsign i)).

(** messages.go:161 the message is appended to Messages. *)
Definition store_message (i : inst) (m : msg) : inst := set_messages i (i_messages i ++ [m]).

(** messages.go:120-164 NewTextMessage. [args] are the arguments, of which the
    first is the radiogram. Line 140 uses msg[2] and panics if there are exactly
    two. The result is the instance, the message or failure and, if there is a
    message, the rest of the tape. The deferred [message.Wipe] after a failure
    (130-135) acts on a message nobody else has; on the heap it also destroys
    the key ID it shares with a key (heap layer). *)
Definition new_text_message (i : inst) (args : list (list rune)) (now : Z) (t : tape)
  : inst * res (msg * tape) :=
  match args with
  | [] => (i, Err ErrNoRadiogramProvided)
  | raw :: rest =>
      match parse_radiogram i raw now t with
      | Ok (m, t1) =>
          if is_my_call i m then
            let go m1 :=
              match encipher U i m1 t1 with
              | (i2, m2, Ok _, t2) => (store_message i2 m2, Ok (m2, t2))
              | (i2, _, Err e, _) => (i2, Err e)
              | (i2, _, Panic, _) => (i2, Panic)
              | (i2, _, Diverge, _) => (i2, Diverge)
              end in
            match rest with
            | [] => go m
            | [_] => (i, Panic)
            | _ :: keyArg :: _ =>
                let kid := str_upper U (trim_space U keyArg) in
                if negb (len kid =? i_groupsize i) then (i, Err ErrKeyIdLength)
                else go (set_mkeyid m kid)
            end
          else
            let m1 := if len (mrecipients m) =? 0
                      then set_mrecipients m (add_recipient (mrecipients m) [i_callsign i])
                      else m in
            match try_decipher U i m1 false t1 with
            | (i2, m2, Ok _, t2) | (i2, m2, Err _, t2) => (store_message i2 m2, Ok (m2, t2))
            | (i2, _, Panic, _) => (i2, Panic)
            | (i2, _, Diverge, _) => (i2, Diverge)
            end
      | Err e => (i, Err e)
      | Panic => (i, Panic)
      | Diverge => (i, Diverge)
      end
  end.

(** messages.go:320-338 DeleteMessage *)
Definition delete_message1 (ms : list msg) (id : list rune) : list msg * Z :=
  match index_of (fun m => equal_runes (Some (mid m)) (Some id)) ms 0 with
  | Some i => (swap_remove ms i, 1)
  | None => (ms, 0)
  end.
Fixpoint delete_message (ms : list msg) (ids : list (list rune)) : list msg * Z :=
  match ids with
  | [] => (ms, 0)
  | id :: ids' =>
      let (ms1, n1) := delete_message1 ms id in
      let (ms2, n2) := delete_message ms1 ids' in
      (ms2, n1 + n2)
  end.

(** messages.go:342-344 DeleteMessageByString *)
Definition delete_message_by_string (ms : list msg) (ids : list (list rune)) : list msg * Z :=
  delete_message ms (vetted_message_ids U ids).

(** messages.go:346-357 DeleteMessagesBySummaryString *)
Fixpoint delete_messages_by_summary (ms : list msg) (lines : list (list rune)) : list msg * Z :=
  match lines with
  | [] => (ms, 0)
  | l :: lines' =>
      let (ms1, n1) := delete_message_by_string ms [cut_space l] in
      let (ms2, n2) := delete_messages_by_summary ms1 lines' in
      (ms2, n1 + n2)
  end.
End WithLibraries.
End WithUnicode.
