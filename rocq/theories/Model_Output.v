(** Model of --output of the commands keys and messages
    (cmd/krypto431/keys.go:233-261, messages.go:169-197, print.go:201-233 and the
    writing of PDF files). Library code that is not modelled: [utf8] (the bytes of
    a string), [pdf] (the file gofpdf makes of the texts of pages), Key.String()
    and Message.String(width) ([key_text], [msg_text], which depend on the settings
    of the instance), blox.LineCount ([line_count]). A missing file name and an
    unknown type are represented by [ErrNoPersistence]. Definitions only. *)
From Verif Require Import Base Model_Unicode Model_Crand Model_Functions Model_Types Model_Cipher Model_Keys
  Model_Messages Model_Listing Model_Station Model_Persist Model_Print Model_Cli.

(** Opening the output file succeeds; a write fails after so many bytes. *)
Record oenv := mkO { o_open : bool; o_fail : option nat }.
(** --output and --type, if given. *)
Record oopts := mkOut { oo_file : list rune; oo_type : option (list rune) }.

(** filepath.Ext: from the last dot on, unless a slash follows. *)
Fixpoint ext_loop (s acc : list rune) : list rune :=
  match s with
  | [] => []
  | c :: s' => if c =? 47 then [] else if c =? 46 then c :: acc else ext_loop s' (c :: acc)
  end.
Definition ext (s : list rune) : list rune := ext_loop (rev s) [].

Definition w_pdf : list rune := [112; 100; 102].
Definition w_PDF : list rune := [80; 68; 70].
Definition w_txt : list rune := [116; 120; 116].
Definition w_TXT : list rune := [84; 88; 84].
Definition w_text : list rune := [116; 101; 120; 116].
Definition is_word (s : list rune) (ws : list (list rune)) : bool :=
  existsb (fun w => if list_eq_dec Z.eq_dec s w then true else false) ws.
(** keys.go:238-246; --type is "pdf" by default. *)
Definition output_type (o : oopts) : list rune :=
  match oo_type o with
  | Some t => t
  | None => let e := ext (oo_file o) in
      if is_word e [46 :: w_pdf; 46 :: w_PDF] then w_pdf
      else if is_word e [46 :: w_txt; 46 :: w_TXT] then w_txt
      else w_pdf
  end.

(** os.OpenFile with O_CREATE|O_TRUNC, WriteString; an error of Close is ignored
    (print.go:206-215, 223-232); gofpdf.OutputFileAndClose does the same. *)
Definition write_file (e : oenv) (p : list rune) (b : list Z) : res unit * list effect :=
  if negb (o_open e) then (Err ErrIO, [])
  else match o_fail e with
       | None => (Ok tt, [Truncate p; Append p b])
       | Some n => (Err ErrIO, [Truncate p; Append p (firstn n b)])
       end.

Section WithLibraries.
Context (utf8 : list rune -> list Z) (pdf : list (list rune) -> list Z) (lb : list rune) (line_count : list rune -> Z).

(** keys.go:247-260: [text] is what the text file is made of, [pages] the pages
    of the PDF; an empty text is an error, no page is none. *)
Definition output_items (e : oenv) (o : oopts) (text : list rune) (pages : list (list rune))
  : res unit * list effect :=
  if len (oo_file o) =? 0 then (Err ErrNoPersistence, [])
  else if is_word (output_type o) [w_pdf; w_PDF] then
    (if len pages =? 0 then (Ok tt, []) else write_file e (oo_file o) (pdf pages))
  else if is_word (output_type o) [w_txt; w_text; w_TXT] then
    (if len text =? 0 then (Err ErrNoPersistence, []) else write_file e (oo_file o) (utf8 text))
  else (Err ErrNoPersistence, []).

(** The last step: --output, after the lines of --list; without lines the command
    is over (keys.go:209-222). *)
Definition finally (oe : oenv) (out : option oopts) (listing : bool) (lines : list (list rune))
    (text : list rune) (pages : list (list rune)) (f : fs) : flow :=
  if listing && (len lines =? 0) then End (Ok tt) f []
  else match out with
       | None => End (Ok tt) f lines
       | Some o => let (r, xs) := output_items oe o text pages in End r (apply_effects f xs) lines
       end.

Context (L : lib) (U : Uni) (line_breaks : list rune -> list rune) (dtg_parse : list rune -> option Z)
  (dtg_string : Z -> list rune) (digest : list rune -> list rune)
  (key_text : inst -> key -> list rune) (msg_text : inst -> Z -> msg -> list rune).

(** keys.go:16-263 keys, with --output *)
Definition cmd_keys_output (r : run) (oe : oenv) (g : gopts) (o : kopts) (out : option oopts) (f : fs) (h : mem) : flow :=
  if keys_idle o && (match out with None => true | Some _ => false end) then End (Ok tt) f []
  else
    andthen (open_file L U g (r_env r 0) (ko_file o) f h) (fun f h s =>
    andthen (keys_delete L U dtg_string r o f h s) (fun f h s =>
    andthen (keys_new L U dtg_parse r o f h s) (fun f h s =>
    andthen (keys_import L U r o f h s) (fun f h s =>
    andthen (keys_export L U r o f h s) (fun f h s =>
      let i := st_inst s in
      let filter := key_filter U (r_now r) o in
      finally oe out (ko_list o)
        (if ko_list o then snd (summary_of_keys dtg_string (i_groupsize i) filter (i_keys i)) else [])
        (as_text lb (key_text i) filter (i_keys i))
        (keys_pdf lb line_count (key_text i) filter (i_keys i)) f))))).

(** messages.go:15-199 messages, with --output; --list deciphers in memory. *)
Definition cmd_messages_output (r : run) (oe : oenv) (g : gopts) (o : mopts) (out : option oopts) (f : fs) (h : mem) : flow :=
  if negb (mo_list o || mo_new o || mo_delete o) && (match out with None => true | Some _ => false end)
  then End (Ok tt) f []
  else
    andthen (open_file L U g (r_env r 0) (mo_file o) f h) (fun f h s =>
    andthen (messages_delete L U dtg_string digest r o f h s) (fun f h s =>
    andthen (messages_new L U line_breaks dtg_parse r o f h s) (fun f h s =>
      let filter := msg_filter U o in
      let go (i : inst) (lines : list (list rune)) :=
        finally oe out (mo_list o) lines
          (as_text lb (msg_text i 80) filter (i_messages i))
          (messages_pdf lb line_count (msg_text i 95) filter (i_messages i)) f in
      if mo_list o then
        match summary_of_messages U dtg_string digest filter (st_inst s) (r_wipe r) with
        | Ok (i1, _, lines) => go i1 lines
        | x => End (fail x) f []
        end
      else go (st_inst s) []))).
End WithLibraries.
