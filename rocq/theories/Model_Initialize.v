(** Model of the questions asked by the command initialize
    (cmd/krypto431/initialize.go:15-152). The questions are asked with the
    library survey, whose behaviour is assumed: a question is a line read from
    the terminal; an empty line stands for the default text; the line "?" shows
    the help text of a question that has one and the question is asked again; so
    is a question whose validator refuses the text. Definitions only. *)
From Verif Require Import Base Model_Unicode Model_Functions Model_Types Model_Station Model_Persist Model_Cli.

(** The lines typed in one after the other; [None]: the terminal fails or the
    user interrupts; at the end of the list every read fails. *)
Definition lines := list (option (list rune)).

(** fmt.Sprintf("%d", n) *)
Fixpoint digits_of (fuel : nat) (n : Z) : list rune :=
  match fuel with
  | O => []
  | S f => if n <? 10 then [48 + n] else digits_of f (n / 10) ++ [48 + n mod 10]
  end.
Definition itoa (n : Z) : list rune :=
  if n <? 0 then 45 :: digits_of 20 (- n) else digits_of 20 n.

(** strconv.Atoi, on 64 bits *)
Definition is_digit (c : rune) : bool := (48 <=? c) && (c <=? 57).
Definition dec_value (ds : list rune) : Z := fold_left (fun n c => 10 * n + (c - 48)) ds 0.
Definition atoi (s : list rune) : option Z :=
  let ds := match s with
            | c :: t => if (c =? 43) || (c =? 45) then t else s
            | [] => []
            end in
  let neg := match s with c :: _ => c =? 45 | [] => false end in
  if (len ds =? 0) || negb (forallb is_digit ds) then None
  else
    let n := if neg then - dec_value ds else dec_value ds in
    if (- 2 ^ 63 <=? n) && (n <? 2 ^ 63) then Some n else None.

(** strings.Split with a separator of one character *)
Fixpoint split_on (sep : rune) (s : list rune) : list (list rune) :=
  match s with
  | [] => [[]]
  | c :: s' =>
      if c =? sep then [] :: split_on sep s'
      else match split_on sep s' with
           | p :: ps => (c :: p) :: ps
           | [] => [[c]]
           end
  end.

(** A survey.Input question; [read] is the validator together with the
    conversion of the text into the field of the answers. *)
Fixpoint ask_input {A} (help : bool) (default : list rune) (read : list rune -> option A) (l : lines)
  : option A * lines :=
  match l with
  | [] => (None, [])
  | None :: l' => (None, l')
  | Some s :: l' =>
      if help && runes_eqb s [63] then ask_input help default read l'
      else match read (if len s =? 0 then default else s) with
           | Some a => (Some a, l')
           | None => ask_input help default read l'
           end
  end.

(** survey.Required *)
Definition required (s : list rune) : option (list rune) := if len s =? 0 then None else Some s.

(** initialize.go:59-72, 95-108, 117-130 the validators of the numbers *)
Definition at_least (m : Z) (s : list rune) : option Z :=
  match atoi s with
  | Some n => if n <? m then None else Some n
  | None => None
  end.

Section WithUnicode.
Context (U : Uni).

(** initialize.go:138-148 *)
Definition split_keepers (s : list rune) : list (list rune) :=
  flat_map (fun ik =>
    flat_map (fun tk =>
      let fk := str_upper U (trim_space U tk) in
      if 0 <? len fk then [fk] else [])
      (split_on 32 (trim_space U ik))) (split_on 44 s).

(** Which of the options of line 35 are given, besides --call. *)
Record given := mkGiven { is_yes : bool; is_keys : bool; is_keepers : bool; is_keylength : bool; is_groupsize : bool }.

(** initialize.go:18-33 the call-sign. The error of survey.AskOne is ignored,
    the call-sign is then empty; ErrNoCallSign is [ErrInvalidCallSign] here. *)
Definition ask_call (o : iopts) (l : lines) : res (list rune * lines) :=
  match io_call o with
  | Some call => Ok (call, l)
  | None =>
      if io_yes o then Err ErrInvalidCallSign
      else
        match ask_input false [] required l with
        | (None, _) => Err ErrInvalidCallSign
        | (Some call, l1) =>
            if len (str_upper U (trim_space U call)) =? 0 then Err ErrInvalidCallSign else Ok (call, l1)
        end
  end.

(** initialize.go:43-152 the questions *)
Definition ask_rest (o : iopts) (call : list rune) (l : lines) : res iopts :=
  match ask_input false (itoa (io_keys o)) (at_least 0) l with
  | (None, _) => Err ErrPrompt
  | (Some keys, l) =>
  match ask_input true [] Some l with
  | (None, _) => Err ErrPrompt
  | (Some keepers, l) =>
  match ask_input true [] Some l with
  | (None, _) => Err ErrPrompt
  | (Some expire, l) =>
  match ask_input true (itoa (io_keylength o)) (at_least 20) l with
  | (None, _) => Err ErrPrompt
  | (Some keylength, l) =>
  match ask_input true (itoa (io_groupsize o)) (at_least 1) l with
  | (None, _) => Err ErrPrompt
  | (Some groupsize, _) =>
      Ok (mkI (io_file o) (io_yes o) (Some call) keys (trim_space U expire)
            (io_keepers o ++ split_keepers keepers) keylength groupsize (io_keycolumns o) (io_columns o))
  end end end end end.

(** initialize.go:15-152 *)
Definition ask_options (i : given) (o : iopts) (l : lines) : res iopts :=
  let* (call, l1) := ask_call o l in
  let interactive :=
    negb (is_yes i || match io_call o with Some _ => true | None => false end ||
          is_keys i || is_keepers i || is_keylength i || is_groupsize i) in
  if interactive then ask_rest o call l1
  else Ok (mkI (io_file o) (io_yes o) (Some call) (io_keys o) (io_expire o) (io_keepers o)
             (io_keylength o) (io_groupsize o) (io_keycolumns o) (io_columns o)).

(** initialize.go:15-194 *)
Definition cmd_initialize_asked (L : lib) (dtg_parse : list rune -> option Z) (r : run) (g : gopts) (i : given)
    (o : iopts) (l : lines) (f : fs) (h : mem) : flow :=
  match ask_options i o l with
  | Ok o' => cmd_initialize L U dtg_parse r g o' f h
  | x => End (fail x) f []
  end.
End WithUnicode.
