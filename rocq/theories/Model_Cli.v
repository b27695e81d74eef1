(** Model of the command line program, cmd/krypto431: the commands keys,
    messages, pfk --change and initialize, as changes of the file system.
    Definitions only.

    Simplifications: the commands work on values, not on shared memory (the
    theorems C69-C71 on the shared-memory model justify this for the order of
    operations within one command); time.Now() is the same moment throughout one
    command; --output (printing, Model_Print) is left out; flags are given as
    values (urfave/cli is not modelled); a flag that counts only if it is both
    set and true is a boolean; errors of the commands themselves (missing file
    names) are represented by [ErrNoPersistence], two exclusive options by
    [ErrInvalidPFK]; the questions of initialize (initialize.go:43-152) only
    change option values and are left out. *)
From Verif Require Import Base Model_Unicode Model_Crand Model_Functions Model_Types Model_Cipher
  Model_Keys Model_Import Model_Messages Model_Listing Model_Station Model_Persist.

(** Global options, krypto431.go:61-100. *)
Record gopts := mkG {
  g_salt : option (list rune);
  g_pfk : option (list rune);
  g_password : option (list Z)
}.

(** ** Filters *)
(** Options of the keys command, krypto431.go:221-339. *)
Record kopts := mkK {
  ko_file : list rune;
  ko_list : bool; ko_new : Z; ko_expire : option (list rune); ko_delete : bool;
  ko_import : option (list rune); ko_export : option (list rune);
  ko_keepers : list (list rune); ko_or : bool; ko_ids : list (list rune); ko_all : bool;
  ko_valid : option Z; ko_invalid : bool; ko_expired : bool; ko_compromised : bool;
  ko_used : bool; ko_unused : bool; ko_yes : bool
}.

(** int64 arithmetic wraps around. *)
Definition wrap64 (x : Z) : Z := (x + 2 ^ 63) mod 2 ^ 64 - 2 ^ 63.
(** time.Duration(o.valid) * 24 * time.Hour *)
Definition days (n : Z) : Z := wrap64 (wrap64 (n * 24) * (3600 * 10 ^ 9)).

(** keys.go:39-91 filterFunction *)
Definition key_filter (U : Uni) (now : Z) (o : kopts) (k : key) : bool :=
  let vk := vetted_keepers U (ko_keepers o) in
  let vi := vetted_keepers U (ko_ids o) in
  if ko_all o then true
  else if 0 <? len vi then existsb (fun x => equal_runes_fold U (Some (kid k)) (Some x)) vi
  else if (0 <? len vk) && (if ko_or o then negb (any_needle (Some vk) (Some (kkeepers k)))
                            else negb (all_needles U (Some vk) (Some (kkeepers k)) false)) then false
  else if ko_invalid o && (kcompromised k || is_expired now k) then false
  else if ko_compromised o && negb (kcompromised k) then false
  else if ko_used o && negb (kused k) then false
  else if ko_unused o && kused k then false
  else if ko_expired o && negb (is_expired now k) then false
  else match ko_valid o with
       | Some n => if kcompromised k then false else is_valid now (days n) k
       | None => true
       end.

(** Options of the messages command, krypto431.go:340-406. *)
Record mopts := mkM {
  mo_file : list rune;
  mo_list : bool; mo_new : bool; mo_delete : bool;
  mo_to : list (list rune); mo_from : list (list rune); mo_ids : list (list rune);
  mo_or : bool; mo_all : bool; mo_yes : bool
}.

(** messages.go:38-70 filterFunction *)
Definition msg_filter (U : Uni) (o : mopts) (m : msg) : bool :=
  let va := vetted_keepers U (mo_to o) in
  let vs := vetted_keepers U (mo_from o) in
  let vi := vetted_message_ids U (mo_ids o) in
  if mo_all o then true
  else if 0 <? len vi then existsb (fun x => equal_runes (Some (mid m)) (Some x)) vi
  else if (0 <? len va) && (if mo_or o then negb (any_needle (Some va) (Some (mrecipients m)))
                            else negb (all_needles U (Some va) (Some (mrecipients m)) false)) then false
  else if (0 <? len vs) && negb (any_of_them (Some vs) (Some (mfrom m))) then false
  else true.

(** ** Commands *)
(** What a command meets: the time, the environment of its n-th Load or Save,
    random sources, the lines picked from a list (None: error), the answers to
    the questions of an import, the radiogram typed in (None: error). *)
Record run := mkRun {
  r_now : Z;
  r_env : nat -> env;
  r_tape : tape;
  r_wipe : tape;
  r_pick : list (list rune) -> option (list (list rune));
  r_answers : list (option bool);
  r_radiogram : option (list rune)
}.

(** A command under way, or ended with a result: files, messages printed by
    messages --new, lines printed by --list. *)
Inductive flow :=
| GoOn (f : fs) (h : mem) (s : station) (shown : list msg)
| Over (r : res unit) (f : fs) (shown : list msg) (out : list (list rune)).
Definition Go (f : fs) (h : mem) (s : station) : flow := GoOn f h s [].
Definition End (r : res unit) (f : fs) (out : list (list rune)) : flow := Over r f [] out.
Definition show (ms : list msg) (x : flow) : flow :=
  match x with
  | GoOn f h s ms' => GoOn f h s (ms ++ ms')
  | Over r f ms' out => Over r f (ms ++ ms') out
  end.
Definition andthen (x : flow) (k : fs -> mem -> station -> flow) : flow :=
  match x with
  | GoOn f h s ms => show ms (k f h s)
  | Over r f ms out => Over r f ms out
  end.

Section WithLibraries.
Context (L : lib) (U : Uni) (line_breaks : list rune -> list rune) (dtg_parse : list rune -> option Z)
  (dtg_string : Z -> list rune) (digest : list rune -> list rune).

Definition fail {A} (r : res A) : res unit :=
  match r with Ok _ => Ok tt | Err e => Err e | Panic => Panic | Diverge => Diverge end.

(** functions.go:156-180 setSaltAndPFK *)
Definition set_salt_and_pfk (g : gopts) (f : fs) (h : mem) (s : station) : flow :=
  match g_pfk g, g_password g with
  | Some _, Some _ => End (Err ErrInvalidPFK) f []
  | _, _ =>
      let with_salt :=
        match g_salt g with
        | None => Go f h s
        | Some x => match set_salt_from_string h s x with
                    | (Ok _, s1, h1) => Go f h1 s1
                    | (r, _, _) => End r f []
                    end
        end in
      andthen with_salt (fun f h s =>
        match g_pfk g, g_password g with
        | Some x, _ => match set_pfk_from_string h s x with
                       | (Ok _, s1, h1) => Go f h1 s1
                       | (r, _, _) => End r f []
                       end
        | None, Some x => match derive_pfk (kdf L) h s x with
                          | (Ok _, s1, h1) => Go f h1 s1
                          | (r, _, _) => End r f []
                          end
        | None, None => Go f h s
        end)
  end.

Definition load_step (e : env) (f : fs) (h : mem) (s : station) : flow :=
  match load L e f h new_arrays s with
  | (Ok _, s1, h1) => Go f h1 s1
  | (r, _, _) => End r f []
  end.
Definition save_step (e : env) (f : fs) (h : mem) (s : station) : flow :=
  match save L e f h s with
  | (Ok _, s1, h1, xs) => Go (apply_effects f xs) h1 s1
  | (r, _, _, xs) => End r (apply_effects f xs) []
  end.

(** keys.go:28-38, messages.go:27-37: the instance, its file read *)
Definition open_file (g : gopts) (e : env) (file : list rune) (f : fs) (h : mem) : flow :=
  let (s, h1) := new_station U h [WithPersistence file; WithInteractive true] in
  andthen (set_salt_and_pfk g f h1 s) (load_step e).

(** keys.go:93-148 *)
Definition keys_delete (r : run) (o : kopts) (f : fs) (h : mem) (s : station) : flow :=
  if negb (ko_delete o) then Go f h s
  else
    let i := st_inst s in
    let ids := vetted_keepers U (ko_ids o) in
    let finish (x : list key * Z) :=
      let s1 := set_inst s (set_keys i (fst x)) in
      if 0 <? snd x then save_step (r_env r 1) f h s1 else Go f h s1 in
    if len (i_keys i) =? 0 then End (Ok tt) f []
    else if ko_yes o then finish (delete_key U (i_keys i) ids)
    else
      let lines := snd (summary_of_keys dtg_string (i_groupsize i) (key_filter U (r_now r) o) (i_keys i)) in
      if len lines =? 0 then End (Ok tt) f []
      else match r_pick r lines with
           | None => End (Err ErrPrompt) f []
           | Some picked => finish (delete_keys_by_summary U (i_keys i) picked)
           end.

(** keys.go:150-165 *)
Definition keys_new (r : run) (o : kopts) (f : fs) (h : mem) (s : station) : flow :=
  if negb (0 <? ko_new o) then Go f h s
  else
    match generate_keys U (st_inst s) (ko_new o) (r_now r) (option_map dtg_parse (ko_expire o))
            (ko_keepers o) (r_tape r) with
    | Ok (i, _) => save_step (r_env r 2) f h (set_inst s i)
    | x => End (fail x) f []
    end.

(** keys.go:167-185 *)
Definition keys_import (r : run) (o : kopts) (f : fs) (h : mem) (s : station) : flow :=
  match ko_import o with
  | None => Go f h s
  | Some file =>
      if len file =? 0 then End (Err ErrNoPersistence) f []
      else
        match import_station L U (r_env r 3) f h s (key_filter U (r_now r) o)
                [WithPersistence file; WithInteractive true] (r_answers r) (r_wipe r) with
        | (Ok _, _, s1, h1) => save_step (r_env r 4) f h1 s1
        | (x, _, _, _) => End x f []
        end
  end.

(** keys.go:187-204; the command goes on with its own instance. *)
Definition keys_export (r : run) (o : kopts) (f : fs) (h : mem) (s : station) : flow :=
  match ko_export o with
  | None => Go f h s
  | Some file =>
      if len file =? 0 then End (Err ErrNoPersistence) f []
      else
        let (s2, h1) := export_station U h s (key_filter U (r_now r) o)
          [WithPersistence file; WithOverwritePersistenceIfExists (ko_yes o)] in
        andthen (save_step (r_env r 5) f h1 s2) (fun f1 h2 _ => Go f1 h2 s)
  end.

(** keys.go:206-231; the lines with the keys are printed. *)
Definition keys_list (r : run) (o : kopts) (f : fs) (h : mem) (s : station) : flow :=
  if negb (ko_list o) then Go f h s
  else End (Ok tt) f (snd (summary_of_keys dtg_string (i_groupsize (st_inst s))
                             (key_filter U (r_now r) o) (i_keys (st_inst s)))).

(** keys.go:16-263 keys; without an operation only help is shown. Simplified: an
    operation given explicitly as off (--list=false, --new 0) counts as not given,
    where keys.go:19-23 counts it, opens the file and then does nothing. *)
Definition keys_idle (o : kopts) : bool :=
  negb (ko_list o || ko_delete o || negb (ko_new o =? 0) ||
        (match ko_import o with Some _ => true | None => false end) ||
        (match ko_export o with Some _ => true | None => false end)).
Definition cmd_keys (r : run) (g : gopts) (o : kopts) (f : fs) (h : mem) : flow :=
  if keys_idle o then End (Ok tt) f []
  else
    andthen (open_file g (r_env r 0) (ko_file o) f h) (fun f h s =>
    andthen (keys_delete r o f h s) (fun f h s =>
    andthen (keys_new r o f h s) (fun f h s =>
    andthen (keys_import r o f h s) (fun f h s =>
    andthen (keys_export r o f h s) (keys_list r o))))).

(** messages.go:72-127 *)
Definition messages_delete (r : run) (o : mopts) (f : fs) (h : mem) (s : station) : flow :=
  if negb (mo_delete o) then Go f h s
  else
    let i := st_inst s in
    let finish (i : inst) (x : list msg * Z) :=
      let s1 := set_inst s (set_messages i (fst x)) in
      if 0 <? snd x then save_step (r_env r 1) f h s1 else Go f h s1 in
    if len (i_messages i) =? 0 then End (Ok tt) f []
    else if mo_yes o then finish i (delete_message (i_messages i) (vetted_message_ids U (mo_ids o)))
    else
      match summary_of_messages U dtg_string digest (msg_filter U o) i (r_wipe r) with
      | Ok (i1, _, lines) =>
          if len lines =? 0 then End (Ok tt) f []
          else match r_pick r lines with
               | None => End (Err ErrPrompt) f []
               | Some picked => finish i1 (delete_messages_by_summary U (i_messages i1) picked)
               end
      | x => End (fail x) f []
      end.

(** messages.go:129-141, PromptNewTextMessage (messages.go:169-197 of the
    library); the message is printed before it is saved. *)
Definition messages_new (r : run) (o : mopts) (f : fs) (h : mem) (s : station) : flow :=
  if negb (mo_new o) then Go f h s
  else
    match r_radiogram r with
    | None => End (Err ErrPrompt) f []
    | Some raw =>
        match new_text_message U line_breaks dtg_parse (st_inst s) [raw] (r_now r) (r_tape r) with
        | (i, Ok (m, _)) => show [m] (save_step (r_env r 2) f h (set_inst s i))
        | (_, x) => End (fail x) f []
        end
    end.

(** messages.go:143-167 *)
Definition messages_list (r : run) (o : mopts) (f : fs) (h : mem) (s : station) : flow :=
  if negb (mo_list o) then Go f h s
  else
    match summary_of_messages U dtg_string digest (msg_filter U o) (st_inst s) (r_wipe r) with
    | Ok (_, _, lines) => End (Ok tt) f lines
    | x => End (fail x) f []
    end.

(** messages.go:15-199 messages *)
Definition cmd_messages (r : run) (g : gopts) (o : mopts) (f : fs) (h : mem) : flow :=
  if negb (mo_list o || mo_new o || mo_delete o) then End (Ok tt) f []
  else
    andthen (open_file g (r_env r 0) (mo_file o) f h) (fun f h s =>
    andthen (messages_delete r o f h s) (fun f h s =>
    andthen (messages_new r o f h s) (messages_list r o))).

(** pfk.go:26-133: pfk --change. How the new key is given: --random, --new,
    --new-pfk, or a password typed in (the environment of step 1; None: error).
    [po_agree]: --yes, or the answer to the question (None: error). *)
Inductive new_key_by := ByRandom | ByPassword (p : list Z) | ByHex (x : list rune) | ByPrompt.
Record popts := mkP {
  po_file : list rune; po_old : option (list Z); po_newsalt : option (list rune);
  po_how : new_key_by; po_agree : option bool
}.
Definition with_result (f : fs) (x : res unit * station * mem) : flow :=
  match x with
  | (Ok _, s1, h1) => Go f h1 s1
  | (r, _, _) => End r f []
  end.
Definition if_agreed (a : option bool) (f : fs) (h : mem) (s : station) : flow :=
  match a with
  | None => End (Err ErrPrompt) f []
  | Some false => End (Ok tt) f []
  | Some true => Go f h s
  end.
(** pfk.go:45-53: "default" stands for the default salt. *)
Definition w_default : list rune := [100; 101; 102; 97; 117; 108; 116].
Definition default_salt_hex : list rune := hex_encode default_salt.
Definition cmd_pfk_change (r : run) (g : gopts) (o : popts) (f : fs) (h : mem) : flow :=
  let (s, h1) := new_station U h [WithPersistence (po_file o); WithInteractive true] in
  andthen (set_salt_and_pfk g f h1 s) (fun f h s =>
  andthen (match po_old o with
           | None => Go f h s
           | Some p => with_result f (derive_pfk (kdf L) h s p)
           end) (fun f h s =>
  andthen (load_step (r_env r 0) f h s) (fun f h s =>
  andthen (match po_newsalt o with
           | None => Go f h s
           | Some x => with_result f (set_salt_from_string h s
                         (if list_eq_dec Z.eq_dec x w_default then default_salt_hex else x))
           end) (fun f h s =>
  andthen (match po_how o with
           | ByRandom =>
               andthen (if_agreed (po_agree o) f h s) (fun f h s =>
               match generate_pfk (r_tape r) with
               | Ok (x, _) => with_result f (set_pfk_from_string h s x)
               | x => End (fail x) f []
               end)
           | ByPassword p =>
               andthen (with_result f (derive_pfk (kdf L) h s p)) (if_agreed (po_agree o))
           | ByHex x =>
               andthen (with_result f (set_pfk_from_string h s x)) (if_agreed (po_agree o))
           | ByPrompt =>
               match e_password (r_env r 1) with
               | None => End (Err ErrPasswordInput) f []
               | Some p => with_result f (derive_pfk (kdf L) h s p)
               end
           end) (fun f h s =>
  save_step (r_env r 1) f h s))))).

(** initialize.go:15-194: initialize. [io_call = None]: --call is not given and
    -y is (line 21), or nothing was typed in. *)
Record iopts := mkI {
  io_file : list rune; io_yes : bool; io_call : option (list rune); io_keys : Z;
  io_expire : list rune; io_keepers : list (list rune); io_keylength : Z; io_groupsize : Z;
  io_keycolumns : Z; io_columns : Z
}.
Definition cmd_initialize (r : run) (g : gopts) (o : iopts) (f : fs) (h : mem) : flow :=
  match io_call o with
  | None => End (Err ErrInvalidCallSign) f []
  | Some call =>
      let (s, h1) := new_station U h
        [WithPersistence (io_file o); WithInteractive true; WithKeyLength (io_keylength o);
         WithGroupSize (io_groupsize o); WithKeyColumns (io_keycolumns o); WithColumns (io_columns o);
         WithCallSign (str_upper U (trim_space U call)); WithOverwritePersistenceIfExists (io_yes o)] in
      andthen (set_salt_and_pfk g f h1 s) (fun f h s =>
      match assert_settings s with
      | Ok _ =>
          andthen
            (if 0 <? io_keys o then
               match generate_keys U (st_inst s) (io_keys o) (r_now r)
                       (if 0 <? len (io_expire o) then Some (dtg_parse (io_expire o)) else None)
                       (io_keepers o) (r_tape r) with
               | Ok (i, _) => Go f h (set_inst s i)
               | x => End (fail x) f []
               end
             else Go f h s) (fun f h s =>
          save_step (r_env r 1) f h s)
      | x => End (fail x) f []
      end)
  end.
End WithLibraries.
