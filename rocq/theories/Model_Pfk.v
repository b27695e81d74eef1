(** Model of the command pfk as a whole (cmd/krypto431/pfk.go:11-136): which of
    its operations runs, what it does and the lines it prints. --change itself
    is [cmd_pfk_change] (Model_Cli), --gen-pfk [cmd_gen_pfk] (Model_Ask).
    The refusal of --gen-pfk with --gen-salt and of two ways to give the new key
    is represented by [ErrInvalidPFK]. Definitions only. *)
From Verif Require Import Base Model_Unicode Model_Crand Model_Functions Model_Types Model_Station Model_Persist
  Model_Cli Model_Ask.

(** krypto431.go:165-220, the flags of pfk; a flag that counts only if it is both
    set and true is a boolean. [q_agree]: --yes, or the answer to the question. *)
Record qopts := mkQ {
  q_genpfk : bool; q_gensalt : bool; q_random : bool;
  q_change : option (list rune);
  q_old : option (list Z); q_new : option (list Z);
  q_newpfk : option (list rune); q_newsalt : option (list rune);
  q_agree : option bool
}.

(** pfk.go:55-59, 79, 98, 117: how the new key is given; None: refused. *)
Definition chosen_way (q : qopts) : option new_key_by :=
  let isset {A} (x : option A) := match x with Some _ => true | None => false end in
  if q_random q && isset (q_new q) then None
  else if isset (q_newpfk q) && isset (q_new q) then None
  else if q_random q then Some ByRandom
  else match q_new q, q_newpfk q with
       | Some w, _ => Some (ByPassword w)
       | None, Some x => Some (ByHex x)
       | None, None => Some ByPrompt
       end.

(** The run in which the password asked for in step 1 is [w]. *)
Definition set_password (e : env) (w : option (list Z)) : env :=
  mkEnv (e_home e) (e_stat_err e) (e_term e) (e_confirm e) w (e_open e) (e_nonce e) (e_cuts e) (e_early e) (e_fail e).
Definition answered (r : run) (w : option (list Z)) : run :=
  mkRun (r_now r) (fun n => if Nat.eqb n 1 then set_password (r_env r n) w else r_env r n)
    (r_tape r) (r_wipe r) (r_pick r) (r_answers r) (r_radiogram r).

Section WithLibraries.
Context (L : lib) (U : Uni) (strong : list Z -> bool).

(** pfk.go:26-53: the instance, opened with the old key, with the new salt. *)
Definition pfk_opened (r : run) (g : gopts) (o : popts) (f : fs) (h : mem) : flow :=
  let (s, h1) := new_station U h [WithPersistence (po_file o); WithInteractive true] in
  andthen (set_salt_and_pfk L g f h1 s) (fun f h s =>
  andthen (match po_old o with
           | None => Go f h s
           | Some p => with_result f (derive_pfk (kdf L) h s p)
           end) (fun f h s =>
  andthen (load_step L (r_env r 0) f h s) (fun f h s =>
  match po_newsalt o with
  | None => Go f h s
  | Some x => with_result f (set_salt_from_string h s
                (if list_eq_dec Z.eq_dec x w_default then default_salt_hex else x))
  end))).

(** pfk.go:69-78: a random key is printed before the file is written. *)
Definition pfk_printed (r : run) (g : gopts) (o : popts) (f : fs) (h : mem) : list (list rune) :=
  match pfk_opened r g o f h with
  | Over _ _ _ _ => []
  | GoOn _ h1 s1 _ =>
      match po_how o, po_agree o, generate_pfk (r_tape r) with
      | ByRandom, Some true, Ok (x, _) =>
          match set_pfk_from_string h1 s1 x with
          | (Ok _, _, _) => [x]
          | _ => []
          end
      | _, _, _ => []
      end
  end.

(** pfk.go:11-136 managePFK: result, files, lines printed. [l]: the lines typed
    in when a new password is asked for. *)
Definition cmd_pfk (r : run) (l : typed) (g : gopts) (q : qopts) (f : fs) : res unit * fs * list (list rune) :=
  if q_genpfk q && q_gensalt q then (Err ErrInvalidPFK, f, [])
  else if q_genpfk q then
    match cmd_gen_pfk L U strong l (r_tape r) g (q_newsalt q) (q_random q) with
    | Ok x => (Ok tt, f, [x])
    | Err e => (Err e, f, [])
    | Panic => (Panic, f, [])
    | Diverge => (Diverge, f, [])
    end
  else if q_gensalt q then
    match generate_salt (r_tape r) with
    | Ok (x, _) => (Ok tt, f, [x])
    | Err e => (Err e, f, [])
    | Panic => (Panic, f, [])
    | Diverge => (Diverge, f, [])
    end
  else
    match q_change q with
    | None => (Ok tt, f, [])
    | Some file =>
        let w := match ask_and_confirm strong l with (Ok w, _) => Some w | _ => None end in
        let r' := answered r w in
        match chosen_way q with
        | None =>
            let o := mkP file (q_old q) (q_newsalt q) ByPrompt (q_agree q) in
            match pfk_opened r' g o f [] with
            | Over e f' _ _ => (e, f', [])
            | GoOn f' _ _ _ => (Err ErrInvalidPFK, f', [])
            end
        | Some how =>
            let o := mkP file (q_old q) (q_newsalt q) how (q_agree q) in
            let p := pfk_printed r' g o f [] in
            match cmd_pfk_change L U r' g o f [] with
            | GoOn f' _ _ _ => (Ok tt, f', p)
            | Over e f' _ _ => (e, f', p)
            end
        end
    end.
End WithLibraries.
