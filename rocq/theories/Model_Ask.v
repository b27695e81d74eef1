(** Model of the dialogues for passwords (persistence.go:191-286) and of the
    command that prints a file key (cmd/krypto431/pfk.go:138-193). Terminal
    settings, signals and the wiping of what was typed in are not represented;
    [strong] is passwordvalidator.Validate with the minimum entropy in force.
    Definitions only. *)
From Verif Require Import Base Model_Unicode Model_Crand Model_Functions Model_Types Model_Station Model_Persist Model_Cli.

(** What the calls of term.ReadPassword return one after the other: a line or an
    error; at the end of the list every call returns an error. *)
Definition typed := list (option (list Z)).

(** persistence.go:194-229 AskForPassword *)
Fixpoint ask_for_password (minimum : Z) (l : typed) : option (list Z) * typed :=
  match l with
  | [] => (None, [])
  | None :: l' => (None, l')
  | Some pw :: l' => if len pw <? minimum then ask_for_password minimum l' else (Some pw, l')
  end.

Definition same_bytes (a b : list Z) : bool := if list_eq_dec Z.eq_dec a b then true else false.

(** persistence.go:231-261 AskAndConfirmPassword *)
Fixpoint ask_and_confirm_loop (fuel : nat) (strong : list Z -> bool) (l : typed) : res (list Z) * typed :=
  match fuel with
  | O => (Diverge, l)
  | S f =>
      match ask_for_password 0 l with
      | (None, l1) => (Err ErrPasswordInput, l1)
      | (Some pwd1, l1) =>
          if negb (strong pwd1) then ask_and_confirm_loop f strong l1
          else
            match ask_for_password 0 l1 with
            | (None, l2) => (Err ErrPasswordInput, l2)
            | (Some pwd2, l2) =>
                if same_bytes pwd1 pwd2 then (Ok pwd1, l2) else ask_and_confirm_loop f strong l2
            end
      end
  end.
Definition ask_and_confirm (strong : list Z -> bool) (l : typed) : res (list Z) * typed :=
  ask_and_confirm_loop (S (length l)) strong l.

(** persistence.go:265-286 OldAskAndConfirmPassword *)
Fixpoint old_ask_loop (fuel : nat) (minimum : Z) (l : typed) : res (list Z) * typed :=
  match fuel with
  | O => (Diverge, l)
  | S f =>
      match ask_for_password minimum l with
      | (None, l1) => (Err ErrPasswordInput, l1)
      | (Some pwd1, l1) =>
          match ask_for_password 0 l1 with
          | (None, l2) => (Err ErrPasswordInput, l2)
          | (Some pwd2, l2) =>
              if same_bytes pwd1 pwd2 then (Ok pwd1, l2) else old_ask_loop f minimum l2
          end
      end
  end.
Definition old_ask_and_confirm (minimum : Z) (l : typed) : res (list Z) * typed :=
  old_ask_loop (S (length l)) minimum l.

(** pfk.go:140-193 generatePFK; the result is the line printed. *)
Definition cmd_gen_pfk (L : lib) (U : Uni) (strong : list Z -> bool) (l : typed) (t : tape) (g : gopts)
    (newsalt : option (list rune)) (random : bool) : res (list rune) :=
  let (s0, h0) := new_station U [] [] in
  match set_salt_and_pfk L g (fun _ => None) h0 s0 with
  | Over (Err e) _ _ _ => Err e
  | Over Panic _ _ _ => Panic
  | Over _ _ _ _ => Diverge
  | GoOn _ h s _ =>
      let x := match newsalt with
               | None => (Ok tt, s, h)
               | Some x => set_salt_from_string h s
                   (if list_eq_dec Z.eq_dec x w_default then default_salt_hex else x)
               end in
      match x with
      | (Ok _, s1, h1) =>
          if random then
            match generate_pfk t with Ok (x, _) => Ok x | Err e => Err e | Panic => Panic | Diverge => Diverge end
          else
            let printed (x : res unit * station * mem) : res (list rune) :=
              match x with
              | (Ok _, s2, h2) => Ok (get_pfk_string h2 s2)
              | (Err e, _, _) => Err e
              | (Panic, _, _) => Panic
              | (Diverge, _, _) => Diverge
              end in
            match g_password g with
            | Some w => printed (derive_pfk_validated strong (kdf L) h1 s1 w)
            | None =>
                match ask_and_confirm strong l with
                | (Ok w, _) => printed (derive_pfk (kdf L) h1 s1 w)
                | (Err e, _) => Err e
                | (Panic, _) => Panic
                | (Diverge, _) => Diverge
                end
            end
      | (Err e, _, _) => Err e
      | (Panic, _, _) => Panic
      | (Diverge, _, _) => Diverge
      end
  end.
