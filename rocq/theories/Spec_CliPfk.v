(** Specification vocabulary for the commands pfk and initialize. *)
From Verif Require Import Base Model_Unicode Model_Functions Model_Types Model_Station Model_Persist Model_Cli Spec
  Spec_Persist Spec_Cli.

(** The key pfk --change opens the file with: --old, if given, is a password
    used instead of the global options' key (whose options must be valid still). *)
Definition old_key (L : lib) (e : env) (g : gopts) (o : popts) (key : list Z) : Prop :=
  match po_old o with
  | None => key_given L e g key
  | Some w => exists salt, salt_given g salt /\ key = kdf L w salt /\
      match g_pfk g, g_password g with
      | Some x, None => exists b, hex_text b x /\ len b = 32
      | Some _, Some _ => False
      | _, _ => True
      end
  end.
Definition word_default : list rune := [100; 101; 102; 97; 117; 108; 116].
Definition new_salt (g : gopts) (o : popts) (salt : list Z) : Prop :=
  match po_newsalt o with
  | None => salt_given g salt
  | Some x => (x = word_default /\ salt = default_salt) \/ (x <> word_default /\ hex_text salt x /\ 32 <= len salt)
  end.
(** The key the options of pfk --change ask for; a random one consists of 32
    random bytes. *)
Definition new_key_given (L : lib) (r : run) (g : gopts) (o : popts) (key : list Z) : Prop :=
  exists salt, new_salt g o salt /\
  match po_how o with
  | ByRandom => len key = 32 /\ exists words rest, r_tape r = words ++ rest /\ key = map (fun w => w mod 256) words
  | ByPassword w => key = kdf L w salt
  | ByHex x => hex_text key x /\ len key = 32
  | ByPrompt => exists w, e_password (r_env r 1) = Some w /\ key = kdf L w salt
  end.
Definition agreed (o : popts) : Prop := po_how o = ByPrompt \/ po_agree o = Some true.
Definition declined (o : popts) : Prop := po_how o <> ByPrompt /\ po_agree o = Some false.

(** The file may be written: it is new, or the user agreed to overwrite it. *)
Definition may_write (e : env) (yes : bool) (f : fs) (p : list rune) : Prop :=
  f p = None \/ yes = true \/ (e_term e = true /\ e_confirm e = Some true).
Definition said_no (e : env) (yes : bool) (f : fs) (p : list rune) : Prop :=
  f p <> None /\ yes = false /\ e_term e = true /\ e_confirm e = Some false.
Definition settings_ok (o : iopts) : Prop :=
  io_file o <> [] /\ 1 <= io_groupsize o /\ 20 <= io_keylength o /\ 85 <= io_columns o /\
  io_groupsize o <= io_keycolumns o.

(** [cs] is [call] without surrounding white space, in upper case. *)
Definition call_of (U : Uni) (call cs : list rune) : Prop :=
  exists a t b, call = a ++ t ++ b /\ cs = map (to_upper U) t /\
  Forall (fun c => is_space U c = true) a /\ Forall (fun c => is_space U c = true) b /\
  (forall c s, t = c :: s -> is_space U c = false) /\ (forall c s, t = s ++ [c] -> is_space U c = false).
