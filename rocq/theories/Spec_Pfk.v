(** Specification vocabulary for the command pfk as a whole. *)
From Verif Require Import Base Model_Types Model_Station Model_Persist Model_Cli Model_Pfk Spec Spec_Persist Spec_Cli
  Spec_CliPfk Spec_Ask.

(** What pfk --change opens the file with. *)
Definition opens_with (file : list rune) (q : qopts) : popts := mkP file (q_old q) (q_newsalt q) ByPrompt None.

(** The user was asked where they are to be asked, and agreed. Typing in a new
    password is not confirmed. *)
Definition goes_ahead (q : qopts) : Prop :=
  q_agree q = Some true \/ (q_random q = false /\ q_new q = None /\ q_newpfk q = None).

(** The new key the options ask for, and the lines printed: 32 random bytes,
    which are printed in hexadecimal; otherwise nothing is printed and the key is
    that of --new, of --new-pfk, or of a strong password typed in twice. *)
Definition asked_for (L : lib) (strong : list Z -> bool) (t : list Z) (l : list (option (list Z))) (g : gopts)
    (file : list rune) (q : qopts) (key : list Z) (out : list (list rune)) : Prop :=
  exists salt, new_salt g (opens_with file q) salt /\
  if q_random q then
    q_new q = None /\ exists x words rest, out = [x] /\ hex_text key x /\ len key = 32 /\
      t = words ++ rest /\ key = map (fun w => w mod 256) words
  else
    out = [] /\
    match q_new q, q_newpfk q with
    | Some w, None => key = kdf L w salt
    | Some _, Some _ => False
    | None, Some x => hex_text key x /\ len key = 32
    | None, None => exists w rest, chosen (fun w => strong w = true) l w rest /\ key = kdf L w salt
    end.
