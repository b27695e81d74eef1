(** Specification vocabulary for histories of commands. *)
From Verif Require Import Base Model_Unicode Model_Types Model_Persist Model_Cli Spec Spec_Persist Spec_Cli Spec_Listing.

(** One call of the program. *)
Inductive command := CKeys (o : kopts) | CMessages (o : mopts) | CPfk (o : popts).
Record call := mkCall { c_run : run; c_global : gopts; c_cmd : command }.

Definition same_settings (i i' : inst) : Prop :=
  i_groupsize i' = i_groupsize i /\ i_keylength i' = i_keylength i /\ i_columns i' = i_columns i /\
  i_keycolumns i' = i_keycolumns i /\ i_callsign i' = i_callsign i.

Section Hist.
Context (L : lib) (U : Uni) (lb : list rune -> list rune) (dp : list rune -> option Z)
  (ds : Z -> list rune) (dg : list rune -> list rune).

(** A call is a new process: it starts without memory. *)
Definition exec (c : call) (f : fs) : flow :=
  match c_cmd c with
  | CKeys o => cmd_keys L U dp ds (c_run c) (c_global c) o f []
  | CMessages o => cmd_messages L U lb dp ds dg (c_run c) (c_global c) o f []
  | CPfk o => cmd_pfk_change L U (c_run c) (c_global c) o f []
  end.

(** A call on the file [p]: no write is cut short; keys are neither imported nor
    is [p] the target of an export. *)
Definition call_on (p : list rune) (c : call) : Prop :=
  let r := c_run c in
  disk_ok (r_env r 1) /\ disk_ok (r_env r 2) /\ disk_ok (r_env r 4) /\
  match c_cmd c with
  | CKeys o => path_of L (r_env r 0) (ko_file o) p /\ ko_import o = None /\
      forall file, ko_export o = Some file -> ~ path_of L (r_env r 5) file p
  | CMessages o => path_of L (r_env r 0) (mo_file o) p
  | CPfk o => path_of L (r_env r 0) (po_file o) p
  end.

(** [session p f cs f' ms]: the calls [cs], one after the other, turn the files
    [f] into [f'] and print the new messages [ms]; a call that printed a message
    ended without error. *)
Inductive session (p : list rune) : fs -> list call -> fs -> list msg -> Prop :=
| session_none f : session p f [] f []
| session_call f c cs f' ms : call_on p c -> (shown (exec c f) = [] \/ result (exec c f) = Ok tt) ->
    session p (files (exec c f)) cs f' ms -> session p f (c :: cs) f' (shown (exec c f) ++ ms).
End Hist.
