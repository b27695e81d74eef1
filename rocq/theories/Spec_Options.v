(** Specification vocabulary for the options of New. Of the model only data
    types are used; [hex_text] is from Spec_Cli. *)
From Verif Require Import Base Model_Unicode Model_Types Model_Functions Model_Station Spec_Persist Spec_Cli.

(** The last option that says something about a setting decides it; without
    one it has its default [d]. *)
Definition last_of {A} (says : opt -> A -> Prop) (opts : list opt) (d a : A) : Prop :=
  (exists before o after, opts = before ++ o :: after /\ says o a /\
     forall x b, In x after -> ~ says x b) \/
  ((forall x b, In x opts -> ~ says x b) /\ a = d).

(** A call sign counts only if two characters are left without the white space
    around it. *)
Definition says_callsign (U : Uni) (o : opt) (cs : list rune) : Prop :=
  exists x, o = WithCallSign x /\ cs = str_upper U (trim_space U x) /\ 2 <= len cs.

(** A PFK or salt: bytes of the caller (at an address) or of the instance. *)
Inductive held := Callers (p : nat) (b : list Z) | Own (b : list Z).
Definition holding (h h' : mem) (p : option nat) : option held :=
  match p with
  | None => None
  | Some q => Some (if Nat.ltb q (length h) then Callers q (cell h' q) else Own (cell h' q))
  end.

(** What an option says about the PFK: [good] bytes, or none at all. *)
Definition says_bytes (by_address : option nat -> opt) (by_text : list rune -> opt) (good : list Z -> Prop)
    (h : mem) (o : opt) (v : option held) : Prop :=
  (o = by_address None /\ v = None) \/
  (exists p, o = by_address (Some p) /\
     ((good (cell h p) /\ v = Some (Callers p (cell h p))) \/ (~ good (cell h p) /\ v = None))) \/
  (exists x, o = by_text x /\
     ((exists b, hex_text b x /\ good b /\ v = Some (Own b)) \/
      ((forall b, hex_text b x -> ~ good b) /\ v = None))).
Definition says_pfk := says_bytes WithPFK WithPFKString (fun b => len b = 32).
Definition says_salt := says_bytes WithSalt WithSaltString (fun b => 32 <= len b).

(** The addresses given are those of the caller's memory. *)
Definition callers_addresses (h : mem) (opts : list opt) : Prop :=
  forall p, In (WithPFK (Some p)) opts \/ In (WithSalt (Some p)) opts -> (p < length h)%nat.

(** The bytes a PFK or salt pointer leads to. *)
Definition bytes_at (h : mem) (p : option nat) : list Z :=
  match p with None => [] | Some q => cell h q end.
