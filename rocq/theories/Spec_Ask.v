(** Specification vocabulary for passwords typed in and the key printed for
    them. *)
From Verif Require Import Base Model_Types Model_Station Model_Persist Model_Cli Spec_Persist Spec_Cli.

(** Attempts to choose a password that have failed: it is refused at once, or it
    is typed in differently the second time. *)
Inductive failed_attempts (accepted : list Z -> Prop) : list (option (list Z)) -> Prop :=
| no_attempt : failed_attempts accepted []
| refused w l : ~ accepted w -> failed_attempts accepted l -> failed_attempts accepted (Some w :: l)
| mistyped w v l : accepted w -> v <> w -> failed_attempts accepted l ->
    failed_attempts accepted (Some w :: Some v :: l).

(** The first thing typed in after failed attempts is an accepted password,
    repeated; [rest] is not read. *)
Definition chosen (accepted : list Z -> Prop) (l : list (option (list Z))) (w : list Z)
    (rest : list (option (list Z))) : Prop :=
  exists a, failed_attempts accepted a /\ accepted w /\ l = a ++ [Some w; Some w] ++ rest.

(** The terminal failed after lines that were read, or there were no more lines. *)
Definition interrupted (l rest : list (option (list Z))) : Prop :=
  exists a, Forall (fun x => x <> None) a /\ (l = a ++ None :: rest \/ (l = a /\ rest = [])).

(** PBKDF2 makes bytes of bytes. *)
Definition kdf_bytes (L : lib) : Prop :=
  forall w salt, Forall byte w -> Forall byte salt -> Forall byte (kdf L w salt).

(** The salt in force: --new-salt (the word "default" stands for the default),
    otherwise --salt, otherwise the default; hexadecimal. *)
Definition salt_option (g : gopts) (newsalt : option (list rune)) : option (list rune) :=
  match newsalt with
  | None => g_salt g
  | Some x => if list_eq_dec Z.eq_dec x [100; 101; 102; 97; 117; 108; 116] then None else Some x
  end.
