(** Specification vocabulary for the command line program. Of the model only
    data types (options, run, flow, station, env, fs) and the library functions
    VettedKeepers/VettedMessageIds (characterised in C28) are used. *)
From Verif Require Import Base Model_Unicode Model_Functions Model_Types Model_Messages Model_Station Model_Persist
  Model_Listing Model_Cli Spec Spec_Persist.

(** ** Filters *)
(** What the options of the keys command select; the meaning of --invalid and
    the duration of n days are parameters. *)
Definition key_chosen (U : Uni) (o : kopts) (now : Z) (k : key) (invalid : Prop) (lifetime : Z -> Z) : Prop :=
  let ids := vetted_keepers U (ko_ids o) in
  let keepers := vetted_keepers U (ko_keepers o) in
  ko_all o = true \/
  (ko_all o = false /\ exists x, In x ids /\ same_text (to_upper U) (kid k) x) \/
  (ko_all o = false /\ ids = [] /\
   (keepers = [] \/ (ko_or o = true /\ exists x, In x keepers /\ In x (kkeepers k)) \/
    (ko_or o = false /\ forall x, In x keepers -> In x (kkeepers k))) /\
   (ko_invalid o = true -> invalid) /\
   (ko_compromised o = true -> kcompromised k = true) /\
   (ko_used o = true -> kused k = true) /\
   (ko_unused o = true -> kused k = false) /\
   (ko_expired o = true -> kexpires k < now) /\
   (forall n, ko_valid o = Some n -> kcompromised k = false /\ now + lifetime n < kexpires k)).

(** Nanoseconds. *)
Definition day : Z := 24 * 3600 * 1000000000.
(** krypto431.go:289-297: "keys that do not expire within n days and are not
    compromised", "keys that have expired or are compromised". *)
Definition documented_choice (U : Uni) (now : Z) (o : kopts) (k : key) : Prop :=
  key_chosen U o now k (kcompromised k = true \/ kexpires k < now) (fun n => n * day).

(** The number that x becomes as a 64-bit integer. *)
Definition as_int64 (x y : Z) : Prop := - 2 ^ 63 <= y < 2 ^ 63 /\ exists q, x = y + q * 2 ^ 64.

(** What the options of the keys command do select: --invalid is turned round,
    and the number of nanoseconds of --valid is a 64-bit integer. *)
Definition key_selected (U : Uni) (now : Z) (o : kopts) (k : key) : Prop :=
  exists lifetime, (forall n, as_int64 (n * day) (lifetime n)) /\
  key_chosen U o now k (kcompromised k = false /\ now <= kexpires k) lifetime.

(** [l'] are the elements of [l] satisfying [P], in order. *)
Inductive picked {A} (P : A -> Prop) : list A -> list A -> Prop :=
| picked_nil : picked P [] []
| picked_yes a l l' : P a -> picked P l l' -> picked P (a :: l) (a :: l')
| picked_no a l l' : ~ P a -> picked P l l' -> picked P (a :: l) l'.

Definition message_chosen (U : Uni) (o : mopts) (m : msg) : Prop :=
  let ids := vetted_message_ids U (mo_ids o) in
  let to := vetted_keepers U (mo_to o) in
  let from := vetted_keepers U (mo_from o) in
  mo_all o = true \/
  (mo_all o = false /\ In (mid m) ids) \/
  (mo_all o = false /\ ids = [] /\
   (to = [] \/ (mo_or o = true /\ exists x, In x to /\ In x (mrecipients m)) \/
    (mo_or o = false /\ forall x, In x to -> In x (mrecipients m))) /\
   (from = [] \/ In (mfrom m) from)).

(** ** Files, file keys, results of commands *)
(** The file a path given by the user means (compare [file_name]). *)
Definition path_of (L : lib) (e : env) (path p : list rune) : Prop :=
  (exists rest d, path = [126; 47] ++ rest /\ e_home e = Some d /\ p = join_path L d rest) \/
  (path <> [] /\ (forall rest, path <> [126; 47] ++ rest) /\ p = path).
Definition plain_path (p : list rune) : Prop := p <> [] /\ forall rest, p <> [126; 47] ++ rest.

(** [x] spells the bytes [b] in hexadecimal, in either case. *)
Definition hex_char (v : Z) : rune := if v <? 10 then v + 48 else v + 87.
Definition hex_text (b : list Z) (x : list rune) : Prop :=
  Forall byte b /\ map hex_lower x = flat_map (fun v => [hex_char (v / 16); hex_char (v mod 16)]) b.

(** The salt and the file key the global options stand for; without --pfk and
    --password, the password is typed in at a terminal. *)
Definition salt_given (g : gopts) (salt : list Z) : Prop :=
  match g_salt g with
  | None => salt = default_salt
  | Some x => hex_text salt x /\ 32 <= len salt
  end.
Definition key_given (L : lib) (e : env) (g : gopts) (key : list Z) : Prop :=
  exists salt, salt_given g salt /\
  match g_pfk g, g_password g with
  | Some x, None => hex_text key x /\ len key = 32
  | None, Some w => key = kdf L w salt
  | None, None => e_term e = true /\ exists w, e_password e = Some w /\ key = kdf L w salt
  | Some _, Some _ => False
  end.

(** The file [p] is the complete file of the store [i]. *)
Definition stored (L : lib) (f : fs) (p : list rune) (key : list Z) (i : inst) : Prop :=
  exists nonce, f p = Some (complete_file L key nonce i).

Definition can_read (e : env) : Prop := e_stat_err e = false /\ e_open e = true.
(** No write fails or is cut short. *)
Definition disk_ok (e : env) : Prop := e_fail e = None.
Definition can_write (e : env) : Prop := e_stat_err e = false /\ e_open e = true /\ e_fail e = None.

(** Result, files, messages printed and lines listed by a command. *)
Definition result (x : flow) : res unit := match x with GoOn _ _ _ _ => Ok tt | Over r _ _ _ => r end.
Definition files (x : flow) : fs := match x with GoOn f _ _ _ => f | Over _ f _ _ => f end.
Definition shown (x : flow) : list msg := match x with GoOn _ _ _ m => m | Over _ _ m _ => m end.
Definition listed (x : flow) : list (list rune) := match x with GoOn _ _ _ _ => [] | Over _ _ _ l => l end.

(** The file name [file] means [p], which is the complete file of the store [i]
    under the file key [key]. *)
Definition store_at (L : lib) (e : env) (file : list rune) (f : fs) (p : list rune) (key : list Z) (i : inst) : Prop :=
  path_of L e file p /\ plain_path p /\ len key = 32 /\ no_zero_setting i /\ stored L f p key i.
(** No file changed. *)
Definition same_files (f f' : fs) : Prop := forall q, f' q = f q.
Definition same_other_files (p : list rune) (f f' : fs) : Prop := forall q, q <> p -> f' q = f q.
