(** Model of a complete Krypto431 value: settings, persistence file name,
    persistence file key (PFK), salt; New, its options and the setters
    (krypto431.go:437-647, persistence.go:53-177, 295-320). Definitions only. *)
From Verif Require Import Base Model_Unicode Model_Functions Model_Crand Model_Types.

(** encoding/hex: value of a digit, DecodeString (success and the bytes only,
    which of its errors is returned is not modelled), EncodeToString. *)
Definition hex_value (c : rune) : option Z :=
  if (48 <=? c) && (c <=? 57) then Some (c - 48)
  else if (97 <=? c) && (c <=? 102) then Some (c - 87)
  else if (65 <=? c) && (c <=? 70) then Some (c - 55)
  else None.
Fixpoint hex_decode (s : list rune) : option (list Z) :=
  match s with
  | [] => Some []
  | [_] => None
  | a :: b :: s' =>
      match hex_value a, hex_value b, hex_decode s' with
      | Some x, Some y, Some r => Some (16 * x + y :: r)
      | _, _, _ => None
      end
  end.
Definition hex_digit_of (v : Z) : rune := if v <? 10 then v + 48 else v + 87.
Definition hex_encode (b : list Z) : list rune :=
  flat_map (fun x => [hex_digit_of (x / 16); hex_digit_of (x mod 16)]) b.

(** Byte slices behind a [*[]byte]: a cell holds the slice, a pointer is the
    number of the cell. Pointers are shared (WithPFK(k.GetPFK())), so they are
    represented; no two cells share a backing array in the modelled code. *)
Definition mem := list (list Z).
Definition cell (h : mem) (p : nat) : list Z := nth p h [].
Definition alloc (h : mem) (b : list Z) : nat * mem := (length h, h ++ [b]).

(** krypto431.go:97-112 Krypto431; the mutex is not represented. *)
Record station := mkSt {
  st_path : list rune;
  st_pfk : option nat;
  st_salt : option nat;
  st_over : bool;       (* overwritePersistenceIfExists *)
  st_inter : bool;      (* interactive *)
  st_overkeys : bool;   (* overwriteExistingKeysOnImport *)
  st_inst : inst
}.

Definition set_path (s : station) (p : list rune) : station :=
  mkSt p (st_pfk s) (st_salt s) (st_over s) (st_inter s) (st_overkeys s) (st_inst s).
Definition set_pfk (s : station) (p : option nat) : station :=
  mkSt (st_path s) p (st_salt s) (st_over s) (st_inter s) (st_overkeys s) (st_inst s).
Definition set_salt (s : station) (p : option nat) : station :=
  mkSt (st_path s) (st_pfk s) p (st_over s) (st_inter s) (st_overkeys s) (st_inst s).
Definition set_over (s : station) (b : bool) : station :=
  mkSt (st_path s) (st_pfk s) (st_salt s) b (st_inter s) (st_overkeys s) (st_inst s).
Definition set_inter (s : station) (b : bool) : station :=
  mkSt (st_path s) (st_pfk s) (st_salt s) (st_over s) b (st_overkeys s) (st_inst s).
Definition set_overkeys (s : station) (b : bool) : station :=
  mkSt (st_path s) (st_pfk s) (st_salt s) (st_over s) (st_inter s) b (st_inst s).
Definition set_inst (s : station) (i : inst) : station :=
  mkSt (st_path s) (st_pfk s) (st_salt s) (st_over s) (st_inter s) (st_overkeys s) i.

(** persistence.go:110-115, 118-123 GetPFKString, GetSaltString *)
Definition get_pfk_string (h : mem) (s : station) : list rune :=
  match st_pfk s with None => [] | Some p => hex_encode (cell h p) end.
Definition get_salt_string (h : mem) (s : station) : list rune :=
  match st_salt s with None => [] | Some p => hex_encode (cell h p) end.

(** persistence.go:142-153 SetSaltFromString *)
Definition set_salt_from_string (h : mem) (s : station) (salt : list rune) : res unit * station * mem :=
  match hex_decode salt with
  | None => (Err ErrHex, s, h)
  | Some b =>
      if len b <? 32 then (Err ErrTooShortSalt, s, h)
      else let (p, h') := alloc h b in (Ok tt, set_salt s (Some p), h')
  end.

(** persistence.go:166-177 SetPFKFromString *)
Definition set_pfk_from_string (h : mem) (s : station) (key : list rune) : res unit * station * mem :=
  match hex_decode key with
  | None => (Err ErrHex, s, h)
  | Some b =>
      if negb (len b =? 32) then (Err ErrInvalidPFK, s, h)
      else let (p, h') := alloc h b in (Ok tt, set_pfk s (Some p), h')
  end.

(** persistence.go:53-72 DerivePFKFromPassword; [kdf] is PBKDF2 with SHA-256,
    310000 iterations, 32 bytes. The password is taken by value, wiping it is
    not represented; the warning about weak passwords is not modelled. *)
Definition derive_pfk (kdf : list Z -> list Z -> list Z) (h : mem) (s : station) (password : list Z)
  : res unit * station * mem :=
  match st_salt s with
  | None => (Err ErrNoSalt, s, h)
  | Some q =>
      if len (cell h q) <? 32 then (Err ErrTooShortSalt, s, h)
      else let (p, h') := alloc h (kdf password (cell h q)) in (Ok tt, set_pfk s (Some p), h')
  end.

(** persistence.go:76-94 DerivePFKFromPasswordWithValidation; [strong] is
    passwordvalidator.Validate. *)
Definition derive_pfk_validated (strong : list Z -> bool) (kdf : list Z -> list Z -> list Z)
    (h : mem) (s : station) (password : list Z) : res unit * station * mem :=
  match st_salt s with
  | None => (Err ErrNoSalt, s, h)
  | Some q =>
      if len (cell h q) <? 32 then (Err ErrTooShortSalt, s, h)
      else if negb (strong password) then (Err ErrWeakPassword, s, h)
      else let (p, h') := alloc h (kdf password (cell h q)) in (Ok tt, set_pfk s (Some p), h')
  end.

(** persistence.go:295-302, 312-320 GenerateSalt, GeneratePFK *)
Definition generate_salt (t : tape) : res (list rune * tape) :=
  match read_bytes 32 t with
  | Some (b, t') => Ok (hex_encode b, t')
  | None => Panic
  end.
Definition generate_pfk (t : tape) : res (list rune * tape) :=
  match read_bytes 32 t with
  | Some (b, t') => Ok (hex_encode b, t')
  | None => Panic
  end.

(** krypto431.go:640-647 SetCallSign *)
Definition set_call_sign (U : Uni) (s : station) (callsign : list rune) : res unit * station :=
  let cs := str_upper U (trim_space U callsign) in
  if len cs <? 2 then (Err ErrInvalidCallSign, s)
  else let i := st_inst s in
    (Ok tt, set_inst s (mkInst (i_groupsize i) (i_keylength i) (i_columns i) (i_keycolumns i)
                          (i_keys i) (i_messages i) cs)).

(** krypto431.go:470-593 the options. *)
Inductive opt :=
| WithPFK (key : option nat)
| WithPFKString (s : list rune)
| WithSalt (salt : option nat)
| WithSaltString (s : list rune)
| WithCallSign (s : list rune)
| WithGroupSize (n : Z)
| WithKeyLength (n : Z)
| WithColumns (n : Z)
| WithKeyColumns (n : Z)
| WithPersistence (p : list rune)
| WithOverwritePersistenceIfExists (b : bool)
| WithInteractive (b : bool)
| WithOverwriteExistingKeysOnImport (b : bool).

Definition apply_opt (U : Uni) (sh : station * mem) (o : opt) : station * mem :=
  let (s, h) := sh in
  let i := st_inst s in
  match o with
  | WithPFK None => (set_pfk s None, h)
  | WithPFK (Some p) => (set_pfk s (if len (cell h p) =? 32 then Some p else None), h)
  | WithPFKString x =>
      if negb (len x =? 64) then (set_pfk s None, h)
      else match hex_decode x with
           | None => (set_pfk s None, h)
           | Some b => let (p, h') := alloc h b in (set_pfk s (Some p), h')
           end
  | WithSalt None => (set_salt s None, h)
  | WithSalt (Some p) => (set_salt s (if len (cell h p) <? 32 then None else Some p), h)
  | WithSaltString x =>
      match hex_decode x with
      | None => (set_salt s None, h)
      | Some b => if len b <? 32 then (set_salt s None, h)
                  else let (p, h') := alloc h b in (set_salt s (Some p), h')
      end
  | WithCallSign x => (snd (set_call_sign U s x), h)
  | WithGroupSize n => (set_inst s (mkInst n (i_keylength i) (i_columns i) (i_keycolumns i) (i_keys i) (i_messages i) (i_callsign i)), h)
  | WithKeyLength n => (set_inst s (mkInst (i_groupsize i) n (i_columns i) (i_keycolumns i) (i_keys i) (i_messages i) (i_callsign i)), h)
  | WithColumns n => (set_inst s (mkInst (i_groupsize i) (i_keylength i) n (i_keycolumns i) (i_keys i) (i_messages i) (i_callsign i)), h)
  | WithKeyColumns n => (set_inst s (mkInst (i_groupsize i) (i_keylength i) (i_columns i) n (i_keys i) (i_messages i) (i_callsign i)), h)
  | WithPersistence p => (set_path s p, h)
  | WithOverwritePersistenceIfExists b => (set_over s b, h)
  | WithInteractive b => (set_inter s b, h)
  | WithOverwriteExistingKeysOnImport b => (set_overkeys s b, h)
  end.

(** krypto431.go:28, 43: "~/.krypto431.gob" and the bytes of DefaultSalt. *)
Definition default_persistence : list rune :=
  [126; 47; 46; 107; 114; 121; 112; 116; 111; 52; 51; 49; 46; 103; 111; 98].
Definition default_salt : list Z :=
  [209; 68; 97; 133; 111; 131; 15; 197; 161; 249; 186; 27; 132; 95; 174; 95;
   97; 197; 71; 103; 222; 211; 156; 249; 67; 23; 78; 104; 105; 180; 68; 118].

(** krypto431.go:439-467 New *)
Definition new_station (U : Uni) (h : mem) (opts : list opt) : station * mem :=
  let (q, h1) := alloc h default_salt in
  fold_left (apply_opt U) opts
    (mkSt default_persistence None (Some q) false false false (mkInst 5 350 110 30 [] [] []), h1).

(** krypto431.go:597-614 Assert *)
Definition assert_settings (s : station) : res unit :=
  let i := st_inst s in
  if len (st_path s) =? 0 then Err ErrNoPersistence
  else if i_groupsize i <? 1 then Err ErrInvalidGroupSize
  else if i_keylength i <? 20 then Err ErrKeyTooShort
  else if i_columns i <? 85 then Err ErrTooNarrow
  else if i_keycolumns i <? i_groupsize i then Err ErrKeyColumnsTooShort
  else Ok tt.

(** krypto431.go:220-252 WipeBytes: with random bytes, or an error if the
    random source fails (the slice then stays as it is). *)
Definition wipe_bytes (h : mem) (p : option nat) (t : tape) : mem * tape :=
  match p with
  | None => (h, t)
  | Some c => match read_bytes (length (cell h c)) t with
              | Some (_, t') => (list_update h c [], t')
              | None => (h, t)
              end
  end.

(** krypto431.go:669-682 Krypto431.Wipe, the fields of the instance; what
    happens to the arrays that held keys and messages is modelled in
    Model_Heap. [t]: the random source when the PFK is reached. *)
Definition wipe_station (h : mem) (s : station) (t : tape) : station * mem * tape :=
  let (h1, t1) := wipe_bytes h (st_pfk s) t in
  let (h2, t2) := wipe_bytes h1 (st_salt s) t1 in
  (set_inst s (set_messages (set_keys (st_inst s) []) []), h2, t2).
