(** Model of Save, Load, ExportKeys and ImportKeys (persistence.go:325-612) on
    complete instances and a file system. Definitions only. *)
From Verif Require Import Base Model_Unicode Model_Functions Model_Crand Model_Types Model_Keys Model_Import Model_Station.

(** Library code, not modelled: gob and gzip ([encode]/[decode]; an absent
    field is decoded as the zero value, see [merge_inst]), the encrypted stream
    XSalsa20Poly1305 ([seal] key nonces data, [unseal]), PBKDF2 ([kdf]) and
    filepath.Join ([join_path]). *)
Record lib := mkLib {
  encode : inst -> list Z;
  decode : list Z -> option inst;
  seal : list Z -> list Z -> list Z -> list Z;
  unseal : list Z -> list Z -> option (list Z);
  kdf : list Z -> list Z -> list Z;
  join_path : list rune -> list rune -> list rune
}.

(** File system: contents by path. *)
Definition fs := list rune -> option (list Z).
Inductive effect := Truncate (p : list rune) | Append (p : list rune) (b : list Z).
Definition target (x : effect) : list rune := match x with Truncate p => p | Append p _ => p end.
Definition apply_effect (f : fs) (x : effect) : fs :=
  fun q => if list_eq_dec Z.eq_dec q (target x)
           then match x with
                | Truncate _ => Some []
                | Append p b => Some (match f p with Some c => c ++ b | None => b end)
                end
           else f q.
Definition apply_effects (f : fs) (xs : list effect) : fs := fold_left apply_effect xs f.

(** The environment of one call: home directory (os.UserHomeDir), failure of
    os.Stat other than "does not exist", IsTerminal(), the answer to the
    overwrite question (None: error), the password typed in (None: error;
    re-prompting loops are not modelled), success of OpenFile, nonces; the sizes
    of the pieces in which the file is written, how many of them during Encode
    (the rest by the deferred Close), and the write that fails, if any, with the
    number of its bytes that reach the file. *)
Record env := mkEnv {
  e_home : option (list rune);
  e_stat_err : bool;
  e_term : bool;
  e_confirm : option bool;
  e_password : option (list Z);
  e_open : bool;
  e_nonce : list Z;
  e_cuts : list nat;
  e_early : nat;
  e_fail : option (nat * nat)
}.

Fixpoint pieces (cuts : list nat) (b : list Z) : list (list Z) :=
  match cuts with
  | [] => [b]
  | n :: cuts' => firstn n b :: pieces cuts' (skipn n b)
  end.

(** What reaches the file: every piece before the failing one, part of that
    one, nothing afterwards (gzip.Writer and the stream keep their error). *)
Definition written (e : env) (ps : list (list Z)) : list (list Z) :=
  match e_fail e with
  | None => ps
  | Some (i, n) => firstn i ps ++ (match nth_error ps i with Some p => [firstn n p] | None => [] end)
  end.
Definition fails_early (e : env) (ps : list (list Z)) : bool :=
  match e_fail e with
  | None => false
  | Some (i, _) => Nat.ltb i (e_early e) && Nat.ltb i (length ps)
  end.

Section WithLib.
Context (L : lib).

(** persistence.go:329-337, 411-419: the tilde. *)
Definition resolve (e : env) (p : list rune) : option (list rune) :=
  match p with
  | a :: b :: rest =>
      if (a =? 126) && (b =? 47)
      then match e_home e with Some d => Some (join_path L d rest) | None => None end
      else Some p
  | _ => Some p
  end.

(** persistence.go:364-378, 428-442: ask for a password if there is no key. *)
Definition obtain_key (e : env) (h : mem) (s : station) : res unit * station * mem :=
  match st_pfk s with
  | Some _ => (Ok tt, s, h)
  | None =>
      if st_inter s && e_term e then
        match e_password e with
        | None => (Err ErrPasswordInput, s, h)
        | Some pwd => derive_pfk (kdf L) h s pwd
        end
      else (Err ErrNilPFK, s, h)
  end.

(** persistence.go:387, 450: [( *[32]byte)( *k.persistenceKey)]: panics if the
    slice is shorter. *)
Definition array32 (b : list Z) : option (list Z) := if len b <? 32 then None else Some (firstn 32 b).
Definition pfk_bytes (h : mem) (s : station) : list Z :=
  match st_pfk s with Some p => cell h p | None => [] end.

(** persistence.go:325-403 Save. *)
Definition save (e : env) (f : fs) (h : mem) (s : station) : res unit * station * mem * list effect :=
  if len (st_path s) =? 0 then (Err ErrNoPersistence, s, h, [])
  else match resolve e (st_path s) with
  | None => (Err ErrIO, s, h, [])
  | Some p =>
    let s1 := set_path s p in
    if e_stat_err e then (Err ErrIO, s1, h, [])
    else
    let go :=
      match obtain_key e h s1 with
      | (Ok _, s2, h2) =>
          if negb (e_open e) then (Err ErrIO, s2, h2, [])
          else match array32 (pfk_bytes h2 s2) with
          | None => (Panic, s2, h2, [Truncate p])
          | Some key =>
              let ps := pieces (e_cuts e) (seal L key (e_nonce e) (encode L (st_inst s2))) in
              (if fails_early e ps then Err ErrIO else Ok tt, s2, h2,
               Truncate p :: map (Append p) (written e ps))
          end
      | (Err x, s2, h2) => (Err x, s2, h2, [])
      | (Panic, s2, h2) => (Panic, s2, h2, [])
      | (Diverge, s2, h2) => (Diverge, s2, h2, [])
      end in
    match f p with
    | None => go
    | Some _ =>
        if st_over s1 then go
        else if st_inter s1 && e_term e then
          match e_confirm e with
          | None => (Err ErrPrompt, s1, h, [])
          | Some false => (Ok tt, s1, h, [])
          | Some true => go
          end
        else (Err ErrFileExists, s1, h, [])
    end
  end.

(** encoding/gob does not transmit fields with zero value; decoding leaves such
    a field as it is. A slice is decoded into the existing array if that is
    large enough, so this also applies to the fields of its elements. *)
Definition merge_z (new old : Z) : Z := if new =? 0 then old else new.
Definition merge_l {A} (new old : list A) : list A := match new with [] => old | _ => new end.
Definition zero_key : key := mkKey [] [] [] 0 0 false false [].
Definition zero_msg : msg := mkMsg [] [] [] 0 [] [] [] [] [].
Definition merge_key (new old : key) : key :=
  mkKey (merge_l (kid new) (kid old)) (merge_l (krunes new) (krunes old))
    (merge_l (kkeepers new) (kkeepers old)) (merge_z (kcreated new) (kcreated old))
    (merge_z (kexpires new) (kexpires old)) (kused new || kused old)
    (kcompromised new || kcompromised old) (merge_l (kcomment new) (kcomment old)).
Definition merge_msg (new old : msg) : msg :=
  mkMsg (merge_l (mid new) (mid old)) (merge_l (mrecipients new) (mrecipients old))
    (merge_l (mfrom new) (mfrom old)) (merge_z (mdtg new) (mdtg old))
    (merge_l (mkeyid new) (mkeyid old)) (merge_l (mplain new) (mplain old))
    (merge_l (mbinary new) (mbinary old)) (merge_l (mcipher new) (mcipher old))
    (merge_l (mradiogram new) (mradiogram old)).
Fixpoint merge_elems {A} (merge : A -> A -> A) (zero : A) (new array : list A) : list A :=
  match new with
  | [] => []
  | x :: new' => merge x (hd zero array) :: merge_elems merge zero new' (tl array)
  end.
(** The arrays of Keys and Messages: capacity, and the elements behind the
    length of the slice (left there by deletions). *)
Record arrays := mkArr { a_kcap : Z; a_kspare : list key; a_mcap : Z; a_mspare : list msg }.
Definition merge_slice {A} (merge : A -> A -> A) (zero : A) (cap : Z) (new old spare : list A) : list A :=
  match new with
  | [] => old
  | _ => merge_elems merge zero new (if len new <=? cap then old ++ spare else [])
  end.
Definition merge_inst (a : arrays) (new old : inst) : inst :=
  mkInst (merge_z (i_groupsize new) (i_groupsize old)) (merge_z (i_keylength new) (i_keylength old))
    (merge_z (i_columns new) (i_columns old)) (merge_z (i_keycolumns new) (i_keycolumns old))
    (merge_slice merge_key zero_key (a_kcap a) (i_keys new) (i_keys old) (a_kspare a))
    (merge_slice merge_msg zero_msg (a_mcap a) (i_messages new) (i_messages old) (a_mspare a))
    (merge_l (i_callsign new) (i_callsign old)).
(** krypto431.go:29, 32, 451-452: the arrays New makes. *)
Definition new_arrays : arrays := mkArr 50000 [] 10000 [].

(** persistence.go:407-478 Load; it changes no file. *)
Definition load (e : env) (f : fs) (h : mem) (a : arrays) (s : station) : res unit * station * mem :=
  if len (st_path s) =? 0 then (Err ErrNoPersistence, s, h)
  else match resolve e (st_path s) with
  | None => (Err ErrIO, s, h)
  | Some p =>
    let s1 := set_path s p in
    if e_stat_err e then (Err ErrIO, s1, h)
    else match f p with
    | None => (Err ErrFileMissing, s1, h)
    | Some c =>
      match obtain_key e h s1 with
      | (Ok _, s2, h2) =>
          if negb (e_open e) then (Err ErrIO, s2, h2)
          else match array32 (pfk_bytes h2 s2) with
          | None => (Panic, s2, h2)
          | Some key =>
              match unseal L key c with
              | None => (Err ErrDecrypt, s2, h2)
              | Some b =>
                  match decode L b with
                  | None => (Err ErrDecrypt, s2, h2)
                  | Some i => (Ok tt, set_over (set_inst s2 (merge_inst a i (st_inst s2))) true, h2)
                  end
              end
          end
      | other => other
      end
    end
  end.

(** persistence.go:488-517 ExportKeys. *)
Definition export_station (U : Uni) (h : mem) (s : station) (filter : key -> bool) (opts : list opt)
  : station * mem :=
  let i := st_inst s in
  let (p, h1) := alloc h (byte_copy (option_map (cell h) (st_pfk s))) in
  let (q, h2) := alloc h1 (byte_copy (option_map (cell h) (st_salt s))) in
  let n := mkSt [] (Some p) (Some q) false (st_inter s) false
    (mkInst (i_groupsize i) (i_keylength i) (i_columns i) (i_keycolumns i) [] [] (i_callsign i)) in
  let (n1, h3) := fold_left (apply_opt U) opts (n, h2) in
  (set_inst n1 (set_keys (st_inst n1) (i_keys (st_inst n1) ++ List.filter filter (i_keys i))), h3).

(** persistence.go:538-612 ImportKeys. [t]: the random source when the incoming
    instance's PFK and salt are wiped; ImportKeys returns before the deferred
    Wipe is set up if Load fails. Panic: of Load. *)
Definition import_station (U : Uni) (e : env) (f : fs) (h : mem) (s : station)
    (filter : key -> bool) (opts : list opt) (answers : list (option bool)) (t : tape)
  : res unit * Z * station * mem :=
  let (incoming, h1) := new_station U h opts in
  match load e f h1 new_arrays incoming with
  | (Ok _, incoming', h2) =>
      let '(i', n, x) := import_keys U (st_inst s) (st_overkeys s) (st_inter s && e_term e)
                           filter (st_inst incoming') answers in
      let '(_, h3, _) := wipe_station h2 incoming' t in
      (match x with None => Ok tt | Some err => Err err end, n, set_inst s i', h3)
  | (Err x, _, h2) => (Err x, 0, s, h2)
  | (Panic, _, h2) => (Panic, 0, s, h2)
  | (Diverge, _, h2) => (Diverge, 0, s, h2)
  end.
End WithLib.
