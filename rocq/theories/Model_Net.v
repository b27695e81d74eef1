(** A net of stations that hand over keys and send messages to each other: each
    operation is one call of the library at one station. Definitions only.

    Simplifications: a key file is the instance that ExportKeys of the sending
    station gives (saving and loading it change nothing, C32, C68); a call that panics has not
    been saved and leaves the station as it was. [nt_air] and [nt_heard] are the
    notes of an observer, the code does not have them. *)
From Verif Require Import Base Model_Unicode Model_Crand Model_Functions Model_Types Model_Cipher Model_Keys Model_Import.

(** A message sent: its text, and what is sent (the ID of its first key and the
    ciphertext). [en_keys]: the ID of its first key, and the IDs of the keys that
    Encipher marked used. *)
Record entry := mkEntry {
  en_text : list rune;
  en_keyid : list rune;
  en_cipher : list rune;
  en_keys : list (list rune)
}.

(** [nt_files]: the key files made so far. [nt_air]: the messages sent so far, in order. [nt_heard b]: numbers of the
    messages that station [b] has sent or deciphered since it last imported keys. *)
Record net := mkNet {
  nt_stations : list inst;
  nt_files : list inst;
  nt_air : list entry;
  nt_heard : nat -> list nat
}.

(** - [NGenerate a]: GenerateKeys at station a (keys.go:125-140).
    - [NExport a]: ExportKeys at a, saved as a new file (persistence.go:488-517).
    - [NImport f b]: ImportKeys of file number f at b (persistence.go:538-612);
      [overwrite] is the option WithOverwriteExistingKeysOnImport of b.
    - [NDelete a]: DeleteKey at a (keys.go:82-100).
    - [NSend a]: Encipher at a of a message without ciphertext (cipher.go:548-661).
    - [NRead b j]: Decipher at b of message number j (cipher.go:668-731); [m]: all
      other fields of the message. *)
Inductive nop :=
| NGenerate (a : nat) (n now : Z) (expire : option (option Z)) (keepers : list (list rune)) (t : tape)
| NExport (a : nat) (give : key -> bool)
| NImport (f b : nat) (take : key -> bool) (overwrite ask : bool) (answers : list (option bool))
| NDelete (a : nat) (ids : list (list rune))
| NSend (a : nat) (m : msg) (t : tape)
| NRead (b j : nat) (m : msg) (t : tape).

(** IDs of the keys that are used in [b] but not in [a]. *)
Fixpoint newly_used (a b : list key) : list (list rune) :=
  match a, b with
  | k :: a', k' :: b' => (if negb (kused k) && kused k' then [kid k'] else []) ++ newly_used a' b'
  | _, _ => []
  end.

Definition set_station (n : net) (a : nat) (i : inst) : net :=
  mkNet (list_update (nt_stations n) a i) (nt_files n) (nt_air n) (nt_heard n).
Definition hear (n : net) (b : nat) (js : list nat) : net :=
  mkNet (nt_stations n) (nt_files n) (nt_air n) (fun x => if Nat.eqb x b then js else nt_heard n x).
Definition new_file (n : net) (f : inst) : net :=
  mkNet (nt_stations n) (nt_files n ++ [f]) (nt_air n) (nt_heard n).
Definition on_air (n : net) (e : entry) : net :=
  mkNet (nt_stations n) (nt_files n) (nt_air n ++ [e]) (nt_heard n).

Section WithUnicode.
Context (U : Uni).

Definition nt_step (n : net) (o : nop) : net :=
  match o with
  | NGenerate a c now expire keepers t =>
      match nth_error (nt_stations n) a with
      | None => n
      | Some i => match generate_keys U i c now expire keepers t with
                  | Ok (i', _) => set_station n a i'
                  | _ => n
                  end
      end
  | NExport a give =>
      match nth_error (nt_stations n) a with
      | None => n
      | Some i => new_file n (export_keys i give)
      end
  | NImport f b take overwrite ask answers =>
      match nth_error (nt_files n) f, nth_error (nt_stations n) b with
      | Some x, Some i =>
          let '(i', _, _) := import_keys U i overwrite ask take x answers in
          hear (set_station n b i') b []
      | _, _ => n
      end
  | NDelete a ids =>
      match nth_error (nt_stations n) a with
      | None => n
      | Some i => set_station n a (set_keys i (fst (delete_key U (i_keys i) ids)))
      end
  | NSend a m t =>
      match nth_error (nt_stations n) a with
      | None => n
      | Some i =>
          match encipher U i (set_mcipher m []) t with
          | (i', m', Ok _, _) =>
              let e := mkEntry (mplain m) (mkeyid m') (mcipher m') (mkeyid m' :: newly_used (i_keys i) (i_keys i')) in
              on_air (hear (set_station n a i') a (length (nt_air n) :: nt_heard n a)) e
          | (i', _, _, _) => set_station n a i'
          end
      end
  | NRead b j m t =>
      match nth_error (nt_stations n) b, nth_error (nt_air n) j with
      | Some i, Some e =>
          match decipher U i (set_mplain (set_mcipher (set_mkeyid m (en_keyid e)) (en_cipher e)) []) t with
          | (i', _, Ok _, _) => hear (set_station n b i') b (j :: nt_heard n b)
          | (i', _, _, _) => set_station n b i'
          end
      | _, _ => n
      end
  end.

Fixpoint nt_run (n : net) (os : list nop) : net :=
  match os with
  | [] => n
  | o :: os' => nt_run (nt_step n o) os'
  end.
End WithUnicode.
