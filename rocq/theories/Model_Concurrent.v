(** Model of several goroutines calling Encipher (cipher.go:548-661) for
    different messages of one instance. No lock is taken anywhere in the code:
    the field mx (krypto431.go) is never used. What goroutines share and change
    are the Used fields of the keys; every other field of a key is only read.
    The goroutines take turns in accessing Used fields; FindKey as a whole is
    one access. This allows fewer interleavings than Go does. Random bytes are
    read from a tape per goroutine. Definitions only. *)
From Verif Require Import Base Model_Unicode Model_Diana Model_Codec Model_Crand
  Model_Functions Model_Types Model_Cipher.

(** What a goroutine returns in the end. *)
Definition outcome : Type := msg * res unit * tape.

(** The rest of a goroutine: accesses to Used fields. *)
Inductive prog : Type :=
| Return (o : outcome)
| Find (recipients : list (list rune)) (next : option nat -> prog)
| Store (j : nat) (used : bool) (next : prog)
| Check (keyId : list rune) (next : res unit -> prog).

Section WithUnicode.
Context (U : Uni).

Section Goroutine.
(** The keys, of which Used is not read. *)
Context (gs : Z) (ks : list key).

(** cipher.go:588-602, see [maybe_change_key] *)
Definition change_prog (recipients : list (list rune)) (st : codec_state) (chunks : list chunk) (cur : chunk)
    (next : codec_state -> list chunk -> chunk -> res unit -> prog) : prog :=
  match nth_error ks (ch_key cur) with
  | None => next st chunks cur Panic
  | Some ck =>
      if len (krunes ck) - gs - ControlCharactersNeededToChangeKey <=? cs_charCounter st then
        Find recipients (fun found =>
        match found with
        | None => next st chunks cur (Err ErrOutOfKeys)
        | Some j =>
            match nth_error ks j with
            | None => next st chunks cur Panic
            | Some nk =>
                match change_key st (kid nk) (Some (ch_text cur)) with
                | Ok (st1, o1) =>
                    Store j true (next (cs_reset st1) (chunks ++ [mkChunk (unoutput o1) (ch_key cur)])
                                       (mkChunk [] j) (Ok tt))
                | Err er => next st chunks cur (Err er)
                | Panic => next st chunks cur Panic
                | Diverge => next st chunks cur Diverge
                end
            end
        end)
      else next st chunks cur (Ok tt)
  end.

(** cipher.go:587-607, see [encode_loop] *)
Fixpoint encode_prog (recipients : list (list rune)) (text : list rune) (st : codec_state) (chunks : list chunk)
    (cur : chunk) (next : codec_state -> list chunk -> chunk -> res unit -> prog) : prog :=
  match text with
  | [] => next st chunks cur (Ok tt)
  | c :: text' =>
      change_prog recipients st chunks cur (fun st chunks cur r =>
      match r with
      | Ok _ =>
          match encode_character U st c (Some (ch_text cur)) with
          | Ok (st1, o1) => encode_prog recipients text' st1 chunks (mkChunk (unoutput o1) (ch_key cur)) next
          | Err er => next st chunks cur (Err er)
          | Panic => next st chunks cur Panic
          | Diverge => next st chunks cur Diverge
          end
      | r => next st chunks cur r
      end)
  end.

(** cipher.go:611-660, see [encipher_body] *)
Definition finish (st : codec_state) (chunks : list chunk) (cur : chunk) (r : res unit) (cipher0 : list rune)
  : list chunk * chunk * list rune * res unit :=
  match r with
  | Ok _ =>
      match pad_count gs (len (ch_text cur) + total_len chunks) with
      | Ok n =>
          match pad st n (Some (ch_text cur)) with
          | Ok (st1, o1) =>
              let cur1 := mkChunk (unoutput o1) (ch_key cur) in
              let all := chunks ++ [cur1] in
              let '(out, r) := encipher_chunks ks all cipher0 in (all, cur1, out, r)
          | Err er => (chunks, cur, cipher0, Err er)
          | Panic => (chunks, cur, cipher0, Panic)
          | Diverge => (chunks, cur, cipher0, Diverge)
          end
      | Err er => (chunks, cur, cipher0, Err er)
      | Panic => (chunks, cur, cipher0, Panic)
      | Diverge => (chunks, cur, cipher0, Diverge)
      end
  | r => (chunks, cur, cipher0, r)
  end.

(** cipher.go:575-586: Used is set to false once for the key of the message,
    once for that of the current chunk, once for that of every chunk. *)
Definition released (keyId : list rune) (cur : chunk) (chunks : list chunk) : list nat :=
  match get_key U keyId ks with Some j => [j] | None => [] end ++ ch_key cur :: map ch_key chunks.
Fixpoint release_prog (js : list nat) (next : prog) : prog :=
  match js with
  | [] => next
  | j :: js' => Store j false (release_prog js' next)
  end.

(** cipher.go:490-542, see [enrich_with_key] *)
Definition enrich_prog (m : msg) (next : msg -> res unit -> prog) : prog :=
  if len (mplain m) =? 0 then next m (Err ErrPlainTextEmpty)
  else if 0 <? len (mkeyid m) then
    if negb (len (mkeyid m) =? gs) then next m (Err ErrKeyIdLength)
    else Check (mkeyid m) (fun r => next m r)
  else if 0 <? len (mcipher m) then
    if negb (len (mkeyid m) =? gs) then next m (Err ErrCipherWithoutKey)
    else next m (Ok tt)
  else
    Find (mrecipients m) (fun found =>
    match found with
    | None => next m (Err ErrNoEligibleKey)
    | Some j =>
        match nth_error ks j with
        | Some k => Store j true (next (set_mkeyid m (kid k)) (Ok tt))
        | None => next m Panic
        end
    end).

(** cipher.go:548-661, see [encipher_full] *)
Definition encipher_prog (i : inst) (m0 : msg) (t0 : tape) : prog :=
  match ensure_id i m0 t0 with
  | Ok (m, t) =>
      enrich_prog m (fun m1 r =>
      match r with
      | Ok _ =>
          let '(c0, t1) := wipe_value (mcipher m1) t in
          match get_key U (mkeyid m1) ks with
          | None => Return (set_mcipher m1 c0, Err ErrKeyNotFound, t1)
          | Some k0 =>
              encode_prog (mrecipients m1) (mplain m1) new_state [] (mkChunk [] k0) (fun st chunks cur r =>
              let '(chunks1, cur1, out, r1) := finish st chunks cur r c0 in
              match r1 with
              | Ok _ => Return (set_mcipher m1 out, Ok tt, t1)
              | r1 =>
                  release_prog (released (mkeyid m1) cur1 chunks1)
                    (let '(kid', t2) := wipe_value (mkeyid m1) t1 in
                     Return (set_mkeyid (set_mcipher m1 out) kid', r1, t2))
              end)
          end
      | r => Return (m1, r, t)
      end)
  | Err e => Return (m0, Err e, t0)
  | Panic => Return (m0, Panic, t0)
  | Diverge => Return (m0, Diverge, t0)
  end.
End Goroutine.

(** What a goroutine has just done: found a key and not yet marked it; given a
    key back and not yet given back all. *)
Inductive doing : Type := Nothing | Taking | Releasing.
Definition goroutine : Type := doing * prog.

(** One access. *)
Definition access (gs : Z) (ks : list key) (p : prog) : list key * goroutine :=
  match p with
  | Return o => (ks, (Nothing, p))
  | Find recipients next =>
      let found := find_key U gs recipients ks in
      (ks, (match found with Some _ => Taking | None => Nothing end, next found))
  | Store j used next =>
      (mark ks j used, (match used, next with false, Store _ false _ => Releasing | _, _ => Nothing end, next))
  | Check keyId next => (ks, (Nothing, next (check_given_key keyId ks)))
  end.

Definition system : Type := list key * list goroutine.
Definition start (i : inst) (calls : list (msg * tape)) : system :=
  (i_keys i, map (fun c => (Nothing, encipher_prog (i_groupsize i) (i_keys i) i (fst c) (snd c))) calls).

(** The goroutine number [n] is next. *)
Definition turn (gs : Z) (n : nat) (y : system) : system :=
  match nth_error (snd y) n with
  | None => y
  | Some g => let '(ks, g') := access gs (fst y) (snd g) in (ks, list_update (snd y) n g')
  end.
Definition run_schedule (gs : Z) (schedule : list nat) (y : system) : system :=
  fold_left (fun y n => turn gs n y) schedule y.
End WithUnicode.
