(** Decipher and TryDecipherPlainText on a message outside the store that shares
    arrays with it, and the keys and messages returned by NewKey and
    NewTextMessage. Slices as in Model_Heap; here the overwriting of the
    message's previous text is represented. Working copies as in Model_Cipher.
    Definitions only. *)
From Verif Require Import Base Model_Unicode Model_Codec Model_Crand Model_Functions Model_Types Model_Cipher
  Model_Keys Model_Import Model_Messages Model_Heap.

Section WithUnicode.
Context (U : Uni).

(** cipher.go:669-671, 742-744 *)
Definition hd_ensure_id (h : heap) (i : hinst) (m : hmsg) (t : tape) : res (heap * hmsg * tape) :=
  let* (mv, t1) := ensure_id (inst_of h i) (msg_of h m) t in
  if len (rd h (hm_id m)) =? 0 then let (h1, a) := new h (mid mv) in Ok (h1, hset_mid m a, t1) else Ok (h, m, t1).

(** cipher.go:668-731 Decipher. Line 695 overwrites the array the text was in,
    line 710 then appends to a nil slice. If the random source fails the text is
    appended to the old one; here to a copy of it. *)
Definition hd_decipher (h : heap) (i : hinst) (m0 : hmsg) (t0 : tape) : heap * hinst * hmsg * res unit * tape :=
  match hd_ensure_id h i m0 t0 with
  | Ok (h1, m, t) =>
      let gs := hi_groupsize i in
      if negb (len (rd h1 (hm_keyid m)) =? gs) then (h1, i, m, Err ErrNoKey, t)
      else if len (rd h1 (hm_cipher m)) <? gs then (h1, i, m, Err ErrCipherTextTooShort, t)
      else
        match get_key U (rd h1 (hm_keyid m)) (keys_of h1 i) with
        | None => (h1, i, m, Err ErrKeyNotFound, t)
        | Some k0 =>
            let '(h2, p0, t2) := wipe1 h1 (hm_plain m) t in
            let '(p, stack, r) := decipher_loop U gs (keys_of h2 i) (rd h2 (hm_cipher m)) k0 0 new_state [] (rd h2 p0) [k0] in
            let (h3, a) := new h2 p in
            (h3, match r with Ok _ => hset_keys i (set_flags (hi_keys i) (mark_stack (keys_of h2 i) stack)) | _ => i end,
             hset_mplain m a, r, t2)
        end
  | Err e => (h, i, m0, Err e, t0)
  | Panic => (h, i, m0, Panic, t0)
  | Diverge => (h, i, m0, Diverge, t0)
  end.

(** cipher.go:741-796 TryDecipherPlainText. The key ID and the cipher text are
    copies (lines 787, 789); on failure the saved texts are put back as copies
    (lines 781-782), not into the arrays they were in. *)
Definition hd_try_decipher (h : heap) (i : hinst) (m0 : hmsg) (t0 : tape) : heap * hinst * hmsg * res unit * tape :=
  match hd_ensure_id h i m0 t0 with
  | Ok (h1, m, t) =>
      let gs := hi_groupsize i in
      if 0 <? len (rd h1 (hm_keyid m)) then (h1, i, m, Err ErrNotCipherText, t)
      else
        match filter_letters U (rd h1 (hm_plain m)) with
        | None => (h1, i, m, Err ErrNotCipherText, t)
        | Some ft =>
            if len ft <? gs * 2 then (h1, i, m, Err ErrNotCipherText, t)
            else if gs <? 0 then (h1, i, m, Panic, t)
            else
              match get_key U (firstn (Z.to_nat gs) ft) (keys_of h1 i) with
              | None => (h1, i, m, Err ErrNotCipherText, t)
              | Some kp =>
                  match nth_error (keys_of h1 i) kp with
                  | None => (h1, i, m, Panic, t)
                  | Some k =>
                      let (h2, a) := new h1 (kid k) in
                      let (h3, c) := new h2 (skipn (Z.to_nat gs) ft) in
                      match hd_decipher h3 i (hset_mcipher (hset_mkeyid m a) c) t with
                      | (h4, i4, m4, Ok _, t4) => (h4, i4, m4, Ok tt, t4)
                      | (h4, i4, m4, r, t4) =>
                          let '(h5, kid', t5) := wipe1 h4 (hm_keyid m4) t4 in
                          let (h6, p) := new h5 (rd h1 (hm_plain m)) in
                          let (h7, c') := new h6 (rd h1 (hm_cipher m)) in
                          (h7, i4, hset_mcipher (hset_mplain (hset_mkeyid m4 kid') p) c',
                           match r with Err _ => Err ErrNotCipherText | x => x end, t5)
                      end
                  end
              end
        end
  | Err e => (h, i, m0, Err e, t0)
  | Panic => (h, i, m0, Panic, t0)
  | Diverge => (h, i, m0, Diverge, t0)
  end.

(** keys.go:76-77 NewKey: the key that was appended and the one that is returned
    are two structures with the same slices. *)
Definition hd_new_key (h : heap) (i : hinst) (now expire : Z) (keepers : list (list rune)) (t : tape)
  : heap * hinst * option hkey * tape :=
  let '(h1, i1, t1) := hnew_key U h i now expire keepers t in
  (h1, i1, if Nat.eqb (length (hi_keys i1)) (length (hi_keys i)) then None else nth_error (hi_keys i1) (length (hi_keys i)), t1).
(** krypto431.go:117-127: an assignment to the exported field Compromised. *)
Definition hd_compromise (k : hkey) (b : bool) : hkey :=
  mkHKey (hk_id k) (hk_runes k) (hk_keepers k) (hk_created k) (hk_expires k) (hk_used k) b (hk_comment k).

(** messages.go:161-163 NewTextMessage, likewise; nil on error. *)
Definition hd_new_text (line_breaks : list rune -> list rune) (dtg_parse : list rune -> option Z)
    (h : heap) (i : hinst) (args : list (list rune)) (now : Z) (t : tape) : heap * hinst * option hmsg * res unit * tape :=
  let '(h1, i1, r, t1) := hnew_text U line_breaks dtg_parse h i args now t in
  (h1, i1, match r with Ok _ => nth_error (hi_messages i1) (length (hi_messages i)) | _ => None end, r, t1).
End WithUnicode.
