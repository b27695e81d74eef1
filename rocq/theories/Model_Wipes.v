(** Encipher, Decipher and TryDecipherPlainText with all their wipes. Model_Cipher
    leaves out the overwriting of working copies nobody sees, which reads
    random words: chunks (cipher.go:581-583), the ID of the next key (line 724)
    and the filtered and saved texts (lines 749, 784-785). Definitions only. *)
From Verif Require Import Base Model_Unicode Model_Diana Model_Codec Model_Crand Model_Functions Model_Types Model_Cipher.

Section WithUnicode.
Context (U : Uni).

(** The random words left after overwriting a slice that is then forgotten;
    krypto431.go:191-205, 399-420. *)
Definition spend (s : list rune) (t : tape) : tape := snd (wipe_value s t).
Definition spend_all (l : list (list rune)) (t : tape) : tape := fold_left (fun a s => spend s a) l t.

(** cipher.go:548-661 Encipher. After the last chunk has been appended (line 620)
    its text is overwritten twice, as element of chunks and as current chunk. *)
Definition encipher_wiping (i : inst) (m0 : msg) (t0 : tape) : inst * msg * res unit * tape :=
  match ensure_id i m0 t0 with
  | Ok (m, t) =>
      let gs := i_groupsize i in
      match enrich_with_key U gs (i_keys i) m with
      | (ks, m1, Ok _) =>
          let '(c0, t1) := wipe_value (mcipher m1) t in
          match get_key U (mkeyid m1) ks with
          | None => (set_keys i ks, set_mcipher m1 c0, Err ErrKeyNotFound, t1)
          | Some k0 =>
              let b := encipher_body U gs (mrecipients m1) (mplain m1) ks k0 c0 in
              match er_res b with
              | Ok _ => (set_keys i (er_keys b), set_mcipher m1 (er_cipher b), Ok tt, t1)
              | r =>
                  let ks' := release_keys U (mkeyid m1) (er_cur b) (er_chunks b) (er_keys b) in
                  let '(kid', t2) := wipe_value (mkeyid m1) t1 in
                  (set_keys i ks', set_mkeyid (set_mcipher m1 (er_cipher b)) kid', r,
                   spend_all (map ch_text (er_chunks b) ++ [ch_text (er_cur b)]) t2)
              end
          end
      | (ks, m1, r) => (set_keys i ks, m1, r, t)
      end
  | Err e => (i, m0, Err e, t0)
  | Panic => (i, m0, Panic, t0)
  | Diverge => (i, m0, Diverge, t0)
  end.

(** cipher.go:699-728, the loop of Decipher; line 724 [Wipe(&nextKey)] leaves
    the slice as it is if the random source fails. *)
Fixpoint decipher_loop_wiping (gs : Z) (ks : list key) (ct : list rune) (kp : nat) (ki : nat)
    (st : codec_state) (nextKey plain : list rune) (stack : list nat) (t : tape)
  : list rune * list nat * res unit * tape :=
  match ct with
  | [] => (plain, stack, Ok tt, t)
  | c :: ct' =>
      match nth_error ks kp with
      | None => (plain, stack, Panic, t)
      | Some k =>
          match nth_error (krunes k) ki with
          | None => (plain, stack, Err ErrOutOfKeyLetters, t)
          | Some kr =>
              match trigraph kr c with
              | Ok ec =>
                  match decode_character U st ec plain with
                  | Ok (st1, plain1) =>
                      if cs_keyChange st1 then
                        let nextKey1 := nextKey ++ [ec] in
                        if gs <=? len nextKey1 then
                          match get_key U nextKey1 ks with
                          | None => (plain1, stack, Err ErrKeyNotFound, t)
                          | Some kp1 =>
                              let '(nextKey2, t1) := wipe_value nextKey1 t in
                              decipher_loop_wiping gs ks ct' kp1 0 (cs_reset st1) nextKey2 plain1
                                            (stack ++ [kp1]) t1
                          end
                        else decipher_loop_wiping gs ks ct' kp (S ki) st1 nextKey1 plain1 stack t
                      else decipher_loop_wiping gs ks ct' kp (S ki) st1 nextKey plain1 stack t
                  | Err e => (plain, stack, Err e, t)
                  | Panic => (plain, stack, Panic, t)
                  | Diverge => (plain, stack, Diverge, t)
                  end
              | Err e => (plain, stack, Err e, t)
              | Panic => (plain, stack, Panic, t)
              | Diverge => (plain, stack, Diverge, t)
              end
          end
      end
  end.

(** cipher.go:668-731 Decipher *)
Definition decipher_wiping (i : inst) (m0 : msg) (t0 : tape) : inst * msg * res unit * tape :=
  match ensure_id i m0 t0 with
  | Ok (m, t) =>
      let gs := i_groupsize i in
      if negb (len (mkeyid m) =? gs) then (i, m, Err ErrNoKey, t)
      else if len (mcipher m) <? gs then (i, m, Err ErrCipherTextTooShort, t)
      else
        match get_key U (mkeyid m) (i_keys i) with
        | None => (i, m, Err ErrKeyNotFound, t)
        | Some k0 =>
            let '(p0, t1) := wipe_value (mplain m) t in
            match decipher_loop_wiping gs (i_keys i) (mcipher m) k0 0 new_state [] p0 [k0] t1 with
            | (p, stack, Ok _, t2) =>
                (set_keys i (mark_stack (i_keys i) stack), set_mplain m p, Ok tt, t2)
            | (p, _, r, t2) => (i, set_mplain m p, r, t2)
            end
        end
  | Err e => (i, m0, Err e, t0)
  | Panic => (i, m0, Panic, t0)
  | Diverge => (i, m0, Diverge, t0)
  end.

(** cipher.go:750-760: the letters collected so far when a character is rejected,
    or all of them. *)
Fixpoint collected (s : list rune) : list rune :=
  match s with
  | [] => []
  | c :: s' =>
      if is_space U c || (c =? 61) then collected s'
      else
        let u := to_upper U c in
        if negb ((65 <=? u) && (u <=? 90)) then [] else u :: collected s'
  end.

(** cipher.go:741-796 TryDecipherPlainText. Deferred functions run last one
    first: restoring and wiping of the saved texts (777-786), then the wipe of
    the filtered text (749). *)
Definition try_decipher_wiping (i : inst) (m0 : msg) (dryrun : bool) (t0 : tape)
  : inst * msg * res unit * tape :=
  match ensure_id i m0 t0 with
  | Ok (m, t) =>
      let gs := i_groupsize i in
      if 0 <? len (mkeyid m) then (i, m, Err ErrNotCipherText, t)
      else
        match filter_letters U (mplain m) with
        | None => (i, m, Err ErrNotCipherText, spend (collected (mplain m)) t)
        | Some ft =>
            if len ft <? gs * 2 then (i, m, Err ErrNotCipherText, spend ft t)
            else if gs <? 0 then (i, m, Panic, spend ft t)
            else
              match get_key U (firstn (Z.to_nat gs) ft) (i_keys i) with
              | None => (i, m, Err ErrNotCipherText, spend ft t)
              | Some kp =>
                  match nth_error (i_keys i) kp with
                  | None => (i, m, Panic, spend ft t)
                  | Some k =>
                      if dryrun then (i, m, Ok tt, spend ft t)
                      else
                        let m1 := set_mcipher (set_mkeyid m (kid k)) (skipn (Z.to_nat gs) ft) in
                        match decipher_wiping i m1 t with
                        | (i2, m2, Ok _, t2) => (i2, m2, Ok tt, spend_all [mplain m; mcipher m; ft] t2)
                        | (i2, m2, r, t2) =>
                            let '(kid', t3) := wipe_value (mkeyid m2) t2 in
                            (i2, set_mcipher (set_mplain (set_mkeyid m2 kid') (mplain m)) (mcipher m),
                             match r with Err _ => Err ErrNotCipherText | x => x end,
                             spend_all [mplain m; mcipher m; ft] t3)
                        end
                  end
              end
        end
  | Err e => (i, m0, Err e, t0)
  | Panic => (i, m0, Panic, t0)
  | Diverge => (i, m0, Diverge, t0)
  end.
End WithUnicode.
