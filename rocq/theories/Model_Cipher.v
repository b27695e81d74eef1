(** Model of FindKey, GetKey, MarkKeyUsed, EnrichWithKey, Encipher, Decipher
    and TryDecipherPlainText (cipher.go:427-796) on the value level: slices
    are values. The effect of [Wipe(&m.KeyId)] on the array it shares with the
    key (cipher.go:540, 578) is modelled in the heap layer. Warnings printed to
    stderr are not modelled. Definitions only. *)
From Verif Require Import Base Model_Unicode Model_Diana Model_Codec Model_Crand
  Model_Functions Model_Types.

Section WithUnicode.
Context (U : Uni).

(** cipher.go:431-456 FindKey; the result is the index of the key. *)
Fixpoint find_key_loop (gs : Z) (recipients : list (list rune)) (ks : list key) (i : nat)
  : option nat :=
  match ks with
  | [] => None
  | k :: ks' =>
      if kused k then find_key_loop gs recipients ks' (S i)
      else if negb (len (kid k) =? gs) then find_key_loop gs recipients ks' (S i)
      else if len recipients =? 0 then
        if len (kkeepers k) =? 0 then Some i
        else find_key_loop gs recipients ks' (S i)
      else if all_needles U (Some recipients) (Some (kkeepers k)) false then Some i
      else find_key_loop gs recipients ks' (S i)
  end.
Definition find_key (gs : Z) (recipients : list (list rune)) (ks : list key) : option nat :=
  find_key_loop gs recipients ks 0.

(** cipher.go:461, 473 strings.ToUpper(strings.TrimSpace(string(keyId))) *)
Definition key_query (keyId : list rune) : list rune :=
  str_upper U (trim_space U (go_string keyId)).

Fixpoint get_key_loop (q : list rune) (ks : list key) (i : nat) : option nat :=
  match ks with
  | [] => None
  | k :: ks' => if runes_eqb q (go_string (kid k)) then Some i
                else get_key_loop q ks' (S i)
  end.
(** cipher.go:460-468 GetKey; [None] is the error return. *)
Definition get_key (keyId : list rune) (ks : list key) : option nat :=
  get_key_loop (key_query keyId) ks 0.

(** cipher.go:472-481 MarkKeyUsed *)
Definition mark_key_used (keyId : list rune) (used : bool) (ks : list key)
  : list key * res unit :=
  match get_key_loop (key_query keyId) ks 0 with
  | Some i => (mark ks i used, Ok tt)
  | None => (ks, Err ErrKeyNotFound)
  end.

(** messages.go:253-263 ContainsMessageId *)
Definition contains_message_id (ms : list msg) (id : list rune) : bool :=
  existsb (fun m => equal_runes (Some (mid m)) (Some id)) ms.

(** messages.go:279-289 NewUniqueMessageId. Every round consumes tape, so the
    length of the tape bounds the number of rounds. *)
Fixpoint new_unique_message_id_loop (fuel : nat) (ms : list msg) (t : tape)
  : res (list rune * tape) :=
  match fuel with
  | O => Panic
  | S f =>
      let* (id, t1) := random_alnum_runes 4 t in
      if contains_message_id ms id then new_unique_message_id_loop f ms t1
      else Ok (id, t1)
  end.
Definition new_unique_message_id (ms : list msg) (t : tape) : res (list rune * tape) :=
  new_unique_message_id_loop (S (length t)) ms t.

(** cipher.go:491-493, 549-551, 669-671, 742-744 *)
Definition ensure_id (i : inst) (m : msg) (t : tape) : res (msg * tape) :=
  if len (mid m) =? 0 then
    let* (id, t1) := new_unique_message_id (i_messages i) t in Ok (set_mid m id, t1)
  else Ok (m, t).

(** krypto431.go:173-205 Wipe/RandomWipe of a slice nobody else refers to: the
    slice variable becomes nil, unless the random source fails; then the slice
    is unchanged (line 199) and callers ignore the error. *)
Definition wipe_value (s : list rune) (t : tape) : list rune * tape :=
  match read_runes (length s) t with
  | Some (_, t') => ([], t')
  | None => (s, t)
  end.

(** cipher.go:502-513 lookup of an explicitly given key. *)
Fixpoint check_given_key (keyId : list rune) (ks : list key) : res unit :=
  match ks with
  | [] => Err ErrKeyIdMissing
  | k :: ks' =>
      if equal_runes (Some (kid k)) (Some keyId) then
        if kused k then Err ErrKeyIdUsed
        else if kcompromised k then Err ErrKeyIdCompromised
        else Ok tt
      else check_given_key keyId ks'
  end.

(** cipher.go:490-542 EnrichWithKey after the message has an Id (lines 494
    onwards). *)
Definition enrich_with_key (gs : Z) (ks : list key) (m : msg)
  : list key * msg * res unit :=
  if len (mplain m) =? 0 then (ks, m, Err ErrPlainTextEmpty)
  else if 0 <? len (mkeyid m) then
    if negb (len (mkeyid m) =? gs) then (ks, m, Err ErrKeyIdLength)
    else (ks, m, check_given_key (mkeyid m) ks)
  else if 0 <? len (mcipher m) then
    if negb (len (mkeyid m) =? gs) then (ks, m, Err ErrCipherWithoutKey)
    else (ks, m, Ok tt)
  else
    match find_key gs (mrecipients m) ks with
    | None => (ks, m, Err ErrNoEligibleKey)
    | Some j =>
        match nth_error ks j with
        | Some k => (mark ks j true, set_mkeyid m (kid k), Ok tt)
        | None => (ks, m, Panic)
        end
    end.

(** krypto431.go:159-162 chunk; the key pointer is an index. *)
Record chunk := mkChunk { ch_text : list rune; ch_key : nat }.

(** Variables of Encipher live during its first loop: the keys, the codec
    state, the finished chunks and the current one. *)
Record enc_state := mkES {
  es_keys : list key;
  es_st : codec_state;
  es_chunks : list chunk;
  es_cur : chunk
}.

Definition unoutput (o : output) : list rune := match o with Some l => l | None => [] end.

(** cipher.go:588-602: change key if the current chunk is full. *)
Definition maybe_change_key (gs : Z) (recipients : list (list rune)) (e : enc_state)
  : enc_state * res unit :=
  match nth_error (es_keys e) (ch_key (es_cur e)) with
  | None => (e, Panic)
  | Some ck =>
      if len (krunes ck) - gs - ControlCharactersNeededToChangeKey
           <=? cs_charCounter (es_st e) then
        match find_key gs recipients (es_keys e) with
        | None => (e, Err ErrOutOfKeys)
        | Some j =>
            match nth_error (es_keys e) j with
            | None => (e, Panic)
            | Some nk =>
                match change_key (es_st e) (kid nk) (Some (ch_text (es_cur e))) with
                | Ok (st1, o1) =>
                    (mkES (mark (es_keys e) j true) (cs_reset st1)
                          (es_chunks e ++ [mkChunk (unoutput o1) (ch_key (es_cur e))])
                          (mkChunk [] j), Ok tt)
                | Err er => (e, Err er)
                | Panic => (e, Panic)
                | Diverge => (e, Diverge)
                end
            end
        end
      else (e, Ok tt)
  end.

(** cipher.go:587-607: the encoding loop. *)
Fixpoint encode_loop (gs : Z) (recipients : list (list rune)) (text : list rune)
    (e : enc_state) : enc_state * res unit :=
  match text with
  | [] => (e, Ok tt)
  | c :: text' =>
      match maybe_change_key gs recipients e with
      | (e1, Ok _) =>
          match encode_character U (es_st e1) c (Some (ch_text (es_cur e1))) with
          | Ok (st1, o1) =>
              encode_loop gs recipients text'
                (mkES (es_keys e1) st1 (es_chunks e1)
                      (mkChunk (unoutput o1) (ch_key (es_cur e1))))
          | Err er => (e1, Err er)
          | Panic => (e1, Panic)
          | Diverge => (e1, Diverge)
          end
      | (e1, r) => (e1, r)
      end
  end.

(** cipher.go:637-644: encipher one chunk; the ciphertext so far is kept on
    error. *)
Fixpoint encipher_runes (kr : list rune) (text : list rune) (out : list rune)
  : list rune * res unit :=
  match text with
  | [] => (out, Ok tt)
  | c :: text' =>
      match kr with
      | [] => (out, Panic)
      | k :: kr' =>
          match trigraph k c with
          | Ok r => encipher_runes kr' text' (out ++ [r])
          | Err e => (out, Err e)
          | Panic => (out, Panic)
          | Diverge => (out, Diverge)
          end
      end
  end.

(** cipher.go:624-645: encipher all chunks. *)
Fixpoint encipher_chunks (ks : list key) (chunks : list chunk) (out : list rune)
  : list rune * res unit :=
  match chunks with
  | [] => (out, Ok tt)
  | c :: chunks' =>
      match nth_error ks (ch_key c) with
      | None => (out, Panic)
      | Some k =>
          if len (krunes k) <? len (ch_text c) then (out, Err ErrChunkKeyTooShort)
          else
            match encipher_runes (krunes k) (ch_text c) out with
            | (out1, Ok _) => encipher_chunks ks chunks' out1
            | (out1, r) => (out1, r)
            end
      end
  end.

(** cipher.go:611-615: number of padding characters; Go's [%] panics on 0. *)
Definition total_len (chunks : list chunk) : Z :=
  fold_right (fun c n => len (ch_text c) + n) 0 chunks.
Definition pad_count (gs total : Z) : res Z :=
  if gs =? 0 then Panic else Ok (Z.rem (gs - Z.rem total gs) gs).

(** cipher.go:575-586: the deferred release of keys after a failure or panic. *)
Definition release_keys (keyId : list rune) (cur : chunk) (chunks : list chunk)
    (ks : list key) : list key :=
  let ks1 := fst (mark_key_used keyId false ks) in
  let ks2 := mark ks1 (ch_key cur) false in
  fold_left (fun a c => mark a (ch_key c) false) chunks ks2.

(** Result of the body of Encipher after the deferred function has been
    registered: key list and chunks at that point, ciphertext, outcome. *)
Record enc_result := mkER {
  er_keys : list key;
  er_chunks : list chunk;
  er_cur : chunk;
  er_cipher : list rune;
  er_res : res unit
}.

(** cipher.go:587-660 *)
Definition encipher_body (gs : Z) (recipients : list (list rune)) (text : list rune)
    (ks : list key) (k0 : nat) (cipher0 : list rune) : enc_result :=
  match encode_loop gs recipients text (mkES ks new_state [] (mkChunk [] k0)) with
  | (e, Ok _) =>
      match pad_count gs (len (ch_text (es_cur e)) + total_len (es_chunks e)) with
      | Ok n =>
          match pad (es_st e) n (Some (ch_text (es_cur e))) with
          | Ok (st1, o1) =>
              let cur := mkChunk (unoutput o1) (ch_key (es_cur e)) in
              let chunks := es_chunks e ++ [cur] in
              let '(out, r) := encipher_chunks (es_keys e) chunks cipher0 in
              mkER (es_keys e) chunks cur out r
          | Err er => mkER (es_keys e) (es_chunks e) (es_cur e) cipher0 (Err er)
          | Panic => mkER (es_keys e) (es_chunks e) (es_cur e) cipher0 Panic
          | Diverge => mkER (es_keys e) (es_chunks e) (es_cur e) cipher0 Diverge
          end
      | Err er => mkER (es_keys e) (es_chunks e) (es_cur e) cipher0 (Err er)
      | Panic => mkER (es_keys e) (es_chunks e) (es_cur e) cipher0 Panic
      | Diverge => mkER (es_keys e) (es_chunks e) (es_cur e) cipher0 Diverge
      end
  | (e, r) => mkER (es_keys e) (es_chunks e) (es_cur e) cipher0 r
  end.

(** cipher.go:548-661 Encipher. [released] tells that the deferred function ran
    with [releaseKeys] set. The result is the instance, the message, the
    outcome and the rest of the tape. *)
Definition encipher_full (i : inst) (m0 : msg) (t0 : tape)
  : inst * msg * res unit * tape * bool :=
  match ensure_id i m0 t0 with
  | Ok (m, t) =>
      let gs := i_groupsize i in
      match enrich_with_key gs (i_keys i) m with
      | (ks, m1, Ok _) =>
          let '(c0, t1) := wipe_value (mcipher m1) t in
          match get_key (mkeyid m1) ks with
          | None => (set_keys i ks, set_mcipher m1 c0, Err ErrKeyNotFound, t1, false)
          | Some k0 =>
              let b := encipher_body gs (mrecipients m1) (mplain m1) ks k0 c0 in
              match er_res b with
              | Ok _ => (set_keys i (er_keys b), set_mcipher m1 (er_cipher b), Ok tt, t1, false)
              | r =>
                  let ks' := release_keys (mkeyid m1) (er_cur b) (er_chunks b) (er_keys b) in
                  let '(kid', t2) := wipe_value (mkeyid m1) t1 in
                  (set_keys i ks', set_mkeyid (set_mcipher m1 (er_cipher b)) kid', r, t2, true)
              end
          end
      | (ks, m1, r) => (set_keys i ks, m1, r, t, false)
      end
  | Err e => (i, m0, Err e, t0, false)
  | Panic => (i, m0, Panic, t0, false)
  | Diverge => (i, m0, Diverge, t0, false)
  end.
Definition encipher (i : inst) (m : msg) (t : tape) : inst * msg * res unit * tape :=
  fst (encipher_full i m t).

(** cipher.go:699-728: the loop of Decipher. [kp] is keyPtr, [ki] is
    keyIndexCounter. The results are PlainText, the key stack and the outcome. *)
Fixpoint decipher_loop (gs : Z) (ks : list key) (ct : list rune) (kp : nat) (ki : nat)
    (st : codec_state) (nextKey plain : list rune) (stack : list nat)
  : list rune * list nat * res unit :=
  match ct with
  | [] => (plain, stack, Ok tt)
  | c :: ct' =>
      match nth_error ks kp with
      | None => (plain, stack, Panic)
      | Some k =>
          match nth_error (krunes k) ki with
          | None => (plain, stack, Err ErrOutOfKeyLetters)
          | Some kr =>
              match trigraph kr c with
              | Ok ec =>
                  match decode_character U st ec plain with
                  | Ok (st1, plain1) =>
                      if cs_keyChange st1 then
                        let nextKey1 := nextKey ++ [ec] in
                        if gs <=? len nextKey1 then
                          match get_key nextKey1 ks with
                          | None => (plain1, stack, Err ErrKeyNotFound)
                          | Some kp1 =>
                              decipher_loop gs ks ct' kp1 0 (cs_reset st1) [] plain1
                                            (stack ++ [kp1])
                          end
                        else decipher_loop gs ks ct' kp (S ki) st1 nextKey1 plain1 stack
                      else decipher_loop gs ks ct' kp (S ki) st1 nextKey plain1 stack
                  | Err e => (plain, stack, Err e)
                  | Panic => (plain, stack, Panic)
                  | Diverge => (plain, stack, Diverge)
                  end
              | Err e => (plain, stack, Err e)
              | Panic => (plain, stack, Panic)
              | Diverge => (plain, stack, Diverge)
              end
          end
      end
  end.

Definition mark_stack (ks : list key) (stack : list nat) : list key :=
  fold_left (fun a j => mark a j true) stack ks.

(** cipher.go:668-731 Decipher. Line 724 [Wipe(&nextKey)] is modelled as
    clearing [nextKey] (random source available). *)
Definition decipher (i : inst) (m0 : msg) (t0 : tape) : inst * msg * res unit * tape :=
  match ensure_id i m0 t0 with
  | Ok (m, t) =>
      let gs := i_groupsize i in
      if negb (len (mkeyid m) =? gs) then (i, m, Err ErrNoKey, t)
      else if len (mcipher m) <? gs then (i, m, Err ErrCipherTextTooShort, t)
      else
        match get_key (mkeyid m) (i_keys i) with
        | None => (i, m, Err ErrKeyNotFound, t)
        | Some k0 =>
            let '(p0, t1) := wipe_value (mplain m) t in
            match decipher_loop gs (i_keys i) (mcipher m) k0 0 new_state [] p0 [k0] with
            | (p, stack, Ok _) =>
                (set_keys i (mark_stack (i_keys i) stack), set_mplain m p, Ok tt, t1)
            | (p, _, r) => (i, set_mplain m p, r, t1)
            end
        end
  | Err e => (i, m0, Err e, t0)
  | Panic => (i, m0, Panic, t0)
  | Diverge => (i, m0, Diverge, t0)
  end.

(** cipher.go:750-760: the filter of TryDecipherPlainText. *)
Fixpoint filter_letters (s : list rune) : option (list rune) :=
  match s with
  | [] => Some []
  | c :: s' =>
      if is_space U c || (c =? 61) then filter_letters s'
      else
        let u := to_upper U c in
        if negb ((65 <=? u) && (u <=? 90)) then None
        else match filter_letters s' with
             | Some r => Some (u :: r)
             | None => None
             end
  end.

(** cipher.go:741-796 TryDecipherPlainText. Panics for a negative group size
    (slice bounds). *)
Definition try_decipher (i : inst) (m0 : msg) (dryrun : bool) (t0 : tape)
  : inst * msg * res unit * tape :=
  match ensure_id i m0 t0 with
  | Ok (m, t) =>
      let gs := i_groupsize i in
      if 0 <? len (mkeyid m) then (i, m, Err ErrNotCipherText, t)
      else
        match filter_letters (mplain m) with
        | None => (i, m, Err ErrNotCipherText, t)
        | Some ft =>
            if len ft <? gs * 2 then (i, m, Err ErrNotCipherText, t)
            else if gs <? 0 then (i, m, Panic, t)
            else
              match get_key (firstn (Z.to_nat gs) ft) (i_keys i) with
              | None => (i, m, Err ErrNotCipherText, t)
              | Some kp =>
                  match nth_error (i_keys i) kp with
                  | None => (i, m, Panic, t)
                  | Some k =>
                      if dryrun then (i, m, Ok tt, t)
                      else
                        let m1 := set_mcipher (set_mkeyid m (kid k)) (skipn (Z.to_nat gs) ft) in
                        match decipher i m1 t with
                        | (i2, m2, Ok _, t2) => (i2, m2, Ok tt, t2)
                        | (i2, m2, r, t2) =>
                            (* deferred restore, cipher.go:778-786 *)
                            let '(kid', t3) := wipe_value (mkeyid m2) t2 in
                            (i2, set_mcipher (set_mplain (set_mkeyid m2 kid') (mplain m)) (mcipher m),
                             match r with Err _ => Err ErrNotCipherText | x => x end, t3)
                        end
                  end
              end
        end
  | Err e => (i, m0, Err e, t0)
  | Panic => (i, m0, Panic, t0)
  | Diverge => (i, m0, Diverge, t0)
  end.

End WithUnicode.
