(** Model of package crand (crand/crand.go). The source of randomness is a
    tape of 64-bit words; an exhausted tape is a failing crypto/rand reader.
    Definitions only. *)
From Verif Require Import Base.

Definition tape := list Z.

(** crand/crand.go:35-43 Uint64: one word of the source; panics on failure. *)
Definition uint64 (t : tape) : res (Z * tape) :=
  match t with
  | [] => Panic
  | w :: t' => Ok (w mod 2 ^ 64, t')
  end.

(** crand/crand.go:32-34 Int63: [v & ^(1<<63)]. *)
Definition int63_of_word (v : Z) : Z := Z.land v (Z.ldiff (2 ^ 64 - 1) (2 ^ 63)).
Definition int63 (t : tape) : res (Z * tape) :=
  let* (v, t') := uint64 t in Ok (int63_of_word v, t').

(** math/rand (Go 1.19) Rand.Int31, used by crand.go:64: [int32(Int63() >> 32)]. *)
Definition int31_of_word (v : Z) : Z := Z.shiftr (int63_of_word v) 32.
Definition int31 (t : tape) : res (Z * tape) :=
  let* (v, t') := int63 t in Ok (Z.shiftr v 32, t').

(** math/rand (Go 1.19) Rand.Int31n: rejection sampling above [max]. *)
Definition int31n_max (n : Z) : Z := 2 ^ 31 - 1 - (2 ^ 31) mod n.
Fixpoint int31n_loop (n : Z) (t : tape) : res (Z * tape) :=
  match t with
  | [] => Panic
  | w :: t' =>
      let v := int31_of_word (w mod 2 ^ 64) in
      if int31n_max n <? v then int31n_loop n t' else Ok (v mod n, t')
  end.
Definition int31n (n : Z) (t : tape) : res (Z * tape) :=
  if n <=? 0 then Panic
  else if Z.land n (n - 1) =? 0 then
    let* (v, t') := int31 t in Ok (Z.land v (n - 1), t')
  else int31n_loop n t.

(** crand/crand.go:68 Intn for 0 < n < 2^31 (the code only uses 26 and 62);
    math/rand Intn panics for n <= 0. The branch for larger n (Int63n) is not
    modelled, the model panics there. *)
Definition intn (n : Z) (t : tape) : res (Z * tape) :=
  if n <=? 0 then Panic
  else if n <=? 2 ^ 31 - 1 then int31n n t
  else Panic.

(** crand/crand.go:52-57 ReadRunes: fills a slice of [n] runes with 32-bit
    values. [None] = error of the source; binary.Read then leaves the slice as
    it was. Simplification: one tape word per rune. *)
Definition to_int32 (w : Z) : Z :=
  let v := w mod 2 ^ 32 in if 2 ^ 31 <=? v then v - 2 ^ 32 else v.
Definition read_runes (n : nat) (t : tape) : option (list rune * tape) :=
  if Nat.leb n (length t) then Some (map to_int32 (firstn n t), skipn n t) else None.

(** crand/crand.go:45-50 Read: fills [n] bytes. Simplification: one tape word
    per byte. *)
Definition read_bytes (n : nat) (t : tape) : option (list Z * tape) :=
  if Nat.leb n (length t) then Some (map (fun w => w mod 256) (firstn n t), skipn n t) else None.
