(** Model of package crand, continued: Float64 and Float32 (crand/crand.go:69-70),
    methods of rand.Rand of Go 1.19 (go.mod:3). A result m stands for the floating
    point number m / 2^63. NormFloat64 and ExpFloat64 (lines 75-76) are not
    modelled. Definitions only. *)
From Verif Require Import Base Model_Crand.

(** Conversion of the number v to a floating point number with p bits: rounded to
    nearest, ties to even. The division of the result by a power of two that
    follows is exact, as none of the numbers here is subnormal. *)
Definition round_bits (p v : Z) : Z :=
  let e := Z.log2 v - (p - 1) in
  if e <=? 0 then v
  else
    let q := v / 2 ^ e in
    let r := v mod 2 ^ e in
    let up := (2 ^ (e - 1) <? r) || ((r =? 2 ^ (e - 1)) && Z.odd q) in
    (if up then q + 1 else q) * 2 ^ e.

(** crand/crand.go:69 Float64; math/rand: [again: f := float64(r.Int63()) /
    (1<<63); if f == 1 { goto again }]. *)
Fixpoint float64 (t : tape) : res (Z * tape) :=
  match t with
  | [] => Panic
  | w :: t' =>
      let m := round_bits 53 (int63_of_word (w mod 2 ^ 64)) in
      if m =? 2 ^ 63 then float64 t' else Ok (m, t')
  end.

(** crand/crand.go:70 Float32; math/rand: [again: f := float32(r.Float64()); if
    f == 1 { goto again }]. Float64 is written out: its "again" reads the next
    word just as that of Float32. *)
Fixpoint float32 (t : tape) : res (Z * tape) :=
  match t with
  | [] => Panic
  | w :: t' =>
      let m := round_bits 53 (int63_of_word (w mod 2 ^ 64)) in
      if m =? 2 ^ 63 then float32 t'
      else
        let f := round_bits 24 m in
        if f =? 2 ^ 63 then float32 t' else Ok (f, t')
  end.
