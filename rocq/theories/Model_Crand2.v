(** Model of package crand, continued: the frontends to math/rand that the rest
    of the repository does not use (crand/crand.go:62-72). They are methods of
    rand.Rand of Go 1.19 (go.mod:3) over the source of Model_Crand; for
    Float64 and Float32 see Model_Float, NormFloat64 and ExpFloat64 (lines 75-76)
    are not modelled. Definitions only. *)
From Verif Require Import Base Model_Crand.

(** crand/crand.go:62 Uint32; math/rand: [uint32(r.Int63() >> 31)]. *)
Definition uint32_of_word (w : Z) : Z := Z.shiftr (int63_of_word w) 31.
Definition uint32 (t : tape) : res (Z * tape) :=
  let* (v, t') := int63 t in Ok (Z.shiftr v 31, t').

(** crand/crand.go:66 Int63n; math/rand: like Int31n with 63 bits. *)
Definition int63n_max (n : Z) : Z := 2 ^ 63 - 1 - (2 ^ 63) mod n.
Fixpoint int63n_loop (n : Z) (t : tape) : res (Z * tape) :=
  match t with
  | [] => Panic
  | w :: t' =>
      let v := int63_of_word (w mod 2 ^ 64) in
      if int63n_max n <? v then int63n_loop n t' else Ok (v mod n, t')
  end.
Definition int63n (n : Z) (t : tape) : res (Z * tape) :=
  if n <=? 0 then Panic
  else if Z.land n (n - 1) =? 0 then
    let* (v, t') := int63 t in Ok (Z.land v (n - 1), t')
  else int63n_loop n t.

(** crand/crand.go:68 Intn for every n ([int] has 64 bits); math/rand: Int31n
    up to 2^31-1, Int63n above. *)
Definition intn_any (n : Z) (t : tape) : res (Z * tape) :=
  if n <=? 0 then Panic
  else if n <=? 2 ^ 31 - 1 then int31n n t
  else int63n n t.

(** math/rand int31n, used by Shuffle: multiplies instead of dividing. [v] is 32
    bits wide, the product 64. *)
Fixpoint int31n_retry (n thresh : Z) (t : tape) : res (Z * tape) :=
  match t with
  | [] => Panic
  | w :: t' =>
      let prod := (uint32_of_word (w mod 2 ^ 64) * n) mod 2 ^ 64 in
      if prod mod 2 ^ 32 <? thresh then int31n_retry n thresh t' else Ok (Z.shiftr prod 32, t')
  end.
Definition int31n_mul (n : Z) (t : tape) : res (Z * tape) :=
  let* (v, t1) := uint32 t in
  let prod := (v * n) mod 2 ^ 64 in
  let low := prod mod 2 ^ 32 in
  if low <? n then
    let thresh := ((- n) mod 2 ^ 32) mod n in
    if low <? thresh then int31n_retry n thresh t1 else Ok (Z.shiftr prod 32, t1)
  else Ok (Z.shiftr prod 32, t1).

(** crand/crand.go:71 Perm; math/rand: [m[i] = m[j]; m[j] = i] for i from 0 to
    n-1 and j = Intn(i+1). [make] panics for n < 0. *)
Fixpoint perm_loop (rest i : nat) (m : list Z) (t : tape) : res (list Z * tape) :=
  match rest with
  | O => Ok (m, t)
  | S rest' =>
      let* (j, t1) := intn_any (Z.of_nat i + 1) t in
      match nth_error m (Z.to_nat j) with
      | Some x => perm_loop rest' (S i) (list_update (list_update m i x) (Z.to_nat j) (Z.of_nat i)) t1
      | None => Panic
      end
  end.
Definition perm (n : Z) (t : tape) : res (list Z * tape) :=
  if n <? 0 then Panic else perm_loop (Z.to_nat n) 0 (repeat 0 (Z.to_nat n)) t.

(** crand/crand.go:72 Shuffle; math/rand: [swap(i, j)] for i from n-1 down to 1
    and random j up to i. The result is the list of the calls of [swap]. *)
Fixpoint shuffle_loop (i : nat) (t : tape) : res (list (nat * nat) * tape) :=
  match i with
  | O => Ok ([], t)
  | S i' =>
      let n := Z.of_nat i + 1 in
      let* (j, t1) := (if 2 ^ 31 - 2 <? Z.of_nat i then int63n n t else int31n_mul n t) in
      let* (swaps, t2) := shuffle_loop i' t1 in
      Ok ((i, Z.to_nat j) :: swaps, t2)
  end.
Definition shuffle (n : Z) (t : tape) : res (list (nat * nat) * tape) :=
  if n <? 0 then Panic else shuffle_loop (Z.to_nat (n - 1)) t.

(** What a [swap] function for a slice does: [l[i], l[j] = l[j], l[i]]. *)
Definition swap {A} (l : list A) (ij : nat * nat) : list A :=
  match nth_error l (fst ij), nth_error l (snd ij) with
  | Some x, Some y => list_update (list_update l (fst ij) y) (snd ij) x
  | _, _ => l
  end.
