(** EnrichWithKey as users call it. *)
From Verif Require Import Base Model_Unicode Model_Crand Model_Functions Model_Types Model_Cipher.

(** cipher.go:490-542 EnrichWithKey: the ID first (lines 491-493), then the rest
    ([enrich_with_key]). *)
Definition enrich (U : Uni) (i : inst) (m0 : msg) (t0 : tape) : inst * msg * res unit * tape :=
  match ensure_id i m0 t0 with
  | Ok (m, t) =>
      let '(ks, m1, r) := enrich_with_key U (i_groupsize i) (i_keys i) m in (set_keys i ks, m1, r, t)
  | Err e => (i, m0, Err e, t0)
  | Panic => (i, m0, Panic, t0)
  | Diverge => (i, m0, Diverge, t0)
  end.
