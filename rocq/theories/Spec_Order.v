(** Specification vocabulary: stores that hold the same IDs and key letters,
    and reading several messages one after the other. *)
From Verif Require Import Base Model_Unicode Model_Crand Model_Types Model_Cipher.

(** The same IDs and letters in the same order; the used and compromised
    flags, keepers, dates and comments may differ. *)
Definition same_letters (ks ks' : list key) : Prop :=
  Forall2 (fun k k' => kid k' = kid k /\ krunes k' = krunes k) ks ks'.
(** Deciphering messages one after the other, each with its own random words;
    the outcomes in that order and the instance left. *)
Fixpoint read_all (U : Uni) (i : inst) (ms : list (msg * tape)) : inst * list (msg * res unit) :=
  match ms with
  | [] => (i, [])
  | (m, t) :: ms' =>
      let '(i1, m1, r, _) := decipher U i m t in let '(i2, rs) := read_all U i1 ms' in (i2, (m1, r) :: rs)
  end.
(** The outcome of deciphering one message. *)
Definition reading (U : Uni) (i : inst) (m : msg * tape) : msg * res unit :=
  let '(_, m1, r, _) := decipher U i (fst m) (snd m) in (m1, r).
