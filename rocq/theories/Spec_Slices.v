(** Vocabulary for slices that share memory. *)
From Verif Require Import Base Model_Unicode Model_Keys Model_Slices.

(** A slice of the memory [m]: within its array. *)
Definition valid {A} (m : list (list A)) (s : gslice) : Prop :=
  (sl_len s <= sl_cap s)%nat /\
  (sl_cap s = 0%nat \/ ((sl_arr s < length m)%nat /\ (sl_off s + sl_cap s <= length (nth (sl_arr s) m []))%nat)).
(** No common memory, spare capacity included. *)
Definition apart (s s' : gslice) : Prop :=
  sl_cap s = 0%nat \/ sl_cap s' = 0%nat \/ sl_arr s <> sl_arr s' \/
  (sl_off s + sl_cap s <= sl_off s')%nat \/ (sl_off s' + sl_cap s' <= sl_off s)%nat.
(** No element of [s'] is in the spare capacity of [s]. *)
Definition clear (s s' : gslice) : Prop :=
  forall k, (sl_off s + sl_len s <= k < sl_off s + sl_cap s)%nat -> (sl_off s' <= k < sl_off s' + sl_len s')%nat -> sl_arr s <> sl_arr s'.
(** Slices no two of which have common memory. *)
Definition separate (m : mem) (ss : list gslice) : Prop :=
  Forall (valid m) ss /\ forall i j s s', i <> j -> nth_error ss i = Some s -> nth_error ss j = Some s' -> apart s s'.
(** The operations on the [n]th. *)
Definition ops_of (n : nat) (ops : list (nat * kop)) : list kop := map snd (filter (fun o => Nat.eqb n (fst o)) ops).
(** What an operation does to a list of call-signs (C22, C111). *)
Definition k_value (U : Uni) (l : list (list rune)) (op : kop) : list (list rune) :=
  match op with KAdd xs => add_keeper U l xs | KRemove xs => remove_keeper U l xs end.
