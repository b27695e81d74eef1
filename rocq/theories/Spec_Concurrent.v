(** Specification vocabulary for goroutines that encipher at the same time. *)
From Verif Require Import Base Model_Unicode Model_Crand Model_Types Model_Cipher Model_Concurrent.

(** No goroutine gets a turn while another one is [busy]. *)
Fixpoint undisturbed (U : Uni) (busy : doing -> Prop) (gs : Z) (schedule : list nat) (y : system) : Prop :=
  match schedule with
  | [] => True
  | n :: schedule' =>
      (forall q g, nth_error (snd y) q = Some g -> busy (fst g) -> q = n) /\
      undisturbed U busy gs schedule' (turn U gs n y)
  end.

(** Goroutine number [n] has returned. *)
Definition returned (y : system) (n : nat) (m : msg) (r : res unit) (t : tape) : Prop :=
  exists d, nth_error (snd y) n = Some (d, Return (m, r, t)).
