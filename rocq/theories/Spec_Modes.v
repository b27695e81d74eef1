(** Specification vocabulary: who may read a file. *)
From Verif Require Import Base.

(** The read, write and execute bits of group and others. *)
Definition owner_only (bits : Z) : Prop := forall n, 0 <= n < 6 -> Z.testbit bits n = false.
(** Others may read the file. *)
Definition others_read (bits : Z) : Prop := Z.testbit bits 2 = true.
(** Every file that is there now and was not before is for its owner only, who
    may read and write it as far as the umask allows; the other files keep their
    permissions. *)
Definition private_files (umask : Z) (w w' : list Z -> option Z) : Prop :=
  forall q, match w q with
    | Some b => w' q = Some b
    | None => w' q = None \/ exists b, w' q = Some b /\ owner_only b /\
        Z.testbit b 8 = negb (Z.testbit umask 8) /\ Z.testbit b 7 = negb (Z.testbit umask 7)
    end.
(** The files there are, by content and by permissions. *)
Definition known (f : list Z -> option (list Z)) (w : list Z -> option Z) : Prop := forall q, w q = None <-> f q = None.
