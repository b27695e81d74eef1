(** Specification vocabulary: the parts of a printed message. *)
From Verif Require Import Base Spec.

Definition title (name : list Z) : list Z := 61 :: name ++ [61].
(** A part: its title on a line, then its text. *)
Definition section (lb name text : list Z) : list Z := title name ++ lb ++ text ++ lb.
(** A part that is left out if there is nothing to show. *)
Definition part (lb name text : list Z) : list Z := match text with [] => [] | _ => section lb name text end.
Definition TEXT : list Z := [84; 69; 88; 84].
Definition CIPHER : list Z := [67; 73; 80; 72; 69; 82].
Definition TRAFFIC_EXAMPLE : list Z := [84; 82; 65; 70; 70; 73; 67; 61; 69; 88; 65; 77; 80; 76; 69].
(** [s] is the words [ws], one or more white space characters between them. *)
Inductive broken : list (list Z) -> list Z -> Prop :=
| broken_nil : broken [] []
| broken_one : forall w, broken [w] w
| broken_more : forall w ws sep s, ws <> [] -> sep <> [] -> Forall white sep -> broken ws s -> broken (w :: ws) (w ++ sep ++ s).
(** Wrapping breaks lines between groups, not within. *)
Definition wraps_groups (gs : Z) (wrap : list Z -> list Z) : Prop :=
  forall ws, Forall (fun w => letters w /\ len w = gs) ws -> broken ws (wrap (join [32] ws)).
