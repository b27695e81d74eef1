(** Specification vocabulary: the options about overwriting. *)
From Verif Require Import Base Model_Types Model_Station.

Definition about_overwriting (o : opt) : bool :=
  match o with
  | WithOverwriteExistingKeysOnImport _ | WithOverwritePersistenceIfExists _ => true
  | _ => false
  end.
Definition other_options (opts : list opt) : list opt := filter (fun o => negb (about_overwriting o)) opts.
