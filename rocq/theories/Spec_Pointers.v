(** Vocabulary for pointers to keys. *)
From Verif Require Import Base Model_Unicode Model_Types Model_Cipher Model_Keys Model_Slices Model_Pointers.

(** The number of keys a history adds. *)
Definition added (ops : list pop) : nat := length (filter (fun o => match o with PNew _ => true | _ => false end) ops).
(** No key is deleted, and no assignment changes the ID of a key. *)
Definition keeps_ids (f : key -> key) : Prop := forall k, kid (f k) = kid k.
Definition mild (o : pop) : Prop := match o with PDelete _ => False | PAssign _ f => keeps_ids f | _ => True end.
(** [key.Compromised = true] *)
Definition compromise (k : key) : key :=
  mkKey (kid k) (krunes k) (kkeepers k) (kcreated k) (kexpires k) (kused k) true (kcomment k).
(** What an operation does to the list of keys (Model_Cipher, Model_Keys). *)
Definition by_value (U : Uni) (ks : list key) (o : pop) : list key :=
  match o with
  | PNew k => ks ++ [k]
  | PMark id used => fst (mark_key_used U id used ks)
  | PDelete ids => fst (delete_key U ks ids)
  | PAssign _ _ => ks
  end.
Definition no_assignment (o : pop) : Prop := match o with PAssign _ _ => False | _ => True end.
