(** The pointers returned by GetKey and FindKey: [&r.Keys[i]] (cipher.go:447,
    452, 464) is an element of the array that Keys had at that time. The array
    of Keys with length and capacity as in Model_Slices; the rune slices of its
    elements are values here (sharing of their arrays: Model_Heap, Model_Handles).
    Definitions only. *)
From Verif Require Import Base Model_Unicode Model_Crand Model_Functions Model_Types Model_Cipher Model_Keys Model_Slices.

Definition kmem := list (list key).
(** Array and index. *)
Definition pointer := (nat * nat)%type.
Definition deref (m : kmem) (p : pointer) : option key := nth_error (nth (fst p) m []) (snd p).
(** [&k.Keys[j]] *)
Definition pointer_to (s : gslice) (j : nat) : pointer := (sl_arr s, (sl_off s + j)%nat).
(** An assignment to a field of the key, e.g. [key.Compromised = true]. *)
Definition pt_assign (m : kmem) (p : pointer) (f : key -> key) : kmem :=
  match deref m p with Some k => put m (fst p) (snd p) [f k] | None => m end.
(** krypto431.go:283-305 Key.RandomWipe: what is left of the structure. *)
Definition wiped_key (k : key) : key :=
  mkKey [] [] (map (fun _ => []) (kkeepers k)) (kcreated k) (kexpires k) (kused k) (kcompromised k) [].
Definition no_key : key := mkKey [] [] [] 0 0 false false [].

Section Pointers.
Context (U : Uni) (grow : nat -> nat).
(** cipher.go:460-468 GetKey *)
Definition pt_get (m : kmem) (s : gslice) (id : list rune) : option pointer :=
  option_map (pointer_to s) (get_key U id (elems m s)).
(** cipher.go:431-456 FindKey *)
Definition pt_find (m : kmem) (s : gslice) (gs : Z) (recipients : list (list rune)) : option pointer :=
  option_map (pointer_to s) (find_key U gs recipients (elems m s)).
(** cipher.go:472-481 MarkKeyUsed *)
Definition pt_mark (m : kmem) (s : gslice) (id : list rune) (used : bool) : kmem :=
  match pt_get m s id with Some p => pt_assign m p (fun k => set_used k used) | None => m end.
(** keys.go:76, persistence.go:606 [k.Keys = append(k.Keys, key)] *)
Definition pt_new (m : kmem) (s : gslice) (k : key) : kmem * gslice := go_append no_key grow m s [k].
(** keys.go:88-97 DeleteKey, one key ID *)
Definition pt_delete1 (c : kmem * gslice) (id : list rune) : kmem * gslice :=
  let (m, s) := c in
  match index_of (fun k => equal_runes_fold U (Some (kid k)) (Some id)) (elems m s) 0 with
  | Some i => go_swap_remove (pt_assign m (pointer_to s i) wiped_key) s i
  | None => (m, s)
  end.

(** Histories; an assignment is made through a pointer obtained at any time. *)
Inductive pop := PNew (k : key) | PMark (id : list rune) (used : bool) | PDelete (ids : list (list rune)) | PAssign (p : pointer) (f : key -> key).
Definition pt_step (c : kmem * gslice) (o : pop) : kmem * gslice :=
  let (m, s) := c in
  match o with
  | PNew k => pt_new m s k
  | PMark id used => (pt_mark m s id used, s)
  | PDelete ids => fold_left pt_delete1 ids (m, s)
  | PAssign p f => (pt_assign m p f, s)
  end.
Definition pt_run (ops : list pop) (c : kmem * gslice) : kmem * gslice := fold_left pt_step ops c.
End Pointers.
