(** Specification vocabulary for several operations in one call. *)
From Verif Require Import Base Model_Unicode Model_Types Model_Persist Model_Cli Spec Spec_Persist Spec_Cli.

(** The options [o], but at most one operation. *)
Definition only (o : kopts) (delete : bool) (new : Z) (import export : option (list rune)) (list : bool) : kopts :=
  mkK (ko_file o) list new (ko_expire o) delete import export (ko_keepers o) (ko_or o) (ko_ids o) (ko_all o)
    (ko_valid o) (ko_invalid o) (ko_expired o) (ko_compromised o) (ko_used o) (ko_unused o) (ko_yes o).
Definition one_by_one (o : kopts) : list kopts :=
  [only o (ko_delete o) 0 None None false; only o false (ko_new o) None None false;
   only o false 0 (ko_import o) None false; only o false 0 None (ko_export o) false;
   only o false 0 None None (ko_list o)].

(** [in_turn run f os r f' lines]: the calls [os], one after the other until the
    first error, end with result [r], files [f'] and the lines listed. *)
Inductive in_turn (run : kopts -> fs -> flow) : fs -> list kopts -> res unit -> fs -> list (list rune) -> Prop :=
| turn_none f : in_turn run f [] (Ok tt) f []
| turn_error f o os : result (run o f) <> Ok tt ->
    in_turn run f (o :: os) (result (run o f)) (files (run o f)) (listed (run o f))
| turn_done f o os r f' ls : result (run o f) = Ok tt -> in_turn run (files (run o f)) os r f' ls ->
    in_turn run f (o :: os) r f' (listed (run o f) ++ ls).

(** The delete operation has something to do: the store has a key, one of those
    selected unless --yes is given. *)
Definition deletes (U : Uni) (r : run) (o : kopts) (i : inst) : Prop := ko_delete o = true ->
  exists k, In k (i_keys i) /\ (ko_yes o = true \/ key_selected U (r_now r) o k).
