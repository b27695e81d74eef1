(** Specification vocabulary for the questions asked by initialize. *)
From Verif Require Import Base Model_Unicode Model_Types Model_Station Model_Persist Model_Cli Model_Initialize.

(** Whole numbers in decimal notation that fit into 64 bits. *)
Inductive decimal : list rune -> Z -> Prop :=
| one_digit c : 48 <= c <= 57 -> decimal [c] (c - 48)
| more_digits s n c : decimal s n -> 48 <= c <= 57 -> decimal (s ++ [c]) (10 * n + (c - 48)).
Definition int64 (n : Z) : Prop := - 2 ^ 63 <= n < 2 ^ 63.
Definition number (s : list rune) (n : Z) : Prop :=
  int64 n /\
  (decimal s n \/ (exists t, s = 43 :: t /\ decimal t n) \/ (exists t, s = 45 :: t /\ decimal t (- n))).

(** [s] is the first line typed in that is acceptable; the lines before it are
    not, [rest] are the lines after it. *)
Definition first_good (good : list rune -> Prop) (l : list (option (list rune))) (s : list rune)
    (rest : list (option (list rune))) : Prop :=
  exists a, Forall (fun x => exists t, x = Some t /\ ~ good t) a /\ good s /\ l = a ++ Some s :: rest.

(** An answer to a question for a number of at least [least]; an empty line
    stands for [present]. *)
Definition means (least present : Z) (s : list rune) (n : Z) : Prop :=
  least <= n /\ ((s = [] /\ n = present) \/ number s n).
Definition number_typed (least present : Z) (l : list (option (list rune))) (n : Z)
    (rest : list (option (list rune))) : Prop :=
  exists s, first_good (fun s => exists m, means least present s m) l s rest /\ means least present s n.

(** A question that takes any text but "?". *)
Definition text_typed (l : list (option (list rune))) (s : list rune) (rest : list (option (list rune))) : Prop :=
  first_good (fun s => s <> [63]) l s rest.

(** A call-sign is typed in: not an empty line, then not only white space. *)
Definition call_typed (U : Uni) (l : list (option (list rune))) (call : list rune)
    (rest : list (option (list rune))) : Prop :=
  first_good (fun s => s <> []) l call rest /\ ~ Forall (fun c => is_space U c = true) call.

(** All the questions are answered; [o] are the options before. *)
Definition dialogue (U : Uni) (o : iopts) (l : list (option (list rune))) (call : list rune) (keys : Z)
    (keepers expire : list rune) (keylength groupsize : Z) : Prop :=
  exists l1 l2 l3 l4 l5 l6,
    call_typed U l call l1 /\ number_typed 0 (io_keys o) l1 keys l2 /\ text_typed l2 keepers l3 /\
    text_typed l3 expire l4 /\ number_typed 20 (io_keylength o) l4 keylength l5 /\
    number_typed 1 (io_groupsize o) l5 groupsize l6.

(** [t] is [s] without the white space around it. *)
Definition without_space (U : Uni) (s t : list rune) : Prop :=
  exists a b, s = a ++ t ++ b /\ Forall (fun c => is_space U c = true) a /\ Forall (fun c => is_space U c = true) b /\
  (forall c x, t = c :: x -> is_space U c = false) /\ (forall c x, t = x ++ [c] -> is_space U c = false).

(** None of --yes, --keys, --keepers, --key-length, --groupsize is given. *)
Definition none_given (i : given) : Prop :=
  is_yes i = false /\ is_keys i = false /\ is_keepers i = false /\ is_keylength i = false /\ is_groupsize i = false.

(** The options with the call-sign [call]. *)
Definition set_call (o : iopts) (call : list rune) : iopts :=
  mkI (io_file o) (io_yes o) (Some call) (io_keys o) (io_expire o) (io_keepers o) (io_keylength o) (io_groupsize o)
    (io_keycolumns o) (io_columns o).
