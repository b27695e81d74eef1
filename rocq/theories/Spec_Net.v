(** Vocabulary for histories of a net of stations. *)
From Verif Require Import Base Spec Model_Types Model_Unicode Model_Net.

(** [k] is a key of station [a]. *)
Definition key_at (n : net) (a : nat) (k : key) : Prop :=
  exists i, nth_error (nt_stations n) a = Some i /\ In k (i_keys i).

(** [k] is a key of some station or in some key file. *)
Definition key_somewhere (n : net) (k : key) : Prop :=
  (exists a, key_at n a k) \/ (exists f, In f (nt_files n) /\ In k (i_keys f)).

(** Stations of one group size with keys as key generation makes them; two
    keys with the same ID, wherever they are, have the same letters. Nothing
    has been sent. *)
Definition net_start (gs : Z) (n : net) : Prop :=
  0 < gs /\
  (forall a i, nth_error (nt_stations n) a = Some i ->
     i_groupsize i = gs /\ 0 <= i_keylength i /\ store_ok gs (i_keys i)) /\
  (forall f, In f (nt_files n) -> store_ok gs (i_keys f)) /\
  (forall k k', key_somewhere n k -> key_somewhere n k' -> kid k = kid k' -> krunes k = krunes k') /\
  nt_air n = [] /\ (forall b, nt_heard n b = []).

(** The ID is that of a key somewhere, or of one that a message was enciphered with. *)
Definition id_known (n : net) (id : list rune) : Prop :=
  (exists k, key_somewhere n k /\ kid k = id) \/ (exists e, In e (nt_air n) /\ In id (en_keys e)).

(** [all_along U ok n os]: from [n] on, each operation of [os] meets [ok] when it is done. *)
Fixpoint all_along (U : Uni) (ok : net -> nop -> Prop) (n : net) (os : list nop) : Prop :=
  match os with
  | [] => True
  | o :: os' => ok n o /\ all_along U ok (nt_step U n o) os'
  end.

(** A key that is generated gets an ID not known in the net. *)
Definition new_ids (U : Uni) (n : net) (o : nop) : Prop :=
  match o with
  | NGenerate a _ _ _ _ _ =>
      forall k, key_at (nt_step U n o) a k -> key_at n a k \/ ~ id_known n (kid k)
  | _ => True
  end.

(** A station leaves the choice of keys to Encipher, and sends only when it has
    sent or deciphered, since it last imported keys, every message enciphered
    with a key it has. *)
Definition reads_first (n : net) (o : nop) : Prop :=
  match o with
  | NSend a m _ => mkeyid m = [] /\
      forall j e k, nth_error (nt_air n) j = Some e -> key_at n a k -> In (kid k) (en_keys e) -> In j (nt_heard n a)
  | _ => True
  end.
