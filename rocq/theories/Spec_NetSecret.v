(** Vocabulary: what can be heard in a net of stations. *)
From Verif Require Import Base Spec Spec_Secrecy Model_Unicode Model_Crand Model_Types Model_Cipher Model_Keys Model_Import Model_Net Spec_Net.

(** The keys of the net: [ks] has one key for each ID, with its letters. *)
Definition keys_of_net (gs : Z) (n : net) (ks : list key) : Prop :=
  store_ok gs ks /\ forall k, key_somewhere n k -> exists x, In x ks /\ kid x = kid k /\ krunes x = krunes k.

(** [k] with the letters of the key of [ks] that has its ID. *)
Definition with_letters (ks : list key) (k : key) : key :=
  match find (fun x => if list_eq_dec Z.eq_dec (kid x) (kid k) then true else false) ks with
  | Some x => mkKey (kid k) (krunes x) (kkeepers k) (kcreated k) (kexpires k) (kused k) (kcompromised k) (kcomment k)
  | None => k
  end.
Definition with_keys (ks : list key) (i : inst) : inst := set_keys i (map (with_letters ks) (i_keys i)).
(** The net in which all copies of the keys have the letters of [ks]. *)
Definition filled (ks : list key) (n : net) : net :=
  mkNet (map (with_keys ks) (nt_stations n)) (map (with_keys ks) (nt_files n)) (nt_air n) (nt_heard n).

(** Selecting keys without looking at their letters. *)
Definition blind (f : key -> bool) : Prop := forall k k', other_letters k k' -> f k' = f k.
(** No keys are generated, and keys are handed over without looking at their letters. *)
Definition plain_op (o : nop) : Prop :=
  match o with
  | NGenerate _ _ _ _ _ _ => False
  | NExport _ give => blind give
  | NImport _ _ take _ _ _ => blind take
  | _ => True
  end.

(** Two messages sent: same text, same keys, ciphertexts of the same length. *)
Definition same_sending (e e' : entry) : Prop :=
  en_text e' = en_text e /\ en_keyid e' = en_keyid e /\ en_keys e' = en_keys e /\ length (en_cipher e') = length (en_cipher e).
