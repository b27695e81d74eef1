(** Specification vocabulary: stores that differ in the letters of their keys
    only, and messages enciphered one after the other. *)
From Verif Require Import Base Spec Model_Unicode Model_Crand Model_Types Model_Cipher.

(** [k'] is [k] with other letters, equally many. *)
Definition other_letters (k k' : key) : Prop :=
  k' = mkKey (kid k) (krunes k') (kkeepers k) (kcreated k) (kexpires k) (kused k) (kcompromised k) (kcomment k) /\
  letters (krunes k') /\ length (krunes k') = length (krunes k).
(** All keys of a store, filled with other letters. *)
Definition refilled (ks ks' : list key) : Prop := Forall2 other_letters ks ks'.
(** The same, where [known] keys stay as they are. *)
Definition refilled_but (known : key -> bool) (ks ks' : list key) : Prop :=
  Forall2 (fun k k' => if known k then k' = k else other_letters k k') ks ks'.
(** Number of letters in the keys of a store. *)
Definition key_letters (ks : list key) : Z := len (flat_map krunes ks).

(** Encipher called for one message after the other; each call with its own
    settings and messages in the store ([fst]), message and random source. The
    result is the list of the enciphered messages if every call succeeds. *)
Definition call : Type := inst * msg * tape.
Fixpoint sent (U : Uni) (ks : list key) (calls : list call) : option (list msg) :=
  match calls with
  | [] => Some []
  | (i, m, t) :: calls' =>
      match encipher U (set_keys i ks) m t with
      | (i', m', Ok _, _) => option_map (cons m') (sent U (i_keys i') calls')
      | _ => None
      end
  end.
(** The key is left to Encipher. *)
Definition automatic (gs : Z) (c : call) : Prop :=
  let '(i, m, _) := c in i_groupsize i = gs /\ mkeyid m = [].
Definition same_but_cipher (m m' : msg) : Prop := m' = set_mcipher m (mcipher m').
