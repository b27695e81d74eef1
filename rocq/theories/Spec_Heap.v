(** Vocabulary for properties about shared memory. Independent of how the
    operations are implemented. *)
From Verif Require Import Base Model_Types Model_Heap.

(** Two keys that are the same except for the ID (the keepers; the [Used] mark). *)
Definition same_but_id (k k' : key) : Prop :=
  krunes k' = krunes k /\ kkeepers k' = kkeepers k /\ kcreated k' = kcreated k /\
  kexpires k' = kexpires k /\ kused k' = kused k /\ kcompromised k' = kcompromised k /\
  kcomment k' = kcomment k.
Definition same_but_keepers (k k' : key) : Prop :=
  kid k' = kid k /\ krunes k' = krunes k /\ kcreated k' = kcreated k /\
  kexpires k' = kexpires k /\ kused k' = kused k /\ kcompromised k' = kcompromised k /\
  kcomment k' = kcomment k.
Definition same_but_id_and_mark (k k' : key) : Prop :=
  krunes k' = krunes k /\ kkeepers k' = kkeepers k /\ kcreated k' = kcreated k /\
  kexpires k' = kexpires k /\ kcompromised k' = kcompromised k /\ kcomment k' = kcomment k.

(** Two messages that are the same except for the key ID. *)
Definition same_but_keyid (m m' : msg) : Prop :=
  mid m' = mid m /\ mrecipients m' = mrecipients m /\ mfrom m' = mfrom m /\ mdtg m' = mdtg m /\
  mplain m' = mplain m /\ mbinary m' = mbinary m /\ mcipher m' = mcipher m /\
  mradiogram m' = mradiogram m.

(** The rune slices a key or a message refers to. *)
Definition key_slices (h : heap) (k : hkey) : list slice :=
  hk_id k :: hk_runes k :: hk_comment k :: rd_outer h (hk_keepers k).
Definition msg_slices (m : hmsg) : list slice :=
  [hm_id m; hm_from m; hm_keyid m; hm_plain m; hm_cipher m; hm_radiogram m] ++ hm_recipients m.
(** The slices that wiping a message overwrites. *)
Definition msg_secrets (m : hmsg) : list slice := [hm_plain m; hm_cipher m; hm_keyid m].

(** No array is referred to from both lists. *)
Definition apart (ss ss' : list slice) : Prop :=
  forall a, ~ (In (Some a) ss /\ In (Some a) ss').

(** Two memories that may differ only in what is written in the arrays that the
    slices [ss] refer to; the lengths of these arrays agree. *)
Definition differ_in (ss : list slice) (h h' : heap) : Prop :=
  h_outer h = h_outer h' /\ length (h_runes h) = length (h_runes h') /\
  forall a, length (nth a (h_runes h) []) = length (nth a (h_runes h') []) /\
            (~ In (Some a) ss -> nth a (h_runes h) [] = nth a (h_runes h') []).

(** Every reference refers to an existing array. *)
Definition slice_ok (h : heap) (s : slice) : Prop :=
  match s with Some a => (a < length (h_runes h))%nat | None => True end.
Definition key_ok (h : heap) (k : hkey) : Prop :=
  Forall (slice_ok h) (key_slices h k) /\
  match hk_keepers k with Some a => (a < length (h_outer h))%nat | None => True end.

(** An operation other than ImportKeys. *)
Definition no_import (op : hop) : Prop := match op with HImport _ _ _ _ _ => False | _ => True end.
