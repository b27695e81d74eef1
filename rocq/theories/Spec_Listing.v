(** Specification vocabulary for SummaryOfMessages. *)
From Verif Require Import Base Model_Unicode Model_Types Spec.

(** The keys of the store are the same, some more may be marked used. *)
Definition more_used (ks ks' : list key) : Prop := exists js, marked_used js ks ks'.

(** Everything of a message but its texts and key ID. *)
Definition same_heading (m m' : msg) : Prop :=
  mid m' = mid m /\ mrecipients m' = mrecipients m /\ mfrom m' = mfrom m /\ mdtg m' = mdtg m /\
  mradiogram m' = mradiogram m /\ mbinary m' = mbinary m.

(** The letters of a text: without white space and '=', in upper case. *)
Definition letters_of (U : Uni) (s : list rune) : list rune :=
  map (to_upper U) (filter (fun c => negb (is_space U c || (c =? 61))) s).

(** A message after an attempt to decipher it: as it was, or its text was the ID
    of a key and ciphertext. *)
Definition tried (U : Uni) (gs : Z) (ks : list key) (m m' : msg) : Prop :=
  same_heading m m' /\
  ((mplain m' = mplain m /\ mcipher m' = mcipher m) \/
   (mkeyid m = [] /\ letters (letters_of U (mplain m)) /\ letters_of U (mplain m) = mkeyid m' ++ mcipher m' /\
    len (mkeyid m') = gs /\ exists k, In k ks /\ kid k = mkeyid m')).

Definition str_nil : list rune := [78; 73; 76].
Definition str_dtg : list rune := [68; 84; 71].
Definition str_to : list rune := [84; 79].
Definition str_de : list rune := [68; 69].
Definition str_digest : list rune := [68; 73; 71; 69; 83; 84].
(** Message IDs as messages get them. *)
Definition id_ok (id : list rune) : Prop := len id = 4 /\ Forall alnum id.
Definition messages_ok (ms : list msg) : Prop := NoDup (map mid ms) /\ forall m, In m ms -> id_ok (mid m).
(** A store as the program makes it. *)
Definition station_ok (i : inst) : Prop :=
  0 < i_groupsize i /\ store_ok (i_groupsize i) (i_keys i) /\ messages_ok (i_messages i).
(** Nothing but messages and used flags of keys differs; no used flag is cleared. *)
Definition messages_only (i i' : inst) : Prop :=
  i' = set_messages (set_keys i (i_keys i')) (i_messages i') /\ more_used (i_keys i) (i_keys i').
(** The message [m] was enciphered with keys that were unused, which are now
    marked used: [ks] before, [ks'] after. *)
Definition freshly_enciphered (gs : Z) (ks ks' : list key) (m : msg) (js : list nat) : Prop :=
  message gs ks js (map canon (mplain m)) (mcipher m) /\
  (exists j k, hd_error js = Some j /\ nth_error ks j = Some k /\ mkeyid m = kid k) /\ NoDup js /\
  (forall j, In j js -> exists k, nth_error ks j = Some k /\ eligible gs (mrecipients m) k) /\
  marked_used js ks ks'.
