(** Specification vocabulary for messages that go from one station to another. *)
From Verif Require Import Base Spec Model_Unicode Model_Functions Model_Types Model_Cipher Model_Print.

(** Wrapping lines does not break groups of [gs] letters. *)
Definition keeps_groups (U : Uni) (wrap : list rune -> list rune) (gs : Z) : Prop :=
  forall ws, Forall (fun w => letters w /\ len w = gs) ws -> fields U (wrap (join [32] ws)) = ws.
(** A message that can be read out: call signs, no sender called DE, a date and
    time that can be read back, less than 9999 groups. *)
Definition sendable (dp : list rune -> option Z) (dtg : Z -> list rune) (gs : Z) (m : msg) : Prop :=
  Forall call_sign (mrecipients m) /\ call_sign (mfrom m) /\ mfrom m <> [68; 69] /\
  dtg_text (dtg (mdtg m)) /\ dp (dtg (mdtg m)) = Some (mdtg m) /\ len (mcipher m) / gs < 9999.
(** What the receiver reads: [m2] is [m] as far as it was transmitted; dotless
    i and long s in the text come back as i and s. *)
Definition read_as (own : list rune) (m m2 : msg) : Prop :=
  mplain m2 = map canon (mplain m) /\ mfrom m2 = mfrom m /\ mdtg m2 = mdtg m /\
  mrecipients m2 = (match mrecipients m with [] => [own] | l => l end) /\
  mkeyid m2 = mkeyid m /\ mcipher m2 = mcipher m.
