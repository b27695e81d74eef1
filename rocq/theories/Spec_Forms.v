(** Specification vocabulary: the forms of radiograms ParseRadiogram documents
    (HelpTextRadiogram). *)
From Verif Require Import Base Model_Unicode Spec.

(** A Date-Time Group, abbreviated or full: 012345, 012345Z, 012345ZDEC,
    012345ZDEC22; the month may be Swedish. *)
Definition dtg_form (d : list rune) : Prop := exists d6 z m y, d = d6 ++ z ++ m ++ y /\
  length d6 = 6%nat /\ Forall digit d6 /\ (z = [] \/ exists c, z = [c] /\ is_letter c) /\
  (m = [] \/ z <> [] /\ In m (month_names ++ [[77; 65; 74]; [79; 75; 84]])) /\
  (y = [] \/ length y = 2%nat /\ Forall digit y).

(** A word with the space before it; nothing, if it is empty. *)
Definition word (w : list rune) : list rune := match w with [] => [] | _ => 32 :: w end.

(** TO TO DE FROM DTG *)
Definition header (to : list (list rune)) (from d : list rune) : list rune :=
  match to with [] => [] | _ => join [32] to ++ [32] end ++ [68; 69] ++ word from ++ word d.

(** What stands between header and text. *)
Inductive form :=
| FullForm (addresses instructions count : list rune)     (* == XY ZZ/P == COL 3 = *)
| SemiForm (addresses : list rune)                        (* == VJ QJ 3 = *)
| ShortForm (instructions count : list rune)              (* COL 3 = *)
| NoForm.                                                 (* nothing *)
Definition middle (f : form) : list rune :=
  match f with
  | FullForm a p n => [32; 61; 61; 32] ++ a ++ [32; 61; 61; 32] ++ p ++ n ++ [32; 61; 32]
  | SemiForm a => [32; 61; 61; 32] ++ a ++ [32; 61; 32]
  | ShortForm p n => word p ++ word n ++ [32; 61; 32]
  | NoForm => [32]
  end.
Definition addresses_ok (a : list rune) : Prop :=
  Forall (fun c => call_char c \/ c = 44 \/ c = 32) a /\ exists c r, a = c :: r /\ c <> 32.
Definition form_ok (f : form) : Prop :=
  match f with
  | FullForm a p n => addresses_ok a /\ Forall (fun c => is_letter c \/ c = 32) p /\ (forall r, p <> 32 :: r) /\
      Forall digit n /\ p ++ n <> []
  | SemiForm a => addresses_ok a
  | ShortForm p n => Forall is_letter p /\ (length p <= 4)%nat /\ p <> [68; 69] /\
      Forall digit n /\ (length n <= 4)%nat
  | NoForm => True
  end.

(** The signs that end a radiogram: = K, K, = +, +, [AR], = AR. *)
Definition endings : list (list rune) :=
  [[32; 61; 32; 75]; [32; 75]; [32; 61; 32; 43]; [32; 43]; [32; 91; 65; 82; 93]; [32; 61; 32; 65; 82]].
(** White space. *)
Definition white (c : rune) : Prop := In c [9; 10; 12; 13; 32].
(** What is taken for such a sign at the end of a text without one: = K, K after
    white space, = AR, [AR], in either case (the Kelvin sign for K). *)
Definition a_k (c : rune) : Prop := In c [75; 107; 8490].
Definition an_ar (a r : rune) : Prop := (a = 65 \/ a = 97) /\ (r = 82 \/ r = 114).
Inductive sign_off : list rune -> Prop :=
| off_k s k : white s -> a_k k -> sign_off [s; k]
| off_eq_k w k : Forall white w -> a_k k -> sign_off (61 :: w ++ [k])
| off_ar a r : an_ar a r -> sign_off [91; a; r; 93]
| off_eq_ar w a r : Forall white w -> an_ar a r -> sign_off (61 :: w ++ [a; r]).
Definition ended (text ending : list rune) : Prop :=
  In ending endings \/ (ending = [] /\ forall r e, text = r ++ e -> ~ sign_off e).

(** White space, DE, white space. *)
Definition de_inside (s : list rune) : Prop := exists a s1 d e s2 b, s = a ++ [s1; d; e; s2] ++ b /\
  white s1 /\ (d = 68 \/ d = 100) /\ (e = 69 \/ e = 101) /\ white s2.

(** What a form asks of the text after it. *)
Definition fits (f : form) (d text ending : list rune) : Prop :=
  match f with
  | FullForm _ _ _ => True
  | SemiForm _ | ShortForm _ _ => forall a b, text <> a ++ 61 :: 61 :: b
  | NoForm => ~ In 61 (text ++ ending) /\ ~ de_inside (32 :: text ++ ending) /\
      (d = [] -> forall x r, text = x ++ r -> length x = 6%nat -> ~ Forall digit x)
  end.

(** A text of one line that neither begins nor ends in white space, nor ends in
    + or =. *)
Definition text_ok (U : Uni) (text : list rune) : Prop :=
  (exists c r, text = c :: r /\ is_space U c = false) /\
  (exists r c, text = r ++ [c] /\ is_space U c = false /\ c <> 43 /\ c <> 61) /\ ~ In 10 text.
