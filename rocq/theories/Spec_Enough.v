(** Vocabulary for the question whether the keys are enough for a text: how many
    letters a text takes when it is coded by hand, and where it has to go on
    with the next key. Nothing but the lengths of the keys matters. *)
From Verif Require Import Base Spec Model_Types.

(** The capital of a letter of the tables; small and capital letters. *)
Definition capital (c : rune) : rune :=
  if (97 <=? c) && (c <=? 122) || existsb (Z.eqb c) [229; 228; 246] then c - 32 else c.
Definition small (c : rune) : bool := negb (capital (canon c) =? canon c).
Definition large (c : rune) : bool := negb (lower_case c =? c).

(** Characters that can be coded; those of the secondary table. *)
Definition codable (c : rune) : bool :=
  existsb (Z.eqb (capital (canon c))) (primary_chars ++ secondary_chars).
Definition figure (c : rune) : bool := existsb (Z.eqb (capital (canon c))) secondary_chars.

(** Does [c] need a change of case, small letters being in force iff [sh]? *)
Definition turn (sh : bool) (c : rune) : bool := if sh then large c else small c.

(** Code letters for [c], the secondary table being in force iff [sec]: Z
    changes table, X (in the secondary table) changes case. *)
Definition cost (sec sh : bool) (c : rune) : Z :=
  if turn sh c then (if sec then 0 else 1) + 1 + (if figure c then 0 else 1) + 1
  else (if Bool.eqb sec (figure c) then 0 else 1) + 1.

(** [plan gs room rest sec sh n over text]: what becomes of [text], when [n]
    letters are coded with a key of [room] letters and keys of [rest] letters
    are left. A key is given up when its letters without a group and two are
    coded; the change takes Z (out of the primary table), Y and a group. [over]:
    some part turned out longer than its key. *)
Fixpoint plan (gs room : Z) (rest : list Z) (sec sh : bool) (n : Z) (over : bool)
    (text : list rune) : res unit :=
  match text with
  | [] => if over then Err ErrChunkKeyTooShort else Ok tt
  | c :: text' =>
      if room - gs - 2 <=? n then
        match rest with
        | [] => Err ErrOutOfKeys
        | r :: rest' =>
            if codable c then
              plan gs r rest' (figure c) (turn false c) (cost false false c)
                (over || (room <? n + (if sec then 0 else 1) + 1 + gs)) text'
            else Panic
        end
      else if codable c then
        plan gs room rest (figure c) (xorb sh (turn sh c)) (n + cost sec sh c) over text'
      else Panic
  end.

(** The keys of the store that may be used, in order; their lengths. *)
Definition eligibleb (gs : Z) (recips : list (list rune)) (k : key) : bool :=
  negb (kused k) && (len (kid k) =? gs) &&
  match recips with
  | [] => match kkeepers k with [] => true | _ => false end
  | _ => forallb (fun r => existsb (fun x => if list_eq_dec Z.eq_dec x r then true else false)
                             (kkeepers k)) recips
  end.
Definition rooms (gs : Z) (recips : list (list rune)) (ks : list key) : list Z :=
  map (fun k => len (krunes k)) (filter (eligibleb gs recips) ks).

(** What becomes of [text] with keys of these lengths. *)
Definition outcome (gs : Z) (ls : list Z) (text : list rune) : res unit :=
  match ls with
  | [] => Err ErrNoEligibleKey
  | l :: rest => plan gs l rest false false 0 false text
  end.

Definition total (l : list Z) : Z := fold_right Z.add 0 l.
