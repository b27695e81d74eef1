(** Model of the parts of Go's [unicode] and [strings] packages the code uses.
    Latin-1 and the two runes outside Latin-1 whose upper case lies in Latin-1
    are concrete; all other runes are an oracle. Definitions only. *)
From Verif Require Import Base.

(** What the [unicode] package answers for runes that are neither in Latin-1
    nor U+0131 or U+017F. *)
Record Uni := mkUni {
  u_upper : rune -> rune;
  u_lower : rune -> rune;
  u_isupper : rune -> bool;
  u_islower : rune -> bool;
  u_isspace : rune -> bool
}.

Definition in_latin1 (r : rune) : bool := (0 <=? r) && (r <=? 255).

(** unicode.ToUpper *)
Definition to_upper (U : Uni) (r : rune) : rune :=
  if in_latin1 r then
    if (97 <=? r) && (r <=? 122) then r - 32          (* a-z *)
    else if r =? 181 then 924                           (* U+00B5 -> U+039C *)
    else if (224 <=? r) && (r <=? 254) && negb (r =? 247) then r - 32
    else if r =? 255 then 376                           (* U+00FF -> U+0178 *)
    else r
  else if r =? 305 then 73                              (* U+0131 -> I *)
  else if r =? 383 then 83                              (* U+017F -> S *)
  else u_upper U r.

(** unicode.ToLower *)
Definition to_lower (U : Uni) (r : rune) : rune :=
  if in_latin1 r then
    if (65 <=? r) && (r <=? 90) then r + 32
    else if (192 <=? r) && (r <=? 222) && negb (r =? 215) then r + 32
    else r
  else if (r =? 305) || (r =? 383) then r
  else u_lower U r.

(** unicode.IsUpper *)
Definition is_upper (U : Uni) (r : rune) : bool :=
  if in_latin1 r then
    ((65 <=? r) && (r <=? 90)) || ((192 <=? r) && (r <=? 222) && negb (r =? 215))
  else if (r =? 305) || (r =? 383) then false
  else u_isupper U r.

(** unicode.IsLower *)
Definition is_lower (U : Uni) (r : rune) : bool :=
  if in_latin1 r then
    ((97 <=? r) && (r <=? 122)) || (r =? 181)
    || ((223 <=? r) && (r <=? 255) && negb (r =? 247))
  else if (r =? 305) || (r =? 383) then true
  else u_islower U r.

(** unicode.IsSpace *)
Definition is_space (U : Uni) (r : rune) : bool :=
  if in_latin1 r then
    ((9 <=? r) && (r <=? 13)) || (r =? 32) || (r =? 133) || (r =? 160)
  else if (r =? 305) || (r =? 383) then false
  else u_isspace U r.

(** The assumptions on the oracle, all of them facts about the Unicode
    character database: no further rune has its upper case in Latin-1; upper
    case is idempotent; changing to upper case does not make or remove white
    space (the middle and last ones are only used for call-sign vetting). *)
Definition uni_ok (U : Uni) : Prop :=
  forall r, in_latin1 r = false -> r <> 305 -> r <> 383 ->
    in_latin1 (u_upper U r) = false.

Definition uni_upper_idem (U : Uni) : Prop :=
  forall r, to_upper U (to_upper U r) = to_upper U r.

Definition uni_space_upper (U : Uni) : Prop :=
  forall r, is_space U (to_upper U r) = is_space U r.

(** U+212A, the Kelvin sign, which matches the letter k in a regular expression
    that ignores case, is an upper-case letter (used for radiograms). *)
Definition uni_kelvin (U : Uni) : Prop := to_upper U 8490 = 8490 /\ is_space U 8490 = false.

(** An instance satisfying the assumptions (used in examples). *)
Definition uni_id : Uni :=
  mkUni (fun r => r) (fun r => r) (fun _ => false) (fun _ => false) (fun _ => false).

(** [string(runes)]: a Go string is represented by its runes; conversion
    replaces values that are not Unicode scalar values by U+FFFD. *)
Definition valid_rune (r : rune) : bool :=
  ((0 <=? r) && (r <? 55296)) || ((57344 <=? r) && (r <=? 1114111)).
Definition go_string (s : list rune) : list rune :=
  map (fun r => if valid_rune r then r else 65533) s.

(** strings.ToUpper on the runes of a string. *)
Definition str_upper (U : Uni) (s : list rune) : list rune := map (to_upper U) s.

(** strings.TrimSpace on the runes of a string. *)
Fixpoint drop_while (f : rune -> bool) (s : list rune) : list rune :=
  match s with
  | [] => []
  | c :: s' => if f c then drop_while f s' else s
  end.
Definition trim_space (U : Uni) (s : list rune) : list rune :=
  rev (drop_while (is_space U) (rev (drop_while (is_space U) s))).

(** strings.FieldsFunc *)
Fixpoint fields_func_aux (f : rune -> bool) (s cur : list rune) : list (list rune) :=
  match s with
  | [] => match cur with [] => [] | _ => [rev cur] end
  | c :: s' =>
      if f c then
        match cur with
        | [] => fields_func_aux f s' []
        | _ => rev cur :: fields_func_aux f s' []
        end
      else fields_func_aux f s' (c :: cur)
  end.
Definition fields_func (f : rune -> bool) (s : list rune) : list (list rune) :=
  fields_func_aux f s [].

(** Equality of rune slices as Go strings. *)
Fixpoint runes_eqb (a b : list rune) : bool :=
  match a, b with
  | [], [] => true
  | x :: a', y :: b' => (x =? y) && runes_eqb a' b'
  | _, _ => false
  end.
