(** Model of functions.go. Definitions only. *)
From Verif Require Import Base Model_Unicode Model_Crand.

(** functions.go:16-25 TrimRightRuneFunc: drop elements from the end while [f]
    holds. The loop index counts down from len(s). *)
Fixpoint trim_right_loop (i : nat) (s : list rune) (f : rune -> bool) : list rune :=
  match i with
  | O => s
  | S i' =>
      match nth_error s i' with
      | Some c => if f c then trim_right_loop i' (firstn i' s) f else s
      | None => s
      end
  end.
Definition trim_right_rune_func (s : list rune) (f : rune -> bool) : list rune :=
  trim_right_loop (length s) s f.

(** functions.go:38-47, one character of RandomAlnumRunes. *)
Definition alnum_of (num : Z) : rune :=
  if num <? 26 then num + 65
  else if (26 <=? num) && (num <? 52) then num - 26 + 97
  else if 52 <=? num then num - 52 + 48
  else 0.

(** functions.go:35-50 RandomAlnumRunes *)
Fixpoint random_alnum_runes (n : nat) (t : tape) : res (list rune * tape) :=
  match n with
  | O => Ok ([], t)
  | S n' =>
      let* (num, t1) := intn (26 + 26 + 10) t in
      let* (rest, t2) := random_alnum_runes n' t1 in
      Ok (alnum_of num :: rest, t2)
  end.

(** krypto431_linux.go:3 / krypto431_windows.go:3 LineBreak *)
Definition lb_unix : list rune := [10].
Definition lb_windows : list rune := [13; 10].

(** functions.go:71-87, the loop of groups; [rest] are the runes from index i
    on, so [rest = [c]] is [i == len(input)-1]. *)
Fixpoint groups_loop (lb : list rune) (gs columns : Z) (rest : list rune)
    (runeCount outCount : Z) (output : list rune) : list rune :=
  match rest with
  | [] => output
  | c :: rest' =>
      let output1 := output ++ [c] in
      let outCount1 := outCount + 1 in
      let runeCount1 := runeCount + 1 in
      if runeCount1 =? gs then
        match rest' with
        | [] => groups_loop lb gs columns rest' 0 outCount1 output1
        | _ :: _ =>
            if (0 <? columns) && (columns - gs - 1 <=? outCount1) then
              groups_loop lb gs columns rest' 0 0 (output1 ++ lb)
            else
              groups_loop lb gs columns rest' 0 (outCount1 + 1) (output1 ++ [32])
        end
      else groups_loop lb gs columns rest' runeCount1 outCount1 output1
  end.

(** functions.go:61-89 groups. The capacity computation of line 68 is not
    modelled (no observable effect). *)
Definition groups (lb : list rune) (input : option (list rune)) (gs columns : Z)
  : res (list rune) :=
  match input with
  | None => Err ErrNilPointer
  | Some s => if gs <=? 0 then Err ErrGroupSize
              else Ok (groups_loop lb gs columns s 0 0 [])
  end.

(** functions.go:223-239 EqualRunes; [None] is a nil pointer. *)
Definition equal_runes (a b : option (list rune)) : bool :=
  match a, b with
  | None, None => true
  | None, _ | _, None => false
  | Some x, Some y =>
      if negb (len x =? len y) then false
      else forallb (fun p => fst p =? snd p) (combine x y)
  end.

(** functions.go:243-259 EqualRunesFold *)
Definition equal_runes_fold (U : Uni) (a b : option (list rune)) : bool :=
  match a, b with
  | None, None => true
  | None, _ | _, None => false
  | Some x, Some y =>
      if negb (len x =? len y) then false
      else forallb (fun p => to_upper U (fst p) =? to_upper U (snd p)) (combine x y)
  end.

(** functions.go:95-118 AllNeedlesInHaystack; [ci] is the optional last
    argument (false when absent). *)
Definition all_needles (U : Uni) (needles haystack : option (list (list rune)))
    (ci : bool) : bool :=
  match needles, haystack with
  | Some ns, Some hs =>
      if (len ns =? 0) || (len hs =? 0) then false
      else forallb (fun n =>
             existsb (fun h => if ci then equal_runes_fold U (Some h) (Some n)
                               else equal_runes (Some h) (Some n)) hs) ns
  | _, _ => false
  end.

(** functions.go:120-135 AnyNeedleInHaystack *)
Definition any_needle (needles haystack : option (list (list rune))) : bool :=
  match needles, haystack with
  | Some ns, Some hs =>
      if (len ns =? 0) || (len hs =? 0) then false
      else existsb (fun n => existsb (fun h => equal_runes (Some h) (Some n)) hs) ns
  | _, _ => false
  end.

(** functions.go:137-150 AnyOfThem *)
Definition any_of_them (haystack : option (list (list rune))) (needle : option (list rune))
  : bool :=
  match haystack, needle with
  | Some hs, Some n =>
      if len n =? 0 then false
      else existsb (fun h => equal_runes (Some h) (Some n)) hs
  | _, _ => false
  end.

(** functions.go:154-165 RunesToStrings, JoinRunesToString *)
Definition runes_to_strings (rs : list (list rune)) : list (list rune) := map go_string rs.
Fixpoint str_join (ss : list (list rune)) (sep : list rune) : list rune :=
  match ss with
  | [] => []
  | [s] => s
  | s :: ss' => s ++ sep ++ str_join ss' sep
  end.
Definition join_runes (rs : list (list rune)) (sep : list rune) : list rune :=
  str_join (runes_to_strings rs) sep.

(** functions.go:171-173 the separator predicate *)
Definition keeper_sep (c : rune) : bool := (c =? 44) || (c =? 32).

(** functions.go:170-184 VettedKeepers (also VettedRecipients, VettedCallSigns,
    VettedKeys, 187-199). *)
Definition vetted_keepers (U : Uni) (keepers : list (list rune)) : list (list rune) :=
  flat_map (fun s =>
    flat_map (fun sub =>
      let v := str_upper U (trim_space U sub) in
      if 0 <? len v then [v] else [])
      (fields_func keeper_sep s)) keepers.

(** functions.go:204-219 VettedMessageIds *)
Definition vetted_message_ids (U : Uni) (ids : list (list rune)) : list (list rune) :=
  flat_map (fun s =>
    flat_map (fun sub =>
      let v := trim_space U sub in
      if 0 <? len v then [v] else [])
      (fields_func keeper_sep s)) ids.

(** functions.go:265-285 ColumnSizes; [headers] are the lengths of the header
    strings. Line 269 admits [col = len(headerFields)], line 270 then panics. *)
Fixpoint column_sizes_row (cols : list (list rune)) (col : nat) (headers : list Z)
    (sizes : list Z) : res (list Z) :=
  match cols with
  | [] => Ok sizes
  | c :: cols' =>
      let ilen := len c in
      let* ilen1 :=
        (if Z.of_nat col <=? len headers then
           match nth_error headers col with
           | None => Panic
           | Some h => Ok (if ilen <? h then h else ilen)
           end
         else Ok ilen) in
      let sizes1 :=
        if len sizes <=? Z.of_nat col then sizes ++ [ilen1]
        else match nth_error sizes col with
             | Some s => if s <? ilen1 then list_update sizes col ilen1 else sizes
             | None => sizes
             end in
      column_sizes_row cols' (S col) headers sizes1
  end.
Fixpoint column_sizes_loop (rs : list (list (list rune))) (headers : list Z)
    (sizes : list Z) : res (list Z) :=
  match rs with
  | [] => Ok sizes
  | item :: rs' =>
      let* sizes1 := column_sizes_row item 0 headers sizes in
      column_sizes_loop rs' headers sizes1
  end.
Definition column_sizes (rs : list (list (list rune))) (headers : list Z) : res (list Z) :=
  column_sizes_loop rs headers [].

(** functions.go:373-383 padding, withPadding *)
Definition padding (s : list rune) (fieldLength : Z) : list rune :=
  repeat 32 (Z.to_nat (fieldLength - len s)).
Definition with_padding (s : list rune) (fieldLength : Z) : list rune :=
  s ++ padding s fieldLength.

(** functions.go:386-413 HighestInt, LowestInt (64-bit ints) *)
Definition min_int : Z := - 2 ^ 63.
Definition max_int : Z := 2 ^ 63 - 1.
Definition highest_int (ns : list Z) : Z :=
  if len ns =? 0 then 0
  else fold_left (fun h n => if h <? n then n else h) ns min_int.
Definition lowest_int (ns : list Z) : Z :=
  if len ns =? 0 then 0
  else fold_left (fun l n => if n <? l then n else l) ns max_int.

(** functions.go:416-423, 430-437 RuneCopy, ByteCopy (contents of the fresh
    slice). *)
Definition rune_copy (src : option (list rune)) : list rune :=
  match src with None => [] | Some s => s end.
Definition byte_copy (src : option (list Z)) : list Z :=
  match src with None => [] | Some s => s end.
