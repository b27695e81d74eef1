(** Small specification vocabulary for the property theorems. Of the model only
    the data types (Model_Types: key, msg, inst) are used here. *)
From Verif Require Import Base Model_Types.

(** Letters A..Z and texts of letters. *)
Definition is_letter (c : rune) : Prop := 65 <= c <= 90.
Definition letters (s : list rune) : Prop := Forall is_letter s.

(** The DIANA rule: third letter of the trigraph of row [x], column [k]. *)
Definition diana_letter (x k : rune) : rune := 65 + (25 - (x - 65) - (k - 65)) mod 26.

(** Letterwise DIANA of a text with a key (as long as the shorter one). *)
Fixpoint diana_text (key text : list rune) : list rune :=
  match key, text with
  | k :: key', x :: text' => diana_letter k x :: diana_text key' text'
  | _, _ => []
  end.

(** The characters of the two printed character tables (without the control
    positions), in upper case. *)
Definition table_char (c : rune) : Prop :=
  65 <= c <= 90 \/ 48 <= c <= 57 \/
  In c [32; 63; 45; 197; 196; 214; 46; 44; 58; 43; 47].

(** The lower-case letters of the table characters: a-z, å, ä, ö. *)
Definition lower_char (c : rune) : Prop :=
  97 <= c <= 122 \/ In c [229; 228; 246].

(** The alphabet a message may use. *)
Definition supported (c : rune) : Prop := table_char c \/ lower_char c.

(** The code also accepts dotless i (U+0131) and long s (U+017F), whose upper
    case letters are I and S; they are read back as i and s. *)
Definition accepted (c : rune) : Prop := supported c \/ c = 305 \/ c = 383.
Definition canon (c : rune) : rune :=
  if c =? 305 then 105 else if c =? 383 then 115 else c.

(** A key may be used for [recips]: every recipient keeps it; without
    recipients it must have no keepers. *)
Definition for_recipients (recips : list (list rune)) (k : key) : Prop :=
  match recips with
  | [] => kkeepers k = []
  | _ => incl recips (kkeepers k)
  end.

(** What FindKey looks for. *)
Definition eligible (gs : Z) (recips : list (list rune)) (k : key) : Prop :=
  kused k = false /\ len (kid k) = gs /\ for_recipients recips k.

(** A store as key generation makes it: distinct IDs of [gs] letters, key text
    of letters. *)
Definition store_ok (gs : Z) (ks : list key) : Prop :=
  NoDup (map kid ks) /\
  forall k, In k ks -> letters (kid k) /\ len (kid k) = gs /\ letters (krunes k).

(** The station with store [ks] holds the same key (ID and key text). *)
Definition holds (ks : list key) (k : key) : Prop :=
  exists k', In k' ks /\ kid k' = kid k /\ krunes k' = krunes k.

(** Two stores that differ in nothing but used flags. *)
Definition same_but_used (ks ks' : list key) : Prop :=
  map (fun k => set_used k false) ks = map (fun k => set_used k false) ks'.

(** *** The manual coding scheme, as printed on key pages
    Primary table: a letter stands for itself, Q for space, Z changes table.
    Secondary table: A.. stand for the characters below, X changes case, Y
    announces the ID of the next key, Z changes table; W announces binary data,
    which is not supported, so nothing may follow it. *)
Definition primary_chars : list rune :=
  [65;66;67;68;69;70;71;72;73;74;75;76;77;78;79;80; 32; 82;83;84;85;86;87;88;89].
Definition secondary_chars : list rune :=
  [48;49;50;51;52;53;54;55;56;57; 63; 45; 197; 196; 214; 46; 81; 44; 90; 58; 43; 47].

Definition lower_case (c : rune) : rune :=
  if (65 <=? c) && (c <=? 90) || existsb (Z.eqb c) [197; 196; 214] then c + 32 else c.

(** [read_part sec sh s]: the text coded by [s], starting in the secondary
    table iff [sec] and in lower case iff [sh]; and, if the text ends in a key
    change, the letters following Y. [None]: not a valid coding. *)
Fixpoint read_part (sec sh : bool) (s : list rune) : option (list rune * option (list rune)) :=
  match s with
  | [] => Some ([], None)
  | c :: s' =>
      if c =? 90 then read_part (negb sec) sh s'
      else if sec && (c =? 88) then read_part sec (negb sh) s'
      else if sec && (c =? 89) then Some ([], Some s')
      else if sec && (c =? 87) then match s' with [] => Some ([], None) | _ => None end
      else if c <? 65 then None
      else match nth_error (if sec then secondary_chars else primary_chars) (Z.to_nat (c - 65)) with
           | None => None
           | Some ch =>
               match read_part sec sh s' with
               | Some (p, tl) => Some ((if sh then lower_case ch else ch) :: p, tl)
               | None => None
               end
           end
  end.

(** [message gs ks js text cipher]: [cipher] consists of parts, part number n
    enciphered with the beginning of key number [nth js n]; each part but the
    last ends by naming the key of the next part; the parts read [text]. *)
Inductive message (gs : Z) (ks : list key) : list nat -> list rune -> list rune -> Prop :=
| message_last : forall j k s p tl,
    nth_error ks j = Some k -> letters s -> (length s <= length (krunes k))%nat ->
    read_part false false s = Some (p, tl) ->
    match tl with None => True | Some id => len id < gs end ->
    message gs ks [j] p (diana_text (krunes k) s)
| message_next : forall j k s p j' k' js p' c',
    nth_error ks j = Some k -> letters s -> (length s <= length (krunes k))%nat ->
    nth_error ks j' = Some k' -> read_part false false s = Some (p, Some (kid k')) ->
    message gs ks (j' :: js) p' c' ->
    message gs ks (j :: j' :: js) (p ++ p') (diana_text (krunes k) s ++ c').

(** [ks'] is [ks] with exactly the keys number [js] marked used. *)
Definition marked_used (js : list nat) (ks ks' : list key) : Prop :=
  forall j, nth_error ks' j =
    option_map (fun k => if existsb (Nat.eqb j) js then set_used k true else k) (nth_error ks j).

(** [layout s t]: the letters of [s], in either case, are [t]; everything else
    in [s] is white space or '='. *)
Inductive layout : list rune -> list rune -> Prop :=
| layout_nil : layout [] []
| layout_sep : forall c s t, In c [9; 10; 11; 12; 13; 32; 133; 160; 61] ->
    layout s t -> layout (c :: s) t
| layout_letter : forall u c s t, is_letter u -> c = u \/ c = u + 32 ->
    layout s t -> layout (c :: s) (u :: t).

(** A query that names [id]: any letter case, white space around. *)
Definition white (c : rune) : Prop := In c [9; 10; 11; 12; 13; 32; 133; 160].
Definition query_for (id q : list rune) : Prop :=
  exists a s b, q = a ++ s ++ b /\ Forall white a /\ Forall white b /\
    Forall2 (fun c u => c = u \/ c = u + 32) s id.

(** *** Texts, lists of texts *)
(** Items separated by [sep]. *)
Fixpoint join (sep : list rune) (l : list (list rune)) : list rune :=
  match l with
  | [] => []
  | [x] => x
  | x :: l' => x ++ sep ++ join sep l'
  end.

(** Same letter of Latin-1 up to case. *)
Definition case_pair (u l : rune) : Prop :=
  (65 <= u <= 90 \/ 192 <= u <= 222 /\ u <> 215) /\ l = u + 32.
Definition same_letter (a b : rune) : Prop := a = b \/ case_pair a b \/ case_pair b a.

(** [x] is the largest (smallest) element of [l]. *)
Definition greatest (x : Z) (l : list Z) : Prop := In x l /\ forall y, In y l -> y <= x.
Definition least (x : Z) (l : list Z) : Prop := In x l /\ forall y, In y l -> x <= y.

(** Equal up to letter case, [up] being the upper-case mapping. *)
Definition same_text (up : rune -> rune) (a b : list rune) : Prop := map up a = map up b.
Definition distinct_texts (up : rune -> rune) (l : list (list rune)) : Prop := NoDup (map (map up) l).
Definition distinct_ids (up : rune -> rune) (ks : list key) : Prop := distinct_texts up (map kid ks).
Definition same_textb (up : rune -> rune) (a b : list rune) : bool :=
  if list_eq_dec Z.eq_dec (map up a) (map up b) then true else false.
(** Some key of [ks] has ID [id] up to case. *)
Definition taken (up : rune -> rune) (ks : list key) (id : list rune) : bool :=
  existsb (fun k => same_textb up (kid k) id) ks.

(** A table line: field number n, followed by at least one space, fills a
    column of width number n. *)
Inductive columns : list Z -> list (list rune) -> list rune -> Prop :=
| columns_nil : columns [] [] []
| columns_cons : forall w ws s ss n line, len s < w -> len s + Z.of_nat n = w ->
    columns ws ss line -> columns (w :: ws) (s :: ss) (s ++ repeat 32 n ++ line).

(** Words of the key summary. *)
Definition yes_no (b : bool) : list rune := if b then [89; 101; 115] else [78; 111].
Definition str_anonymous : list rune := [65; 110; 111; 110; 121; 109; 111; 117; 115].
Definition str_id : list rune := [73; 68].
Definition str_keepers : list rune := [75; 69; 69; 80; 69; 82; 83].
Definition str_created : list rune := [67; 82; 69; 65; 84; 69; 68].
Definition str_expires : list rune := [69; 88; 80; 73; 82; 69; 83].
Definition str_used : list rune := [85; 83; 69; 68].
Definition str_compromised : list rune := [67; 79; 77; 80; 82; 79; 77; 73; 83; 69; 68].
Definition str_comment : list rune := [67; 79; 77; 77; 69; 78; 84].

(** *** Radiograms *)
Definition digit (c : rune) : Prop := 48 <= c <= 57.
(** Characters of call-signs: letters, digits, '/'. *)
Definition call_char (c : rune) : Prop := is_letter c \/ digit c \/ c = 47.
Definition call_sign (s : list rune) : Prop := s <> [] /\ Forall call_char s.
(** ASCII letters and digits. *)
Definition alnum (c : rune) : Prop := is_letter c \/ 97 <= c <= 122 \/ digit c.
(** A Date-Time Group as printed: six digits, zone, month, year; 012345AJAN23. *)
Definition month_names : list (list rune) :=
  [[74; 65; 78]; [70; 69; 66]; [77; 65; 82]; [65; 80; 82]; [77; 65; 89]; [74; 85; 78];
   [74; 85; 76]; [65; 85; 71]; [83; 69; 80]; [79; 67; 84]; [78; 79; 86]; [68; 69; 67]].
Definition dtg_text (s : list rune) : Prop := exists d z m y, s = d ++ [z] ++ m ++ y /\
  length d = 6%nat /\ Forall digit d /\ is_letter z /\ In m month_names /\
  length y = 2%nat /\ Forall digit y.
(** [s] is the number [n] in decimal digits, without leading zeros. *)
Definition decimal (s : list rune) (n : Z) : Prop :=
  s <> [] /\ Forall digit s /\ fold_left (fun v c => 10 * v + (c - 48)) s 0 = n /\
  (forall r, s = 48 :: r -> r = []).
(** The short form of a radiogram: VQ AB1 DE OS 012345AJAN23 12 = TEXT = K *)
Definition short_radiogram (to : list (list rune)) (from dtg count text : list rune) : list rune :=
  match to with [] => [] | _ => join [32] to ++ [32] end ++
  [68; 69; 32] ++ from ++ [32] ++ dtg ++ [32] ++ count ++ [32; 61; 32] ++ text ++ [32; 61; 32; 75].
(** *** Printed pages *)
(** Texts, each followed by [brk]. *)
Definition page_text (brk : list rune) (p : list (list rune)) : list rune :=
  concat (map (fun t => t ++ brk) p).
(** Number of rows of texts of [height] rows, each followed by [gap] rows. *)
Definition page_rows (height : list rune -> Z) (gap : Z) (p : list (list rune)) : Z :=
  fold_right (fun t n => height t + gap + n) 0 p.
