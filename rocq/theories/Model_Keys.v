(** Model of keys.go on the value level. Points in time are integers
    (nanoseconds); [dtg_string] stands for DTG.String() of the dtg library.
    Definitions only. *)
From Verif Require Import Base Model_Unicode Model_Crand Model_Functions Model_Types.

Section WithUnicode.
Context (U : Uni).

(** keys.go:21-31 ContainsKeyId; a nil pointer gives false, not modelled. *)
Definition contains_key_id (ks : list key) (id : list rune) : bool :=
  existsb (fun k => equal_runes_fold U (Some (kid k)) (Some id)) ks.

(** keys.go:33-41 ContainsKeeper *)
Definition contains_keeper (keepers args : list (list rune)) : bool :=
  if len args =? 0 then len keepers =? 0
  else all_needles U (Some args) (Some keepers) true.

(** [l[i] = l[len(l)-1]; l = l[:len(l)-1]] (keys.go:92-93, 159-160,
    messages.go:308-309, 330-331). *)
Definition swap_remove {A} (l : list A) (i : nat) : list A :=
  match nth_error l (length l - 1) with
  | Some z => firstn (length l - 1) (list_update l i z)
  | None => l
  end.

(** Index of the first element satisfying [f]. *)
Fixpoint index_of {A} (f : A -> bool) (l : list A) (i : nat) : option nat :=
  match l with
  | [] => None
  | x :: l' => if f x then Some i else index_of f l' (S i)
  end.

(** keys.go:144-151 AddKeeper *)
Definition add_keeper1 (keepers : list (list rune)) (x : list rune) : list (list rune) :=
  if contains_keeper keepers [x] then keepers else keepers ++ [x].
Definition add_keeper (keepers : list (list rune)) (xs : list (list rune)) : list (list rune) :=
  fold_left add_keeper1 xs keepers.

(** keys.go:155-166 RemoveKeeper: the first occurrence of each argument. *)
Definition remove_keeper1 (keepers : list (list rune)) (x : list rune) : list (list rune) :=
  match index_of (fun k => equal_runes_fold U (Some x) (Some k)) keepers 0 with
  | Some i => swap_remove keepers i
  | None => keepers
  end.
Definition remove_keeper (keepers : list (list rune)) (xs : list (list rune)) : list (list rune) :=
  fold_left remove_keeper1 xs keepers.

(** keys.go:60-62, 73-75: [n] letters [rune(crand.Intn(26)) + 'A']. *)
Fixpoint random_letters (n : nat) (t : tape) : res (list rune * tape) :=
  match n with
  | O => Ok ([], t)
  | S n' =>
      let* (v, t1) := intn 26 t in
      let* (rest, t2) := random_letters n' t1 in
      Ok (v + 65 :: rest, t2)
  end.

(** keys.go:59-72: draw IDs until one is free. A round consumes at least one
    word of the tape unless the group size is 0, so [fuel] = length of the tape
    + 1 only runs out in a loop that is endless (group size 0) and the model
    then says [Diverge]. *)
Fixpoint new_id_loop (fuel : nat) (ks : list key) (gs : nat) (t : tape) : res (list rune * tape) :=
  match fuel with
  | O => Diverge
  | S f =>
      let* (id, t1) := random_letters gs t in
      if contains_key_id ks id then new_id_loop f ks gs t1 else Ok (id, t1)
  end.

(** keys.go:49 [int(math.Ceil(float64(KeyLength)/float64(GroupSize)))*GroupSize];
    the division is exact integer arithmetic here (the float64 rounding is not
    modelled; it is exact for lengths below 2^26). For a group size of 0 the
    product is 0. *)
Definition key_runes_length (keyLength gs : Z) : Z :=
  if gs =? 0 then 0 else - ((- keyLength) / gs) * gs.

(** keys.go:46-78 NewKey. Result: the instance with the key appended and the
    key. [make] with a negative length panics. *)
Definition new_key (i : inst) (now expire : Z) (keepers : list (list rune)) (t : tape)
  : res (inst * key * tape) :=
  let gs := i_groupsize i in
  let n := key_runes_length (i_keylength i) gs in
  if (gs <? 0) || (n <? 0) then Panic
  else
    let kp := remove_keeper (vetted_keepers U keepers) [i_callsign i] in
    let* (id, t1) := new_id_loop (S (length t)) (i_keys i) (Z.to_nat gs) t in
    let* (runes, t2) := random_letters (Z.to_nat n) t1 in
    let k := mkKey id runes kp now expire false false [] in
    Ok (set_keys i (i_keys i ++ [k]), k, t2).

(** keys.go:82-100 DeleteKey, one key ID: the first key with this ID up to case
    is replaced by the last one. *)
Definition delete_key1 (ks : list key) (id : list rune) : list key * Z :=
  match index_of (fun k => equal_runes_fold U (Some (kid k)) (Some id)) ks 0 with
  | Some i => (swap_remove ks i, 1)
  | None => (ks, 0)
  end.
Fixpoint delete_key (ks : list key) (ids : list (list rune)) : list key * Z :=
  match ids with
  | [] => (ks, 0)
  | id :: ids' =>
      let (ks1, n1) := delete_key1 ks id in
      let (ks2, n2) := delete_key ks1 ids' in
      (ks2, n1 + n2)
  end.

(** keys.go:104-106 DeleteKeyByString *)
Definition delete_key_by_string (ks : list key) (ids : list (list rune)) : list key * Z :=
  delete_key ks (vetted_keepers U ids).

(** strings.Cut(s, " "), first result *)
Fixpoint cut_space (s : list rune) : list rune :=
  match s with
  | [] => []
  | c :: s' => if c =? 32 then [] else c :: cut_space s'
  end.

(** keys.go:108-119 DeleteKeysBySummaryString (DeleteKeyByString never returns
    an error). *)
Fixpoint delete_keys_by_summary (ks : list key) (lines : list (list rune)) : list key * Z :=
  match lines with
  | [] => (ks, 0)
  | l :: lines' =>
      let (ks1, n1) := delete_key_by_string ks [cut_space l] in
      let (ks2, n2) := delete_keys_by_summary ks1 lines' in
      (ks2, n1 + n2)
  end.

(** keys.go:125-140 GenerateKeys. [expire]: [None] = nil pointer; otherwise the
    result of dtg.Parse ([None] = parse error). *)
Definition year : Z := 365 * 24 * 3600 * 10 ^ 9.
Fixpoint new_keys (n : nat) (i : inst) (now expire : Z) (keepers : list (list rune)) (t : tape)
  : res (inst * tape) :=
  match n with
  | O => Ok (i, t)
  | S n' =>
      let* (i1, _, t1) := new_key i now expire keepers t in
      new_keys n' i1 now expire keepers t1
  end.
Definition generate_keys (i : inst) (n : Z) (now : Z) (expire : option (option Z))
    (keepers : list (list rune)) (t : tape) : res (inst * tape) :=
  match expire with
  | None => new_keys (Z.to_nat n) i now (now + year) keepers t
  | Some None => Err ErrDTG
  | Some (Some e) => new_keys (Z.to_nat n) i now e keepers t
  end.
End WithUnicode.

(** keys.go:208-210, 233-235 IsExpired, IsValid; [now] is time.Now(). *)
Definition is_expired (now : Z) (k : key) : bool := kexpires k <? now.
Definition is_valid (now d : Z) (k : key) : bool := now + d <? kexpires k.

(** ** SummaryOfKeys *)
(** krypto431.go:71-76 Words, functions.go:312, keys.go:311-334 *)
Definition w_yes : list rune := [89; 101; 115].
Definition w_no : list rune := [78; 111].
Definition w_anonymous : list rune := [65; 110; 111; 110; 121; 109; 111; 117; 115].

(** keys.go:290 the column headers ID, KEEPERS, CREATED, EXPIRES, USED,
    COMPROMISED, COMMENT *)
Definition key_headers : list (list rune) :=
  [[73; 68]; [75; 69; 69; 80; 69; 82; 83]; [67; 82; 69; 65; 84; 69; 68];
   [69; 88; 80; 73; 82; 69; 83]; [85; 83; 69; 68];
   [67; 79; 77; 80; 82; 79; 77; 73; 83; 69; 68]; [67; 79; 77; 77; 69; 78; 84]].

(** functions.go:311-329, the keepers and comment columns; state (col1, col6). *)
Definition predict_step (c : Z * Z) (k : key) : Z * Z :=
  let c1 :=
    if len (kkeepers k) =? 0 then (if fst c <? 9 then 9 else fst c)
    else
      let kl := fold_left (fun a x => a + (len x + 1)) (kkeepers k) 0 in
      if (0 <? kl) && (fst c <? kl) then kl - 1 else fst c in
  let c6 := if snd c <? len (kcomment k) then len (kcomment k) else snd c in
  (c1, c6).

(** functions.go:291-332 predictColumnSizesOfKeys: seven column sizes. *)
Definition predict_column_sizes (gs : Z) (ks : list key) : list Z :=
  if len ks =? 0 then [0; 0; 0; 0; 0; 0; 0]
  else
    let c := fold_left predict_step ks (7, 0) in
    [gs; fst c; 12; 12; highest_int [2; 3; 4]; highest_int [2; 3; 11]; snd c].

(** keys.go:296-309 the header line *)
Fixpoint summary_header (sizes : list Z) (headers : list (list rune)) : list rune :=
  match sizes, headers with
  | [_], h :: _ => h
  | n :: sizes', h :: headers' =>
      h ++ repeat 32 (Z.to_nat (n - len h + 1)) ++ summary_header sizes' headers'
  | _, _ => []
  end.

(** keys.go:311-334 the columns of a line, concatenated *)
Definition summary_line (dtg_string : Z -> list rune) (sizes : list Z) (k : key) : list rune :=
  let sz n := nth n sizes 0 + 1 in
  with_padding (kid k) (sz 0%nat) ++
  with_padding (if 0 <? len (kkeepers k) then join_runes (kkeepers k) [44] else w_anonymous) (sz 1%nat) ++
  with_padding (dtg_string (kcreated k)) (sz 2%nat) ++
  with_padding (dtg_string (kexpires k)) (sz 3%nat) ++
  with_padding (if kused k then w_yes else w_no) (sz 4%nat) ++
  with_padding (if kcompromised k then w_yes else w_no) (sz 5%nat) ++
  with_padding (kcomment k) (sz 6%nat).

(** keys.go:278-337 SummaryOfKeys *)
Definition summary_of_keys (dtg_string : Z -> list rune) (gs : Z) (filter : key -> bool)
    (ks : list key) : list rune * list (list rune) :=
  let kp := List.filter filter ks in
  let sizes := predict_column_sizes gs kp in
  (summary_header sizes key_headers, map (summary_line dtg_string sizes) kp).
