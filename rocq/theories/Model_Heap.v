(** Model of the same operations with Go's slices as references to shared
    arrays: who refers to whose memory, and what wiping does to it. The
    value-level functions are applied to what the references show.

    Simplifications: a slice covers its array from the first element (no
    sub-slices survive an operation that is modelled here); [append] to a slice
    makes a new array; the array of [Recipients] is not shared by any modelled
    operation and is represented by its elements; [Binary] is not a reference.
    Definitions only. *)
From Verif Require Import Base Model_Unicode Model_Crand Model_Functions Model_Types
  Model_Cipher Model_Keys Model_Import Model_Messages.

(** A [[]rune] variable: nil or a reference to an array. *)
Definition slice : Type := option nat.

(** Arrays of runes and arrays of slices ([Keepers]). *)
Record heap := mkHeap { h_runes : list (list rune); h_outer : list (list slice) }.

Definition rd (h : heap) (s : slice) : list rune :=
  match s with Some a => nth a (h_runes h) [] | None => [] end.
Definition rd_outer (h : heap) (s : slice) : list slice :=
  match s with Some a => nth a (h_outer h) [] | None => [] end.
Definition wr (h : heap) (s : slice) (v : list rune) : heap :=
  match s with Some a => mkHeap (list_update (h_runes h) a v) (h_outer h) | None => h end.
Definition wr_outer (h : heap) (s : slice) (v : list slice) : heap :=
  match s with Some a => mkHeap (h_runes h) (list_update (h_outer h) a v) | None => h end.
Definition new (h : heap) (v : list rune) : heap * slice :=
  (mkHeap (h_runes h ++ [v]) (h_outer h), Some (length (h_runes h))).
Definition new_outer (h : heap) (v : list slice) : heap * slice :=
  (mkHeap (h_runes h) (h_outer h ++ [v]), Some (length (h_outer h))).
Fixpoint new_all (h : heap) (vs : list (list rune)) : heap * list slice :=
  match vs with
  | [] => (h, [])
  | v :: vs' => let (h1, s) := new h v in let (h2, ss) := new_all h1 vs' in (h2, s :: ss)
  end.

(** krypto431.go:117-127 Key *)
Record hkey := mkHKey {
  hk_id : slice; hk_runes : slice; hk_keepers : slice; hk_created : Z; hk_expires : Z;
  hk_used : bool; hk_compromised : bool; hk_comment : slice }.
(** krypto431.go:142-153 Message *)
Record hmsg := mkHMsg {
  hm_id : slice; hm_recipients : list slice; hm_from : slice; hm_dtg : Z; hm_keyid : slice;
  hm_plain : slice; hm_binary : list Z; hm_cipher : slice; hm_radiogram : slice }.
(** krypto431.go:97-112 Krypto431 *)
Record hinst := mkHInst {
  hi_groupsize : Z; hi_keylength : Z; hi_columns : Z; hi_keycolumns : Z;
  hi_keys : list hkey; hi_messages : list hmsg; hi_callsign : slice }.

(** What the references show. *)
Definition key_of (h : heap) (k : hkey) : key :=
  mkKey (rd h (hk_id k)) (rd h (hk_runes k)) (map (rd h) (rd_outer h (hk_keepers k)))
    (hk_created k) (hk_expires k) (hk_used k) (hk_compromised k) (rd h (hk_comment k)).
Definition msg_of (h : heap) (m : hmsg) : msg :=
  mkMsg (rd h (hm_id m)) (map (rd h) (hm_recipients m)) (rd h (hm_from m)) (hm_dtg m)
    (rd h (hm_keyid m)) (rd h (hm_plain m)) (hm_binary m) (rd h (hm_cipher m))
    (rd h (hm_radiogram m)).
Definition keys_of (h : heap) (i : hinst) : list key := map (key_of h) (hi_keys i).
Definition messages_of (h : heap) (i : hinst) : list msg := map (msg_of h) (hi_messages i).
Definition inst_of (h : heap) (i : hinst) : inst :=
  mkInst (hi_groupsize i) (hi_keylength i) (hi_columns i) (hi_keycolumns i)
    (keys_of h i) (messages_of h i) (rd h (hi_callsign i)).

Definition hset_used (k : hkey) (b : bool) : hkey :=
  mkHKey (hk_id k) (hk_runes k) (hk_keepers k) (hk_created k) (hk_expires k) b
    (hk_compromised k) (hk_comment k).
Definition hset_mid (m : hmsg) (x : slice) : hmsg :=
  mkHMsg x (hm_recipients m) (hm_from m) (hm_dtg m) (hm_keyid m) (hm_plain m) (hm_binary m)
    (hm_cipher m) (hm_radiogram m).
Definition hset_mrecipients (m : hmsg) (x : list slice) : hmsg :=
  mkHMsg (hm_id m) x (hm_from m) (hm_dtg m) (hm_keyid m) (hm_plain m) (hm_binary m)
    (hm_cipher m) (hm_radiogram m).
Definition hset_mkeyid (m : hmsg) (x : slice) : hmsg :=
  mkHMsg (hm_id m) (hm_recipients m) (hm_from m) (hm_dtg m) x (hm_plain m) (hm_binary m)
    (hm_cipher m) (hm_radiogram m).
Definition hset_mplain (m : hmsg) (x : slice) : hmsg :=
  mkHMsg (hm_id m) (hm_recipients m) (hm_from m) (hm_dtg m) (hm_keyid m) x (hm_binary m)
    (hm_cipher m) (hm_radiogram m).
Definition hset_mcipher (m : hmsg) (x : slice) : hmsg :=
  mkHMsg (hm_id m) (hm_recipients m) (hm_from m) (hm_dtg m) (hm_keyid m) (hm_plain m)
    (hm_binary m) x (hm_radiogram m).
Definition hset_keys (i : hinst) (ks : list hkey) : hinst :=
  mkHInst (hi_groupsize i) (hi_keylength i) (hi_columns i) (hi_keycolumns i) ks
    (hi_messages i) (hi_callsign i).
Definition hset_messages (i : hinst) (ms : list hmsg) : hinst :=
  mkHInst (hi_groupsize i) (hi_keylength i) (hi_columns i) (hi_keycolumns i) (hi_keys i)
    ms (hi_callsign i).

(** The [Used] flags of the value-level keys [ks] are written to [hks]. *)
Fixpoint set_flags (hks : list hkey) (ks : list key) : list hkey :=
  match hks, ks with
  | hk :: hks', k :: ks' => hset_used hk (kused k) :: set_flags hks' ks'
  | _, _ => hks
  end.

(** A new key or message whose slices are all new arrays. *)
Definition new_key_arrays (h : heap) (k : key) : heap * hkey :=
  let (h1, id) := new h (kid k) in
  let (h2, runes) := new h1 (krunes k) in
  let (h3, comment) := new h2 (kcomment k) in
  let (h4, inner) := new_all h3 (kkeepers k) in
  let (h5, outer) := new_outer h4 inner in
  (h5, mkHKey id runes outer (kcreated k) (kexpires k) (kused k) (kcompromised k) comment).
Definition new_msg_arrays (h : heap) (m : msg) : heap * hmsg :=
  let (h1, id) := new h (mid m) in
  let (h2, from) := new h1 (mfrom m) in
  let (h3, keyid) := new h2 (mkeyid m) in
  let (h4, plain) := new h3 (mplain m) in
  let (h5, cipher) := new h4 (mcipher m) in
  let (h6, radiogram) := new h5 (mradiogram m) in
  let (h7, recipients) := new_all h6 (mrecipients m) in
  (h7, mkHMsg id recipients from (mdtg m) keyid plain (mbinary m) cipher radiogram).
Fixpoint new_keys_arrays (h : heap) (ks : list key) : heap * list hkey :=
  match ks with
  | [] => (h, [])
  | k :: ks' =>
      let (h1, hk) := new_key_arrays h k in
      let (h2, hks) := new_keys_arrays h1 ks' in (h2, hk :: hks)
  end.
Fixpoint new_msgs_arrays (h : heap) (ms : list msg) : heap * list hmsg :=
  match ms with
  | [] => (h, [])
  | m :: ms' =>
      let (h1, hm) := new_msg_arrays h m in
      let (h2, hms) := new_msgs_arrays h1 ms' in (h2, hm :: hms)
  end.

(** persistence.go:463-474 Load into an instance without keys and messages: gob
    allocates every slice. *)
Definition loaded (i : inst) : heap * hinst :=
  let (h1, call) := new (mkHeap [] []) (i_callsign i) in
  let (h2, ks) := new_keys_arrays h1 (i_keys i) in
  let (h3, ms) := new_msgs_arrays h2 (i_messages i) in
  (h3, mkHInst (i_groupsize i) (i_keylength i) (i_columns i) (i_keycolumns i) ks ms call).

(** * Wiping *)

(** krypto431.go:173-205 Wipe, RandomWipe of a slice variable: the array is
    overwritten and the variable becomes nil; if the random source fails both
    are left as they are. *)
Definition wipe1 (h : heap) (s : slice) (t : tape) : heap * slice * tape :=
  match read_runes (length (rd h s)) t with
  | Some (r, t') => (wr h s r, None, t')
  | None => (h, s, t)
  end.

(** krypto431.go:289-303, 345-368: one round of Key.RandomWipe and of
    Message.RandomWipe; zeroes if the random source fails. *)
Definition scrub1 (h : heap) (s : slice) (t : tape) : heap * tape :=
  match read_runes (length (rd h s)) t with
  | Some (r, t') => (wr h s r, t')
  | None => (wr h s (map (fun _ => 0) (rd h s)), t)
  end.
Fixpoint scrub (h : heap) (ss : list slice) (t : tape) : heap * tape :=
  match ss with
  | [] => (h, t)
  | s :: ss' => let (h1, t1) := scrub1 h s t in scrub h1 ss' t1
  end.

(** krypto431.go:283-305 Key.RandomWipe (= Key.Wipe, useCrandWipe is true); the
    elements of [Keepers] become nil in the array they are in. *)
Definition wipe_key (h : heap) (k : hkey) (t : tape) : heap * hkey * tape :=
  let inner := rd_outer h (hk_keepers k) in
  let (h1, t1) := scrub h (hk_runes k :: hk_comment k :: hk_id k :: inner) t in
  (wr_outer h1 (hk_keepers k) (map (fun _ => None) inner),
   mkHKey None None (hk_keepers k) (hk_created k) (hk_expires k) (hk_used k)
     (hk_compromised k) None, t1).

(** krypto431.go:344-369 Message.RandomWipe (= Message.Wipe) *)
Definition wipe_msg (h : heap) (m : hmsg) (t : tape) : heap * hmsg * tape :=
  let (h1, t1) := scrub h [hm_plain m; hm_cipher m; hm_keyid m] t in
  (h1, mkHMsg (hm_id m) (hm_recipients m) (hm_from m) (hm_dtg m) None None (hm_binary m)
         None (hm_radiogram m), t1).

Fixpoint wipe_keys (h : heap) (ks : list hkey) (t : tape) : heap * tape :=
  match ks with
  | [] => (h, t)
  | k :: ks' => let '(h1, _, t1) := wipe_key h k t in wipe_keys h1 ks' t1
  end.
Fixpoint wipe_msgs (h : heap) (ms : list hmsg) (t : tape) : heap * tape :=
  match ms with
  | [] => (h, t)
  | m :: ms' => let '(h1, _, t1) := wipe_msg h m t in wipe_msgs h1 ms' t1
  end.
(** krypto431.go:669-682 Krypto431.Wipe, keys and messages (PFK and salt:
    Model_Station [wipe_station]). *)
Definition wipe_inst (h : heap) (i : hinst) (t : tape) : heap * hinst * tape :=
  let (h1, t1) := wipe_keys h (hi_keys i) t in
  let (h2, t2) := wipe_msgs h1 (hi_messages i) t1 in
  (h2, hset_messages (hset_keys i []) [], t2).

Section WithUnicode.
Context (U : Uni).

(** * Deleting *)

(** keys.go:88-98 DeleteKey, one key ID. The arguments are values: callers that
    pass the [Id] slice of a key itself are covered because the comparison
    happens before the wiping. *)
Definition hdelete_key1 (h : heap) (ks : list hkey) (id : list rune) (t : tape)
  : heap * list hkey * tape :=
  match index_of (fun k => equal_runes_fold U (Some (rd h (hk_id k))) (Some id)) ks 0 with
  | Some j =>
      match nth_error ks j with
      | Some k => let '(h1, _, t1) := wipe_key h k t in (h1, swap_remove ks j, t1)
      | None => (h, ks, t)
      end
  | None => (h, ks, t)
  end.
Fixpoint hdelete_key (h : heap) (ks : list hkey) (ids : list (list rune)) (t : tape)
  : heap * list hkey * tape :=
  match ids with
  | [] => (h, ks, t)
  | id :: ids' =>
      let '(h1, ks1, t1) := hdelete_key1 h ks id t in hdelete_key h1 ks1 ids' t1
  end.

(** messages.go:326-336 DeleteMessage *)
Definition hdelete_message1 (h : heap) (ms : list hmsg) (id : list rune) (t : tape)
  : heap * list hmsg * tape :=
  match index_of (fun m => equal_runes (Some (rd h (hm_id m))) (Some id)) ms 0 with
  | Some j =>
      match nth_error ms j with
      | Some m => let '(h1, _, t1) := wipe_msg h m t in (h1, swap_remove ms j, t1)
      | None => (h, ms, t)
      end
  | None => (h, ms, t)
  end.
Fixpoint hdelete_message (h : heap) (ms : list hmsg) (ids : list (list rune)) (t : tape)
  : heap * list hmsg * tape :=
  match ids with
  | [] => (h, ms, t)
  | id :: ids' =>
      let '(h1, ms1, t1) := hdelete_message1 h ms id t in hdelete_message h1 ms1 ids' t1
  end.

(** * Enciphering and deciphering *)

(** cipher.go:490-542: the key whose [Id] slice the message's [KeyId] becomes;
    [None] if the message keeps its own. *)
Definition chosen_key (h : heap) (i : hinst) (m : hmsg) : option hkey :=
  if 0 <? len (rd h (hm_keyid m)) then None
  else if 0 <? len (rd h (hm_cipher m)) then None
  else
    match find_key U (hi_groupsize i) (map (rd h) (hm_recipients m)) (keys_of h i) with
    | Some j => nth_error (hi_keys i) j
    | None => None
    end.

(** cipher.go:548-661 Encipher of a message of this instance. *)
Definition hencipher (h : heap) (i : hinst) (m : hmsg) (t : tape)
  : heap * hinst * hmsg * res unit * tape :=
  match ensure_id (inst_of h i) (msg_of h m) t with
  | Ok (mv, t1) =>
      let '(h1, m1) :=
        if len (rd h (hm_id m)) =? 0
        then let (h', a) := new h (mid mv) in (h', hset_mid m a) else (h, m) in
      match enrich_with_key U (hi_groupsize i) (keys_of h1 i) (msg_of h1 m1) with
      | (ks, _, Ok _) =>
          let m2 := match chosen_key h1 i m1 with
                    | Some k => hset_mkeyid m1 (hk_id k)
                    | None => m1
                    end in
          let i1 := hset_keys i (set_flags (hi_keys i) ks) in
          let '(h2, c0, t2) := wipe1 h1 (hm_cipher m2) t1 in
          let m3 := hset_mcipher m2 c0 in
          match get_key U (rd h2 (hm_keyid m3)) (keys_of h2 i1) with
          | None => (h2, i1, m3, Err ErrKeyNotFound, t2)
          | Some k0 =>
              let b := encipher_body U (hi_groupsize i) (map (rd h2) (hm_recipients m3))
                         (rd h2 (hm_plain m3)) (keys_of h2 i1) k0 (rd h2 c0) in
              let (h3, a) := new h2 (er_cipher b) in
              let m4 := hset_mcipher m3 a in
              match er_res b with
              | Ok _ => (h3, hset_keys i1 (set_flags (hi_keys i1) (er_keys b)), m4, Ok tt, t2)
              | r =>
                  let ks' := release_keys U (rd h3 (hm_keyid m4)) (er_cur b) (er_chunks b)
                               (er_keys b) in
                  let '(h4, kid', t3) := wipe1 h3 (hm_keyid m4) t2 in
                  (h4, hset_keys i1 (set_flags (hi_keys i1) ks'), hset_mkeyid m4 kid', r, t3)
              end
          end
      | (ks, _, r) =>
          (h1, hset_keys i (set_flags (hi_keys i) ks), m1, r, t1)
      end
  | Err e => (h, i, m, Err e, t)
  | Panic => (h, i, m, Panic, t)
  | Diverge => (h, i, m, Diverge, t)
  end.

(** cipher.go:741-796 TryDecipherPlainText (not a dry run). Every slice it
    assigns is a copy (RuneCopy, lines 776-789), so the message gets new arrays;
    what happens to the message's previous arrays is not represented. *)
Definition htry_decipher (h : heap) (i : hinst) (m : hmsg) (t : tape)
  : heap * hinst * hmsg * res unit * tape :=
  match try_decipher U (inst_of h i) (msg_of h m) false t with
  | (iv, mv, r, t1) =>
      let (h1, id) := new h (mid mv) in
      let (h2, keyid) := new h1 (mkeyid mv) in
      let (h3, plain) := new h2 (mplain mv) in
      let (h4, cipher) := new h3 (mcipher mv) in
      (h4, hset_keys i (set_flags (hi_keys i) (i_keys iv)),
       hset_mcipher (hset_mplain (hset_mkeyid (hset_mid m id) keyid) plain) cipher, r, t1)
  end.

(** * Creating keys and messages *)

(** keys.go:46-78 NewKey: the key in the store (line 76). *)
Definition hnew_key (h : heap) (i : hinst) (now expire : Z) (keepers : list (list rune))
    (t : tape) : heap * hinst * tape :=
  match new_key U (inst_of h i) now expire keepers t with
  | Ok (_, k, t1) =>
      let (h1, hk) := new_key_arrays h k in
      (h1, hset_keys i (hi_keys i ++ [hk]), t1)
  | _ => (h, i, t)
  end.

Section WithLibraries.
Context (line_breaks : list rune -> list rune) (dtg_parse : list rune -> option Z).

(** messages.go:120-164 NewTextMessage, with the deferred Wipe (130-135). *)
Definition hnew_text (h : heap) (i : hinst) (args : list (list rune)) (now : Z) (t : tape)
  : heap * hinst * res unit * tape :=
  match args with
  | [] => (h, i, Err ErrNoRadiogramProvided, t)
  | raw :: rest =>
      match parse_radiogram U line_breaks dtg_parse (inst_of h i) raw now t with
      | Ok (mv, t1) =>
          let (h1, m) := new_msg_arrays h mv in
          if is_my_call U (inst_of h i) mv then
            let fail h2 i2 m2 r t2 :=
              let '(h3, _, t3) := wipe_msg h2 m2 t2 in (h3, i2, r, t3) in
            let go h2 m2 :=
              match hencipher h2 i m2 t1 with
              | (h3, i3, m3, Ok _, t3) =>
                  (h3, hset_messages i3 (hi_messages i3 ++ [m3]), Ok tt, t3)
              | (h3, i3, m3, r, t3) => fail h3 i3 m3 r t3
              end in
            match rest with
            | [] => go h1 m
            | [_] => fail h1 i m Panic t1
            | _ :: keyArg :: _ =>
                let (h2, a) := new h1 (str_upper U (trim_space U keyArg)) in
                let m2 := hset_mkeyid m a in
                if negb (len (rd h2 a) =? hi_groupsize i)
                then fail h2 i m2 (Err ErrKeyIdLength) t1 else go h2 m2
            end
          else
            let m1 := if len (mrecipients mv) =? 0
                      then hset_mrecipients m [hi_callsign i] else m in
            match htry_decipher h1 i m1 t1 with
            | (h3, i3, m3, Ok _, t3) | (h3, i3, m3, Err _, t3) =>
                (h3, hset_messages i3 (hi_messages i3 ++ [m3]), Ok tt, t3)
            | (h3, i3, m3, r, t3) =>
                let '(h4, _, t4) := wipe_msg h3 m3 t3 in (h4, i3, r, t4)
            end
      | Err e => (h, i, Err e, t)
      | Panic => (h, i, Panic, t)
      | Diverge => (h, i, Diverge, t)
      end
  end.

(** * Export and import *)

(** persistence.go:488-517 ExportKeys: line 511 copies the key structures, not
    what they refer to. *)
Definition hexport (h : heap) (i : hinst) (filter : key -> bool) : heap * hinst :=
  let (h1, call) := new h (rd h (hi_callsign i)) in
  (h1, mkHInst (hi_groupsize i) (hi_keylength i) (hi_columns i) (hi_keycolumns i)
         (List.filter (fun k => filter (key_of h k)) (hi_keys i)) [] call).

(** persistence.go:571-605: the slices of the incoming key are copied; the
    sender's call-sign [from] is the slice of the incoming instance (line 603). *)
Definition himport_key (h : heap) (own : list rune) (from : slice) (k : key) : heap * hkey :=
  let keepers := remove_keeper U (kkeepers k) [own] in
  let (h1, id) := new h (kid k) in
  let (h2, runes) := new h1 (krunes k) in
  let (h3, comment) := new h2 (kcomment k) in
  let (h4, inner) := new_all h3 keepers in
  let inner1 := if contains_keeper U keepers [rd h4 from] then inner else inner ++ [from] in
  let (h5, outer) := new_outer h4 inner1 in
  (h5, mkHKey id runes outer (kcreated k) (kexpires k) (kused k) (kcompromised k) comment).

(** persistence.go:548-609 *)
Fixpoint himport_loop (gs : Z) (own : slice) (from : slice) (overwrite ask : bool)
    (filter : key -> bool) (incoming : list key) (answers : list (option bool))
    (h : heap) (ks : list hkey) (t : tape) : heap * list hkey * tape :=
  match incoming with
  | [] => (h, ks, t)
  | k :: rest =>
      let next := himport_loop gs own from overwrite ask filter rest in
      let add answers0 h0 ks0 t0 :=
        let (h1, hk) := himport_key h0 (rd h0 own) from k in next answers0 h1 (ks0 ++ [hk]) t0 in
      let replace answers0 :=
        let '(h1, ks1, t1) := hdelete_key h ks [kid k] t in add answers0 h1 ks1 t1 in
      if negb (len (kid k) =? gs) then next answers h ks t
      else if negb (filter k) then next answers h ks t
      else if contains_key_id U (map (key_of h) ks) (kid k) then
        if negb overwrite && ask then
          match answers with
          | Some true :: answers' => replace answers'
          | Some false :: answers' => next answers' h ks t
          | None :: _ | [] => (h, ks, t)
          end
        else if negb overwrite then next answers h ks t
        else replace answers
      else add answers h ks t
  end.

(** persistence.go:538-612 ImportKeys of a file with contents [incoming]. The
    keys of the incoming instance are values, so the wiping of that instance
    (line 547) is not represented. *)
Definition himport (h : heap) (i : hinst) (overwrite ask : bool) (filter : key -> bool)
    (incoming : inst) (answers : list (option bool)) (t : tape) : heap * hinst * tape :=
  let (h1, from) := new h (i_callsign incoming) in
  let '(h2, ks, t1) :=
    himport_loop (hi_groupsize i) (hi_callsign i) from overwrite ask filter
      (i_keys incoming) answers h1 (hi_keys i) t in
  (h2, hset_keys i ks, t1).

(** * Histories *)

Inductive hop :=
  | HNewKey (now expire : Z) (keepers : list (list rune))
  | HNewText (args : list (list rune)) (now : Z)
  | HDeleteKey (ids : list (list rune))
  | HDeleteMessage (ids : list (list rune))
  | HMarkKeyUsed (id : list rune) (used : bool)
  | HImport (overwrite ask : bool) (filter : key -> bool) (incoming : inst)
            (answers : list (option bool)).

Definition hstep (op : hop) (h : heap) (i : hinst) (t : tape) : heap * hinst * tape :=
  match op with
  | HNewKey now expire keepers => hnew_key h i now expire keepers t
  | HNewText args now => let '(h1, i1, _, t1) := hnew_text h i args now t in (h1, i1, t1)
  | HDeleteKey ids =>
      let '(h1, ks, t1) := hdelete_key h (hi_keys i) ids t in (h1, hset_keys i ks, t1)
  | HDeleteMessage ids =>
      let '(h1, ms, t1) := hdelete_message h (hi_messages i) ids t in (h1, hset_messages i ms, t1)
  | HMarkKeyUsed id used =>
      (h, hset_keys i (set_flags (hi_keys i) (fst (mark_key_used U id used (keys_of h i)))), t)
  | HImport overwrite ask filter incoming answers =>
      himport h i overwrite ask filter incoming answers t
  end.

Fixpoint hrun (ops : list hop) (h : heap) (i : hinst) (t : tape) : heap * hinst * tape :=
  match ops with
  | [] => (h, i, t)
  | op :: ops' => let '(h1, i1, t1) := hstep op h i t in hrun ops' h1 i1 t1
  end.

(** The state after the operations [ops] on a store read from a file. *)
Definition reach (i0 : inst) (ops : list hop) (t : tape) : heap * hinst * tape :=
  let (h, i) := loaded i0 in hrun ops h i t.
End WithLibraries.
End WithUnicode.
