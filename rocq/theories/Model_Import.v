(** Value-level model of ImportKeys and ExportKeys (persistence.go) after the
    file has been read. Definitions only. *)
From Verif Require Import Base Model_Unicode Model_Functions Model_Types Model_Keys.

Section WithUnicode.
Context (U : Uni).

(** persistence.go:571-604: the copy of an incoming key that is added; our
    call-sign [own] leaves and the sender's [from] joins its keepers. *)
Definition import_key (own from : list rune) (k : key) : key :=
  set_keepers k (add_keeper U (remove_keeper U (kkeepers k) [own]) [from]).

(** persistence.go:548-609 the loop of ImportKeys. [ask] = interactive and
    IsTerminal(); [answers]: the user's answers to the questions asked (an
    exhausted list or [None] is an error of survey.AskOne). Result: keys, count,
    error. The filter is a function of the key, it cannot change it. *)
Fixpoint import_loop (gs : Z) (own from : list rune) (overwrite ask : bool)
    (filter : key -> bool) (incoming : list key) (answers : list (option bool))
    (ks : list key) (count : Z) : list key * Z * option goerr :=
  match incoming with
  | [] => (ks, count, None)
  | k :: rest =>
      let skip := import_loop gs own from overwrite ask filter rest in
      let add ks0 answers0 :=
        import_loop gs own from overwrite ask filter rest answers0
          (ks0 ++ [import_key own from k]) (count + 1) in
      if negb (len (kid k) =? gs) then skip answers ks count
      else if negb (filter k) then skip answers ks count
      else if contains_key_id U ks (kid k) then
        if negb overwrite && ask then
          match answers with
          | Some true :: answers' => add (fst (delete_key U ks [kid k])) answers'
          | Some false :: answers' => skip answers' ks count
          | None :: _ | [] => (ks, count, Some ErrPrompt)
          end
        else if negb overwrite then skip answers ks count
        else add (fst (delete_key U ks [kid k])) answers
      else add ks answers
  end.

(** persistence.go:538-612 ImportKeys once Load has returned [incoming];
    [overwrite] is the receiving instance's overwriteExistingKeysOnImport. *)
Definition import_keys (i : inst) (overwrite ask : bool) (filter : key -> bool)
    (incoming : inst) (answers : list (option bool)) : inst * Z * option goerr :=
  let '(ks, n, e) :=
    import_loop (i_groupsize i) (i_callsign i) (i_callsign incoming) overwrite ask filter
      (i_keys incoming) answers (i_keys i) 0 in
  (set_keys i ks, n, e).
End WithUnicode.

(** persistence.go:488-517 ExportKeys, exported fields, without options. *)
Definition export_keys (i : inst) (filter : key -> bool) : inst :=
  mkInst (i_groupsize i) (i_keylength i) (i_columns i) (i_keycolumns i)
    (List.filter filter (i_keys i)) [] (i_callsign i).
