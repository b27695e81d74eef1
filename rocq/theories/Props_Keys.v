(** Properties C18-C23, C36, C46, C50: generating, deleting, importing and
    listing keys. *)
From Coq Require Import Permutation.
From Verif Require Import Base Spec Model_Unicode Model_Crand Model_Functions Model_Types Model_Keys Model_Import
  Spec_Keys Proofs_Functions Proofs_Crand Proofs_KeyOps Proofs_Uniform Proofs_Import Proofs_Summary Proofs_KeyProps Examples.

(** C18. *)
Theorem c18_new_key : forall U i now e keepers t i' k t',
  0 < i_groupsize i -> 0 <= i_keylength i ->
  new_key U i now e keepers t = Ok (i', k, t') ->
  i' = set_keys i (i_keys i ++ [k]) /\
  letters (kid k) /\ len (kid k) = i_groupsize i /\
  (forall k0, In k0 (i_keys i) -> ~ same_text (to_upper U) (kid k0) (kid k)) /\
  letters (krunes k) /\ (exists q, len (krunes k) = q * i_groupsize i) /\
  i_keylength i <= len (krunes k) < i_keylength i + i_groupsize i /\
  kused k = false /\ kcompromised k = false /\ kcreated k = now /\ kexpires k = e /\ kcomment k = [] /\
  keepers_named U keepers (i_callsign i) (kkeepers k).
Proof. exact c18_new_key_lemma. Qed.
Print Assumptions c18_new_key.

(** Several keys: [new] are the new keys in order. *)
Theorem c18_generate_keys : forall U i n now expire keepers t i' t',
  0 < i_groupsize i -> 0 <= i_keylength i ->
  generate_keys U i n now expire keepers t = Ok (i', t') ->
  exists new, i' = set_keys i (i_keys i ++ new) /\ len new = Z.max 0 n /\
  (forall k, In k new -> letters (kid k) /\ len (kid k) = i_groupsize i /\ letters (krunes k) /\
     (exists q, len (krunes k) = q * i_groupsize i) /\
     i_keylength i <= len (krunes k) < i_keylength i + i_groupsize i /\
     kused k = false /\ kcompromised k = false /\ kcreated k = now /\ kcomment k = [] /\
     (forall e, expire = Some (Some e) -> kexpires k = e) /\
     (expire = None -> kexpires k = now + 365 * 24 * 3600 * 1000000000) /\
     keepers_named U keepers (i_callsign i) (kkeepers k)) /\
  (forall a k b, new = a ++ k :: b ->
     forall k0, In k0 (i_keys i ++ a) -> ~ same_text (to_upper U) (kid k0) (kid k)).
Proof. exact c18_generate_lemma. Qed.
Print Assumptions c18_generate_keys.

(** With a positive group size there is no error and no endless loop as long as
    the random source delivers; [Panic] is the failing source. *)
Theorem c18_no_error : forall U i now e keepers t, 0 < i_groupsize i -> 0 <= i_keylength i ->
  (exists i' k t', new_key U i now e keepers t = Ok (i', k, t')) \/ new_key U i now e keepers t = Panic.
Proof. exact new_key_total. Qed.
Print Assumptions c18_no_error.

Example c18_nontrivial : match new_key uni_id (ex_inst ex_keys) 10 20 [[118; 113; 44; 79; 83]] ex_tape with
  | Ok (_, k, _) => len (kid k) = 5 /\ len (krunes k) = 40 /\ kkeepers k = [callVQ]
  | _ => False
  end.
Proof. vm_compute. repeat split; reflexivity. Qed.

(** C19. [word w]: a 64-bit word. Int63 gives every value for exactly two words. *)
Theorem c19_int63 : forall v, 0 <= v < 2 ^ 63 -> forall w, 0 <= w < 2 ^ 64 ->
  (int63 [w] = Ok (v, []) <-> w = v \/ w = v + 2 ^ 63).
Proof. exact c19_int63_lemma. Qed.
Print Assumptions c19_int63.

(** Intn: in range; each word is either skipped or decides the result alone;
    the words deciding for [v] and those deciding for [v'] are in bijection;
    and there is an injection of the skipped words into the deciding ones. *)
Theorem c19_intn : forall n, 0 < n < 2 ^ 31 ->
  (forall t v t', intn n t = Ok (v, t') -> 0 <= v < n) /\
  (forall w, 0 <= w < 2 ^ 64 -> (forall t, intn n (w :: t) = intn n t) \/
     exists v, forall t, intn n (w :: t) = Ok (v, t)) /\
  (forall v v', 0 <= v < n -> 0 <= v' < n -> exists f g,
     (forall w, 0 <= w < 2 ^ 64 -> intn n [w] = Ok (v, []) ->
        0 <= f w < 2 ^ 64 /\ intn n [f w] = Ok (v', []) /\ g (f w) = w) /\
     (forall w, 0 <= w < 2 ^ 64 -> intn n [w] = Ok (v', []) ->
        0 <= g w < 2 ^ 64 /\ intn n [g w] = Ok (v, []) /\ f (g w) = w)) /\
  (exists f, (forall w, 0 <= w < 2 ^ 64 -> intn n [w] = Panic ->
       0 <= f w < 2 ^ 64 /\ exists v, intn n [f w] = Ok (v, [])) /\
     forall w w', f w = f w' -> w = w').
Proof. exact c19_intn_lemma. Qed.
Print Assumptions c19_intn.

(** Whole keys: for any two possible keys (free ID, key text) the tapes of a
    given length that produce the one and those that produce the other are in
    bijection, so no key is likelier than another. *)
Theorem c19_keys_uniform : forall U i now e keepers id a id' b,
  0 < i_groupsize i -> 0 <= i_keylength i ->
  letters id -> letters id' -> letters a -> letters b ->
  len id = len id' -> len a = len b ->
  (forall k, In k (i_keys i) -> ~ same_text (to_upper U) (kid k) id) ->
  (forall k, In k (i_keys i) -> ~ same_text (to_upper U) (kid k) id') ->
  let produces id a t := exists i' k t',
    new_key U i now e keepers t = Ok (i', k, t') /\ kid k = id /\ krunes k = a in
  exists f g : tape -> tape,
    (forall t, Forall (fun w => 0 <= w < 2 ^ 64) t -> produces id a t ->
       Forall (fun w => 0 <= w < 2 ^ 64) (f t) /\ length (f t) = length t /\ produces id' b (f t) /\ g (f t) = t) /\
    (forall t, Forall (fun w => 0 <= w < 2 ^ 64) t -> produces id' b t ->
       Forall (fun w => 0 <= w < 2 ^ 64) (g t) /\ length (g t) = length t /\ produces id a (g t) /\ f (g t) = t).
Proof. exact c19_keys_lemma. Qed.
Print Assumptions c19_keys_uniform.

(** None of these sets is empty. *)
Theorem c19_keys_possible : forall U i now e keepers id a,
  0 < i_groupsize i -> 0 <= i_keylength i -> letters id -> letters a ->
  len id = i_groupsize i -> (exists q, len a = q * i_groupsize i) ->
  i_keylength i <= len a < i_keylength i + i_groupsize i ->
  (forall k, In k (i_keys i) -> ~ same_text (to_upper U) (kid k) id) ->
  exists t i' k t', Forall (fun w => 0 <= w < 2 ^ 64) t /\
    new_key U i now e keepers t = Ok (i', k, t') /\ kid k = id /\ krunes k = a.
Proof. exact c19_possible_lemma2. Qed.
Print Assumptions c19_keys_possible.

Example c19_nontrivial : intn 26 [2 ^ 64 - 1; 3 * 2 ^ 32; 7] = Ok (3, [7]) /\ intn 26 [2 ^ 64 - 1] = Panic.
Proof. vm_compute. split; reflexivity. Qed.

(** C20. Histories: starting without keys; settings and call-sign may change
    at any time. *)
Inductive history (U : Uni) : inst -> Prop :=
| history_new : forall i, i_keys i = [] -> history U i
| history_settings : forall i i', history U i -> i_keys i' = i_keys i -> history U i'
| history_new_key : forall i now e keepers t i' k t', history U i ->
    new_key U i now e keepers t = Ok (i', k, t') -> history U i'
| history_generate : forall i n now expire keepers t i' t', history U i ->
    generate_keys U i n now expire keepers t = Ok (i', t') -> history U i'
| history_delete : forall i ids ks' n, history U i ->
    delete_key U (i_keys i) ids = (ks', n) -> history U (set_keys i ks')
| history_delete_strings : forall i ids ks' n, history U i ->
    delete_key_by_string U (i_keys i) ids = (ks', n) -> history U (set_keys i ks')
| history_delete_lines : forall i lines ks' n, history U i ->
    delete_keys_by_summary U (i_keys i) lines = (ks', n) -> history U (set_keys i ks')
| history_import : forall i overwrite ask filter incoming answers i' n e, history U i ->
    import_keys U i overwrite ask filter incoming answers = (i', n, e) -> history U i'.

Lemma c20_lemma : forall U i, history U i -> distinct_ids (to_upper U) (i_keys i).
Proof.
  intros U i H. induction H as [i E|i i' H IH E|i now e kp t i' k t' H IH E|i n now ex kp t i' t' H IH E
    |i ids ks' n H IH E|i ids ks' n H IH E|i ls ks' n H IH E|i ow ask f inc ans i' n e H IH E].
  - rewrite E. constructor.
  - rewrite E. exact IH.
  - apply (new_key_distinct U _ _ _ _ _ _ _ _ E IH).
  - apply (generate_distinct U _ _ _ _ _ _ _ _ E IH).
  - apply (delete_lemma U _ _ _ _ E IH).
  - apply (delete_lemma U _ _ _ _ E IH).
  - rewrite summary_delete in E. apply (delete_lemma U _ _ _ _ E IH).
  - unfold import_keys in E. destruct (import_loop _ _ _ _ _ _ _ _ _ _ _) as ((ks' & n') & e') eqn:L.
    injection E as <- <- <-. apply (import_distinct U _ _ _ _ _ _ _ _ _ _ _ _ _ L IH).
Qed.

Theorem c20_ids_unique : forall U i, history U i -> distinct_ids (to_upper U) (i_keys i).
Proof. exact c20_lemma. Qed.
Print Assumptions c20_ids_unique.

Example c20_nontrivial : exists i t', generate_keys uni_id (ex_inst []) 3 0 None [] (ex_tape ++ ex_tape ++ ex_tape) = Ok (i, t')
  /\ history uni_id i /\ len (i_keys i) = 3.
Proof.
  destruct (generate_keys uni_id (ex_inst []) 3 0 None [] (ex_tape ++ ex_tape ++ ex_tape)) as [[i t']| | |] eqn:E;
    try (vm_compute in E; discriminate).
  exists i, t'. split; [reflexivity|]. split.
  - apply (history_generate _ (ex_inst []) _ _ _ _ _ _ _ (history_new uni_id (ex_inst []) eq_refl) E).
  - vm_compute in E. injection E as <- _. reflexivity.
Qed.

(** C21. *)
Theorem c21_delete_exact : forall U ks ids ks' n, distinct_ids (to_upper U) ks ->
  delete_key U ks ids = (ks', n) ->
  distinct_ids (to_upper U) ks' /\ n = len ks - len ks' /\
  forall k, In k ks' <-> In k ks /\ forall id, In id ids -> ~ same_text (to_upper U) (kid k) id.
Proof. exact c21_exact_lemma. Qed.
Print Assumptions c21_delete_exact.

(** Also with repeated IDs in the store only matching keys go, nothing else is
    lost or changed, and the number is right. *)
Theorem c21_delete_any : forall U ks ids ks' n, delete_key U ks ids = (ks', n) ->
  exists deleted, Permutation ks (deleted ++ ks') /\ n = len deleted /\
    forall k, In k deleted -> exists id, In id ids /\ same_text (to_upper U) (kid k) id.
Proof. exact delete_any. Qed.
Print Assumptions c21_delete_any.

Example c21_nontrivial : let r := delete_key uni_id ex_keys [[98; 82; 97; 86; 79]; idD; idD; [88]] in
  map kid (fst r) = [idA; idC] /\ snd r = 2 /\ nodupb (map kid ex_keys) = true.
Proof. vm_compute. repeat split; reflexivity. Qed.

(** C22. *)
Theorem c22_add_keeper : forall U keepers args,
  (exists new, add_keeper U keepers args = keepers ++ new /\ incl new args) /\
  (forall x, In x args -> exists y, In y (add_keeper U keepers args) /\ same_text (to_upper U) y x) /\
  (distinct_texts (to_upper U) keepers -> distinct_texts (to_upper U) (add_keeper U keepers args)) /\
  ((forall x, In x args -> exists y, In y keepers /\ same_text (to_upper U) y x) -> add_keeper U keepers args = keepers).
Proof. exact c22_add_lemma. Qed.
Print Assumptions c22_add_keeper.

Theorem c22_remove_keeper_partial : forall U keepers args, distinct_texts (to_upper U) keepers ->
  distinct_texts (to_upper U) (remove_keeper U keepers args) /\
  forall y, In y (remove_keeper U keepers args) <->
    In y keepers /\ forall x, In x args -> ~ same_text (to_upper U) y x.
Proof. exact c22_remove_lemma. Qed.
Print Assumptions c22_remove_keeper_partial.

(** In any list, only matching keepers go. *)
Theorem c22_remove_keeper_only : forall U keepers args, exists removed,
  Permutation keepers (removed ++ remove_keeper U keepers args) /\
  forall y, In y removed -> exists x, In x args /\ same_text (to_upper U) y x.
Proof. exact c22_remove_any. Qed.
Print Assumptions c22_remove_keeper_only.

(** With a repeated call-sign one occurrence stays. *)
Theorem c22_remove_keeper_refuted : exists keepers x, In x (remove_keeper uni_id keepers [x]).
Proof. exists [callVQ; callVQ], callVQ. vm_compute. left. reflexivity. Qed.
Print Assumptions c22_remove_keeper_refuted.

(** The list is asked with the same notion of equality. *)
Theorem c22_contains_keeper : forall U keepers args, contains_keeper U keepers args = true <->
  match args with
  | [] => keepers = []
  | _ => forall x, In x args -> exists y, In y keepers /\ same_text (to_upper U) y x
  end.
Proof. exact c22_contains_lemma. Qed.
Print Assumptions c22_contains_keeper.

Example c22_nontrivial : add_keeper uni_id [callVQ] [callOS; [118; 113]] = [callVQ; callOS] /\
  remove_keeper uni_id [callVQ; callOS; [65]] [[118; 81]] = [[65]; callOS].
Proof. vm_compute. split; reflexivity. Qed.

(** C23. *)
Theorem c23_own_call_sign_refuted : exists i keepers t i' k t',
  new_key uni_id i 0 0 keepers t = Ok (i', k, t') /\ In (i_callsign i) (kkeepers k).
Proof.
  exists (ex_inst []), [[79; 83; 44; 79; 83]], ex_tape.
  destruct (new_key uni_id (ex_inst []) 0 0 [[79; 83; 44; 79; 83]] ex_tape) as [[[i k] t']| | |] eqn:E;
    try (vm_compute in E; discriminate).
  exists i, k, t'. split; [reflexivity|]. vm_compute in E. injection E as _ <- _. left. reflexivity.
Qed.
Print Assumptions c23_own_call_sign_refuted.

(** It holds if the vetted keepers contain no call-sign twice. *)
Theorem c23_own_call_sign_partial : forall U i now e keepers t i' k t',
  0 < i_groupsize i -> 0 <= i_keylength i ->
  distinct_texts (to_upper U) (vetted_keepers U keepers) ->
  new_key U i now e keepers t = Ok (i', k, t') ->
  forall c, In c (kkeepers k) <-> In c (vetted_keepers U keepers) /\ ~ same_text (to_upper U) c (i_callsign i).
Proof. exact c23_lemma. Qed.
Print Assumptions c23_own_call_sign_partial.

Example c23_nontrivial : distinct_texts (to_upper uni_id) (vetted_keepers uni_id [[118; 113; 44; 79; 83]]) /\
  vetted_keepers uni_id [[118; 113; 44; 79; 83]] = [callVQ; callOS].
Proof. split; [|reflexivity]. apply nodupb_ok. vm_compute. reflexivity. Qed.

(** C36. [candidates]: keys of the file with our group size that pass the
    filter; [asked]: those whose ID we have already. *)
Theorem c36_import : forall U i overwrite ask filter incoming answers i' n e,
  distinct_ids (to_upper U) (i_keys incoming) -> distinct_ids (to_upper U) (i_keys i) ->
  import_keys U i overwrite ask filter incoming answers = (i', n, e) ->
  let candidates := List.filter (fun k => (len (kid k) =? i_groupsize i) && filter k) (i_keys incoming) in
  let asked := List.filter (fun k => (len (kid k) =? i_groupsize i) && filter k && taken (to_upper U) (i_keys i) (kid k))
                 (i_keys incoming) in
  exists added, incl added candidates /\ NoDup added /\ n = len added /\
  (* our keys stay unless replaced, the added keys are there, nothing else *)
  (forall k', In k' (i_keys i') <->
     (In k' (i_keys i) /\ forall k, In k added -> ~ same_text (to_upper U) (kid k') (kid k)) \/
     exists k, In k added /\ k' = import_key U (i_callsign i) (i_callsign incoming) k) /\
  i' = set_keys i (i_keys i') /\ distinct_ids (to_upper U) (i_keys i') /\
  (* with permission everything, without permission only new keys *)
  (overwrite = true -> e = None /\ forall k, In k candidates -> In k added) /\
  (overwrite = false -> ask = false -> e = None /\
     forall k, In k added <-> In k candidates /\ taken (to_upper U) (i_keys i) (kid k) = false) /\
  (* the user is asked about the keys we have, in order *)
  (overwrite = false -> ask = true -> e = None ->
     (forall k, In k candidates -> taken (to_upper U) (i_keys i) (kid k) = false -> In k added) /\
     forall j k, nth_error asked j = Some k ->
       exists b, nth_error answers j = Some (Some b) /\ (In k added <-> b = true)) /\
  (overwrite = false -> ask = true -> e <> None ->
     exists j k, nth_error asked j = Some k /\ (nth_error answers j = None \/ nth_error answers j = Some None)) /\
  (overwrite = false -> (forall j, nth_error answers j <> Some (Some true)) ->
     forall k, In k added -> taken (to_upper U) (i_keys i) (kid k) = false).
Proof. exact c36_lemma. Qed.
Print Assumptions c36_import.

(** The imported copy of a key. *)
Theorem c36_imported_key : forall U own from k,
  let k' := import_key U own from k in
  kid k' = kid k /\ krunes k' = krunes k /\ kcreated k' = kcreated k /\ kexpires k' = kexpires k /\
  kused k' = kused k /\ kcompromised k' = kcompromised k /\ kcomment k' = kcomment k /\
  (exists y, In y (kkeepers k') /\ same_text (to_upper U) y from) /\
  (forall y, In y (kkeepers k') -> In y (kkeepers k) \/ y = from) /\
  (forall y, In y (kkeepers k) -> In y (kkeepers k') \/ same_text (to_upper U) y own) /\
  (distinct_texts (to_upper U) (kkeepers k) -> distinct_texts (to_upper U) (kkeepers k') /\
     (~ same_text (to_upper U) from own -> forall y, In y (kkeepers k') -> ~ same_text (to_upper U) y own)).
Proof. exact import_key_lemma. Qed.
Print Assumptions c36_imported_key.

(** Importing a key file of one's own makes one's own call-sign a keeper. *)
Theorem c36_own_file_refuted : exists own from k, same_text (to_upper uni_id) from own /\
  In own (kkeepers (import_key uni_id own from k)).
Proof. exists callOS, callOS, (ex_key idA 1 5 [callVQ]). split; [reflexivity|]. vm_compute. auto. Qed.
Print Assumptions c36_own_file_refuted.

Example c36_nontrivial :
  let inc := mkInst 5 40 110 80 [ex_key idD 9 5 [callOS]; ex_key [69;67;72;79;88] 4 5 [callOS]; ex_key [70] 1 1 []] [] callVQ in
  let '(i', n, e) := import_keys uni_id (ex_inst ex_keys) false true (fun _ => true) inc [Some true] in
  map kid (i_keys i') = [idA; idB; idC; idD; [69;67;72;79;88]] /\ n = 2 /\ e = None /\
  map kkeepers (i_keys i') = [[callVQ]; [callVQ]; [callVQ]; [callVQ]; [callVQ]].
Proof. vm_compute. repeat split; reflexivity. Qed.

(** C46. *)
Theorem c46_validity : forall k now d,
  (forall d', d' <= d -> is_valid now d k = true -> is_valid now d' k = true) /\
  (0 <= d -> is_valid now d k = true -> is_expired now k = false) /\
  (0 <= d -> is_expired now k = true -> is_valid now d k = false) /\
  (forall now', now <= now' -> is_expired now k = true -> is_expired now' k = true) /\
  (forall now', now <= now' -> is_valid now' d k = true -> is_valid now d k = true) /\
  (forall now', is_valid now d k = true -> now' <= now + d -> is_expired now' k = false).
Proof. exact c46_lemma. Qed.
Print Assumptions c46_validity.

Example c46_nontrivial : let k := ex_key idA 1 5 [] in is_valid (- 100) 50 k = true /\ is_expired 1 k = true.
Proof. split; reflexivity. Qed.

(** C50. *)
Theorem c50_columns : forall dtg gs f ks header lines,
  (forall k, In k ks -> len (kid k) = gs) -> (forall x, len (dtg x) = 12) ->
  summary_of_keys dtg gs f ks = (header, lines) ->
  exists w1 w6,
    Forall2 (fun k line => columns [gs + 1; w1; 13; 13; 5; 12; w6]
        [kid k; match kkeepers k with [] => str_anonymous | _ => join [44] (map go_string (kkeepers k)) end;
         dtg (kcreated k); dtg (kexpires k); yes_no (kused k); yes_no (kcompromised k); kcomment k] line)
      (filter f ks) lines /\
    (2 <= gs -> filter f ks <> [] -> exists h, header = h ++ str_comment /\
       columns [gs + 1; w1; 13; 13; 5; 12] [str_id; str_keepers; str_created; str_expires; str_used; str_compromised] h).
Proof. exact c50_columns_lemma2. Qed.
Print Assumptions c50_columns.

Theorem c50_delete_lines : forall U dtg gs f ks header lines js ks' n,
  0 < gs -> store_ok gs ks -> (forall x, len (dtg x) = 12) ->
  summary_of_keys dtg gs f ks = (header, lines) ->
  delete_keys_by_summary U ks (map (fun j => nth j lines []) js) = (ks', n) ->
  n = len ks - len ks' /\ distinct_ids (to_upper U) ks' /\
  forall k, In k ks' <-> In k ks /\ ~ exists j, In j js /\ nth_error (filter f ks) j = Some k.
Proof. exact c50_delete_lemma. Qed.
Print Assumptions c50_delete_lines.

Definition ex_dtg (t : Z) : list rune := repeat 48 12.
Example c50_nontrivial : store_ok 5 ex_keys /\
  let '(h, ls) := summary_of_keys ex_dtg 5 (fun k => negb (Z.eqb (len (kkeepers k)) 0)) ex_keys in
  len ls = 3 /\ map kid (fst (delete_keys_by_summary uni_id ex_keys [nth 1 ls []; nth 0 ls []])) = [idC; idD].
Proof. split; [apply store_okb_ok; vm_compute; reflexivity|]. vm_compute. split; reflexivity. Qed.
