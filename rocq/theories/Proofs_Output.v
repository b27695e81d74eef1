(** Proofs about --output. *)
From Coq Require Import Permutation.
From Verif Require Import Base Model_Unicode Model_Crand Model_Functions Model_Types Model_Cipher Model_Keys
  Model_Messages Model_Listing Model_Station Model_Persist Model_Print Model_Cli Model_Output
  Spec Spec_Persist Spec_Cli Spec_Listing Spec_Output Proofs_Functions Proofs_Print Proofs_Cli Proofs_CliRun Proofs_CliCmd
  Proofs_CliOps Proofs_CliMsg Proofs_CliSel.

(** ** The type of the output *)
Lemma is_word_spec s ws : is_word s ws = true <-> In s ws.
Proof.
  unfold is_word. rewrite existsb_exists. split.
  - intros (w & I & E). destruct (list_eq_dec Z.eq_dec s w); [subst; exact I|discriminate].
  - intros I. exists s. split; [exact I|]. destruct (list_eq_dec Z.eq_dec s s); [reflexivity|contradiction].
Qed.

Lemma ext_loop_app a : forall s acc, Forall (fun c => c <> 46 /\ c <> 47) a ->
  ext_loop (a ++ 46 :: s) acc = 46 :: rev a ++ acc.
Proof.
  induction a as [|c a IH]; intros s acc F; cbn [app ext_loop].
  - reflexivity.
  - inversion F as [|? ? (A & B) F']; subst. replace (c =? 47) with false by lia. replace (c =? 46) with false by lia.
    rewrite IH by exact F'. cbn [rev]. rewrite <- app_assoc. reflexivity.
Qed.
Lemma ext_loop_inv s : forall acc e, ext_loop s acc = 46 :: e -> exists a, e = rev a ++ acc /\ exists r, s = a ++ 46 :: r.
Proof.
  induction s as [|c s IH]; intros acc e E; cbn [ext_loop] in E; [discriminate|].
  destruct (c =? 47) eqn:A; [discriminate|]. destruct (c =? 46) eqn:B.
  - injection E as E1 E2. subst e. exists []. split; [reflexivity|]. exists s. rewrite E1. reflexivity.
  - destruct (IH _ _ E) as (a & -> & r & ->). exists (c :: a). split; [cbn [rev]; rewrite <- app_assoc; reflexivity|].
    exists r. reflexivity.
Qed.
Lemma ext_spec s w : Forall (fun c => c <> 46 /\ c <> 47) w -> ext s = 46 :: w <-> exists a, s = a ++ 46 :: w.
Proof.
  intros F. unfold ext. split.
  - intros E. destruct (ext_loop_inv _ _ _ E) as (a & W & r & R). rewrite app_nil_r in W. exists (rev r).
    apply (f_equal (@rev Z)) in R. rewrite rev_involutive, rev_app_distr in R. cbn [rev] in R. rewrite <- app_assoc in R.
    subst w. exact R.
  - intros (a & ->). rewrite rev_app_distr. cbn [rev]. rewrite <- app_assoc. cbn [app].
    rewrite ext_loop_app by (apply Forall_rev; exact F). rewrite rev_involutive, app_nil_r. reflexivity.
Qed.
Lemma no_dots w : existsb (fun c => (c =? 46) || (c =? 47)) w = false -> Forall (fun c => c <> 46 /\ c <> 47) w.
Proof.
  intros E. apply Forall_forall. intros c I.
  destruct ((c =? 46) || (c =? 47)) eqn:X; [|lia].
  rewrite (proj2 (existsb_exists _ _)) in E by (exists c; split; [exact I|exact X]). discriminate.
Qed.
Lemma ext_text s : is_word (ext s) [46 :: w_txt; 46 :: w_TXT] = true <->
  exists a, s = a ++ [46; 116; 120; 116] \/ s = a ++ [46; 84; 88; 84].
Proof.
  rewrite is_word_spec. cbn [In]. split.
  - intros [E|[E|[]]]; symmetry in E; apply ext_spec in E; try (apply no_dots; reflexivity); destruct E as (a & ->);
      exists a; [left|right]; reflexivity.
  - intros (a & [->| ->]); [left|right; left]; symmetry; apply ext_spec; try (apply no_dots; reflexivity); exists a; reflexivity.
Qed.

(** [kind]: true for PDF. *)
Definition kind (o : oopts) (pdf : bool) : Prop := if pdf then pdf_wanted o else text_wanted o.
Lemma kind_pdf o pdf : kind o pdf -> is_word (output_type o) [w_pdf; w_PDF] = pdf /\
  (pdf = false -> is_word (output_type o) [w_txt; w_text; w_TXT] = true).
Proof.
  unfold kind, pdf_wanted, text_wanted, output_type. destruct pdf.
  - intros [E|[E|(E & N)]]; rewrite E.
    + split; [reflexivity|discriminate].
    + split; [reflexivity|discriminate].
    + destruct (is_word (ext (oo_file o)) [46 :: w_pdf; 46 :: w_PDF]); [split; [reflexivity|discriminate]|].
      destruct (is_word (ext (oo_file o)) [46 :: w_txt; 46 :: w_TXT]) eqn:T.
      * exfalso. apply N. apply ext_text, T.
      * split; [reflexivity|discriminate].
  - intros [E|[E|[E|(E & N)]]]; rewrite E; try (split; reflexivity).
    apply ext_text in N. rewrite N. apply is_word_spec in N.
    replace (is_word (ext (oo_file o)) [46 :: w_pdf; 46 :: w_PDF]) with false; [split; reflexivity|].
    cbn [In] in N. destruct N as [N|[N|[]]]; rewrite <- N; reflexivity.
Qed.

Set Default Proof Using "Type".
Section Out.
Context (utf8 : list rune -> list Z) (pdf : list (list rune) -> list Z).

Lemma write_spec e p b f : let (r, xs) := write_file e p b in
  (forall q, q <> p -> apply_effects f xs q = f q) /\
  (r = Ok tt <-> writes e) /\
  (o_open e = true -> content e b (apply_effects f xs p)) /\
  (o_open e = false -> apply_effects f xs p = f p).
Proof.
  clear utf8 pdf. unfold write_file, writes. destruct (o_open e); cbn [negb].
  - assert (forall c, (forall q, q <> p -> apply_effects f [Truncate p; Append p c] q = f q) /\
      apply_effects f [Truncate p; Append p c] p = Some c) as W.
    { intros c. unfold apply_effects. cbn [fold_left]. unfold apply_effect. cbn [target]. split.
      - intros q N. destruct (list_eq_dec Z.eq_dec q p); [contradiction|]. reflexivity.
      - destruct (list_eq_dec Z.eq_dec p p); [|contradiction]. reflexivity. }
    destruct (o_fail e) as [n|] eqn:F.
    + destruct (W (firstn n b)) as (W1 & W2). split; [exact W1|]. split; [split; [discriminate|intros (_ & X); discriminate]|].
      split; [|discriminate]. intros _. exists (firstn n b), (skipn n b). split; [exact W2|].
      split; [symmetry; apply firstn_skipn|]. rewrite F. discriminate.
    + destruct (W b) as (W1 & W2). split; [exact W1|]. split; [tauto|]. split; [|discriminate]. intros _.
      exists b, []. split; [exact W2|]. split; [symmetry; apply app_nil_r|tauto].
  - split; [reflexivity|]. split; [split; [discriminate|intros (X & _); discriminate]|]. split; [discriminate|reflexivity].
Qed.

Lemma len_0 {A} (l : list A) : (len l =? 0) = true <-> l = [].
Proof. clear utf8 pdf. destruct l as [|a l]; [split; reflexivity|]. rewrite len_cons. pose proof (len_nonneg _ l). split; [lia|discriminate]. Qed.
Lemma len_S {A} (l : list A) : (len l =? 0) = false <-> l <> [].
Proof. clear utf8 pdf. pose proof (len_0 l) as E. destruct (len l =? 0); split; intros X; try congruence; try (exfalso; apply X; tauto). intros Y. apply E in Y. discriminate. Qed.

Lemma nothing_wrote e p f (b : list Z -> Prop) (did some quiet : Prop) r lines :
  ~ (did /\ some) -> (r = Ok tt <-> did /\ quiet) -> wrote e p f did some quiet b (End r f lines).
Proof.
  clear utf8 pdf. intros NS R. unfold wrote. cbn [End files result]. split; [intros q _; reflexivity|].
  split; [tauto|]. split; [tauto|]. reflexivity.
Qed.

Lemma items_spec e o k text pages f lines (some quiet : Prop) : kind o k -> oo_file o <> [] ->
  (some <-> if k then pages <> [] else text <> []) -> (~ some -> (quiet <-> k = true)) ->
  let (r, xs) := output_items utf8 pdf e o text pages in
  wrote e (oo_file o) f True some quiet (fun b => b = if k then pdf pages else utf8 text)
    (End r (apply_effects f xs) lines).
Proof.
  intros K NF SO Q. unfold output_items. apply len_S in NF. rewrite NF. destruct (kind_pdf _ _ K) as (-> & T).
  assert (forall b, some -> b = (if k then pdf pages else utf8 text) -> let (r, xs) := write_file e (oo_file o) b in
    wrote e (oo_file o) f True some quiet (fun b => b = if k then pdf pages else utf8 text) (End r (apply_effects f xs) lines)) as W.
  { intros b S0 B. pose proof (write_spec e (oo_file o) b f) as W. destruct (write_file e (oo_file o) b) as (r, xs).
    destruct W as (W1 & W2 & W3 & W4). unfold wrote. cbn [End files result]. split; [exact W1|]. split; [tauto|]. split.
    - intros (_ & _ & O). exists b. split; [exact B|]. apply W3, O.
    - intros N. apply W4. destruct (o_open e); [exfalso; tauto|reflexivity]. }
  destruct k.
  - destruct (len pages =? 0) eqn:P.
    + apply len_0 in P. apply nothing_wrote; tauto.
    + apply len_S in P. apply W; [tauto|reflexivity].
  - rewrite (T eq_refl). destruct (len text =? 0) eqn:P.
    + apply len_0 in P. apply nothing_wrote; [tauto|]. split; [discriminate|]. intros (_ & X). apply Q in X; [discriminate|tauto].
    + apply len_S in P. apply W; [tauto|reflexivity].
Qed.

Lemma finally_spec e o k listing lines text pages f (some : Prop) : kind o k -> oo_file o <> [] ->
  (some <-> if k then pages <> [] else text <> []) -> (listing = true -> (some <-> lines <> [])) ->
  wrote e (oo_file o) f True some (k = true \/ listing = true) (fun b => b = if k then pdf pages else utf8 text)
    (finally utf8 pdf e (Some o) listing lines text pages f).
Proof.
  intros K NF SO LI. unfold finally.
  destruct (listing && (len lines =? 0)) eqn:E.
  - apply andb_prop in E as (E1 & E2). apply len_0 in E2. specialize (LI E1). apply nothing_wrote; [tauto|]. tauto.
  - pose proof (items_spec e o k text pages f lines some (k = true \/ listing = true) K NF SO) as I.
    destruct (output_items utf8 pdf e o text pages) as (r, xs). apply I. intros NS. split; [|tauto]. intros [X|X]; [exact X|].
    rewrite X in E. cbn [andb] in E. apply len_S in E. exfalso. apply NS, LI; assumption.
Qed.

(** Nothing to do with the output is decided before. *)
Lemma wrote_did e p f (did some quiet : Prop) b x : did -> wrote e p f True some quiet b x -> wrote e p f did some quiet b x.
Proof. clear utf8 pdf. unfold wrote. intros D (A & B & C & E). split; [exact A|]. split; [tauto|]. split; [tauto|]. intros N. apply E. tauto. Qed.
Lemma wrote_b e p f (did some quiet : Prop) (b b' : list Z -> Prop) x : (some -> forall c, b c -> b' c) ->
  wrote e p f did some quiet b x -> wrote e p f did some quiet b' x.
Proof.
  clear utf8 pdf. unfold wrote. intros BB (A & B & C & E). split; [exact A|]. split; [exact B|]. split; [|exact E].
  intros D. destruct (C D) as (c & X & Y). exists c. split; [apply BB; [tauto|exact X]|exact Y].
Qed.
Lemma wrote_q e p f (did some quiet quiet' : Prop) b x : (~ some -> (quiet <-> quiet')) ->
  wrote e p f did some quiet b x -> wrote e p f did some quiet' b x.
Proof. clear utf8 pdf. unfold wrote. intros BB (A & B & C & E). split; [exact A|]. split; [tauto|]. split; [exact C|exact E]. Qed.

Lemma page_text_nil {A} (text : A -> list rune) lbk xs : lbk <> [] -> (page_text lbk (map text xs) <> [] <-> xs <> []).
Proof.
  clear utf8 pdf. intros N. destruct xs as [|x xs]; [split; intros X; exfalso; apply X; reflexivity|]. split; [discriminate|]. intros _.
  unfold page_text. cbn [map concat flat_map]. intros E. apply app_eq_nil in E as (E & _). apply app_eq_nil in E as (_ & E). contradiction.
Qed.

Lemma pages_nil lbk lines maxRows extra ts : forall r p, pages_loop lbk lines maxRows extra ts r p <> [].
Proof.
  clear utf8 pdf. induction ts as [|t ts IH]; intros r p; cbn [pages_loop]; [discriminate|]. cbv zeta.
  destruct (_ <? _); [discriminate|]. destruct (_ <? _); [discriminate|]. apply IH.
Qed.
Lemma keys_pdf_nil lbk lines text f ks : keys_pdf lbk lines text f ks <> [] <-> filter f ks <> [].
Proof.
  clear utf8 pdf. unfold keys_pdf. destruct (len (filter f ks) =? 0) eqn:E.
  - apply len_0 in E. rewrite E. tauto.
  - apply len_S in E. split; [tauto|]. intros _. apply pages_nil.
Qed.
Lemma messages_pdf_nil lbk lines text f ks : messages_pdf lbk lines text f ks <> [] <-> filter f ks <> [].
Proof.
  clear utf8 pdf. unfold messages_pdf. destruct (len (filter f ks) =? 0) eqn:E.
  - apply len_0 in E. rewrite E. tauto.
  - apply len_S in E. split; [tauto|]. intros _. apply pages_nil.
Qed.
End Out.

Set Default Proof Using "Type".
Section Cmd.
Context (utf8 : list rune -> list Z) (pdf : list (list rune) -> list Z) (lbk : list rune) (lc : list rune -> Z)
  (L : lib) (U : Uni) (lb : list rune -> list rune) (dp : list rune -> option Z)
  (ds : Z -> list rune) (dg : list rune -> list rune)
  (ktext : inst -> key -> list rune) (mtext : inst -> Z -> msg -> list rune).
Notation keys_cmd := (cmd_keys L U dp ds).
Notation keys_out := (cmd_keys_output utf8 pdf lbk lc L U dp ds ktext).
Notation msg_cmd := (cmd_messages L U lb dp ds dg).
Notation msg_out := (cmd_messages_output utf8 pdf lbk lc L U lb dp ds dg mtext).

(** ** keys --output without other operations but --list *)
Lemma keys_out_lemma r oe g o out f h p key i chosen k : lib_ok L -> lbk <> [] ->
  store_at L (r_env r 0) (ko_file o) f p key i ->
  picked (key_selected U (r_now r) o) (i_keys i) chosen ->
  ko_delete o = false -> ko_new o = 0 -> ko_import o = None -> ko_export o = None ->
  kind out k -> oo_file out <> [] ->
  let x := keys_out r oe g o (Some out) f h in
  shown x = [] /\
  wrote oe (oo_file out) f (key_given L (r_env r 0) g key /\ can_read (r_env r 0)) (chosen <> [])
    (k = true \/ ko_list o = true)
    (fun b => b = if k then pdf (keys_pdf lbk lc (ktext i) (key_filter U (r_now r) o) (i_keys i))
                  else utf8 (page_text lbk (map (ktext i) chosen))) x.
Proof.
  clear lb dg mtext.
  intros HL NL (PO & PP & LK & NZ & ST) PK D N IM EX K NF. cbv zeta.
  rewrite (picked_fun _ _ _ (picked_filter _ _ (key_selected_spec U (r_now r) o) _) _ PK).
  unfold cmd_keys_output. rewrite Bool.andb_false_r.
  destruct (open_stored L U g (r_env r 0) (ko_file o) f h p key i HL NZ PO LK ST)
    as [(x & NO & -> & NK)|(KG & CR & h1 & s1 & salt & -> & RD & SG & RS & I1)].
  - split; [reflexivity|]. cbn [andthen End]. apply nothing_wrote; [tauto|]. split; [congruence|tauto].
  - rewrite andthen_go, no_delete by exact D. rewrite andthen_go, no_new by lia.
    rewrite andthen_go, no_import by exact IM. rewrite andthen_go, no_export by exact EX. rewrite andthen_go.
    cbv zeta. rewrite I1. split.
    { unfold finally. destruct (_ && _); [reflexivity|]. destruct (output_items _ _ _ _ _ _). reflexivity. }
    apply wrote_did; [tauto|]. rewrite (as_text_lemma _ lbk (ktext i)). apply finally_spec; [exact K|exact NF| |].
    + destruct k; [rewrite keys_pdf_nil; tauto|]. rewrite page_text_nil by exact NL. tauto.
    + intros ->. unfold summary_of_keys. cbn [snd]. destruct (filter _ _); cbn [map]; [split; intros X; exfalso; apply X; reflexivity|split; intros _; discriminate].
Qed.

Lemma keys_text_lemma r oe g o out f h p key i chosen : lib_ok L -> lbk <> [] ->
  store_at L (r_env r 0) (ko_file o) f p key i ->
  picked (key_selected U (r_now r) o) (i_keys i) chosen ->
  ko_delete o = false -> ko_new o = 0 -> ko_import o = None -> ko_export o = None ->
  text_wanted out -> oo_file out <> [] ->
  let x := keys_out r oe g o (Some out) f h in
  shown x = [] /\
  wrote oe (oo_file out) f (key_given L (r_env r 0) g key /\ can_read (r_env r 0)) (chosen <> []) (ko_list o = true)
    (fun b => b = utf8 (page_text lbk (map (ktext i) chosen))) x.
Proof.
  clear lb dg mtext.
  intros HL NL SA PK D N IM EX K NF. cbv zeta.
  destruct (keys_out_lemma r oe g o out f h p key i chosen false HL NL SA PK D N IM EX K NF) as (A & B).
  split; [exact A|]. eapply wrote_q; [|exact B]. intros _. split; [intros [X|X]; [discriminate|exact X]|tauto].
Qed.

Lemma keys_pdf_lemma r oe g o out f h p key i chosen : lib_ok L -> lbk <> [] ->
  store_at L (r_env r 0) (ko_file o) f p key i ->
  picked (key_selected U (r_now r) o) (i_keys i) chosen ->
  ko_delete o = false -> ko_new o = 0 -> ko_import o = None -> ko_export o = None ->
  pdf_wanted out -> oo_file out <> [] ->
  let x := keys_out r oe g o (Some out) f h in
  shown x = [] /\
  wrote oe (oo_file out) f (key_given L (r_env r 0) g key /\ can_read (r_env r 0)) (chosen <> []) True
    (fun b => exists ps outs, b = pdf outs /\
       Forall2 (fun p out => out = page_text (lbk ++ lbk ++ lbk ++ lbk ++ lbk) p \/ p = [out]) ps outs /\
       Permutation (concat ps) (map (ktext i) chosen) /\
       ((forall k, In k chosen -> lc (ktext i k) + 5 <= 87) ->
        outs = map (page_text (lbk ++ lbk ++ lbk ++ lbk ++ lbk)) ps /\ concat ps = map (ktext i) chosen /\
        Forall (fun p => page_rows lc 5 p <= 87 /\ p <> []) ps)) x.
Proof.
  clear lb dg mtext.
  intros HL NL SA PK D N IM EX K NF. cbv zeta.
  destruct (keys_out_lemma r oe g o out f h p key i chosen true HL NL SA PK D N IM EX K NF) as (A & B).
  split; [exact A|]. eapply wrote_q; [|eapply wrote_b; [|exact B]]; [tauto|]. intros _ c ->.
  pose proof (picked_filter _ _ (key_selected_spec U (r_now r) o) (i_keys i)) as PF.
  pose proof (picked_fun _ _ _ PF _ PK) as ->.
  set (flt := key_filter U (r_now r) o) in *.
  assert ((forall k, In k (filter flt (i_keys i)) -> lc (ktext i k) + 5 <= 87) \/
          ~ (forall k, In k (filter flt (i_keys i)) -> lc (ktext i k) + 5 <= 87)) as [F|F].
  { destruct (forallb (fun k => lc (ktext i k) + 5 <=? 87) (filter flt (i_keys i))) eqn:E.
    - left. rewrite forallb_forall in E. intros k I. apply E in I. lia.
    - right. intros X. enough (forallb (fun k => lc (ktext i k) + 5 <=? 87) (filter flt (i_keys i)) = true) by congruence.
      apply forallb_forall. intros k I. apply X in I. lia. }
  - destruct (keys_pages_lemma lbk lc (ktext i) flt (i_keys i)) as (ps & E & C & R).
    { intros k I J. apply F, filter_In. split; assumption. }
    exists ps, (keys_pdf lbk lc (ktext i) flt (i_keys i)). split; [reflexivity|]. split.
    { rewrite E. clear. induction ps as [|q ps IH]; constructor; [left; reflexivity|exact IH]. }
    split; [rewrite C; reflexivity|]. intros _. split; [exact E|]. split; [exact C|exact R].
  - destruct (keys_once_lemma lbk lc (ktext i) flt (i_keys i)) as (ps & E & C).
    exists ps, (keys_pdf lbk lc (ktext i) flt (i_keys i)). split; [reflexivity|]. split; [exact E|]. split; [exact C|]. tauto.
Qed.

(** ** messages --output *)
Lemma msg_out_lemma r oe g o out f h p key i chosen k : lib_ok L -> lbk <> [] ->
  store_at L (r_env r 0) (mo_file o) f p key i ->
  picked (message_chosen U o) (i_messages i) chosen ->
  mo_delete o = false -> mo_new o = false -> mo_list o = false ->
  kind out k -> oo_file out <> [] ->
  let x := msg_out r oe g o (Some out) f h in
  shown x = [] /\
  wrote oe (oo_file out) f (key_given L (r_env r 0) g key /\ can_read (r_env r 0)) (chosen <> []) (k = true)
    (fun b => b = if k then pdf (messages_pdf lbk lc (mtext i 95) (msg_filter U o) (i_messages i))
                  else utf8 (page_text lbk (map (mtext i 80) chosen))) x.
Proof.
  clear ktext.
  intros HL NL (PO & PP & LK & NZ & ST) PK D N LI K NF. cbv zeta.
  rewrite (picked_fun _ _ _ (picked_filter _ _ (msg_filter_spec U o) _) _ PK).
  unfold cmd_messages_output. rewrite Bool.andb_false_r.
  destruct (open_stored L U g (r_env r 0) (mo_file o) f h p key i HL NZ PO LK ST)
    as [(x & NO & -> & NK)|(KG & CR & h1 & s1 & salt & -> & RD & SG & RS & I1)].
  - split; [reflexivity|]. cbn [andthen End]. apply nothing_wrote; [tauto|]. split; [congruence|tauto].
  - rewrite andthen_go. unfold messages_delete. rewrite D. cbn [negb]. rewrite andthen_go. unfold messages_new. rewrite N. cbn [negb].
    rewrite andthen_go. cbv zeta. rewrite LI, I1. split.
    { unfold finally. destruct (_ && _); [reflexivity|]. destruct (output_items _ _ _ _ _ _). reflexivity. }
    apply wrote_did; [tauto|]. rewrite (as_text_lemma _ lbk (mtext i 80)).
    eapply wrote_q; [|apply finally_spec; [exact K|exact NF| |]].
    + intros _. split; [intros [X|X]; [exact X|discriminate]|tauto].
    + destruct k; [rewrite messages_pdf_nil; tauto|]. rewrite page_text_nil by exact NL. tauto.
    + discriminate.
Qed.
Lemma msg_text_lemma r oe g o out f h p key i chosen : lib_ok L -> lbk <> [] ->
  store_at L (r_env r 0) (mo_file o) f p key i ->
  picked (message_chosen U o) (i_messages i) chosen ->
  mo_delete o = false -> mo_new o = false -> mo_list o = false ->
  text_wanted out -> oo_file out <> [] ->
  let x := msg_out r oe g o (Some out) f h in
  shown x = [] /\
  wrote oe (oo_file out) f (key_given L (r_env r 0) g key /\ can_read (r_env r 0)) (chosen <> []) False
    (fun b => b = utf8 (page_text lbk (map (mtext i 80) chosen))) x.
Proof.
  clear ktext.
  intros HL NL SA PK D N LI K NF. cbv zeta.
  destruct (msg_out_lemma r oe g o out f h p key i chosen false HL NL SA PK D N LI K NF) as (A & B).
  split; [exact A|]. eapply wrote_q; [|exact B]. intros _. split; [discriminate|tauto].
Qed.
Lemma msg_pdf_lemma r oe g o out f h p key i chosen : lib_ok L -> lbk <> [] ->
  store_at L (r_env r 0) (mo_file o) f p key i ->
  picked (message_chosen U o) (i_messages i) chosen ->
  mo_delete o = false -> mo_new o = false -> mo_list o = false ->
  pdf_wanted out -> oo_file out <> [] ->
  let x := msg_out r oe g o (Some out) f h in
  shown x = [] /\
  wrote oe (oo_file out) f (key_given L (r_env r 0) g key /\ can_read (r_env r 0)) (chosen <> []) True
    (fun b => exists ps outs, b = pdf outs /\
       Forall2 (fun p out => out = page_text (lbk ++ lbk) p \/ p = [out]) ps outs /\
       Permutation (concat ps) (map (mtext i 95) chosen) /\
       ((forall k, In k chosen -> lc (mtext i 95 k) + 2 <= 65) ->
        outs = map (page_text (lbk ++ lbk)) ps /\ concat ps = map (mtext i 95) chosen /\
        Forall (fun p => page_rows lc 2 p <= 65 /\ p <> []) ps)) x.
Proof.
  clear ktext.
  intros HL NL SA PK D N LI K NF. cbv zeta.
  destruct (msg_out_lemma r oe g o out f h p key i chosen true HL NL SA PK D N LI K NF) as (A & B).
  split; [exact A|]. eapply wrote_q; [|eapply wrote_b; [|exact B]]; [tauto|]. intros _ c ->.
  pose proof (picked_filter _ _ (msg_filter_spec U o) (i_messages i)) as PF.
  pose proof (picked_fun _ _ _ PF _ PK) as ->.
  set (flt := msg_filter U o) in *.
  assert ((forall k, In k (filter flt (i_messages i)) -> lc (mtext i 95 k) + 2 <= 65) \/
          ~ (forall k, In k (filter flt (i_messages i)) -> lc (mtext i 95 k) + 2 <= 65)) as [F|F].
  { destruct (forallb (fun k => lc (mtext i 95 k) + 2 <=? 65) (filter flt (i_messages i))) eqn:E.
    - left. rewrite forallb_forall in E. intros k I. apply E in I. lia.
    - right. intros X. enough (forallb (fun k => lc (mtext i 95 k) + 2 <=? 65) (filter flt (i_messages i)) = true) by congruence.
      apply forallb_forall. intros k I. apply X in I. lia. }
  - destruct (messages_pages_lemma lbk lc (mtext i 95) flt (i_messages i)) as (ps & E & C & R).
    { intros k I J. apply F, filter_In. split; assumption. }
    exists ps, (messages_pdf lbk lc (mtext i 95) flt (i_messages i)). split; [reflexivity|]. split.
    { rewrite E. clear. induction ps as [|q ps IH]; constructor; [left; reflexivity|exact IH]. }
    split; [rewrite C; reflexivity|]. intros _. split; [exact E|]. split; [exact C|exact R].
  - destruct (messages_once_lemma lbk lc (mtext i 95) flt (i_messages i)) as (ps & E & C).
    exists ps, (messages_pdf lbk lc (mtext i 95) flt (i_messages i)). split; [reflexivity|]. split; [exact E|]. split; [exact C|]. tauto.
Qed.

(** ** Any call with --output against the one without *)
Lemma beside_then p a k1 k2 : (forall f h s, beside p (k1 f h s) (k2 f h s)) -> beside p (andthen a k1) (andthen a k2).
Proof.
  clear utf8 pdf lbk lc L U lb dp ds dg ktext mtext.
  intros B. destruct a as [f h s ms|r f ms out]; cbn [andthen].
  - specialize (B f h s). unfold beside in *. destruct (k1 f h s) as [? ? ? a1|? ? a1 ?], (k2 f h s) as [? ? ? a2|? ? a2 ?]; cbn [show shown listed files result] in *;
      destruct B as (-> & B); (split; [reflexivity|exact B]).
  - unfold beside. split; [reflexivity|]. split; [reflexivity|]. split; [intros q _; reflexivity|]. split; [tauto|]. intros _. split; reflexivity.
Qed.
Lemma output_other e o text pages f : let (r, xs) := output_items utf8 pdf e o text pages in
  same_other_files (oo_file o) f (apply_effects f xs).
Proof.
  clear lbk lc L U lb dp ds dg ktext mtext.
  unfold output_items.
  assert (forall b, let (r, xs) := write_file e (oo_file o) b in same_other_files (oo_file o) f (apply_effects f xs)) as W.
  { intros b. pose proof (write_spec e (oo_file o) b f) as W. destruct (write_file e (oo_file o) b) as (r, xs). exact (proj1 W). }
  repeat match goal with |- context [if ?c then _ else _] => destruct c end;
    first [apply W | intros q _; reflexivity].
Qed.
Lemma finally_beside oe out listing lines text pages f y :
  result y = Ok tt -> shown y = [] -> files y = f -> listed y = lines ->
  beside (oo_file out) (finally utf8 pdf oe (Some out) listing lines text pages f) y.
Proof.
  clear lbk lc L U lb dp ds dg ktext mtext.
  intros R S1 F1 L1. unfold finally, beside. rewrite R, S1, F1, L1. destruct (listing && (len lines =? 0)) eqn:E.
  - apply andb_prop in E as (_ & E). apply len_0 in E. subst lines. rewrite E. cbn [End shown listed files result].
    split; [reflexivity|]. split; [reflexivity|]. split; [intros q _; reflexivity|]. split; [tauto|]. contradiction.
  - pose proof (output_other oe out text pages f) as W. destruct (output_items utf8 pdf oe out text pages) as (r, xs).
    cbn [End shown listed files result]. split; [reflexivity|]. split; [reflexivity|]. split; [exact W|]. split; [tauto|]. contradiction.
Qed.
Lemma keys_beside r oe g o out f h : keys_idle o = false ->
  beside (oo_file out) (keys_out r oe g o (Some out) f h) (keys_cmd r g o f h).
Proof.
  clear lb dg mtext.
  intros NI. unfold cmd_keys_output, cmd_keys. rewrite Bool.andb_false_r, NI.
  do 5 (apply beside_then; intros ? ? ?). cbv zeta.
  destruct (list_end U ds r o f4 h4 s3) as (C & A & B & D).
  apply finally_beside; assumption.
Qed.
Lemma msg_beside r oe g o out f h : mo_list o || mo_new o || mo_delete o = true ->
  beside (oo_file out) (msg_out r oe g o (Some out) f h) (msg_cmd r g o f h).
Proof.
  clear ktext.
  intros NI. unfold cmd_messages_output, cmd_messages. rewrite Bool.andb_false_r, NI. cbn [negb].
  do 3 (apply beside_then; intros ? ? ?). cbv zeta. unfold messages_list.
  destruct (mo_list o); cbn [negb].
  - destruct (summary_of_messages _ _ _ _ _ _) as [((i1, hd), lines)| | |];
      [apply finally_beside; reflexivity|..];
      unfold beside; (split; [reflexivity|]; split; [reflexivity|]; split; [intros q _; reflexivity|]; split; [tauto|]; intros _; split; reflexivity).
  - apply finally_beside; reflexivity.
Qed.
Lemma same_then a k1 k2 : (forall f h s, shown (k1 f h s) = shown (k2 f h s) /\ listed (k1 f h s) = listed (k2 f h s) /\
  files (k1 f h s) = files (k2 f h s) /\ result (k1 f h s) = result (k2 f h s)) ->
  shown (andthen a k1) = shown (andthen a k2) /\ listed (andthen a k1) = listed (andthen a k2) /\
  files (andthen a k1) = files (andthen a k2) /\ result (andthen a k1) = result (andthen a k2).
Proof.
  clear utf8 pdf lbk lc L U lb dp ds dg ktext mtext. intros B.
  destruct a as [f h s ms|r f ms out]; cbn [andthen]; [|split; [|split; [|split]]; reflexivity].
  specialize (B f h s). destruct (k1 f h s) as [? ? ? a1|? ? a1 ?], (k2 f h s) as [? ? ? a2|? ? a2 ?]; cbn [show shown listed files result] in *;
    destruct B as (-> & B); (split; [reflexivity|exact B]).
Qed.
(** Without --output the model is the one of Model_Cli. *)
Lemma keys_none r oe g o f h : let x := keys_out r oe g o None f h in let y := keys_cmd r g o f h in
  shown x = shown y /\ listed x = listed y /\ files x = files y /\ result x = result y.
Proof.
  clear lb dg mtext.
  cbv zeta. unfold cmd_keys_output, cmd_keys. rewrite Bool.andb_true_r. destruct (keys_idle o); [split; [|split; [|split]]; reflexivity|].
  do 5 (apply same_then; intros ? ? ?). cbv zeta.
  destruct (list_end U ds r o f4 h4 s3) as (C & A & B & D).
  unfold finally. destruct (ko_list o && _) eqn:E; cbn [End shown listed files result].
  - apply andb_prop in E as (_ & E). apply len_0 in E. rewrite A, B, C, D, E. split; [|split; [|split]]; reflexivity.
  - rewrite A, B, C, D. split; [|split; [|split]]; reflexivity.
Qed.
Lemma msg_none r oe g o f h : let x := msg_out r oe g o None f h in let y := msg_cmd r g o f h in
  shown x = shown y /\ listed x = listed y /\ files x = files y /\ result x = result y.
Proof.
  clear ktext. cbv zeta. unfold cmd_messages_output, cmd_messages. rewrite Bool.andb_true_r.
  destruct (negb (mo_list o || mo_new o || mo_delete o)); [split; [|split; [|split]]; reflexivity|].
  do 3 (apply same_then; intros ? ? ?). cbv zeta. unfold messages_list. destruct (mo_list o); cbn [negb].
  - destruct (summary_of_messages _ _ _ _ _ _) as [((i1, hd), lines)| | |]; [|split; [|split; [|split]]; reflexivity..].
    unfold finally. cbn [andb]. destruct (len lines =? 0) eqn:E; cbn [End shown listed files result]; [|split; [|split; [|split]]; reflexivity].
    apply len_0 in E. subst lines. split; [|split; [|split]]; reflexivity.
  - split; [|split; [|split]]; reflexivity.
Qed.
End Cmd.
