(** Lemmas about the documented forms of radiograms. *)
From Verif Require Import Base Spec Spec_Forms Model_Unicode Model_Crand Model_Functions Model_Regex Model_Types Model_Cipher
  Model_Messages Proofs_Functions Proofs_Regex Proofs_Radiogram Proofs_Traffic.

(** ** Date-Time Groups *)
Lemma rm_rep : forall f n p q, rm (rrep n f) p q -> exists w, p_rest p = w ++ p_rest q /\ length w = n /\ forallb f w = true.
Proof.
  induction n as [|n IH]; intros p q H; cbn [rrep] in H.
  - inversion H; subst. exists []. repeat split.
  - inv_cat H m H1 H. apply rm_chr_inv in H1. destruct H1 as (c & C1 & C2 & _).
    destruct (IH _ _ H) as (w & W1 & W2 & W3). exists (c :: w). rewrite C1, W1. cbn [app length forallb].
    rewrite W2, C2, W3. repeat split.
Qed.
Lemma no_dtg : forall y, (forall x r, y = x ++ r -> length x = 6%nat -> ~ Forall digit x) ->
  forall cs q, ~ rm (RCap 3 r_dtg) (mkPos false y cs) q.
Proof.
  intros y N cs q H. apply rm_cap_inv in H. destruct H as (q0 & w0 & H & _). unfold r_dtg in H. cbn [rseq] in H.
  inv_cat H m H1 H. apply rm_rep in H1. destruct H1 as (w & W1 & W2 & W3). cbn [p_rest] in W1.
  apply (N w (p_rest m) W1 W2). apply Forall_forall. intros c C. rewrite forallb_forall in W3. apply W3 in C.
  unfold c_digit in C. unfold digit. lia.
Qed.
Lemma rm_lits : forall ms p q, ms <> [] -> Forall (fun m => exists u w, m = u :: w) ms -> rm (ralt (map rlit ms)) p q ->
  exists c r u, p_rest p = c :: r /\ In u (map (hd 0) ms) /\ c_lit u c = true.
Proof.
  assert (ONE : forall u w p q, rm (rlit (u :: w)) p q -> exists c r, p_rest p = c :: r /\ c_lit u c = true).
  { intros u w p q H. unfold rlit in H. cbn [map] in H. destruct w as [|v w]; cbn [map rseq] in H.
    - apply rm_chr_inv in H. destruct H as (c & C1 & C2 & _). eauto.
    - inv_cat H m H1 H. apply rm_chr_inv in H1. destruct H1 as (c & C1 & C2 & _). eauto. }
  induction ms as [|m ms IH]; intros p q N F H; [congruence|]. inversion F as [|? ? (u & w & ->) F']; subst.
  destruct ms as [|m' ms].
  - cbn [map ralt] in H. destruct (ONE _ _ _ _ H) as (c & r & C1 & C2). exists c, r, u. split; [exact C1|]. split; [left; reflexivity|exact C2].
  - change (ralt (map rlit ((u :: w) :: m' :: ms))) with (RAlt (rlit (u :: w)) (ralt (map rlit (m' :: ms)))) in H.
    inversion H as [| | | | |? ? ? ? A|? ? ? ? A| | |]; subst.
    + destruct (ONE _ _ _ _ A) as (c & r & C1 & C2). exists c, r, u. split; [exact C1|]. split; [left; reflexivity|exact C2].
    + destruct (IH p q ltac:(discriminate) F' A) as (c & r & v & C1 & C2 & C3). exists c, r, v.
      split; [exact C1|]. split; [right; exact C2|exact C3].
Qed.
Lemma fm_months : forall m s, In m (month_names ++ [[77; 65; 74]; [79; 75; 84]]) ->
  fm (ralt (map rlit months)) false m s false [].
Proof.
  intros m s H. apply in_app_or in H. destruct H as [H|H]; [apply fm_month; exact H|].
  intros A k cs x K. cbn [In] in H.
  repeat (destruct H as [<-|H]; [cbn -[c_lit]; unfold c_lit; cbn; cbn in K; rewrite K; reflexivity|]).
  contradiction.
Qed.
Lemma no_month : forall c s cs q, c = 32 \/ digit c -> ~ rm (ralt (map rlit months)) (mkPos false (c :: s) cs) q.
Proof.
  intros c s cs q C H. apply rm_lits in H; [|discriminate|repeat (constructor; [do 2 eexists; reflexivity|]); constructor].
  destruct H as (c' & r & u & E & I & L). cbn [p_rest] in E. injection E as <- _.
  unfold digit in C. unfold c_lit in L. cbn [map hd months In] in I.
  repeat (destruct I as [<-|I]; [lia|]). contradiction.
Qed.

Lemma fm_opt_none : forall a b s, (forall cs q, ~ rm a (mkPos b s cs) q) -> fm (ropt a) b [] s b [].
Proof. intros a b s H. apply fm_altr; [exact H|apply fm_empty]. Qed.

Lemma fm_dtg_form : forall d s, dtg_form d -> fm r_dtg false d (32 :: s) false [].
Proof.
  intros d s (d6 & z & m & y & -> & L6 & D6 & Z & M & Y). unfold r_dtg. cbn [rseq].
  assert (N6 : d6 <> []) by (intros ->; discriminate).
  change (@nil (nat * list rune)) with (((@nil (nat * list rune) ++ []) ++ []) ++ []).
  apply fm_cat with (nb false d6); [apply fm_rep; [exact L6|apply digits_c; exact D6]|].
  replace (nb false d6) with false by (destruct d6; [congruence|reflexivity]).
  assert (YS : exists c r, y ++ 32 :: s = c :: r /\ (c = 32 \/ digit c)).
  { destruct Y as [->|(L2 & D2)]; [do 2 eexists; split; [reflexivity|auto]|].
    destruct y as [|c y]; [discriminate|]. inversion D2; subst. do 2 eexists. split; [reflexivity|auto]. }
  destruct YS as (yc & yr & YE & YC).
  apply fm_cat with false.
  { destruct Z as [->|(c & -> & C)].
    - apply fm_opt_none. intros cs q Q. apply rm_chr_inv in Q. destruct Q as (c & C1 & C2 & _). cbn [p_rest] in C1.
      destruct M as [->|(M & _)]; [|congruence]. cbn [app] in C1. rewrite YE in C1. injection C1 as <- _.
      unfold digit in YC. unfold c_alpha in C2. lia.
    - apply fm_altl. apply fm_chr. unfold is_letter in C. unfold c_alpha. lia. }
  apply fm_cat with false.
  { destruct M as [->|(_ & M)]; [|apply fm_altl, fm_months; exact M].
    apply fm_opt_none. rewrite YE. intros cs q. apply no_month. exact YC. }
  destruct Y as [->|(L2 & D2)].
  - apply fm_opt_none. intros cs q Q. cbn [rrep] in Q. apply rm_cat_inv in Q. destruct Q as (x & Q & _).
    apply rm_chr_inv in Q. destruct Q as (c & C1 & C2 & _). cbn [p_rest] in C1. injection C1 as <- _. discriminate.
  - apply fm_altl. replace false with (nb false y) at 2 by (destruct y; [discriminate|reflexivity]).
    apply fm_rep; [exact L2|apply digits_c; exact D2].
Qed.
Lemma dtg_form_chars : forall d, dtg_form d -> Forall (fun c => is_letter c \/ digit c) d.
Proof.
  intros d (d6 & z & m & y & -> & L6 & D6 & Z & M & Y).
  apply Forall_app. split; [eapply Forall_impl; [|exact D6]; auto|].
  apply Forall_app. split; [destruct Z as [->|(c & -> & C)]; constructor; auto|].
  apply Forall_app. split; [|destruct Y as [->|(_ & D2)]; [constructor|eapply Forall_impl; [|exact D2]; auto]].
  destruct M as [->|(_ & M)]; [constructor|]. unfold month_names in M. cbn [In app] in M.
  repeat (destruct M as [<-|M]; [repeat (apply Forall_cons; [left; unfold is_letter; lia|]); apply Forall_nil|]). contradiction.
Qed.
Lemma dtg_form_call : forall d, dtg_form d -> Forall call_char d.
Proof. intros d H. eapply Forall_impl; [|apply dtg_form_chars; exact H]. intros c [Q|Q]; unfold call_char; auto. Qed.
Lemma dtg_form_hd : forall d, dtg_form d -> exists c r, d = c :: r /\ digit c.
Proof.
  intros d (d6 & z & m & y & -> & L6 & D6 & _). destruct d6 as [|c d6]; [discriminate|].
  inversion D6; subst. eexists. eexists. split; [reflexivity|assumption].
Qed.
Lemma dtg_form_len : forall d, dtg_form d -> (6 <= length d)%nat.
Proof. intros d (d6 & z & m & y & -> & L6 & _). rewrite app_length. lia. Qed.
Lemma dtg_text_form : forall d, dtg_text d -> dtg_form d.
Proof.
  intros d (d6 & z & m & y & -> & L6 & D6 & Z & M & L2 & D2). exists d6, [z], m, y. split; [reflexivity|].
  split; [exact L6|]. split; [exact D6|]. split; [right; eauto|]. split; [|auto]. right. split; [discriminate|].
  apply in_or_app. left. exact M.
Qed.

(** ** The header *)
Definition dcap (d : list rune) : list (nat * list rune) := match d with [] => [] | _ => [(3%nat, d)] end.
Definition dtg_or_none (d y : list rune) : Prop :=
  dtg_form d \/ (d = [] /\ forall x r, y = x ++ r -> length x = 6%nat -> ~ Forall digit x).

Lemma fm_front : forall r rs F D w s b e, call_sign F -> dtg_or_none D (w ++ s) -> stops c_space (w ++ s) ->
  fm (rseq (r :: rs)) false w s b e ->
  fm (RCat (RChr (c_lit 68)) (RCat (RChr (c_lit 69)) (RCat (rplus c_space) (RCat (RCap 2 (rplus c_call)) (RCat r_sp
       (RCat (ropt (RCap 3 r_dtg)) (RCat r_sp (rseq (r :: rs)))))))))
    false ([68] ++ [69] ++ [32] ++ F ++ word D ++ [32] ++ w) s b (e ++ dcap D ++ [(2%nat, F)]).
Proof.
  intros r rs F D w s b e (NF & CF) HD SW H.
  destruct F as [|fc fr]; [congruence|]. assert (FC : call_char fc) by (inversion CF; assumption).
  destruct (letter_call _ FC) as (F1 & F2 & F3).
  destruct HD as [HD|(-> & HD)].
  - destruct (dtg_form_hd D HD) as (dc & dr & ED & DC). destruct (digit_not _ DC) as (D1 & D2 & D3 & D4 & D5).
    replace (word D) with ([32] ++ D) by (rewrite ED; reflexivity).
    replace (dcap D) with [(3%nat, D)] by (rewrite ED; reflexivity).
    rewrite <- app_assoc. eapply fm_eq.
    { eapply fm_cat; [apply fm_chr; reflexivity|].
      eapply fm_cat; [apply fm_chr; reflexivity|].
      eapply fm_cat; [apply fm_plus; [discriminate|reflexivity|exact F1]|].
      eapply fm_cat; [apply fm_cap, fm_plus; [discriminate|apply calls_c; exact CF|reflexivity]|].
      eapply fm_cat; [apply fm_star; [reflexivity|rewrite ED; exact D1]|].
      eapply fm_cat; [apply fm_altl, fm_cap; rewrite <- app_assoc; apply fm_dtg_form; exact HD|].
      eapply fm_cat; [apply fm_star; [reflexivity|exact SW]|]. exact H. }
    rewrite !app_nil_r. rewrite <- !app_assoc. reflexivity.
  - change (dcap []) with (@nil (nat * list rune)). change (word [] ++ [32] ++ w) with ([32] ++ [] ++ [] ++ w).
    eapply fm_eq.
    { eapply fm_cat; [apply fm_chr; reflexivity|].
      eapply fm_cat; [apply fm_chr; reflexivity|].
      eapply fm_cat; [apply fm_plus; [discriminate|reflexivity|exact F1]|].
      eapply fm_cat; [apply fm_cap, fm_plus; [discriminate|apply calls_c; exact CF|reflexivity]|].
      eapply fm_cat; [apply fm_star; [reflexivity|exact SW]|].
      eapply fm_cat; [apply fm_opt_none, no_dtg; exact HD|].
      eapply fm_cat; [apply fm_star; [reflexivity|exact SW]|]. exact H. }
    rewrite !app_nil_r. reflexivity.
Qed.

Lemma sep_fails_all : forall rest s cs q, nosde s ->
  ~ rm (RCat (RAlt (rplus c_space) RBegin) (RCat (RChr (c_lit 68)) (RCat (RChr (c_lit 69)) (RCat (rplus c_space) rest))))
      (mkPos false s cs) q.
Proof.
  intros rest s cs q NS H. inv_cat H m1 H1 H. inv_cat H m2 H2 H. inv_cat H m3 H3 H. inv_cat H m4 H4 H.
  inversion H1 as [| | | | |? ? ? ? B|? ? ? ? B| | |]; subst;
    [|inversion B as [| | | | | | | |? B1|]; subst; discriminate].
  apply rm_plus in B. destruct B as (w & B1 & B2 & B3 & _). cbn [p_rest] in B1.
  apply rm_chr_inv in H2. destruct H2 as (d & D1 & D2 & _).
  apply rm_chr_inv in H3. destruct H3 as (e & E1 & E2 & _).
  apply rm_plus in H4. destruct H4 as (w4 & P1 & P2 & P3 & _). destruct w4 as [|c w4]; [congruence|].
  destruct (exists_last B3) as (w0 & a & ->).
  rewrite forallb_app in B2. apply andb_true_iff in B2. destruct B2 as (B2 & B4). cbn [forallb] in B4, P2.
  apply (NS w0 a d e c (w4 ++ p_rest m4)).
  - rewrite B1, D1, E1, P1. rewrite <- !app_assoc. reflexivity.
  - destruct (c_space a); [reflexivity|discriminate].
  - exact D2.
  - exact E2.
  - destruct (c_space c); [reflexivity|discriminate].
Qed.

Lemma join_empty : forall R, Forall call_sign R ->
  match join [32] R with [] => true | _ => false end = match R with [] => true | _ => false end.
Proof.
  intros R HR. destruct R as [|x [|y R]]; [reflexivity| |].
  - inversion HR as [|? ? (Q & _) _]; subst. cbn [join]. destruct x; [congruence|reflexivity].
  - inversion HR as [|? ? (Q & _) _]; subst. cbn [join]. destruct x; [congruence|reflexivity].
Qed.

(** [y]: the characters after the header up to the first one that is none of a
    recipient. *)
Lemma head_match : forall r rs R F D y z b e, Forall call_sign R -> call_sign F ->
  dtg_or_none D (y ++ z) -> stops c_space (y ++ z) -> forallb c_to y = true -> stops c_to z ->
  (forall u' u, [68; 69; 32] ++ F ++ word D ++ [32] ++ y = u' ++ u -> forall cs q,
     ~ rm (RCat (RAlt (rplus c_space) RBegin) (RCat (RChr (c_lit 68)) (RCat (RChr (c_lit 69)) (RCat (rplus c_space)
            (RCat (RCap 2 (rplus c_call)) (RCat r_sp (RCat (ropt (RCap 3 r_dtg)) (RCat r_sp (rseq (r :: rs))))))))))
          (mkPos false (u ++ z) cs) q) ->
  fm (rseq (r :: rs)) false (y ++ z) [] b e ->
  re_match (r_head (r :: rs)) (mkPos true (header R F D ++ [32] ++ y ++ z) []) Some =
  Some (mkPos b [] (e ++ dcap D ++ [(2%nat, F); (1%nat, join [32] R)])).
Proof.
  intros r rs R F D y z b e HR HF HD SY CY SZ NF H.
  pose proof (fm_front r rs F D (y ++ z) [] b e HF) as FA. rewrite !app_nil_r in FA. specialize (FA HD SY H).
  change (r_head (r :: rs)) with (RCat (RCap 1 (RStar c_to)) (RCat (RAlt (rplus c_space) RBegin) (RCat (RChr (c_lit 68))
    (RCat (RChr (c_lit 69)) (RCat (rplus c_space) (RCat (RCap 2 (rplus c_call)) (RCat r_sp
       (RCat (ropt (RCap 3 r_dtg)) (RCat r_sp (rseq (r :: rs))))))))))).
  set (rest := RCat (RChr (c_lit 68)) _) in *.
  pose (sep := match R with [] => [] | _ => [32 : rune] end).
  pose (v := sep ++ [68; 69; 32] ++ F ++ word D ++ [32] ++ y).
  assert (WF : word F = 32 :: F) by (destruct F; [destruct HF; congruence|reflexivity]).
  replace (header R F D ++ [32] ++ y ++ z) with (join [32] R ++ v ++ z).
  2: { unfold v, sep, header. rewrite WF. destruct R; repeat (progress (cbn [app]; rewrite <- ?app_assoc)); reflexivity. }
  assert (CD : forallb c_to (word D) = true).
  { destruct HD as [HD|(-> & _)]; [|reflexivity]. pose proof (to_call D (dtg_form_call D HD)) as Q. destruct D; [reflexivity|]. exact Q. }
  cbn [re_match p_begin p_rest p_caps].
  apply star_back.
  - apply join_to. exact HR.
  - unfold v, sep. rewrite !forallb_app. rewrite (to_call F) by apply HF. rewrite CD, CY. destruct R; reflexivity.
  - destruct z; exact SZ.
  - intros c u' u E. apply (re_fail rpos (RCat (RAlt (rplus c_space) RBegin) rest)).
    intros q Q. exfalso. revert Q. unfold v, sep in E. destruct R as [|x R].
    + apply (NF (c :: u') u). cbn [app] in E |- *. exact E.
    + cbn [app] in E. injection E as _ E. apply (NF u' u). exact E.
  - cbn [p_rest p_begin p_caps]. rewrite firstn_diff.
    assert (G : fm (RCat (RAlt (rplus c_space) RBegin) rest) (match R with [] => true | _ => false end)
       (sep ++ [68] ++ [69] ++ [32] ++ F ++ word D ++ [32] ++ y ++ z) [] b ((e ++ dcap D ++ [(2%nat, F)]) ++ [])).
    { destruct R as [|x R].
      - apply fm_cat with true.
        + apply fm_altr; [|apply fm_begin]. intros cs q Q. apply rm_plus in Q. destruct Q as (w & Q1 & Q2 & Q3 & _).
          destruct w as [|c w]; [congruence|]. cbn [p_rest app] in Q1. injection Q1 as <- _. discriminate.
        + intros A k cs x K. exact (FA A k cs x K).
      - apply fm_cat with false; [apply fm_altl, fm_plus; [discriminate|reflexivity|reflexivity]|exact FA]. }
    rewrite (join_empty R HR).
    specialize (G rpos Some [(1%nat, join [32] R)] _ eq_refl). rewrite app_nil_r in G.
    rewrite <- !app_assoc in G. cbn [app] in G.
    replace (v ++ z) with ((sep ++ 68 :: 69 :: 32 :: F ++ word D ++ 32 :: y ++ z)).
    2: { unfold v. repeat (progress (cbn [app]; rewrite <- ?app_assoc)). reflexivity. }
    rewrite ?app_nil_r in G. exact G.
Qed.

(** ** No further DE *)
Lemma nosde_word : forall w s, forallb (fun c => negb (c_space c)) w = true -> w <> [68; 69] ->
  (forall c, In c w -> c <> 100 /\ c <> 101) ->
  nosde s -> (exists c r, s = c :: r /\ c_space c = true) -> nosde (word w ++ s).
Proof.
  intros w s NW ND UP NS (sc & sr & ES & SC). destruct w as [|w1 w]; [exact NS|]. cbn [word app].
  apply nosde_space; [change (w1 :: w ++ s) with ((w1 :: w) ++ s); apply nosde_skip; assumption|].
  cbn [forallb] in NW. apply andb_true_iff in NW. destruct NW as (_ & NW).
  destruct w as [|w2 w].
  - cbn [app]. rewrite ES. destruct sr as [|s2 sr]; [exact I|]. unfold c_lit, c_space in *.
    replace ((sc =? 69) || ((65 <=? 69) && (69 <=? 90) && (sc =? 69 + 32)) || (69 =? 83) && (sc =? 383) || (69 =? 75) && (sc =? 8490)) with false by lia.
    rewrite andb_false_r. reflexivity.
  - cbn [app forallb] in *. apply andb_true_iff in NW. destruct NW as (_ & NW). destruct w as [|w3 w].
    + cbn [app]. rewrite ES. destruct (c_lit 68 w1) eqn:Q1; [|reflexivity]. destruct (c_lit 69 w2) eqn:Q2; [|reflexivity].
      exfalso. apply ND. apply c_lit_d in Q1. apply c_lit_e in Q2.
      pose proof (UP w1 (or_introl eq_refl)). pose proof (UP w2 (or_intror (or_introl eq_refl))).
      f_equal; [lia|]. f_equal. lia.
    + cbn [app forallb] in *. apply andb_true_iff in NW. destruct NW as (NW & _). destruct (c_space w3); [discriminate|].
      rewrite andb_false_r. reflexivity.
Qed.
Lemma call_no_lower : forall w, Forall call_char w -> forall c, In c w -> c <> 100 /\ c <> 101.
Proof. intros w H c C. rewrite Forall_forall in H. specialize (H c C). unfold call_char, is_letter, digit in H. lia. Qed.
Lemma letters_call : forall w, Forall is_letter w -> Forall call_char w.
Proof. intros w H. eapply Forall_impl; [|exact H]. intros c Q. unfold call_char. auto. Qed.
Lemma nosde_one : nosde [32].
Proof. intros w a d e c r E. destruct w as [|? [|? w]]; discriminate. Qed.
Lemma word_start : forall w s, (exists c r, s = c :: r /\ c_space c = true) ->
  exists c r, word w ++ s = c :: r /\ c_space c = true.
Proof. intros w s H. destruct w as [|c w]; [exact H|]. cbn [word app]. do 2 eexists. split; reflexivity. Qed.
Lemma digits_not_de : forall n, Forall digit n -> n <> [68; 69].
Proof. intros n H ->. inversion H as [|? ? Q _]. unfold digit in Q. lia. Qed.
Lemma dtg_not_de : forall d, dtg_form d -> d <> [68; 69].
Proof. intros d H ->. apply dtg_form_len in H. cbn in H. lia. Qed.
Lemma nosde_header : forall F D s, call_sign F -> F <> [68; 69] -> dtg_form D \/ D = [] -> nosde s ->
  (exists c r, s = c :: r /\ c_space c = true) -> nosde ([68; 69; 32] ++ F ++ word D ++ s).
Proof.
  intros F D s (NF & CF) ND HD NS SS.
  assert (X : nosde (word D ++ s)).
  { apply nosde_word; [|destruct HD as [HD| ->]; [apply dtg_not_de; exact HD|discriminate]| |exact NS|exact SS].
    - destruct HD as [HD| ->]; [apply nospace_call, dtg_form_call; exact HD|reflexivity].
    - destruct HD as [HD| ->]; [apply call_no_lower, dtg_form_call; exact HD|intros c []]. }
  change [68; 69; 32] with ([68; 69] ++ [32]). rewrite <- app_assoc. apply nosde_skip; [reflexivity|].
  replace ([32] ++ F ++ word D ++ s) with (word F ++ word D ++ s) by (destruct F; [congruence|reflexivity]).
  apply nosde_word; [apply nospace_call; exact CF|exact ND|apply call_no_lower; exact CF|exact X|apply word_start; exact SS].
Qed.

(** ** The four forms *)
Lemma fm_text : forall B s, forallb c_any B = true -> s = [] -> fm r_text false B s false [(4%nat, B)].
Proof.
  intros B s AB ->. apply (fm_cap 4). replace false with (nb false B) at 2 by (destruct B; reflexivity).
  apply fm_star; [exact AB|exact I].
Qed.
Lemma addresses_c : forall a, addresses_ok a -> forallb c_to (a ++ [32]) = true /\ stops c_space (a ++ [32]).
Proof.
  intros a (H & c & r & E & N). rewrite Forall_forall in H. split.
  - rewrite forallb_app. apply andb_true_iff. split; [|reflexivity]. apply forallb_forall. intros x X.
    apply H in X. destruct X as [X|[->| ->]]; [|reflexivity|reflexivity]. apply letter_call in X. tauto.
  - rewrite E. cbn [app stops]. specialize (H c). rewrite E in H. destruct (H (or_introl eq_refl)) as [X|[->|X]]; [|reflexivity|congruence].
    apply letter_call in X. tauto.
Qed.
Definition alsp (c : rune) : bool := c_alpha c || c_space c.

Lemma fm_full : forall a p n B, form_ok (FullForm a p n) -> forallb c_any B = true -> stops c_space B ->
  fm (rseq [r_eq; r_eq; r_sp; RStar c_to; r_sp; r_eq; r_eq; r_sp; RStar alsp; r_sp; RStar c_digit; r_sp; r_eq; r_sp; r_text])
    false ([61; 61; 32] ++ a ++ [32; 61; 61; 32] ++ p ++ n ++ [32; 61; 32] ++ B) [] false [(4%nat, B)].
Proof.
  intros a p n B (HA & HP & HP1 & HN & NE) AB SB. destruct (addresses_c a HA) as (A1 & A2).
  assert (P1 : forallb alsp p = true).
  { apply forallb_forall. rewrite Forall_forall in HP. intros c C. apply HP in C. unfold is_letter in C.
    unfold alsp, c_alpha, c_space. lia. }
  assert (PS : forall s, p <> [] -> stops c_space (p ++ s)).
  { intros s NP. destruct p as [|c p]; [congruence|]. cbn [app stops]. inversion HP as [|? ? C _]; subst.
    destruct C as [C| ->]; [unfold is_letter in C; unfold c_space; lia|]. exfalso. exact (HP1 p eq_refl). }
  assert (SB' : forall s, s = [] -> stops c_space (B ++ s)) by (intros s ->; rewrite app_nil_r; exact SB).
  pose (pp := match n with [] => p ++ [32] | _ => p end). pose (ws := match n with [] => [] | _ => [32 : rune] end).
  replace ([61; 61; 32] ++ a ++ [32; 61; 61; 32] ++ p ++ n ++ [32; 61; 32] ++ B)
    with ([61] ++ [61] ++ [32] ++ (a ++ [32]) ++ [] ++ [61] ++ [61] ++ [32] ++ pp ++ [] ++ n ++ ws ++ [61] ++ [32] ++ B).
  2: { unfold pp, ws. destruct n; repeat (progress (cbn [app]; rewrite <- ?app_assoc)); reflexivity. }
  eapply fm_eq.
  { unfold rseq.
    eapply fm_cat; [apply fm_chr; reflexivity|].
    eapply fm_cat; [apply fm_chr; reflexivity|].
    eapply fm_cat; [apply fm_star; [reflexivity|]|].
    { destruct HA as (HA & c & r & -> & N). exact A2. }
    eapply fm_cat; [apply fm_star; [exact A1|reflexivity]|].
    eapply fm_cat; [apply (fm_star c_space _ []); [reflexivity|reflexivity]|].
    eapply fm_cat; [apply fm_chr; reflexivity|].
    eapply fm_cat; [apply fm_chr; reflexivity|].
    eapply fm_cat; [apply fm_star; [reflexivity|]|].
    { unfold pp. destruct n as [|nc n]; [rewrite <- !app_assoc; apply PS; intros ->; apply NE; reflexivity|].
      destruct p as [|pc p]; [|exact (PS [] ltac:(discriminate))]. cbn [app stops]. inversion HN as [|? ? Q _]; subst.
      apply digit_not in Q. tauto. }
    eapply fm_cat; [apply fm_star|].
    { unfold pp. destruct n; [rewrite forallb_app, P1; reflexivity|exact P1]. }
    { unfold ws. destruct n as [|nc n]; [reflexivity|]. cbn [app stops]. inversion HN as [|? ? Q _]; subst.
      unfold digit in Q. unfold alsp, c_alpha, c_space. lia. }
    eapply fm_cat; [apply (fm_star c_space _ []); [reflexivity|]|].
    { unfold ws. destruct n as [|nc n]; [reflexivity|]. cbn [app stops]. inversion HN as [|? ? Q _]; subst.
      apply digit_not in Q. tauto. }
    eapply fm_cat; [apply fm_star; [apply digits_c; exact HN|]|].
    { unfold ws. destruct n; reflexivity. }
    eapply fm_cat; [apply fm_star; [unfold ws; destruct n; reflexivity|reflexivity]|].
    eapply fm_cat; [apply fm_chr; reflexivity|].
    eapply fm_cat; [apply fm_star; [reflexivity|apply SB'; reflexivity]|].
    apply fm_text; [exact AB|reflexivity]. }
  reflexivity.
Qed.

Lemma fm_semi : forall a B, addresses_ok a -> forallb c_any B = true -> stops c_space B ->
  fm (rseq [r_eq; r_eq; r_sp; RStar c_to; r_sp; RStar c_digit; r_sp; r_eq; r_sp; r_text])
    false ([61; 61; 32] ++ a ++ [32; 61; 32] ++ B) [] false [(4%nat, B)].
Proof.
  intros a B HA AB SB. destruct (addresses_c a HA) as (A1 & A2).
  assert (SB' : forall s, s = [] -> stops c_space (B ++ s)) by (intros s ->; rewrite app_nil_r; exact SB).
  replace ([61; 61; 32] ++ a ++ [32; 61; 32] ++ B)
    with ([61] ++ [61] ++ [32] ++ (a ++ [32]) ++ [] ++ [] ++ [] ++ [61] ++ [32] ++ B).
  2: { repeat (progress (cbn [app]; rewrite <- ?app_assoc)); reflexivity. }
  eapply fm_eq.
  { unfold rseq.
    eapply fm_cat; [apply fm_chr; reflexivity|].
    eapply fm_cat; [apply fm_chr; reflexivity|].
    eapply fm_cat; [apply fm_star; [reflexivity|]|].
    { destruct HA as (HA & c & r & -> & N). exact A2. }
    eapply fm_cat; [apply fm_star; [exact A1|reflexivity]|].
    eapply fm_cat; [apply (fm_star c_space _ []); [reflexivity|reflexivity]|].
    eapply fm_cat; [apply (fm_star c_digit _ []); [reflexivity|reflexivity]|].
    eapply fm_cat; [apply (fm_star c_space _ []); [reflexivity|reflexivity]|].
    eapply fm_cat; [apply fm_chr; reflexivity|].
    eapply fm_cat; [apply fm_star; [reflexivity|apply SB'; reflexivity]|].
    apply fm_text; [exact AB|reflexivity]. }
  reflexivity.
Qed.

(** Instructions and count of the short form, without the first space. *)
Definition short_part (p n : list rune) : list rune :=
  match p, n with
  | [], [] => []
  | _, [] => p ++ [32]
  | [], _ => n ++ [32]
  | _, _ => p ++ [32] ++ n ++ [32]
  end.
Lemma short_middle : forall p n, middle (ShortForm p n) = [32] ++ short_part p n ++ [61; 32].
Proof.
  intros p n. cbn [middle]. destruct p as [|pc p], n as [|nc n]; cbn [word short_part];
    repeat (progress (cbn [app]; rewrite <- ?app_assoc)); reflexivity.
Qed.
Lemma fm_short : forall p n B, form_ok (ShortForm p n) -> forallb c_any B = true -> stops c_space B ->
  fm (rseq [ruptot 4 c_alpha; r_sp; ruptot 4 c_digit; r_sp; r_eq; r_sp; r_text])
    false (short_part p n ++ [61; 32] ++ B) [] false [(4%nat, B)].
Proof.
  intros p n B (HP & LP & _ & HN & LN) AB SB.
  assert (P1 : forallb c_alpha p = true).
  { apply forallb_forall. rewrite Forall_forall in HP. intros c C. apply HP in C. unfold is_letter in C. unfold c_alpha. lia. }
  assert (SB' : forall s, s = [] -> stops c_space (B ++ s)) by (intros s ->; rewrite app_nil_r; exact SB).
  pose (s1 := match p with [] => [] | _ => [32 : rune] end). pose (s2 := match n with [] => [] | _ => [32 : rune] end).
  replace (short_part p n ++ [61; 32] ++ B) with (p ++ s1 ++ n ++ s2 ++ [61] ++ [32] ++ B).
  2: { unfold s1, s2. destruct p, n; cbn [short_part]; repeat (progress (cbn [app]; rewrite <- ?app_assoc)); reflexivity. }
  assert (X : stops c_space (n ++ s2 ++ [61] ++ [32] ++ B)).
  { unfold s2. destruct n as [|nc n]; [reflexivity|]. cbn [app stops]. inversion HN as [|? ? Q _]; subst.
    apply digit_not in Q. tauto. }
  assert (Y : stops c_alpha (s1 ++ n ++ s2 ++ [61] ++ [32] ++ B)).
  { unfold s1, s2. destruct p; [|reflexivity]. destruct n as [|nc n]; [reflexivity|]. cbn [app stops].
    inversion HN as [|? ? Q _]; subst. apply digit_not in Q. tauto. }
  assert (Z : stops c_digit (s2 ++ [61] ++ [32] ++ B)) by (unfold s2; destruct n; reflexivity).
  eapply fm_eq.
  { unfold rseq.
    eapply fm_cat; [apply fm_upto; [exact LP|exact P1|rewrite ?app_nil_r; exact Y]|].
    eapply fm_cat; [apply fm_star; [unfold s1; destruct p; reflexivity|rewrite ?app_nil_r; exact X]|].
    eapply fm_cat; [apply fm_upto; [exact LN|apply digits_c; exact HN|rewrite ?app_nil_r; exact Z]|].
    eapply fm_cat; [apply fm_star; [unfold s2; destruct n; reflexivity|reflexivity]|].
    eapply fm_cat; [apply fm_chr; reflexivity|].
    eapply fm_cat; [apply fm_star; [reflexivity|apply SB'; reflexivity]|].
    apply fm_text; [exact AB|reflexivity]. }
  reflexivity.
Qed.
Lemma fm_mini : forall B, ~ In 61 B -> forallb c_any B = true -> stops c_space B ->
  fm (rseq [RStar (c_lit 61); r_sp; r_text]) false B [] false [(4%nat, B)].
Proof.
  intros B NE AB SB. change B with ([] ++ [] ++ B) at 1.
  assert (S1 : stops (c_lit 61) (B ++ [])).
  { rewrite app_nil_r. destruct B as [|c B]; [exact I|]. cbn [stops]. unfold c_lit.
    destruct (c =? 61) eqn:Q; [|lia]. exfalso. apply NE. left. lia. }
  assert (S2 : stops c_space (B ++ [])) by (rewrite app_nil_r; exact SB).
  eapply fm_eq.
  { unfold rseq.
    eapply fm_cat; [apply fm_star; [reflexivity|exact S1]|].
    eapply fm_cat; [apply fm_star; [reflexivity|exact S2]|].
    apply fm_text; [exact AB|reflexivity]. }
  reflexivity.
Qed.

(** ** Expressions that do not match *)
Lemma ee_once : forall X Y a b, ~ In 61 X -> no_ee (61 :: Y) -> X ++ 61 :: 61 :: Y = a ++ 61 :: 61 :: b -> b = Y.
Proof.
  induction X as [|c X IH]; intros Y a b N NE E; destruct a as [|a0 a]; cbn [app] in E.
  - congruence.
  - exfalso. injection E as _ E. exact (NE _ _ E).
  - exfalso. injection E as E0 _. apply N. left. exact E0.
  - injection E as _ E. apply (IH Y a b); [intros Q; apply N; right; exact Q|exact NE|exact E].
Qed.
Lemma rm_suffix_star : forall f p q, rm (RStar f) p q -> exists w, p_rest p = w ++ p_rest q.
Proof. intros f p q H. apply rm_star in H. destruct H as (w & W & _). eauto. Qed.
Lemma full_two : forall b s q, rm r_full (mkPos b s []) q -> exists x y, s = x ++ 61 :: 61 :: y /\ ~ no_ee y.
Proof.
  intros b s q H. apply head_shape in H.
  destruct H as (g1 & sep & d & e & sp & g2 & sp2 & g3 & sp3 & m & E & H).
  destruct H as (_ & _ & _ & _ & _ & _ & _ & _ & _ & _ & _ & _ & H).
  assert (EQ : forall x y, rm r_eq x y -> p_rest x = 61 :: p_rest y).
  { intros x y Q. apply rm_chr_inv in Q. destruct Q as (c & C1 & C2 & _). rewrite C1. f_equal. unfold c_lit in C2. lia. }
  unfold rseq in H. inv_cat H m1 H1 H. inv_cat H m2 H2 H. inv_cat H m3 H3 H. inv_cat H m4 H4 H. inv_cat H m5 H5 H.
  inv_cat H m6 H6 H. inv_cat H m7 H7 H. clear H.
  apply EQ in H1, H2, H6, H7. apply rm_suffix_star in H3, H4, H5.
  destruct H3 as (w3 & H3), H4 as (w4 & H4), H5 as (w5 & H5).
  exists (g1 ++ sep ++ [d; e] ++ sp ++ g2 ++ sp2 ++ g3 ++ sp3), (p_rest m2). split.
  - rewrite E, H1, H2, <- !app_assoc. reflexivity.
  - intros N. apply (N (w3 ++ w4 ++ w5) (p_rest m7)). rewrite H3, H4, H5, H6, H7, <- !app_assoc. reflexivity.
Qed.
Lemma short_eq : forall b s q, rm r_short (mkPos b s []) q -> In 61 s.
Proof.
  intros b s q H. apply head_shape in H.
  destruct H as (g1 & sep & d & e & sp & g2 & sp2 & g3 & sp3 & m & E & H).
  destruct H as (_ & _ & _ & _ & _ & _ & _ & _ & _ & _ & _ & _ & H).
  unfold rseq in H. inv_cat H m1 H1 H. inv_cat H m2 H2 H. inv_cat H m3 H3 H. inv_cat H m4 H4 H. inv_cat H m5 H5 H.
  apply rm_text in H1, H2, H3, H4. destruct H1 as (w1 & H1), H2 as (w2 & H2), H3 as (w3 & H3), H4 as (w4 & H4).
  apply rm_chr_inv in H5. destruct H5 as (c & C1 & C2 & _).
  rewrite E, H1, H2, H3, H4, C1. rewrite !in_app_iff. do 12 right. left. unfold c_lit in C2. lia.
Qed.

(** ** The sign at the end *)
Lemma trail_shape2 : forall p q, rm r_trail p q ->
  (exists k, ns (p_rest p) = [61; k] /\ c_kplus k = true) \/
  (exists k, ns (p_rest p) = [k] /\ c_kplus k = true) \/
  (exists a b c, ns (p_rest p) = [a; b; c; 93]) \/
  (exists a b, ns (p_rest p) = [61; a; b] /\ c_lit 65 a = true /\ c_lit 82 b = true).
Proof.
  intros p q H. unfold r_trail in H. cbn [rseq ralt] in H. inv_cat H m H1 H. inv_cat H m' H2 H.
  apply rm_sp in H2. inversion H as [| | | | | | | | |? B]; subst. rewrite B in H2. cbn in H2.
  assert (EQ : forall x y, rm r_eq x y -> ns (p_rest x) = 61 :: ns (p_rest y)).
  { intros x y Q. apply rm_one in Q.
    - destruct Q as (c & C & ->). f_equal. unfold c_lit in C. lia.
    - intros c C. unfold c_lit, c_space in *. lia. }
  inversion H1 as [| | | | |? ? ? ? A|? ? ? ? A| | |]; subst; clear H1.
  - left. inv_cat A m1 A1 A. inv_cat A m2 A2 A. inv_cat A m3 A3 A.
    apply rm_sp in A1. apply EQ in A2. apply rm_sp in A3. apply rm_one in A; [|exact kplus_space].
    destruct A as (k & K & A). exists k. split; [|exact K]. rewrite A1, A2, A3, A, H2. reflexivity.
  - right. inversion A as [| | | | |? ? ? ? A'|? ? ? ? A'| | |]; subst; clear A.
    + left. inv_cat A' m1 A1 A. apply rm_chr_inv in A1. destruct A1 as (c & C1 & C2 & _).
      apply rm_one in A; [|exact kplus_space]. destruct A as (k & K & A). exists k. split; [|exact K].
      rewrite C1. unfold ns. cbn [filter]. rewrite C2. cbn [negb]. fold (ns (p_rest m1)). rewrite A, H2. reflexivity.
    + right. inversion A' as [| | | | |? ? ? ? A|? ? ? ? A| | |]; subst; clear A'.
      * left. inv_cat A m1 A1 A. apply rm_sp in A1. unfold rlit in A. cbn [map rseq] in A.
        inv_cat A m2 A2 A. inv_cat A m3 A3 A. inv_cat A m4 A4 A.
        apply rm_one in A2; [|intros c; apply lit_space; lia || reflexivity].
        apply rm_one in A3; [|intros c; apply lit_space; lia || reflexivity].
        apply rm_one in A4; [|intros c; apply lit_space; lia || reflexivity].
        apply rm_one in A; [|intros c; apply lit_space; lia || reflexivity].
        destruct A2 as (c1 & _ & A2), A3 as (c2 & _ & A3), A4 as (c3 & _ & A4), A as (c4 & C4 & A).
        exists c1, c2, c3. rewrite A1, A2, A3, A4, A, H2. repeat f_equal. unfold c_lit in C4. lia.
      * right. inv_cat A m1 A1 A. inv_cat A m2 A2 A. inv_cat A m3 A3 A.
        apply rm_sp in A1. apply EQ in A2. apply rm_sp in A3. unfold rlit in A. cbn [map rseq] in A.
        inv_cat A m4 A4 A.
        apply rm_one in A4; [|intros c; apply lit_space; lia || reflexivity].
        apply rm_one in A; [|intros c; apply lit_space; lia || reflexivity].
        destruct A4 as (a & Ca & A4), A as (b & Cb & A). exists a, b.
        rewrite A1, A2, A3, A4, A, H2. split; [reflexivity|]. split; assumption.
Qed.

(** A match of one line that does not end in white space nor + is a sign off. *)
Lemma rm_star_w : forall f p q, rm (RStar f) p q -> exists w, p_rest p = w ++ p_rest q /\ forallb f w = true.
Proof.
  intros f p q H. remember (RStar f) as r eqn:R. induction H; inversion R; subst.
  - exists []. split; reflexivity.
  - destruct (IHrm eq_refl) as (w & E & F). exists (c :: w). cbn [p_rest app forallb] in *. rewrite E, H, F. split; reflexivity.
Qed.
Lemma white_c : forall c, c_space c = true <-> white c.
Proof. intros c. unfold c_space, white. cbn [In]. lia. Qed.
Lemma white_w : forall w, forallb c_space w = true -> Forall white w.
Proof. intros w H. rewrite forallb_forall in H. apply Forall_forall. intros c Hc. apply white_c, H, Hc. Qed.
Lemma lastw : forall (w v : list rune) l, c_space l = false -> w ++ [l] = v -> forall x y, v = x ++ y ->
  forallb c_space y = true -> y = [].
Proof.
  intros w v l Sl E x y Q F. destruct (rev y) as [|c r] eqn:R.
  - apply (f_equal (@rev rune)) in R. rewrite rev_involutive in R. exact R.
  - apply (f_equal (@rev rune)) in R. rewrite rev_involutive in R. cbn [rev] in R. subst v y. rewrite app_assoc in Q.
    apply app_inj_tail in Q. destruct Q as (_ & <-). rewrite forallb_app in F. cbn [forallb] in F. rewrite Sl in F. lia.
Qed.
Lemma trail_exact : forall b w l q, c_space l = false -> l <> 43 -> rm r_trail (mkPos b (w ++ [l]) []) q ->
  exists x e, w ++ [l] = x ++ e /\ sign_off e.
Proof.
  intros b w l q Sl N H. unfold r_trail in H. cbn [rseq ralt] in H. inv_cat H m H1 H. inv_cat H m' H2 H.
  apply rm_star_w in H2. destruct H2 as (e2 & E2 & F2).
  inversion H as [| | | | | | | | |? B]; subst. rewrite B, app_nil_r in E2. clear H B.
  assert (E0 : forall v, w ++ [l] = v ++ p_rest m -> p_rest m = []).
  { intros v E. apply (lastw w _ l Sl E v (p_rest m) eq_refl). rewrite E2. exact F2. }
  assert (KP : forall k, c_kplus k = true -> k = l -> a_k k).
  { intros k K ->. unfold c_kplus, c_lit in K. unfold a_k. cbn [In]. lia. }
  assert (EQ : forall c, c_lit 61 c = true -> c = 61) by (intros c C; unfold c_lit in C; lia).
  inversion H1 as [| | | | |? ? ? ? A|? ? ? ? A| | |]; subst; clear H1.
  - inv_cat A m1 A1 A. inv_cat A m2 A2 A. inv_cat A m3 A3 A.
    apply rm_star_w in A1. destruct A1 as (w1 & A1 & W1). apply rm_chr_inv in A2. destruct A2 as (c & C1 & C2 & _).
    apply rm_star_w in A3. destruct A3 as (w3 & A3 & W3). apply rm_chr_inv in A. destruct A as (k & K1 & K2 & _).
    cbn [p_rest] in A1. rewrite C1, A3, K1 in A1. apply EQ in C2. subst c.
    rewrite (E0 (w1 ++ 61 :: w3 ++ [k])) in A1 by (rewrite A1, <- app_assoc; cbn [app]; rewrite <- app_assoc; reflexivity).
    exists w1, (61 :: w3 ++ [k]). split; [exact A1|]. constructor; [apply white_w, W3|].
    apply KP; [exact K2|]. rewrite app_comm_cons, app_assoc in A1. apply app_inj_tail in A1. symmetry. apply A1.
  - inversion A as [| | | | |? ? ? ? A'|? ? ? ? A'| | |]; subst; clear A.
    + inv_cat A' m1 A1 A. apply rm_chr_inv in A1. destruct A1 as (c & C1 & C2 & _).
      apply rm_chr_inv in A. destruct A as (k & K1 & K2 & _). cbn [p_rest] in C1. rewrite K1 in C1.
      rewrite (E0 [c; k]) in C1 by exact C1.
      exists [], [c; k]. split; [exact C1|]. constructor; [apply white_c; exact C2|].
      apply KP; [exact K2|]. change [c; k] with ([c] ++ [k]) in C1. apply app_inj_tail in C1. symmetry. apply C1.
    + inversion A' as [| | | | |? ? ? ? A|? ? ? ? A| | |]; subst; clear A'.
      * inv_cat A m1 A1 A. apply rm_star_w in A1. destruct A1 as (w1 & A1 & W1). unfold rlit in A. cbn [map rseq] in A.
        inv_cat A m2 A2 A. inv_cat A m3 A3 A. inv_cat A m4 A4 A.
        apply rm_chr_inv in A2, A3, A4, A.
        destruct A2 as (c1 & D1 & C1 & _), A3 as (c2 & D2 & C2 & _), A4 as (c3 & D3 & C3 & _), A as (c4 & D4 & C4 & _).
        cbn [p_rest] in A1. rewrite D1, D2, D3, D4 in A1.
        rewrite (E0 (w1 ++ [c1; c2; c3; c4])) in A1 by (rewrite A1, <- app_assoc; reflexivity).
        exists w1, [c1; c2; c3; c4]. split; [exact A1|]. unfold c_lit in *.
        replace c1 with 91 by lia. replace c4 with 93 by lia. constructor. unfold an_ar. lia.
      * inv_cat A m1 A1 A. inv_cat A m2 A2 A. inv_cat A m3 A3 A.
        apply rm_star_w in A1. destruct A1 as (w1 & A1 & W1). apply rm_chr_inv in A2. destruct A2 as (c & C1 & C2 & _).
        apply rm_star_w in A3. destruct A3 as (w3 & A3 & W3). unfold rlit in A. cbn [map rseq] in A.
        inv_cat A m4 A4 A. apply rm_chr_inv in A4, A. destruct A4 as (a & D1 & Ca & _), A as (r & D2 & Cr & _).
        cbn [p_rest] in A1. rewrite C1, A3, D1, D2 in A1. apply EQ in C2. subst c.
        rewrite (E0 (w1 ++ 61 :: w3 ++ [a; r])) in A1 by (rewrite A1, <- app_assoc; cbn [app]; rewrite <- app_assoc; reflexivity).
        exists w1, (61 :: w3 ++ [a; r]). split; [exact A1|]. constructor; [apply white_w, W3|]. unfold an_ar, c_lit in *. lia.
Qed.
Lemma remove_trail_end : forall B l en, c_space l = false -> l <> 61 -> l <> 43 -> ended (B ++ [l]) en ->
  remove_trail ((B ++ [l]) ++ en) = B ++ [l].
Proof.
  intros B l en Sl N1 N2 [H|(-> & H)].
  - unfold remove_trail, re_search.
    rewrite (search_at r_trail (B ++ [l]) en true 0 (mkPos false [] [])).
    + cbn [Nat.add]. rewrite firstn_app, Nat.sub_diag, firstn_all, firstn_O. apply app_nil_r.
    + intros w1 w2 E N q Q. destruct (exists_last N) as (w3 & l' & ->).
      rewrite app_assoc in E. apply app_inj_tail in E. destruct E as (_ & <-).
      apply trail_shape2 in Q. cbn [p_rest] in Q. rewrite ns_app, (ns_app w3) in Q.
      replace (ns [l]) with [l] in Q by (unfold ns; cbn [filter]; rewrite Sl; reflexivity).
      rewrite <- app_assoc in Q.
      unfold endings in H. cbn [In] in H.
      destruct Q as [(k & Q & K)|[(k & Q & K)|[(a & b & c & Q)|(a & b & Q & Ka & Kb)]]];
        (repeat (destruct H as [<-|H]; [
          match type of Q with context [ns ?e] => match e with 32 :: _ => let v := eval vm_compute in (ns e) in change (ns e) with v in Q end end;
          destruct (ns w3) as [|x1 [|x2 [|x3 [|x4 y]]]]; cbn [app] in Q; inversion Q; subst;
          try congruence; try (destruct y; discriminate); try (vm_compute in Ka; discriminate); try (vm_compute in Kb; discriminate)|]);
         contradiction).
    + destruct B; cbn [app]; cbn [In endings] in H;
        repeat (destruct H as [<-|H]; [vm_compute; reflexivity|]); contradiction.
  - rewrite app_nil_r. unfold remove_trail, re_search. rewrite search_none; [reflexivity|].
    intros w s' E q Q. destruct (rev s') as [|l' r'] eqn:R.
    + apply (f_equal (@rev rune)) in R. rewrite rev_involutive in R. cbn [rev] in R. subst s'.
      apply trail_shape2 in Q. cbn [p_rest] in Q. change (ns []) with (@nil rune) in Q.
      destruct Q as [(k & Q & _)|[(k & Q & _)|[(a & b & c & Q)|(a & b & Q & _)]]]; discriminate.
    + apply (f_equal (@rev rune)) in R. rewrite rev_involutive in R. cbn [rev] in R. subst s'.
      rewrite app_assoc in E. pose proof E as E'. apply app_inj_tail in E. destruct E as (_ & <-).
      apply trail_exact in Q; [|exact Sl|exact N2]. destruct Q as (x & e & Q & O1).
      apply (H (w ++ x) e); [|exact O1]. rewrite <- app_assoc, <- Q, app_assoc. exact E'.
Qed.

(** ** Splitting a radiogram *)
Lemma in61_call : forall x, Forall call_char x -> ~ In 61 x.
Proof. intros x Hx Q. rewrite Forall_forall in Hx. apply Hx in Q. unfold call_char, is_letter, digit in Q. lia. Qed.
Lemma in61_header : forall R F D, Forall call_sign R -> call_sign F -> dtg_form D \/ D = [] -> ~ In 61 (header R F D).
Proof.
  intros R F D HR HF HD. assert (W : forall x, ~ In 61 x -> ~ In 61 (word x)).
  { intros x N. destruct x; [exact N|]. intros [Q|Q]; [discriminate|exact (N Q)]. }
  unfold header. rewrite !in_app_iff. intros [Q|[Q|[Q|Q]]].
  - destruct R as [|r R]; [exact Q|]. apply in_app_or in Q. destruct Q as [Q|[Q|[]]]; [|discriminate].
    pose proof (join_to _ HR) as J. rewrite forallb_forall in J. apply J in Q. discriminate.
  - cbn in Q. lia.
  - revert Q. apply W, in61_call, HF.
  - revert Q. apply W. destruct HD as [HD| ->]; [apply in61_call, dtg_form_call; exact HD|intros []].
Qed.
Lemma ended_start : forall t en, ended t en -> en = [] \/ exists r, en = 32 :: r /\ no_ee en /\ ~ In 10 en.
Proof.
  intros t en [H|(-> & _)]; [right|left; reflexivity]. unfold endings in H. cbn [In] in H.
  repeat (destruct H as [<-|H]; [eexists; split; [reflexivity|]; split; [
     intros a b Q; destruct a as [|? [|? [|? [|? [|? [|? ?]]]]]]; discriminate|cbn; lia]|]). contradiction.
Qed.
Lemma span : forall (f : rune -> bool) s, exists a b, s = a ++ b /\ forallb f a = true /\ stops f b.
Proof.
  intros f s. induction s as [|c s (a & b & -> & A & B)].
  - exists [], []. repeat split.
  - destruct (f c) eqn:Q.
    + exists (c :: a), b. cbn [app forallb]. rewrite Q, A. repeat split. exact B.
    + exists [], (c :: a ++ b). repeat split. exact Q.
Qed.
Lemma short_part_c : forall p n, form_ok (ShortForm p n) -> forallb c_to (short_part p n) = true.
Proof.
  intros p n (HP & _ & _ & HN & _). pose proof (to_call p (letters_call p HP)) as P. pose proof (to_call n (digit_call n HN)) as N.
  destruct p, n; cbn [short_part]; rewrite ?forallb_app, ?P, ?N; reflexivity.
Qed.
Lemma short_part_sp : forall p n, [32] ++ short_part p n = word p ++ word n ++ [32].
Proof. intros p n. destruct p, n; cbn [short_part word]; repeat (progress (cbn [app]; rewrite <- ?app_assoc)); reflexivity. Qed.
Lemma short_no_dtg : forall p n s, form_ok (ShortForm p n) -> forall x r, short_part p n ++ [61; 32] ++ s = x ++ r ->
  length x = 6%nat -> ~ Forall digit x.
Proof.
  intros p n s (HP & _ & _ & HN & LN) x r E L D. destruct p as [|pc p].
  - assert (Q : exists c t, short_part [] n ++ [61; 32] ++ s = n ++ c :: t /\ ~ digit c).
    { destruct n as [|nc n]; cbn [short_part]; [do 2 eexists; split; [reflexivity|unfold digit; lia]|].
      exists 32, ([61; 32] ++ s). split; [rewrite <- app_assoc; reflexivity|unfold digit; lia]. }
    destruct Q as (c & t & Q & C). rewrite Q in E. clear Q.
    apply app_eq_app in E. destruct E as (l & [(-> & E)|(-> & E)]).
    + rewrite app_length in LN. lia.
    + destruct l as [|lc l]; [rewrite app_length in L; cbn in L; lia|]. injection E as <- _. apply C.
      rewrite Forall_forall in D. apply D. apply in_or_app. right. left. reflexivity.
  - assert (E1 : exists t, short_part (pc :: p) n ++ [61; 32] ++ s = pc :: t) by (destruct n; eexists; reflexivity).
    destruct E1 as (t & E1). rewrite E1 in E. destruct x as [|xc x]; [discriminate|]. injection E as <- _.
    inversion D; subst. inversion HP; subst. unfold digit, is_letter in *. lia.
Qed.
Lemma short_part_stops : forall p n s, form_ok (ShortForm p n) -> stops c_space (short_part p n ++ [61; 32] ++ s).
Proof.
  intros p n s (HP & _ & _ & HN & _). destruct p as [|pc p].
  - destruct n as [|nc n]; [reflexivity|]. inversion HN; subst. cbn [short_part app stops]. apply digit_not. assumption.
  - inversion HP; subst. assert (C : c_space pc = false) by (unfold is_letter in *; unfold c_space; lia). destruct n; exact C.
Qed.
Lemma search_start : forall r s q, re_match r (mkPos true s []) Some = Some q -> re_search r s = Some (0%nat, q).
Proof.
  intros r s q M. unfold re_search. pose proof (search_at r [] s true 0 q) as SA. cbn [app length Nat.add] in SA. apply SA; [|exact M].
  intros w1 w2 W Nw. symmetry in W. apply app_eq_nil in W. destruct W; congruence.
Qed.
Lemma nosde_inside : forall s, ~ de_inside s -> nosde s.
Proof.
  intros s N w a d e c r E A D Ee C. apply N. exists w, a, d, e, c, r. split; [exact E|].
  unfold white, c_space, c_lit in *. cbn [In].
  split; [lia|]. split; [lia|]. split; lia.
Qed.

Section Split.
Context (U : Uni) (HK : uni_kelvin U).

Lemma form_match : forall R F D f text en,
  Forall call_sign R -> call_sign F -> F <> [68; 69] -> dtg_form D \/ D = [] -> form_ok f ->
  text_ok U text -> ended text en -> fits f D text en ->
  exists r, In r regexps /\
    re_search r (header R F D ++ middle f ++ text ++ en) =
      Some (0%nat, mkPos false [] ([(4%nat, text ++ en)] ++ dcap D ++ [(2%nat, F); (1%nat, join [32] R)])) /\
    split_radiogram U regexps (header R F D ++ middle f ++ text ++ en) =
    split_radiogram U [r] (header R F D ++ middle f ++ text ++ en).
Proof.
  intros R F D f text en HR HF NF HD HM ((c0 & r0 & E0 & S0) & (r1 & l & El & Sl & L1 & L2) & NL) HE HFit.
  pose proof (ended_start _ _ HE) as HE'.
  set (B := text ++ en) in *.
  assert (AB : forallb c_any B = true).
  { apply forallb_forall. intros c C. unfold c_any. unfold B in C. apply in_app_or in C.
    assert (c <> 10); [|lia]. intros ->. destruct C as [C|C]; [exact (NL C)|].
    destruct HE' as [->|(r & _ & _ & X)]; [exact C|exact (X C)]. }
  assert (SB : stops c_space B). { unfold B. rewrite E0. cbn [app stops]. apply (c_space_space U). exact S0. }
  assert (ND0 : forall z, nosde ([68; 69; 32] ++ F ++ word D ++ [32] ++ z) -> forall u' u,
     [68; 69; 32] ++ F ++ word D ++ [32] ++ z = u' ++ u -> nosde u).
  { intros z N u' u E. rewrite E in N. apply nosde_suffix in N. exact N. }
  assert (TE : (forall a b, text <> a ++ 61 :: 61 :: b) -> no_ee B).
  { intros N. unfold B. apply no_ee_app; [exact N| |]; destruct HE' as [->|(r & -> & X & _)]; try exact X; cbn; try lia; try tauto.
    intros a b Q. destruct a; discriminate. }
  pose proof (in61_header R F D HR HF HD) as H61.
  destruct f as [a p n|a|p n|].
  - (* full *)
    exists r_full. split; [left; reflexivity|].
    assert (M : re_search r_full (header R F D ++ middle (FullForm a p n) ++ B) =
      Some (0%nat, mkPos false [] ([(4%nat, B)] ++ dcap D ++ [(2%nat, F); (1%nat, join [32] R)]))).
    { apply search_start.
      replace (header R F D ++ middle (FullForm a p n) ++ B)
        with (header R F D ++ [32] ++ [] ++ ([61; 61; 32] ++ a ++ [32; 61; 61; 32] ++ p ++ n ++ [32; 61; 32] ++ B)).
      2: { cbn [middle]. repeat (progress (cbn [app]; rewrite <- ?app_assoc)). reflexivity. }
      apply head_match; try assumption; try reflexivity.
      - destruct HD as [HD| ->]; [left; exact HD|right]. split; [reflexivity|]. intros x r E L X.
        destruct x as [|xc x]; [discriminate|]. injection E as <- _. inversion X; subst. unfold digit in *. lia.
      - intros u' u E cs q. cbn [app]. apply sep_fails. apply (ND0 []) with u'; [|exact E].
        apply (nosde_header F D [32]); auto using nosde_one. do 2 eexists. split; reflexivity.
      - apply fm_full; assumption. }
    split; [exact M|]. unfold regexps. cbn [split_radiogram]. rewrite M. reflexivity.
  - (* semi *)
    exists r_semi. split; [right; left; reflexivity|].
    assert (M : re_search r_semi (header R F D ++ middle (SemiForm a) ++ B) =
      Some (0%nat, mkPos false [] ([(4%nat, B)] ++ dcap D ++ [(2%nat, F); (1%nat, join [32] R)]))).
    { apply search_start.
      replace (header R F D ++ middle (SemiForm a) ++ B)
        with (header R F D ++ [32] ++ [] ++ ([61; 61; 32] ++ a ++ [32; 61; 32] ++ B)).
      2: { cbn [middle]. repeat (progress (cbn [app]; rewrite <- ?app_assoc)). reflexivity. }
      apply head_match; try assumption; try reflexivity.
      - destruct HD as [HD| ->]; [left; exact HD|right]. split; [reflexivity|]. intros x r E L X.
        destruct x as [|xc x]; [discriminate|]. injection E as <- _. inversion X; subst. unfold digit in *. lia.
      - intros u' u E cs q. cbn [app]. apply sep_fails. apply (ND0 []) with u'; [|exact E].
        apply (nosde_header F D [32]); auto using nosde_one. do 2 eexists. split; reflexivity.
      - apply fm_semi; assumption. }
    split; [exact M|]. unfold regexps. cbn [split_radiogram].
    replace (re_search r_full (header R F D ++ middle (SemiForm a) ++ B)) with (@None (nat * rpos)); [rewrite M; reflexivity|].
    symmetry. apply search_none. intros w s' E q Q. apply full_two in Q. destruct Q as (x & y & -> & NY). apply NY.
    assert (X : ~ In 61 (header R F D ++ [32])).
    { intros Q. apply in_app_or in Q. destruct Q as [Q|[Q|[]]]; [exact (H61 Q)|discriminate]. }
    cbn in HM. assert (A61 : ~ In 61 a).
    { destruct HM as (HM & _). rewrite Forall_forall in HM. intros Q. apply HM in Q. unfold call_char, is_letter, digit in Q. lia. }
    assert (Y : no_ee ([32] ++ a ++ [32] ++ [61] ++ [32] ++ B)).
    { apply no_ee_skip; [cbn; lia|]. apply no_ee_skip; [exact A61|]. apply no_ee_skip; [cbn; lia|].
      apply no_ee_app; [|cbn; lia|apply no_ee_skip; [cbn; lia|apply TE; exact HFit]].
      intros a' b' Q. destruct a' as [|? [|? ?]]; discriminate. }
    assert (Y' : no_ee (61 :: [32] ++ a ++ [32] ++ [61] ++ [32] ++ B)).
    { intros a' b' Q. destruct a' as [|? a']; [discriminate|]. injection Q as _ Q. exact (Y _ _ Q). }
    rewrite (ee_once (header R F D ++ [32]) _ (w ++ x) y X Y'); [exact Y|].
    rewrite <- app_assoc with (l := w). rewrite <- E. cbn [middle]. repeat (progress (cbn [app]; rewrite <- ?app_assoc)). reflexivity.
  - (* short *)
    exists r_short. split; [right; right; left; reflexivity|].
    assert (NEall : no_ee (header R F D ++ middle (ShortForm p n) ++ B)).
    { apply no_ee_skip; [exact H61|]. cbn [middle]. rewrite <- !app_assoc. destruct HM as (HP & _ & _ & HN & _).
      assert (W : forall x, Forall call_char x -> ~ In 61 (word x)).
      { intros x C. apply in61_call in C. destruct x; [exact C|]. intros [Q|Q]; [discriminate|exact (C Q)]. }
      apply no_ee_skip; [apply W, letters_call; exact HP|]. apply no_ee_skip; [apply W, digit_call; exact HN|].
      change ([32; 61; 32] ++ B) with ([32] ++ [61] ++ [32] ++ B).
      apply no_ee_skip; [cbn; lia|]. apply no_ee_app; [|cbn; lia|apply no_ee_skip; [cbn; lia|apply TE; exact HFit]].
      intros a' b' Q. destruct a' as [|? [|? ?]]; discriminate. }
    assert (M : re_search r_short (header R F D ++ middle (ShortForm p n) ++ B) =
      Some (0%nat, mkPos false [] ([(4%nat, B)] ++ dcap D ++ [(2%nat, F); (1%nat, join [32] R)]))).
    { apply search_start. rewrite short_middle.
      replace (header R F D ++ ([32] ++ short_part p n ++ [61; 32]) ++ B)
        with (header R F D ++ [32] ++ short_part p n ++ ([61; 32] ++ B)).
      2: { repeat (progress (cbn [app]; rewrite <- ?app_assoc)). reflexivity. }
      apply head_match; try assumption; try reflexivity.
      - destruct HD as [HD| ->]; [left; exact HD|right]. split; [reflexivity|]. apply short_no_dtg. exact HM.
      - apply short_part_stops. exact HM.
      - apply short_part_c. exact HM.
      - intros u' u E cs q. cbn [app]. apply sep_fails. apply (ND0 (short_part p n)) with u'; [|exact E].
        apply (nosde_header F D ([32] ++ short_part p n)); auto; [|do 2 eexists; split; reflexivity].
        rewrite short_part_sp. destruct HM as (HP & _ & NP & HN & _).
        apply nosde_word; [apply nospace_call, letters_call; exact HP|exact NP|apply call_no_lower, letters_call; exact HP| |].
        + apply nosde_word; [apply nospace_call, digit_call; exact HN|apply digits_not_de; exact HN|
            apply call_no_lower, digit_call; exact HN|apply nosde_one|do 2 eexists; split; reflexivity].
        + apply word_start. do 2 eexists; split; reflexivity.
      - apply fm_short; assumption. }
    split; [exact M|]. unfold regexps. cbn [split_radiogram].
    replace (re_search r_full (header R F D ++ middle (ShortForm p n) ++ B)) with (@None (nat * rpos)).
    2: { symmetry. apply search_none. intros w s' E q. apply ee_head. apply (no_ee_suffix w). rewrite <- E. exact NEall. }
    replace (re_search r_semi (header R F D ++ middle (ShortForm p n) ++ B)) with (@None (nat * rpos)).
    2: { symmetry. apply search_none. intros w s' E q. apply ee_head. apply (no_ee_suffix w). rewrite <- E. exact NEall. }
    rewrite M. reflexivity.
  - (* mini *)
    exists r_mini. split; [right; right; right; left; reflexivity|]. destruct HFit as (F1 & F2 & F3). fold B in F1, F2.
    assert (N61 : ~ In 61 (header R F D ++ middle NoForm ++ B)).
    { cbn [middle]. rewrite !in_app_iff. intros [Q|[[Q|[]]|Q]]; [exact (H61 Q)|discriminate|exact (F1 Q)]. }
    assert (NEall : no_ee (header R F D ++ middle NoForm ++ B)).
    { intros a b Q. apply N61. rewrite Q. apply in_or_app. right. left. reflexivity. }
    destruct (span c_to B) as (y & z & EB & Y & Z).
    assert (M : re_search r_mini (header R F D ++ middle NoForm ++ B) =
      Some (0%nat, mkPos false [] ([(4%nat, B)] ++ dcap D ++ [(2%nat, F); (1%nat, join [32] R)]))).
    { apply search_start. cbn [middle].
      assert (HM' := fm_mini B F1 AB SB).
      assert (DN : dtg_or_none D B).
      { destruct HD as [HD| ->]; [left; exact HD|right]. split; [reflexivity|]. intros x r E L X. unfold B in E.
        apply app_eq_app in E. destruct E as (t & [(-> & E)|(-> & E)]).
        - exact (F3 eq_refl x t eq_refl L X).
        - destruct HE' as [->|(r' & -> & _)].
          + symmetry in E. apply app_eq_nil in E. destruct E as (-> & ->). rewrite app_nil_r in *.
            apply (F3 eq_refl text [] ltac:(rewrite app_nil_r; reflexivity) L X).
          + destruct t as [|tc t].
            * rewrite app_nil_r in *. apply (F3 eq_refl text [] ltac:(rewrite app_nil_r; reflexivity) L X).
            * injection E as <- _. rewrite Forall_forall in X. specialize (X 32). unfold digit in X.
              assert (Q : 48 <= 32 <= 57); [|lia]. apply X. apply in_or_app. right. left. reflexivity. }
      assert (NB : nosde ([32] ++ B)) by (apply nosde_inside; exact F2).
      rewrite EB in DN, SB, HM', NB |- *.
      apply head_match; try assumption.
      intros u' u E cs q. apply sep_fails_all.
      assert (W : nosde ([68; 69; 32] ++ F ++ word D ++ [32] ++ y ++ z)).
      { apply (nosde_header F D ([32] ++ y ++ z)); auto. do 2 eexists; split; reflexivity. }
      apply (nosde_suffix u'). replace (u' ++ u ++ z) with ([68; 69; 32] ++ F ++ word D ++ [32] ++ y ++ z); [exact W|].
      rewrite (app_assoc u'). rewrite <- E. repeat (progress (cbn [app]; rewrite <- ?app_assoc)). reflexivity. }
    split; [exact M|]. unfold regexps. cbn [split_radiogram].
    replace (re_search r_full (header R F D ++ middle NoForm ++ B)) with (@None (nat * rpos)).
    2: { symmetry. apply search_none. intros w s' E q. apply ee_head. apply (no_ee_suffix w). rewrite <- E. exact NEall. }
    replace (re_search r_semi (header R F D ++ middle NoForm ++ B)) with (@None (nat * rpos)).
    2: { symmetry. apply search_none. intros w s' E q. apply ee_head. apply (no_ee_suffix w). rewrite <- E. exact NEall. }
    replace (re_search r_short (header R F D ++ middle NoForm ++ B)) with (@None (nat * rpos)).
    2: { symmetry. apply search_none. intros w s' E q Q. apply short_eq in Q. apply N61. rewrite E. apply in_or_app. right. exact Q. }
    rewrite M. reflexivity.
Qed.

Lemma form_split : forall R F D f text en,
  Forall call_sign R -> call_sign F -> F <> [68; 69] -> D = [] \/ dtg_form D -> form_ok f ->
  text_ok U text -> ended text en -> fits f D text en ->
  split_radiogram U regexps (header R F D ++ middle f ++ text ++ en) = Some (R, F, D, text).
Proof.
  intros R F D f text en HR HF NF HD HM HT HE HFit.
  assert (HD' : dtg_form D \/ D = []) by tauto.
  destruct (form_match R F D f text en HR HF NF HD' HM HT HE HFit) as (r & _ & M & ->).
  destruct HT as ((c0 & r0 & E0 & S0) & (r1 & l & El & Sl & L1 & L2) & NL).
  cbn [split_radiogram]. rewrite M. clear M.
  change (group 4 _) with (text ++ en).
  replace (group 1 _) with (join [32] R) by (destruct D; reflexivity).
  replace (group 2 _) with F by (destruct D; reflexivity).
  replace (group 3 _) with D by (destruct D; reflexivity).
  rewrite (vetted_join_space U HK) by exact HR. unfold str_upper.
  rewrite (call_trim U HK F), (call_up_all U F) by apply HF.
  assert (CD : Forall call_char D) by (destruct HD as [->|HD]; [constructor|apply dtg_form_call; exact HD]).
  rewrite (call_trim U HK D), (call_up_all U D) by exact CD.
  rewrite El in HE |- *. rewrite remove_trail_end; [|apply (c_space_space U); exact Sl|exact L2|exact L1|exact HE].
  pose proof (trim_exact U [] (r1 ++ [l]) []) as T. cbn [app] in T. rewrite app_nil_r in T. rewrite T; auto.
  - rewrite trim_right_stop; [reflexivity|]. unfold end_sign. rewrite Sl. lia.
  - intros [Q|Q]; [rewrite <- El, E0, S0 in Q; discriminate|]. rewrite rev_app_distr in Q. cbn [rev app] in Q. rewrite Sl in Q. discriminate.
Qed.

Lemma c116_lemma : forall lb dp i raw now t to from d f text en id t1,
  Forall call_sign to -> call_sign from -> from <> [68; 69] -> d = [] \/ dtg_form d -> form_ok f ->
  text_ok U text -> ended text en -> fits f d text en ->
  lb raw = header to from d ++ middle f ++ text ++ en ->
  new_unique_message_id (i_messages i) t = Ok (id, t1) ->
  parse_radiogram U lb dp i raw now t =
    match (match d with [] => Some now | _ => dp d end) with
    | None => Err ErrDTG
    | Some w => Ok (mkMsg id to from w [] text [] [] (lb raw), t1)
    end.
Proof.
  intros lb dp i raw now t to from d f text en id t1 H1 H2 H3 H4 H5 H6 H7 H8 EL HI.
  unfold parse_radiogram. cbv zeta. rewrite HI. cbn [bind]. rewrite EL.
  rewrite (form_split to from d f text en) by assumption. destruct d; reflexivity.
Qed.
End Split.
