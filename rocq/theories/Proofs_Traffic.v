(** The traffic example of a printed message and its reading by ParseRadiogram. *)
From Verif Require Import Base Spec Model_Unicode Model_Functions Model_Regex Model_Types Model_Cipher
  Model_Messages Model_Print Proofs_Functions Proofs_Regex Proofs_Radiogram.

(** ** Decimal numbers *)
Lemma itoa_loop_spec : forall f n acc, 0 <= n -> (Z.to_nat (Z.log2 n) < f)%nat ->
  exists s, itoa_loop f n acc = s ++ acc /\ decimal s n.
Proof.
  induction f as [|f IH]; intros n acc Hn Hf; [lia|]. cbn [itoa_loop]. cbv zeta.
  destruct (n <? 10) eqn:L.
  - exists [48 + n mod 10]. split; [reflexivity|]. rewrite Z.mod_small by lia.
    split; [discriminate|]. split; [constructor; [unfold digit; lia|constructor]|]. split; [cbn [fold_left]; lia|].
    intros r E. injection E as _ <-. reflexivity.
  - destruct (IH (n / 10) ((48 + n mod 10) :: acc)) as (s & E & D1 & D2 & D3 & D4).
    + apply Z.div_pos; lia.
    + assert (Z.log2 (n / 10) < Z.log2 n); [|pose proof (Z.log2_nonneg (n / 10)); lia].
      assert (n / 10 <= n / 2) by (apply Z.div_le_compat_l; lia).
      assert (0 < n / 10) by (apply Z.div_str_pos; lia).
      assert (L1 : Z.log2 (n / 10) <= Z.log2 (n / 2)) by (apply Z.log2_le_mono; lia).
      assert (L2 : Z.log2 (n / 2) = Z.log2 n - 1).
      { replace (n / 2) with (Z.shiftr n 1) by (rewrite Z.shiftr_div_pow2 by lia; reflexivity).
        rewrite Z.log2_shiftr by lia. assert (1 <= Z.log2 n) by (apply Z.log2_le_pow2; lia). lia. }
      lia.
    + exists (s ++ [48 + n mod 10]). split; [rewrite E, <- app_assoc; reflexivity|].
      pose proof (Z.mod_pos_bound n 10 ltac:(lia)). pose proof (Z.div_mod n 10 ltac:(lia)) as DM.
      split; [intros Q; apply app_eq_nil in Q; destruct Q; discriminate|].
      split; [apply Forall_app; split; [exact D2|constructor; [unfold digit; lia|constructor]]|].
      split; [rewrite fold_left_app, D3; cbn [fold_left]; lia|].
      intros r Q. destruct s as [|c s]; [congruence|]. injection Q as -> Q.
      assert (s = []) by (apply D4; reflexivity). subst s. cbn in D3.
      assert (n / 10 <> 0); [|lia]. intros Z0. apply Z.div_small_iff in Z0; lia.
Qed.
Lemma itoa_spec : forall n, 0 <= n -> decimal (itoa n) n.
Proof.
  intros n H. unfold itoa. destruct (itoa_loop_spec (S (Z.to_nat (Z.log2 n))) n [] H) as (s & E & D); [lia|].
  rewrite E, app_nil_r. exact D.
Qed.

Lemma fold_digits_ge : forall s v, Forall digit s -> 0 <= v ->
  v * 10 ^ Z.of_nat (length s) <= fold_left (fun v c => 10 * v + (c - 48)) s v.
Proof.
  induction s as [|c s IH]; intros v F H; cbn [fold_left length].
  - cbn. lia.
  - inversion F as [|x l Dc Fs]; subst. unfold digit in Dc. specialize (IH (10 * v + (c - 48)) Fs).
    rewrite Nat2Z.inj_succ, Z.pow_succ_r by lia.
    assert (0 < 10 ^ Z.of_nat (length s)) by (apply Z.pow_pos_nonneg; lia). nia.
Qed.
Lemma decimal_short : forall s n, decimal s n -> 0 < n <= 9999 -> (length s <= 4)%nat.
Proof.
  intros s n (D1 & D2 & D3 & D4) H. destruct s as [|c s]; [congruence|]. inversion D2 as [|x l Dc Fs]; subst.
  cbn [fold_left] in H. unfold digit in Dc. pose proof (fold_digits_ge s (10 * 0 + (c - 48)) Fs ltac:(lia)) as G.
  destruct (Z.eq_dec c 48) as [->|N]; [rewrite (D4 s eq_refl); cbn; lia|].
  cbn [length]. destruct (Nat.le_gt_cases (length s) 3) as [L|L]; [lia|]. exfalso.
  assert (10 ^ 4 <= 10 ^ Z.of_nat (length s)) by (apply Z.pow_le_mono_r; lia).
  assert (10 ^ 4 = 10000) by reflexivity. nia.
Qed.

(** ** First choices: with the rest matching, the expression takes [w] *)
Definition fm (r : re) (b : bool) (w s : list rune) (b' : bool) (e : list (nat * list rune)) : Prop :=
  forall A (k : rpos -> option A) cs x, k (mkPos b' s (e ++ cs)) = Some x ->
    re_match r (mkPos b (w ++ s) cs) k = Some x.
Definition stops (f : rune -> bool) (s : list rune) : Prop := match s with [] => True | c :: _ => f c = false end.
Definition nb (b : bool) (w : list rune) : bool := match w with [] => b | _ => false end.

Lemma fm_chr : forall f b c s, f c = true -> fm (RChr f) b [c] s false [].
Proof. intros f b c s F A k cs x K. cbn [re_match p_rest app p_caps]. rewrite F. exact K. Qed.
Lemma fm_empty : forall b s, fm REmpty b [] s b [].
Proof. intros b s A k cs x K. exact K. Qed.
Lemma fm_begin : forall s, fm RBegin true [] s true [].
Proof. intros s A k cs x K. exact K. Qed.
Lemma fm_star : forall f b w s, forallb f w = true -> stops f s -> fm (RStar f) b w s (nb b w) [].
Proof. intros f b w s W S A k cs x K. cbn [re_match p_rest p_begin p_caps]. apply star_first; assumption. Qed.
Lemma fm_cat : forall a r b w1 w2 s b1 b2 e1 e2, fm a b w1 (w2 ++ s) b1 e1 -> fm r b1 w2 s b2 e2 ->
  fm (RCat a r) b (w1 ++ w2) s b2 (e2 ++ e1).
Proof.
  intros a r b w1 w2 s b1 b2 e1 e2 H1 H2 A k cs x K. cbn [re_match]. rewrite <- app_assoc. apply H1.
  apply H2. rewrite app_assoc. exact K.
Qed.
Lemma fm_altl : forall a r b w s b' e, fm a b w s b' e -> fm (RAlt a r) b w s b' e.
Proof. intros a r b w s b' e H A k cs x K. apply alt_left. apply H. exact K. Qed.
Lemma fm_altr : forall a r b w s b' e, (forall cs q, ~ rm a (mkPos b (w ++ s) cs) q) ->
  fm r b w s b' e -> fm (RAlt a r) b w s b' e.
Proof.
  intros a r b w s b' e N H A k cs x K. apply alt_right; [|apply H; exact K].
  apply re_fail. intros q Q. exfalso. exact (N cs q Q).
Qed.
Lemma fm_cap : forall n a b w s b' e, fm a b w s b' e -> fm (RCap n a) b w s b' ((n, w) :: e).
Proof.
  intros n a b w s b' e H A k cs x K. cbn [re_match]. apply H. cbn [p_begin p_rest p_caps].
  rewrite firstn_diff. exact K.
Qed.
Lemma fm_plus : forall f b w s, w <> [] -> forallb f w = true -> stops f s -> fm (rplus f) b w s false [].
Proof.
  intros f b w s N W S. destruct w as [|c w]; [congruence|]. cbn [forallb] in W. apply andb_true_iff in W.
  destruct W as (W1 & W2). unfold rplus. change (c :: w) with ([c] ++ w).
  change (@nil (nat * list rune)) with (@nil (nat * list rune) ++ []).
  apply fm_cat with false; [apply fm_chr; exact W1|].
  replace false with (nb false w) at 2 by (destruct w; reflexivity). apply fm_star; assumption.
Qed.
Lemma fm_rep : forall f n b w s, length w = n -> forallb f w = true -> fm (rrep n f) b w s (nb b w) [].
Proof.
  induction n as [|n IH]; intros b w s L W.
  - destruct w; [apply fm_empty|discriminate].
  - destruct w as [|c w]; [discriminate|]. cbn [forallb] in W. apply andb_true_iff in W.
    destruct W as (W1 & W2). cbn [rrep nb]. change (c :: w) with ([c] ++ w).
    change (@nil (nat * list rune)) with (@nil (nat * list rune) ++ []).
    apply fm_cat with false; [apply fm_chr; exact W1|].
    replace false with (nb false w) at 2 by (destruct w; reflexivity). apply IH; [injection L as L; exact L|exact W2].
Qed.
Lemma fm_upto : forall f n b w s, (length w <= n)%nat -> forallb f w = true -> stops f s ->
  fm (ruptot n f) b w s (nb b w) [].
Proof.
  induction n as [|n IH]; intros b w s L W S.
  - destruct w; [apply fm_empty|cbn in L; lia].
  - cbn [ruptot]. unfold ropt. destruct w as [|c w].
    + apply fm_altr; [|apply fm_empty]. intros cs q Q. apply rm_cat_inv in Q. destruct Q as (m & Q & _).
      apply rm_chr_inv in Q. destruct Q as (c & C1 & C2 & _). cbn [p_rest app] in C1. rewrite C1 in S. cbn in S. congruence.
    + apply fm_altl. cbn [forallb] in W. apply andb_true_iff in W. destruct W as (W1 & W2).
      cbn [nb]. change (c :: w) with ([c] ++ w).
      change (@nil (nat * list rune)) with (@nil (nat * list rune) ++ []).
      apply fm_cat with false; [apply fm_chr; exact W1|].
      replace false with (nb false w) at 2 by (destruct w; reflexivity). apply IH; [cbn in L; lia|exact W2|exact S].
Qed.

Lemma fm_month : forall m s, In m month_names -> fm (ralt (map rlit months)) false m s false [].
Proof.
  intros m s H A k cs x K. unfold month_names in H. cbn [In] in H.
  repeat (destruct H as [<-|H]; [cbn -[c_lit]; unfold c_lit; cbn; cbn in K; rewrite K; reflexivity|]).
  contradiction.
Qed.

Lemma digit_c : forall c, digit c -> c_digit c = true.
Proof. intros c H. unfold digit in H. unfold c_digit. lia. Qed.
Lemma digits_c : forall s, Forall digit s -> forallb c_digit s = true.
Proof. intros s H. apply forallb_forall. rewrite Forall_forall in H. intros c Hc. apply digit_c, H, Hc. Qed.
Lemma calls_c : forall s, Forall call_char s -> forallb c_call s = true.
Proof.
  intros s H. apply forallb_forall. rewrite Forall_forall in H. intros c Hc. specialize (H c Hc).
  unfold call_char, is_letter, digit in H. unfold c_call, c_alpha, c_digit. lia.
Qed.

Lemma fm_dtg : forall d s, dtg_text d -> stops c_digit s -> fm r_dtg false d s false [].
Proof.
  intros d s (d6 & z & m & y & -> & L6 & D6 & Z & M & L2 & D2) S. unfold r_dtg. cbn [rseq].
  assert (N6 : d6 <> []) by (intros ->; discriminate).
  assert (N2 : y <> []) by (intros ->; discriminate).
  change (@nil (nat * list rune)) with (((@nil (nat * list rune) ++ []) ++ []) ++ []).
  apply fm_cat with (nb false d6); [apply fm_rep; [exact L6|apply digits_c; exact D6]|].
  replace (nb false d6) with false by (destruct d6; [congruence|reflexivity]).
  apply fm_cat with false.
  { apply fm_altl. apply fm_chr. unfold is_letter in Z. unfold c_alpha. lia. }
  apply fm_cat with false; [apply fm_altl, fm_month; exact M|].
  apply fm_altl. replace false with (nb false y) at 2 by (destruct y; [congruence|reflexivity]).
  apply fm_rep; [exact L2|apply digits_c; exact D2].
Qed.

(** ** The short form *)
Lemma fm_dtg_cap : forall d s, dtg_text d -> stops c_digit s ->
  fm (ropt (RCap 3 r_dtg)) false d s false [(3%nat, d)].
Proof. intros d s D S. apply fm_altl. apply fm_cap. apply fm_dtg; assumption. Qed.

Lemma fm_eq : forall r b w s b' e e', fm r b w s b' e -> e = e' -> fm r b w s b' e'.
Proof. intros; subst; assumption. Qed.

Lemma dtg_hd : forall d, dtg_text d -> exists c r, d = c :: r /\ digit c.
Proof.
  intros d (d6 & z & m & y & -> & L6 & D6 & _). destruct d6 as [|c d6]; [discriminate|].
  inversion D6; subst. eexists. eexists. split; [reflexivity|assumption].
Qed.
Lemma digit_not : forall c, digit c -> c_space c = false /\ c_alpha c = false /\ c_call c = true /\
  c_lit 68 c = false /\ c_digit c = true.
Proof.
  intros c H. unfold digit in H. unfold c_space, c_alpha, c_call, c_alpha, c_digit, c_lit. cbn [orb andb]. lia.
Qed.
Lemma letter_call : forall c, call_char c -> c_space c = false /\ c_call c = true /\ c_to c = true /\ c <> 61.
Proof.
  intros c H. unfold call_char, is_letter, digit in H.
  unfold c_space, c_to, c_call, c_alpha, c_digit. repeat split; lia.
Qed.

(** Everything after the separator. *)
Lemma fm_after : forall F D N B, call_sign F -> dtg_text D -> Forall digit N -> N <> [] -> (length N <= 4)%nat ->
  forallb c_any B = true -> match B with [] => True | c :: _ => c_space c = false end ->
  fm (rseq [RChr (c_lit 68); RChr (c_lit 69); rplus c_space; RCap 2 (rplus c_call); r_sp;
       ropt (RCap 3 r_dtg); r_sp; ruptot 4 c_alpha; r_sp; ruptot 4 c_digit; r_sp; r_eq; r_sp; r_text]) 
    false ([68] ++ [69] ++ [32] ++ F ++ [32] ++ D ++ [32] ++ [] ++ [] ++ N ++ [32] ++ [61] ++ [32] ++ B) [] false
    [(4%nat, B); (3%nat, D); (2%nat, F)].
Proof.
  intros F D N B (NF & CF) HD HN NN LN AB SB.
  destruct (dtg_hd D HD) as (dc & dr & ED & DC). destruct N as [|nc nr]; [congruence|].
  assert (NC : digit nc) by (inversion HN; assumption).
  destruct F as [|fc fr]; [congruence|]. assert (FC : call_char fc) by (inversion CF; assumption).
  destruct (digit_not _ DC) as (D1 & D2 & D3 & D4 & D5). destruct (digit_not _ NC) as (N1 & N2 & N3 & N4 & N5).
  destruct (letter_call _ FC) as (F1 & F2 & F3).
  assert (TB : forall f, f = c_any -> stops f []) by (intros; exact I).
  eapply fm_eq.
  { unfold rseq.
    eapply fm_cat; [apply fm_chr; reflexivity|].
    eapply fm_cat; [apply fm_chr; reflexivity|].
    eapply fm_cat; [apply fm_plus; [discriminate|reflexivity|exact F1]|].
    eapply fm_cat; [apply fm_cap, fm_plus; [discriminate|apply calls_c; exact CF|reflexivity]|].
    eapply fm_cat; [apply fm_star; [reflexivity|rewrite ED; exact D1]|].
    eapply fm_cat; [apply fm_dtg_cap; [exact HD|reflexivity]|].
    eapply fm_cat; [apply fm_star; [reflexivity|exact N1]|].
    eapply fm_cat; [apply (fm_upto c_alpha 4 false []); [apply Nat.le_0_l|reflexivity|exact N2]|].
    eapply fm_cat; [apply fm_star; [reflexivity|exact N1]|].
    eapply fm_cat; [apply fm_upto; [exact LN|apply digits_c; exact HN|reflexivity]|].
    eapply fm_cat; [apply fm_star; [reflexivity|reflexivity]|].
    eapply fm_cat; [apply fm_chr; reflexivity|].
    eapply fm_cat; [apply fm_star; [reflexivity|destruct B; [exact I|exact SB]]|].
    apply (fm_cap 4). replace (false) with (nb false B) by (destruct B; reflexivity).
    apply fm_star; [exact AB|exact I]. }
  reflexivity.
Qed.

(** Nothing of the form <space>DE<space>. *)
Definition nosde (s : list rune) : Prop := forall w a d e c r, s = w ++ a :: d :: e :: c :: r ->
  c_space a = true -> c_lit 68 d = true -> c_lit 69 e = true -> c_space c = true -> False.
Lemma nosde_skip : forall x s, forallb (fun c => negb (c_space c)) x = true -> nosde s -> nosde (x ++ s).
Proof.
  induction x as [|c x IH]; intros s X S; [exact S|]. cbn [forallb] in X. apply andb_true_iff in X.
  destruct X as (X1 & X2). intros w a d e c' r E A D Ee C. destruct w as [|w0 w]; injection E as -> E.
  - rewrite A in X1. discriminate.
  - exact (IH s X2 S w a d e c' r E A D Ee C).
Qed.
Lemma nosde_space : forall s, nosde s ->
  match s with d :: e :: c :: _ => c_lit 68 d && c_lit 69 e && c_space c = false | _ => True end ->
  nosde (32 :: s).
Proof.
  intros s S M w a d e c r E A D Ee C. destruct w as [|w0 w]; injection E as <- E.
  - rewrite E in M. rewrite D, Ee, C in M. discriminate.
  - exact (S w a d e c r E A D Ee C).
Qed.
Lemma nosde_suffix : forall x s, nosde (x ++ s) -> nosde s.
Proof. intros x s H w a d e c r E. apply (H (x ++ w) a d e c r). rewrite E, app_assoc. reflexivity. Qed.
Lemma prefix_before : forall (u t x r : list rune) y, u ++ y :: t = x ++ r -> ~ In y x -> exists r', u = x ++ r'.
Proof.
  induction u as [|c u IH]; intros t x r y E N.
  - destruct x as [|z x]; [exists []; reflexivity|]. injection E as -> _. exfalso. apply N. left. reflexivity.
  - destruct x as [|z x]; [exists (c :: u); reflexivity|]. injection E as -> E.
    destruct (IH t x r y E) as (r' & ->); [intros Q; apply N; right; exact Q|]. exists r'. reflexivity.
Qed.

Lemma sep_fails : forall rest u t cs q, nosde u ->
  ~ rm (RCat (RAlt (rplus c_space) RBegin) (RCat (RChr (c_lit 68)) (RCat (RChr (c_lit 69)) (RCat (rplus c_space) rest))))
      (mkPos false (u ++ 61 :: t) cs) q.
Proof.
  intros rest u t cs q NS H. inv_cat H m1 H1 H. inv_cat H m2 H2 H. inv_cat H m3 H3 H. inv_cat H m4 H4 H.
  inversion H1 as [| | | | |? ? ? ? B|? ? ? ? B| | |]; subst;
    [|inversion B as [| | | | | | | |? B1|]; subst; discriminate].
  apply rm_plus in B. destruct B as (w & B1 & B2 & B3 & _). cbn [p_rest] in B1.
  apply rm_chr_inv in H2. destruct H2 as (d & D1 & D2 & _).
  apply rm_chr_inv in H3. destruct H3 as (e & E1 & E2 & _).
  apply rm_plus in H4. destruct H4 as (w4 & P1 & P2 & P3 & _). destruct w4 as [|c w4]; [congruence|].
  destruct (exists_last B3) as (w0 & a & ->).
  rewrite forallb_app in B2. apply andb_true_iff in B2. destruct B2 as (B2 & B4). cbn [forallb] in B4, P2.
  assert (X : u ++ 61 :: t = (w0 ++ [a; d; e; c]) ++ w4 ++ p_rest m4).
  { rewrite B1, D1, E1, P1. rewrite <- !app_assoc. reflexivity. }
  apply prefix_before in X.
  - destruct X as (r' & X). rewrite <- app_assoc in X. cbn [app] in X.
    apply (NS w0 a d e c r' X); [destruct (c_space a); [reflexivity|discriminate]|exact D2|exact E2|].
    destruct (c_space c); [reflexivity|discriminate].
  - intros Q. apply in_app_iff in Q. rewrite forallb_forall in B2. destruct Q as [Q|Q].
    + apply B2 in Q. discriminate.
    + cbn [In] in Q. destruct Q as [->|[->|[->|[->|[]]]]]; discriminate.
Qed.

Lemma c_to_digits : forall s, Forall digit s -> forallb c_to s = true.
Proof.
  intros s H. apply forallb_forall. rewrite Forall_forall in H. intros c Hc. specialize (H c Hc).
  unfold digit in H. unfold c_to, c_digit. lia.
Qed.
Lemma dtg_chars : forall d, dtg_text d -> Forall (fun c => is_letter c \/ digit c) d.
Proof.
  intros d (d6 & z & m & y & -> & L6 & D6 & Z & M & L2 & D2).
  apply Forall_app. split; [eapply Forall_impl; [|exact D6]; auto|].
  apply Forall_app. split; [constructor; auto|].
  apply Forall_app. split; [|eapply Forall_impl; [|exact D2]; auto].
  unfold month_names in M. cbn [In] in M.
  repeat (destruct M as [<-|M]; [repeat (apply Forall_cons; [left; unfold is_letter; lia|]); apply Forall_nil|]). contradiction.
Qed.
Lemma dtg_call : forall d, dtg_text d -> Forall call_char d.
Proof. intros d H. eapply Forall_impl; [|apply dtg_chars; exact H]. intros c [Q|Q]; unfold call_char; auto. Qed.

Lemma nospace_call : forall s, Forall call_char s -> forallb (fun c => negb (c_space c)) s = true.
Proof.
  intros s H. apply forallb_forall. rewrite Forall_forall in H. intros c Hc. apply H in Hc.
  apply letter_call in Hc. destruct Hc as (-> & _). reflexivity.
Qed.
Lemma to_call : forall s, Forall call_char s -> forallb c_to s = true.
Proof.
  intros s H. apply forallb_forall. rewrite Forall_forall in H. intros c Hc. apply H in Hc.
  apply letter_call in Hc. apply Hc.
Qed.
Lemma digit_call : forall s, Forall digit s -> Forall call_char s.
Proof. intros s H. eapply Forall_impl; [|exact H]. intros c Q. unfold call_char. auto. Qed.
Lemma join_to : forall R, Forall call_sign R -> forallb c_to (join [32] R) = true.
Proof.
  induction R as [|x R IH]; intros H; [reflexivity|]. inversion H as [|? ? (H1 & H2) H3]; subst.
  destruct R as [|y R]; [apply to_call; exact H2|].
  change (join [32] (x :: y :: R)) with (x ++ [32] ++ join [32] (y :: R)).
  rewrite !forallb_app, to_call by exact H2. rewrite IH by exact H3. reflexivity.
Qed.

Lemma nosde_tail : forall F D N, call_sign F -> F <> [68; 69] -> dtg_text D -> Forall digit N -> N <> [] ->
  nosde ([68; 69; 32] ++ F ++ [32] ++ D ++ [32] ++ N ++ [32]).
Proof.
  intros F D N (NF & CF) ND HD HN NN.
  assert (L3 : nosde [32]). { intros w a d e c r E. destruct w as [|? [|? w]]; discriminate. }
  assert (L2 : nosde (N ++ [32])) by (apply nosde_skip; [apply nospace_call, digit_call; exact HN|exact L3]).
  assert (NT : forall c r s, digit c -> match (c :: r) ++ s with d :: e :: c :: _ => c_lit 68 d && c_lit 69 e && c_space c = false | _ => True end).
  { intros c r s Hc. destruct (digit_not c Hc) as (_ & _ & _ & Q & _). cbn [app].
    destruct (r ++ s) as [|? [|? ?]]; try exact I. rewrite Q. reflexivity. }
  assert (L1 : nosde (D ++ [32] ++ N ++ [32])).
  { apply nosde_skip; [apply nospace_call, dtg_call; exact HD|]. apply nosde_space; [exact L2|].
    destruct N as [|c N]; [congruence|]. apply NT. inversion HN; assumption. }
  change [68; 69; 32] with ([68; 69] ++ [32]). rewrite <- app_assoc. apply nosde_skip; [reflexivity|].
  apply nosde_space.
  - apply nosde_skip; [apply nospace_call; exact CF|]. apply nosde_space; [exact L1|].
    destruct (dtg_hd D HD) as (c & r & -> & Hc). apply NT. exact Hc.
  - destruct F as [|f1 F]; [congruence|]. destruct F as [|f2 F].
    { cbn [app]. destruct (D ++ 32 :: N ++ [32]); [exact I|]. cbn. rewrite andb_false_r. reflexivity. }
    destruct F as [|f3 F].
    + cbn [app]. destruct (c_lit 68 f1) eqn:Q1; [|reflexivity]. destruct (c_lit 69 f2) eqn:Q2; [|reflexivity].
      exfalso. apply ND. inversion CF as [|? ? C1 C']; subst. inversion C' as [|? ? C2 _]; subst.
      apply c_lit_d in Q1. apply c_lit_e in Q2. unfold call_char, is_letter, digit in C1, C2.
      f_equal; [lia|]. f_equal. lia.
    + cbn [app]. inversion CF as [|? ? C1 C']; subst. inversion C' as [|? ? C2 C'']; subst.
      inversion C'' as [|? ? C3 _]; subst. apply letter_call in C3. destruct C3 as (-> & _).
      rewrite andb_false_r. reflexivity.
Qed.

(** The third expression matches at the beginning. *)
Lemma short_match : forall R F D N B, Forall call_sign R -> call_sign F -> F <> [68; 69] -> dtg_text D ->
  Forall digit N -> N <> [] -> (length N <= 4)%nat ->
  forallb c_any B = true -> match B with [] => True | c :: _ => c_space c = false end ->
  re_match r_short (mkPos true
    (match R with [] => [] | _ => join [32] R ++ [32] end ++
      [68; 69; 32] ++ F ++ [32] ++ D ++ [32] ++ N ++ [32; 61; 32] ++ B) []) Some =
  Some (mkPos false [] [(4%nat, B); (3%nat, D); (2%nat, F); (1%nat, join [32] R)]).
Proof.
  intros R F D N B HR HF NF HD HN NN LN AB SB.
  pose proof (fm_after F D N B HF HD HN NN LN AB SB) as FA.
  change r_short with (RCat (RCap 1 (RStar c_to)) (RCat (RAlt (rplus c_space) RBegin) (RCat (RChr (c_lit 68))
    (RCat (RChr (c_lit 69)) (RCat (rplus c_space) (rseq [RCap 2 (rplus c_call); r_sp;
       ropt (RCap 3 r_dtg); r_sp; ruptot 4 c_alpha; r_sp; ruptot 4 c_digit; r_sp; r_eq; r_sp; r_text])))))).
  pose (sep := match R with [] => [] | _ => [32 : rune] end).
  pose (v := sep ++ [68; 69; 32] ++ F ++ [32] ++ D ++ [32] ++ N ++ [32]).
  replace (match R with [] => [] | _ => join [32] R ++ [32] end ++
      [68; 69; 32] ++ F ++ [32] ++ D ++ [32] ++ N ++ [32; 61; 32] ++ B)
    with (join [32] R ++ v ++ 61 :: 32 :: B).
  2: { unfold v, sep. destruct R; rewrite <- !app_assoc; cbn [app]; reflexivity. }
  cbn [re_match p_begin p_rest p_caps].
  apply star_back.
  - apply join_to. exact HR.
  - unfold v, sep. rewrite !forallb_app. rewrite (to_call F) by apply HF. rewrite (to_call D) by (apply dtg_call; exact HD).
    rewrite (c_to_digits N) by exact HN. destruct R; reflexivity.
  - reflexivity.
  - intros c u' u E. apply (re_fail rpos (RCat (RAlt (rplus c_space) RBegin) (RCat (RChr (c_lit 68))
    (RCat (RChr (c_lit 69)) (RCat (rplus c_space) (rseq [RCap 2 (rplus c_call); r_sp;
       ropt (RCap 3 r_dtg); r_sp; ruptot 4 c_alpha; r_sp; ruptot 4 c_digit; r_sp; r_eq; r_sp; r_text])))))).
    intros q Q. exfalso. revert Q. apply sep_fails.
    pose proof (nosde_tail F D N HF NF HD HN NN) as NT. unfold v, sep in E. destruct R as [|x R].
    + apply (nosde_suffix (c :: u')). cbn [app] in E |- *. rewrite <- E. exact NT.
    + cbn [app] in E. injection E as _ E. apply (nosde_suffix u'). rewrite <- E. exact NT.
  - cbn [p_rest p_begin p_caps]. rewrite firstn_diff.
    assert (G : fm (RCat (RAlt (rplus c_space) RBegin) (rseq [RChr (c_lit 68); RChr (c_lit 69); rplus c_space; RCap 2 (rplus c_call); r_sp;
       ropt (RCap 3 r_dtg); r_sp; ruptot 4 c_alpha; r_sp; ruptot 4 c_digit; r_sp; r_eq; r_sp; r_text]))
       (match R with [] => true | _ => false end)
       (sep ++ [68] ++ [69] ++ [32] ++ F ++ [32] ++ D ++ [32] ++ [] ++ [] ++ N ++ [32] ++ [61] ++ [32] ++ B) [] false
       ([(4%nat, B); (3%nat, D); (2%nat, F)] ++ [])).
    { destruct R as [|x R].
      - apply fm_cat with true.
        + apply fm_altr; [|apply fm_begin]. intros cs q Q. apply rm_plus in Q. destruct Q as (w & Q1 & Q2 & Q3 & _).
          destruct w as [|c w]; [congruence|]. cbn [p_rest app] in Q1. injection Q1 as <- _. discriminate.
        + intros A k cs y K. exact (FA A k cs y K).
      - apply fm_cat with false; [apply fm_altl, fm_plus; [discriminate|reflexivity|reflexivity]|exact FA]. }
    assert (E : match join [32] R with [] => true | _ => false end = match R with [] => true | _ => false end).
    { destruct R as [|x [|y R]]; [reflexivity| |].
      - inversion HR as [|? ? (Q & _) _]; subst. cbn [join]. destruct x; [congruence|reflexivity].
      - inversion HR as [|? ? (Q & _) _]; subst. cbn [join]. destruct x; [congruence|reflexivity]. }
    rewrite E.
    specialize (G rpos Some [(1%nat, join [32] R)] _ eq_refl). rewrite app_nil_r in G. cbn [app] in G.
    replace (v ++ 61 :: 32 :: B) with (sep ++ 68 :: 69 :: 32 :: F ++ 32 :: D ++ 32 :: N ++ 32 :: 61 :: 32 :: B).
    2: { unfold v. repeat (progress (cbn [app]; rewrite <- ?app_assoc)). reflexivity. }
    exact G.
Qed.

(** The first two expressions need "==". *)
Definition no_ee (s : list rune) : Prop := forall a b, s <> a ++ 61 :: 61 :: b.
Lemma no_ee_skip : forall x s, ~ In 61 x -> no_ee s -> no_ee (x ++ s).
Proof.
  induction x as [|c x IH]; intros s N S; [exact S|]. intros a b E. destruct a as [|a0 a]; injection E as E0 E.
  - apply N. left. exact E0.
  - apply (IH s) in E; [exact E|intros Q; apply N; right; exact Q|exact S].
Qed.
Lemma no_ee_suffix : forall x s, no_ee (x ++ s) -> no_ee s.
Proof. intros x s H a b E. apply (H (x ++ a) b). rewrite E, app_assoc. reflexivity. Qed.
Lemma no_ee_app : forall x s, no_ee x -> ~ In 61 (firstn 1 s) -> no_ee s -> no_ee (x ++ s).
Proof.
  intros x s X F S. revert X. induction x as [|c x IH]; intros X; [exact S|]. intros a b E.
  destruct a as [|a0 a]; injection E as E0 E.
  - destruct x as [|c' x].
    + cbn [app] in E. rewrite E in F. apply F. left. reflexivity.
    + injection E as E1 E. subst. exact (X [] x eq_refl).
  - apply (IH (fun p q Q => X (c :: p) q ltac:(rewrite Q; reflexivity)) a b). exact E.
Qed.
Lemma ee_head : forall b s rs q, no_ee s -> ~ rm (r_head (r_eq :: r_eq :: rs)) (mkPos b s []) q.
Proof.
  intros b s rs q N H. apply head_shape in H.
  destruct H as (g1 & sep & d & e & sp & g2 & sp2 & g3 & sp3 & m & E & H).
  destruct H as (_ & _ & _ & _ & _ & _ & _ & _ & _ & _ & _ & _ & H).
  assert (G : exists t, p_rest m = 61 :: 61 :: t).
  { destruct rs as [|r rs].
    - cbn [rseq] in H. inv_cat H m1 H1 H. apply rm_chr_inv in H1. apply rm_chr_inv in H.
      destruct H1 as (c & C1 & C2 & _), H as (c' & C3 & C4 & _). rewrite C1, C3. unfold c_lit in C2, C4.
      exists (p_rest q). f_equal; [lia|]. f_equal. lia.
    - change (rseq (r_eq :: r_eq :: r :: rs)) with (RCat r_eq (RCat r_eq (rseq (r :: rs)))) in H.
      inv_cat H m1 H1 H. inv_cat H m2 H2 H. apply rm_chr_inv in H1. apply rm_chr_inv in H2.
      destruct H1 as (c & C1 & C2 & _), H2 as (c' & C3 & C4 & _). rewrite C1, C3. unfold c_lit in C2, C4.
      exists (p_rest m2). f_equal; [lia|]. f_equal. lia. }
  destruct G as (t & G). rewrite G in E.
  apply (N (g1 ++ sep ++ [d; e] ++ sp ++ g2 ++ sp2 ++ g3 ++ sp3) t). rewrite E, <- !app_assoc. reflexivity.
Qed.

(** The trailing " = K". *)
Definition ns (s : list rune) : list rune := filter (fun c => negb (c_space c)) s.
Lemma ns_app : forall a b, ns (a ++ b) = ns a ++ ns b.
Proof. intros. apply filter_app. Qed.
Lemma ns_space : forall s, forallb c_space s = true -> ns s = [].
Proof.
  induction s as [|c s IH]; intros H; [reflexivity|]. cbn [forallb] in H. apply andb_true_iff in H.
  destruct H as (H1 & H2). unfold ns. cbn [filter]. rewrite H1. apply IH. exact H2.
Qed.
Lemma rm_sp : forall p q, rm r_sp p q -> ns (p_rest p) = ns (p_rest q).
Proof.
  intros p q H. apply rm_star in H. destruct H as (w & W1 & W2 & _). rewrite W1, ns_app, ns_space by exact W2.
  reflexivity.
Qed.
Lemma rm_one : forall f p q, (forall c, f c = true -> c_space c = false) -> rm (RChr f) p q ->
  exists c, f c = true /\ ns (p_rest p) = c :: ns (p_rest q).
Proof.
  intros f p q F H. apply rm_chr_inv in H. destruct H as (c & C1 & C2 & _). exists c. split; [exact C2|].
  rewrite C1. unfold ns. cbn [filter]. rewrite (F c C2). reflexivity.
Qed.
Lemma lit_space : forall u c, c_space u = false -> u <> -32 + 9 -> u <> -32 + 10 -> u <> -32 + 12 -> u <> -32 + 13 ->
  c_lit u c = true -> c_space c = false.
Proof. intros u c H1 H2 H3 H4 H5 H. unfold c_space, c_lit in *. lia. Qed.
Lemma kplus_space : forall c, c_kplus c = true -> c_space c = false.
Proof. intros c H. unfold c_kplus, c_lit, c_space in *. lia. Qed.

Lemma trail_shape : forall p q, rm r_trail p q ->
  (exists k, ns (p_rest p) = [61; k] /\ c_kplus k = true) \/
  (exists k, ns (p_rest p) = [k]) \/
  (exists a b c, ns (p_rest p) = [a; b; c; 93]) \/
  (exists a b, ns (p_rest p) = [61; a; b] /\ a <> 61).
Proof.
  intros p q H. unfold r_trail in H. cbn [rseq ralt] in H. inv_cat H m H1 H. inv_cat H m' H2 H.
  apply rm_sp in H2. inversion H as [| | | | | | | | |? B]; subst. rewrite B in H2. cbn in H2.
  assert (EQ : forall x y, rm r_eq x y -> ns (p_rest x) = 61 :: ns (p_rest y)).
  { intros x y Q. apply rm_one in Q.
    - destruct Q as (c & C & ->). f_equal. unfold c_lit in C. lia.
    - intros c C. unfold c_lit, c_space in *. lia. }
  inversion H1 as [| | | | |? ? ? ? A|? ? ? ? A| | |]; subst; clear H1.
  - left. inv_cat A m1 A1 A. inv_cat A m2 A2 A. inv_cat A m3 A3 A.
    apply rm_sp in A1. apply EQ in A2. apply rm_sp in A3. apply rm_one in A; [|exact kplus_space].
    destruct A as (k & K & A). exists k. split; [|exact K]. rewrite A1, A2, A3, A, H2. reflexivity.
  - right. inversion A as [| | | | |? ? ? ? A'|? ? ? ? A'| | |]; subst; clear A.
    + left. inv_cat A' m1 A1 A. apply rm_chr_inv in A1. destruct A1 as (c & C1 & C2 & _).
      apply rm_one in A; [|exact kplus_space]. destruct A as (k & K & A). exists k.
      rewrite C1. unfold ns. cbn [filter]. rewrite C2. cbn [negb]. fold (ns (p_rest m1)). rewrite A, H2. reflexivity.
    + right. inversion A' as [| | | | |? ? ? ? A|? ? ? ? A| | |]; subst; clear A'.
      * left. inv_cat A m1 A1 A. apply rm_sp in A1. unfold rlit in A. cbn [map rseq] in A.
        inv_cat A m2 A2 A. inv_cat A m3 A3 A. inv_cat A m4 A4 A.
        apply rm_one in A2; [|intros c; apply lit_space; lia || reflexivity].
        apply rm_one in A3; [|intros c; apply lit_space; lia || reflexivity].
        apply rm_one in A4; [|intros c; apply lit_space; lia || reflexivity].
        apply rm_one in A; [|intros c; apply lit_space; lia || reflexivity].
        destruct A2 as (c1 & _ & A2), A3 as (c2 & _ & A3), A4 as (c3 & _ & A4), A as (c4 & C4 & A).
        exists c1, c2, c3. rewrite A1, A2, A3, A4, A, H2. repeat f_equal. unfold c_lit in C4. lia.
      * right. inv_cat A m1 A1 A. inv_cat A m2 A2 A. inv_cat A m3 A3 A.
        apply rm_sp in A1. apply EQ in A2. apply rm_sp in A3. unfold rlit in A. cbn [map rseq] in A.
        inv_cat A m4 A4 A.
        apply rm_one in A4; [|intros c; apply lit_space; lia || reflexivity].
        apply rm_one in A; [|intros c; apply lit_space; lia || reflexivity].
        destruct A4 as (a & Ca & A4), A as (b & _ & A). exists a, b.
        rewrite A1, A2, A3, A4, A, H2. split; [reflexivity|]. unfold c_lit in Ca. lia.
Qed.

Lemma remove_trail_K : forall B l, c_space l = false -> remove_trail ((B ++ [l]) ++ [32; 61; 32; 75]) = B ++ [l].
Proof.
  intros B l Hl. unfold remove_trail, re_search.
  rewrite (search_at r_trail (B ++ [l]) [32; 61; 32; 75] true 0 (mkPos false [] [])).
  - cbn [Nat.add]. rewrite firstn_app, Nat.sub_diag, firstn_all. cbn [firstn]. apply app_nil_r.
  - intros w1 w2 E N q Q. destruct (exists_last N) as (w3 & l' & ->).
    rewrite app_assoc in E. apply app_inj_tail in E. destruct E as (_ & <-).
    apply trail_shape in Q. cbn [p_rest] in Q. rewrite ns_app, (ns_app w3) in Q.
    replace (ns [l]) with [l] in Q by (unfold ns; cbn [filter]; rewrite Hl; reflexivity).
    change (ns [32; 61; 32; 75]) with [61; 75] in Q. rewrite <- app_assoc in Q. cbn [app] in Q.
    destruct Q as [(k & Q & _)|[(k & Q)|[(a & b & c & Q)|(a & b & Q & Na)]]];
      destruct (ns w3) as [|x1 [|x2 [|x3 [|x4 y]]]]; cbn [app] in Q; try discriminate; inversion Q; subst; try congruence;
      destruct y; discriminate.
  - assert (F : fm r_trail (match B ++ [l] with [] => true | _ => false end)
        (([32] ++ [61] ++ [32] ++ [75]) ++ [] ++ []) [] false (([] ++ []) ++ ((([] ++ []) ++ []) ++ []))).
    { unfold r_trail. cbn [rseq]. apply fm_cat with false.
      - cbn [ralt rseq]. apply fm_altl. eapply fm_cat; [apply fm_star; reflexivity|].
        eapply fm_cat; [apply fm_chr; reflexivity|]. eapply fm_cat; [apply fm_star; reflexivity|].
        apply fm_chr. reflexivity.
      - eapply fm_cat; [apply fm_star; [reflexivity|exact I]|]. intros A k cs x K. exact K. }
    specialize (F rpos Some [] _ eq_refl). cbn [app] in F. exact F.
Qed.

Section U.
Variable U : Uni.
Hypothesis HK : uni_kelvin U.

Lemma call_c : forall c, call_char c -> c_call c = true.
Proof. intros c H. apply letter_call in H. apply H. Qed.
Lemma call_up : forall c, call_char c -> to_upper U c = c.
Proof.
  intros c H. unfold call_char, is_letter, digit in H. unfold to_upper, in_latin1.
  replace ((0 <=? c) && (c <=? 255)) with true by lia.
  replace ((97 <=? c) && (c <=? 122)) with false by lia. replace (c =? 181) with false by lia.
  replace ((224 <=? c) && (c <=? 254) && negb (c =? 247)) with false by lia.
  replace (c =? 255) with false by lia. reflexivity.
Qed.
Lemma call_up_all : forall s, Forall call_char s -> map (to_upper U) s = s.
Proof. induction 1 as [|c s H _ IH]; [reflexivity|]. cbn [map]. rewrite call_up, IH by exact H. reflexivity. Qed.
Lemma call_trim : forall s, Forall call_char s -> trim_space U s = s.
Proof.
  intros s H. apply trim_none. intros c Hc. apply (call_not_space U HK). apply call_c.
  rewrite Forall_forall in H. apply H. exact Hc.
Qed.
Lemma call_vetted : forall s, call_sign s -> vetted_ok U s.
Proof.
  intros s (N & H). split; [exact N|]. split.
  { eapply Forall_impl; [|exact H]. intros c Hc. unfold call_char, is_letter, digit in Hc. lia. }
  split; [apply call_up_all; exact H|]. rewrite Forall_forall in H. intros [Q|Q].
  - destruct s as [|c s]; [exact Q|]. rewrite (call_not_space U HK) in Q; [discriminate|].
    apply call_c, H. left. reflexivity.
  - destruct (rev s) as [|c r] eqn:E; [exact Q|]. rewrite (call_not_space U HK) in Q; [discriminate|].
    apply call_c, H. apply in_rev. rewrite E. left. reflexivity.
Qed.
Lemma vetted_join_space : forall R, Forall call_sign R -> vetted_keepers U [join [32] R] = R.
Proof.
  induction R as [|v l IH]; intros H; [reflexivity|]. inversion H; subst. destruct l as [|w l].
  - apply vetted_fix, call_vetted. assumption.
  - change (join [32] (v :: w :: l)) with (v ++ 32 :: join [32] (w :: l)).
    rewrite vetted_sep by auto. rewrite vetted_fix by (apply call_vetted; assumption).
    rewrite IH by assumption. reflexivity.
Qed.
Lemma c_space_space : forall c, is_space U c = false -> c_space c = false.
Proof.
  intros c H. destruct (c_space c) eqn:C; [|reflexivity]. unfold c_space in C.
  assert (Q : c = 9 \/ c = 10 \/ c = 12 \/ c = 13 \/ c = 32) by lia.
  destruct Q as [->|[->|[->|[->| ->]]]]; discriminate.
Qed.

Lemma trim_right_stop : forall f s l, f l = false -> trim_right_rune_func (s ++ [l]) f = s ++ [l].
Proof.
  intros f s l H. unfold trim_right_rune_func. rewrite app_length. cbn [length].
  rewrite Nat.add_1_r. cbn [trim_right_loop].
  rewrite nth_error_app2 by lia. rewrite Nat.sub_diag. cbn [nth_error]. rewrite H. cbn [negb].
  try reflexivity.
Qed.

Lemma short_split : forall R F D N c0 r0 B l,
  Forall call_sign R -> call_sign F -> F <> [68; 69] -> dtg_text D ->
  Forall digit N -> N <> [] -> (length N <= 4)%nat ->
  c0 :: r0 = B ++ [l] -> is_space U c0 = false -> is_space U l = false -> l <> 43 -> l <> 61 ->
  Forall (fun c => c <> 10) (B ++ [l]) -> no_ee (B ++ [l]) ->
  split_radiogram U regexps (short_radiogram R F D N (B ++ [l])) = Some (R, F, D, B ++ [l]).
Proof.
  intros R F D N c0 r0 B l HR HF NF HD HN NN LN E0 S0 Sl N1 N2 NL NE.
  assert (NEall : no_ee (short_radiogram R F D N (B ++ [l]))).
  { unfold short_radiogram. assert (CA : forall x, Forall call_char x -> ~ In 61 x).
    { intros x Hx Q. rewrite Forall_forall in Hx. apply Hx in Q. unfold call_char, is_letter, digit in Q. lia. }
    assert (JA : ~ In 61 (join [32] R)).
    { intros Q. pose proof (join_to R HR) as J. rewrite forallb_forall in J. apply J in Q. discriminate. }
    apply no_ee_skip.
    { destruct R; [intros []|]. intros Q. apply in_app_iff in Q. destruct Q as [Q|[Q|[]]]; [exact (JA Q)|discriminate]. }
    apply no_ee_skip; [cbn; lia|]. apply no_ee_skip; [apply CA, HF|]. apply no_ee_skip; [cbn; lia|].
    apply no_ee_skip; [apply CA, dtg_call, HD|]. apply no_ee_skip; [cbn; lia|].
    apply no_ee_skip; [apply CA, digit_call, HN|].
    change ([32; 61; 32] ++ (B ++ [l]) ++ [32; 61; 32; 75]) with ([32] ++ [61] ++ [32] ++ (B ++ [l]) ++ [32; 61; 32; 75]).
    apply no_ee_skip; [cbn; lia|]. apply no_ee_app; [|cbn; lia|].
    { intros a b Q. destruct a as [|? [|? ?]]; discriminate. }
    apply no_ee_skip; [cbn; lia|]. apply no_ee_app; [exact NE|cbn; lia|].
    intros a b Q. destruct a as [|? [|? [|? [|? [|? ?]]]]]; discriminate. }
  unfold regexps. cbn [split_radiogram].
  replace (re_search r_full (short_radiogram R F D N (B ++ [l]))) with (@None (nat * rpos)).
  2: { symmetry. apply search_none. intros w s' E q. apply ee_head. apply (no_ee_suffix w). rewrite <- E. exact NEall. }
  replace (re_search r_semi (short_radiogram R F D N (B ++ [l]))) with (@None (nat * rpos)).
  2: { symmetry. apply search_none. intros w s' E q. apply ee_head. apply (no_ee_suffix w). rewrite <- E. exact NEall. }
  assert (Sl' : c_space l = false) by (apply c_space_space; exact Sl).
  assert (M : re_search r_short (short_radiogram R F D N (B ++ [l])) =
     Some (0%nat, mkPos false [] [(4%nat, (B ++ [l]) ++ [32; 61; 32; 75]); (3%nat, D); (2%nat, F); (1%nat, join [32] R)])).
  { unfold re_search. pose proof (search_at r_short [] (short_radiogram R F D N (B ++ [l])) true 0) as SA.
    cbn [app length Nat.add] in SA. apply SA.
    - intros w1 w2 W Nw. symmetry in W. apply app_eq_nil in W. destruct W; congruence.
    - unfold short_radiogram. apply short_match; try assumption.
      + rewrite forallb_app. apply andb_true_iff. split; [|reflexivity]. apply forallb_forall.
        rewrite Forall_forall in NL. intros c Hc. apply NL in Hc. unfold c_any. lia.
      + rewrite <- E0. cbn [app]. apply c_space_space. exact S0. }
  rewrite M. clear M. cbv iota beta.
  change (group 1 _) with (join [32] R). change (group 2 _) with F. change (group 3 _) with D.
  change (group 4 _) with ((B ++ [l]) ++ [32; 61; 32; 75]).
  rewrite vetted_join_space by exact HR. unfold str_upper.
  rewrite (call_trim F), call_up_all by apply HF. rewrite (call_trim D), call_up_all by (apply dtg_call, HD).
  rewrite remove_trail_K by exact Sl'.
  pose proof (trim_exact U [] (B ++ [l]) []) as T. cbn [app] in T. rewrite app_nil_r in T. rewrite T; auto.
  - rewrite trim_right_stop; [reflexivity|]. unfold end_sign. rewrite Sl. lia.
  - intros [Q|Q]; [rewrite <- E0, S0 in Q; discriminate|]. rewrite rev_app_distr in Q. cbn [rev app] in Q. rewrite Sl in Q. discriminate.
Qed.
End U.
