(** Splitting radiograms: what a successful split looks like. *)
From Verif Require Import Base Spec Model_Unicode Model_Functions Model_Regex Model_Types Model_Cipher
  Model_Messages Proofs_Functions Proofs_Regex.

Ltac inv_cat H m H1 H2 := apply rm_cat_inv in H; destruct H as (m & H1 & H2).

Lemma c_lit_d : forall c, c_lit 68 c = true -> c = 68 \/ c = 100.
Proof. intros c H. unfold c_lit in H. lia. Qed.
Lemma c_lit_e : forall c, c_lit 69 c = true -> c = 69 \/ c = 101.
Proof. intros c H. unfold c_lit in H. lia. Qed.

(** The common beginning of the four expressions. *)
Lemma head_shape : forall b s r rs q, rm (r_head (r :: rs)) (mkPos b s []) q ->
  exists g1 sep d e sp g2 sp2 g3 sp3 m,
    s = g1 ++ sep ++ [d; e] ++ sp ++ g2 ++ sp2 ++ g3 ++ sp3 ++ p_rest m /\
    forallb c_to g1 = true /\ forallb c_space sep = true /\ (sep = [] -> g1 = [] /\ b = true) /\
    c_lit 68 d = true /\ c_lit 69 e = true /\ forallb c_space sp = true /\ sp <> [] /\
    forallb c_call g2 = true /\ g2 <> [] /\ forallb c_space sp2 = true /\ forallb c_space sp3 = true /\
    (exists cs, (cs = [] \/ cs = [(3%nat, g3)]) /\ (cs = [] -> g3 = []) /\
       p_caps m = cs ++ [(2%nat, g2); (1%nat, g1)]) /\
    rm (rseq (r :: rs)) m q.
Proof.
  intros b s r rs q H. unfold r_head in H.
  change (rseq ([RCap 1 (RStar c_to); RAlt (rplus c_space) RBegin; RChr (c_lit 68); RChr (c_lit 69);
         rplus c_space; RCap 2 (rplus c_call); r_sp; ropt (RCap 3 r_dtg); r_sp] ++ r :: rs)) with
    (RCat (RCap 1 (RStar c_to)) (RCat (RAlt (rplus c_space) RBegin) (RCat (RChr (c_lit 68))
      (RCat (RChr (c_lit 69)) (RCat (rplus c_space) (RCat (RCap 2 (rplus c_call)) (RCat r_sp
        (RCat (ropt (RCap 3 r_dtg)) (RCat r_sp (rseq (r :: rs))))))))))) in H.
  inv_cat H m1 H1 H. inv_cat H m2 H2 H. inv_cat H m3 H3 H. inv_cat H m4 H4 H. inv_cat H m5 H5 H.
  inv_cat H m6 H6 H. inv_cat H m7 H7 H. inv_cat H m8 H8 H. inv_cat H m9 H9 H.
  apply rm_cap_inv in H1. destruct H1 as (q1 & g1 & A1 & A2 & A3 & A4 & A5).
  apply rm_star in A1. destruct A1 as (g1' & A6 & A7 & A8 & A9). cbn [p_rest p_caps p_begin] in *.
  assert (g1' = g1) by (rewrite A3, A6 in A2; apply app_inv_tail in A2; congruence). subst g1'.
  assert (S : exists sep, p_rest m1 = sep ++ p_rest m2 /\ forallb c_space sep = true /\
            (sep = [] -> g1 = [] /\ b = true) /\ p_caps m2 = p_caps m1).
  { inversion H2 as [| | | | |? ? ? ? B|? ? ? ? B| | |]; subst.
    - apply rm_plus in B. destruct B as (w & B1 & B2 & B3 & B4 & B5). exists w.
      split; [exact B1|]. split; [exact B2|]. split; [intros ->; congruence|exact B4].
    - inversion B as [| | | | | | | |? B1|]; subst. exists []. split; [reflexivity|]. split; [reflexivity|].
      split; [|reflexivity]. intros _. rewrite A5, A9 in B1. destruct g1; [split; [reflexivity|exact B1]|discriminate]. }
  destruct S as (sep & S1 & S2 & S3 & S4).
  apply rm_chr_inv in H3. destruct H3 as (d & D1 & D2 & D3 & _).
  apply rm_chr_inv in H4. destruct H4 as (e & E1 & E2 & E3 & _).
  apply rm_plus in H5. destruct H5 as (sp & P1 & P2 & P3 & P4 & _).
  apply rm_cap_inv in H6. destruct H6 as (q2 & g2 & C1 & C2 & C3 & C4 & _).
  apply rm_plus in C1. destruct C1 as (g2' & C6 & C7 & C8 & C9 & _).
  assert (g2' = g2) by (rewrite C3, C6 in C2; apply app_inv_tail in C2; congruence). subst g2'.
  apply rm_star in H7. destruct H7 as (sp2 & Q1 & Q2 & Q3 & _).
  assert (G : exists g3 cs, p_rest m7 = g3 ++ p_rest m8 /\ (cs = [] \/ cs = [(3%nat, g3)]) /\
     (cs = [] -> g3 = []) /\ p_caps m8 = cs ++ p_caps m7).
  { inversion H8 as [| | | | |? ? ? ? B|? ? ? ? B| | |]; subst.
    - apply rm_cap_inv in B. destruct B as (q3 & g3 & B1 & B2 & B3 & B4 & _).
      exists g3, [(3%nat, g3)]. split; [exact B2|]. split; [right; reflexivity|]. split; [discriminate|].
      rewrite B4. apply rm_nocap in B1; [|reflexivity]. rewrite B1. reflexivity.
    - inversion B; subst. exists [], []. repeat split. left; reflexivity. }
  destruct G as (g3 & cs & G1 & G2 & G3 & G4).
  apply rm_star in H9. destruct H9 as (sp3 & R1 & R2 & R3 & _).
  exists g1, sep, d, e, sp, g2, sp2, g3, sp3, m9.
  split. { rewrite A2, S1, D1, E1, P1, C2, Q1, G1, R1. reflexivity. }
  repeat (split; [assumption|]). split; [|exact H].
  exists cs. split; [exact G2|]. split; [exact G3|].
  rewrite R3, G4, Q3, C4, C9, P4, E3, D3, S4, A4, A8. reflexivity.
Qed.

(** Expressions ending in the text group. *)
Lemma text_shape : forall rs p q, Forall (fun r => nocap r = true) rs ->
  rm (rseq (rs ++ [r_text])) p q ->
  exists w g4, p_rest p = w ++ g4 ++ p_rest q /\ forallb c_any g4 = true /\
    p_caps q = (4%nat, g4) :: p_caps p.
Proof.
  intros rs p q N. revert p. induction rs as [|r rs IH]; intros p H.
  - cbn [app rseq] in H. apply rm_cap_inv in H. destruct H as (q4 & g4 & B1 & B2 & B3 & B4 & _).
    apply rm_star in B1. destruct B1 as (w & C1 & C2 & C3 & _).
    assert (w = g4) by (rewrite B3, C1 in B2; apply app_inv_tail in B2; congruence). subst w.
    exists [], g4. split; [exact B2|]. split; [exact C2|]. rewrite B4, C3. reflexivity.
  - inversion N; subst. assert (H' : rm (RCat r (rseq (rs ++ [r_text]))) p q).
    { destruct rs; exact H. }
    inv_cat H' m A B. destruct (rm_text _ _ _ A) as (w & W). apply rm_nocap in A; [|assumption].
    destruct (IH H3 m B) as (w' & g4 & E1 & E2 & E3). exists (w ++ w'), g4.
    split; [rewrite W, E1, app_assoc; reflexivity|]. split; [exact E2|]. rewrite E3, A. reflexivity.
Qed.

Lemma find_group : forall g1 g2 g3 g4 cs q, cs = [] \/ cs = [(3%nat, g3)] -> (cs = [] -> g3 = []) ->
  p_caps q = (4%nat, g4) :: cs ++ [(2%nat, g2); (1%nat, g1)] ->
  group 1 q = g1 /\ group 2 q = g2 /\ group 3 q = g3 /\ group 4 q = g4.
Proof.
  intros g1 g2 g3 g4 cs q [->| ->] G E; unfold group; rewrite E; cbn; [rewrite G by reflexivity|]; repeat split.
Qed.

(** A radiogram matched by one of the expressions. *)
Lemma regexp_shape : forall r s n q, In r regexps -> re_search r s = Some (n, q) ->
  exists pre sep d e sp mid post,
    s = pre ++ group 1 q ++ sep ++ [d; e] ++ sp ++ group 2 q ++ mid ++ group 4 q ++ post /\
    forallb c_to (group 1 q) = true /\ forallb c_space sep = true /\
    (sep = [] -> pre = [] /\ group 1 q = []) /\
    c_lit 68 d = true /\ c_lit 69 e = true /\ forallb c_space sp = true /\ sp <> [] /\
    forallb c_call (group 2 q) = true /\ group 2 q <> [] /\ forallb c_any (group 4 q) = true /\
    (exists a b, mid = a ++ group 3 q ++ b).
Proof.
  intros r s n q Hr H. apply search_from_sound in H. destruct H as (pre & s' & b' & E & _ & R & B & _).
  assert (X : exists rs, r = r_head (rs ++ [r_text]) /\ Forall (fun r => nocap r = true) rs /\ rs <> []).
  { unfold regexps in Hr. cbn [In] in Hr.
    destruct Hr as [<-|[<-|[<-|[<-|[]]]]].
    - eexists [_; _; _; _; _; _; _; _; _; _; _; _; _; _]. split; [reflexivity|].
      split; [repeat constructor|discriminate].
    - eexists [_; _; _; _; _; _; _; _; _]. split; [reflexivity|]. split; [repeat constructor|discriminate].
    - eexists [_; _; _; _; _; _]. split; [reflexivity|]. split; [repeat constructor|discriminate].
    - eexists [_; _]. split; [reflexivity|]. split; [repeat constructor|discriminate]. }
  destruct X as (rs & -> & N & Ne). destruct rs as [|r0 rs]; [congruence|]. cbn [app] in R.
  apply head_shape in R.
  destruct R as (g1 & sep & d & e & sp & g2 & sp2 & g3 & sp3 & m & R1 & R2 & R3 & R4 & R5 & R6 & R7 & R8 &
                 R9 & R10 & R11 & R12 & (cs & K1 & K2 & K3) & R).
  apply (text_shape (r0 :: rs)) in R; [|exact N]. destruct R as (w & g4 & T1 & T2 & T3).
  rewrite K3 in T3. destruct (find_group g1 g2 g3 g4 cs q K1 K2 T3) as (-> & -> & -> & ->).
  exists pre, sep, d, e, sp, (sp2 ++ g3 ++ sp3 ++ w), (p_rest q).
  split. { rewrite E, R1, T1. rewrite <- !app_assoc. reflexivity. }
  repeat (split; [assumption|]). split.
  { intros Q. destruct (R4 Q) as (Q1 & Q2). split; [|exact Q1]. rewrite Q2 in B. destruct pre; [reflexivity|discriminate]. }
  repeat (split; [assumption|]). exists sp2, (sp3 ++ w). reflexivity.
Qed.

Section U.
Variable U : Uni.
Hypothesis HK : uni_kelvin U.

Lemma call_not_space : forall c, c_call c = true -> is_space U c = false.
Proof.
  intros c H. unfold c_call, c_alpha, c_digit in H. destruct (c =? 8490) eqn:K.
  { replace c with 8490 by lia. apply HK. }
  destruct (c =? 383) eqn:L; [replace c with 383 by lia; reflexivity|].
  unfold is_space, in_latin1. replace ((0 <=? c) && (c <=? 255)) with true by lia. lia.
Qed.
Lemma trim_none : forall s, (forall c, In c s -> is_space U c = false) -> trim_space U s = s.
Proof.
  intros s H. pose proof (trim_exact U [] s []) as T. cbn [app] in T. rewrite app_nil_r in T. apply T; auto.
  intros [Q|Q].
  - destruct s as [|c s]; [exact Q|]. rewrite (H c (or_introl eq_refl)) in Q. discriminate.
  - destruct (rev s) as [|c r] eqn:E; [exact Q|]. rewrite (H c) in Q; [discriminate|].
    apply in_rev. rewrite E. left. reflexivity.
Qed.
Lemma call_upper : forall c, c_call c = true -> call_char (to_upper U c) \/ to_upper U c = 8490.
Proof.
  intros c H. unfold c_call, c_alpha, c_digit in H. destruct (c =? 8490) eqn:K.
  { right. replace c with 8490 by lia. apply HK. }
  left. unfold call_char, is_letter, digit. destruct (c =? 383) eqn:L; [replace c with 383 by lia; cbn; lia|].
  unfold to_upper, in_latin1. replace ((0 <=? c) && (c <=? 255)) with true by lia.
  destruct ((97 <=? c) && (c <=? 122)) eqn:A; [lia|]. replace (c =? 181) with false by lia.
  replace ((224 <=? c) && (c <=? 254) && negb (c =? 247)) with false by lia.
  replace (c =? 255) with false by lia. lia.
Qed.
Lemma space_upper : forall c, c_space c = true -> to_upper U c = c.
Proof.
  intros c H. unfold c_space in H. assert (Q : c = 9 \/ c = 10 \/ c = 12 \/ c = 13 \/ c = 32) by lia.
  destruct Q as [->|[->|[->|[->| ->]]]]; reflexivity.
Qed.

Lemma in_fields : forall f s cur x c, In x (fields_func_aux f s cur) -> In c x ->
  In c s \/ In c cur.
Proof.
  induction s as [|a s IH]; intros cur x c Hx Hc.
  - cbn in Hx. destruct cur as [|y cur]; [destruct Hx|]. destruct Hx as [<-|[]]. right. apply in_rev. exact Hc.
  - cbn [fields_func_aux] in Hx. destruct (f a) eqn:E.
    + destruct cur as [|y cur].
      * destruct (IH [] x c Hx Hc) as [Q|[]]. left. right. exact Q.
      * destruct Hx as [<-|Hx]; [right; apply in_rev; exact Hc|].
        destruct (IH [] x c Hx Hc) as [Q|[]]. left. right. exact Q.
    + destruct (IH (a :: cur) x c Hx Hc) as [Q|[->|Q]]; [left; right; exact Q|left; left; reflexivity|right; exact Q].
Qed.

(** Recipients consist of upper-cased characters of the text they were split
    from, without commas and spaces. *)
Lemma vetted_chars : forall s v, In v (vetted_keepers U [s]) ->
  v <> [] /\ Forall (fun c => exists d, In d s /\ d <> 44 /\ d <> 32 /\ c = to_upper U d) v.
Proof.
  intros s v H. rewrite vetted_one in H. apply in_flat_map in H. destruct H as (sub & Hs & H). cbv zeta in H.
  destruct (0 <? len (str_upper U (trim_space U sub))) eqn:E; [|destruct H].
  destruct H as [<-|[]]. split. { intros Q. rewrite Q in E. discriminate. }
  destruct (in_fields_aux _ _ _ _ Hs) as (_ & F2); [intros c []|].
  apply Forall_forall. intros c Hc. unfold str_upper in Hc. apply in_map_iff in Hc. destruct Hc as (d & <- & Hd).
  destruct (trim_split U sub) as (w1 & w2 & T1 & _).
  assert (D : In d sub). { rewrite T1. apply in_app_iff. right. apply in_app_iff. left. exact Hd. }
  exists d. destruct (in_fields _ _ _ _ _ Hs D) as [Q|[]]. split; [exact Q|].
  specialize (F2 d D). unfold keeper_sep in F2. repeat split; lia.
Qed.

Lemma firstn_prefix : forall A n (s : list A), exists r, s = firstn n s ++ r.
Proof. intros A n s. exists (skipn n s). symmetry. apply firstn_skipn. Qed.

Lemma text_part : forall g, exists a b, g = a ++ trim_right_rune_func (trim_space U (remove_trail g)) (end_sign U) ++ b /\
  Forall (fun c => is_space U c = true) a.
Proof.
  intros g. assert (R : exists r, g = remove_trail g ++ r).
  { unfold remove_trail. destruct (re_search r_trail g) as [[n q]|]; [apply firstn_prefix|].
    exists []. rewrite app_nil_r. reflexivity. }
  destruct R as (r & R). destruct (trim_split U (remove_trail g)) as (w1 & w2 & T1 & T2 & _).
  destruct (c52_trim_lemma (trim_space U (remove_trail g)) (end_sign U)) as (suf & S1 & _).
  exists w1, (suf ++ w2 ++ r). split; [|exact T2].
  rewrite R at 1. rewrite T1 at 1. rewrite S1 at 1. rewrite <- !app_assoc. reflexivity.
Qed.
Lemma text_ends : forall g, let t := trim_right_rune_func (trim_space U (remove_trail g)) (end_sign U) in
  (forall c r, t = c :: r -> is_space U c = false) /\
  (forall c r, t = r ++ [c] -> is_space U c = false /\ c <> 43 /\ c <> 61).
Proof.
  intros g t. destruct (c52_trim_lemma (trim_space U (remove_trail g)) (end_sign U)) as (suf & S1 & _ & S3).
  destruct (trim_split U (remove_trail g)) as (w1 & w2 & T1 & T2 & T3 & T4).
  fold t in S1, S3. split.
  - intros c r E. destruct (is_space U c) eqn:Q; [|reflexivity]. exfalso. apply T4. left. rewrite S1, E. exact Q.
  - intros c r E. specialize (S3 r c E). unfold end_sign in S3.
    destruct (is_space U c); [discriminate|]. split; [reflexivity|]. lia.
Qed.

(** A successful split. *)
Lemma split_shape : forall s to from d text, split_radiogram U regexps s = Some (to, from, d, text) ->
  exists pre g1 sep dd ee sp g2 a g3 b post,
    s = pre ++ g1 ++ sep ++ [dd; ee] ++ sp ++ g2 ++ (a ++ g3 ++ b) ++ text ++ post /\
    Forall (fun c => c_space c = true) sep /\ (sep = [] -> pre = [] /\ g1 = []) /\
    (dd = 68 \/ dd = 100) /\ (ee = 69 \/ ee = 101) /\ sp <> [] /\ Forall (fun c => c_space c = true) sp /\
    Forall (fun c => c_to c = true) g1 /\ Forall (fun c => c_call c = true) g2 /\ g2 <> [] /\
    to = vetted_keepers U [g1] /\ from = map (to_upper U) g2 /\ d = str_upper U (trim_space U g3) /\
    (forall c r, text = c :: r -> is_space U c = false) /\
    (forall c r, text = r ++ [c] -> is_space U c = false /\ c <> 43 /\ c <> 61).
Proof.
  intros s to from d text H.
  assert (G : exists r n q, In r regexps /\ re_search r s = Some (n, q) /\
     Some (vetted_keepers U [group 1 q], str_upper U (trim_space U (group 2 q)),
                str_upper U (trim_space U (group 3 q)),
                trim_right_rune_func (trim_space U (remove_trail (group 4 q))) (end_sign U)) =
     Some (to, from, d, text)).
  { assert (GG : forall rs, split_radiogram U rs s = Some (to, from, d, text) ->
      exists r n q, In r rs /\ re_search r s = Some (n, q) /\
      Some (vetted_keepers U [group 1 q], str_upper U (trim_space U (group 2 q)),
                str_upper U (trim_space U (group 3 q)),
                trim_right_rune_func (trim_space U (remove_trail (group 4 q))) (end_sign U)) =
      Some (to, from, d, text)).
    { induction rs as [|r rs IH]; intros E; cbn [split_radiogram] in E; [discriminate|].
      destruct (re_search r s) as [[n q]|] eqn:S.
      - exists r, n, q. split; [left; reflexivity|]. split; [exact S|exact E].
      - destruct (IH E) as (r' & n & q & I & S' & E'). exists r', n, q. split; [right; exact I|]. auto. }
    exact (GG _ H). }
  destruct G as (r & n & q & Hr & S & E).
  destruct (regexp_shape r s n q Hr S) as (pre & sep & dd & ee & sp & mid & post & A1 & A2 & A3 & A4 & A5 & A6 &
    A7 & A8 & A9 & A10 & A11 & (a & b & A12)).
  injection E as E1 E2 E3 E4.
  destruct (text_part (group 4 q)) as (ta & tb & T1 & _). rewrite E4 in T1.
  destruct (text_ends (group 4 q)) as (T2 & T3). rewrite E4 in T2, T3.
  rewrite forallb_forall in A2, A3, A7, A9.
  exists pre, (group 1 q), sep, dd, ee, sp, (group 2 q), a, (group 3 q), (b ++ ta), (tb ++ post).
  split. { rewrite A1 at 1. rewrite A12. rewrite T1 at 1. rewrite <- !app_assoc. reflexivity. }
  split; [apply Forall_forall; exact A3|]. split; [exact A4|]. split; [apply c_lit_d; exact A5|].
  split; [apply c_lit_e; exact A6|]. split; [exact A8|]. split; [apply Forall_forall; exact A7|].
  split; [apply Forall_forall; exact A2|]. split; [apply Forall_forall; exact A9|]. split; [exact A10|].
  split; [symmetry; exact E1|]. split.
  { rewrite <- E2, trim_none; [reflexivity|]. intros c Hc. apply call_not_space. apply A9. exact Hc. }
  split; [symmetry; exact E3|]. split; [exact T2|exact T3].
Qed.
End U.
