(** Facts about the regular expression matcher: what a match looks like, and
    when the matcher finds which one. *)
From Verif Require Import Base Model_Regex.

(** [rm r p q]: [r] matches the text between positions [p] and [q]. *)
Inductive rm : re -> rpos -> rpos -> Prop :=
| rm_chr : forall f b c s cs, f c = true -> rm (RChr f) (mkPos b (c :: s) cs) (mkPos false s cs)
| rm_star0 : forall f p, rm (RStar f) p p
| rm_star1 : forall f b c s cs q, f c = true -> rm (RStar f) (mkPos false s cs) q ->
    rm (RStar f) (mkPos b (c :: s) cs) q
| rm_empty : forall p, rm REmpty p p
| rm_cat : forall a b p q r, rm a p q -> rm b q r -> rm (RCat a b) p r
| rm_altl : forall a b p q, rm a p q -> rm (RAlt a b) p q
| rm_altr : forall a b p q, rm b p q -> rm (RAlt a b) p q
| rm_cap : forall n a p q, rm a p q ->
    rm (RCap n a) p (mkPos (p_begin q) (p_rest q)
      ((n, firstn (length (p_rest p) - length (p_rest q)) (p_rest p)) :: p_caps q))
| rm_begin : forall p, p_begin p = true -> rm RBegin p p
| rm_end : forall p, p_rest p = [] -> rm REnd p p.

Lemma star_sound : forall A f s b cs (k : rpos -> option A) x,
  star_match f b s cs k = Some x ->
  exists q, rm (RStar f) (mkPos b s cs) q /\ k q = Some x.
Proof.
  intros A f s; induction s as [|c s IH]; intros b cs k x H; cbn [star_match] in H.
  - eexists; split; [apply rm_star0|exact H].
  - destruct (f c) eqn:F.
    + destruct (star_match f false s cs k) as [y|] eqn:S.
      * injection H as <-. destruct (IH _ _ _ _ S) as (q & Q & K).
        exists q. split; [apply rm_star1; assumption|exact K].
      * eexists; split; [apply rm_star0|exact H].
    + eexists; split; [apply rm_star0|exact H].
Qed.

Lemma re_sound : forall A r p (k : rpos -> option A) x, re_match r p k = Some x ->
  exists q, rm r p q /\ k q = Some x.
Proof.
  intros A r; induction r as [f|f| |a IHa b IHb|a IHa b IHb|n a IHa| |]; intros p k x H;
    cbn [re_match] in H.
  - destruct p as [b [|c s] cs]; cbn [p_rest p_caps] in H; [discriminate|].
    destruct (f c) eqn:F; [|discriminate]. eexists; split; [apply rm_chr; exact F|exact H].
  - destruct p as [b s cs]. apply star_sound in H. exact H.
  - exists p. split; [constructor|exact H].
  - apply IHa in H. destruct H as (q & Q & H). apply IHb in H. destruct H as (q' & Q' & H).
    exists q'. split; [eapply rm_cat; eassumption|exact H].
  - destruct (re_match a p k) as [y|] eqn:E.
    + injection H as <-. apply IHa in E. destruct E as (q & Q & E). exists q. split; [apply rm_altl; exact Q|exact E].
    + apply IHb in H. destruct H as (q & Q & H). exists q. split; [apply rm_altr; exact Q|exact H].
  - apply IHa in H. destruct H as (q & Q & H). eexists; split; [apply rm_cap; exact Q|exact H].
  - destruct (p_begin p) eqn:B; [|discriminate]. exists p. split; [apply rm_begin; exact B|exact H].
  - destruct (p_rest p) eqn:B; [|discriminate]. exists p. split; [apply rm_end; exact B|exact H].
Qed.

Lemma star_complete : forall A f r p q, rm r p q -> r = RStar f -> forall (k : rpos -> option A),
  star_match f (p_begin p) (p_rest p) (p_caps p) k = None -> k q = None.
Proof.
  intros A f r p q H; induction H; intros E k K; try discriminate.
  - injection E as ->. destruct p as [b s cs]; cbn [p_begin p_rest p_caps] in *.
    destruct s as [|c s]; cbn [star_match] in K; [exact K|].
    destruct (f c); [|exact K]. destruct (star_match f false s cs k); [discriminate|exact K].
  - injection E as ->. cbn [p_begin p_rest p_caps] in *. cbn [star_match] in K. rewrite H in K.
    apply (IHrm eq_refl k). cbn [p_begin p_rest p_caps].
    destruct (star_match f false s cs k) eqn:S; [discriminate|reflexivity].
Qed.

Lemma re_complete : forall A r p q, rm r p q -> forall (k : rpos -> option A),
  re_match r p k = None -> k q = None.
Proof.
  intros A r; induction r as [f|f| |a IHa b IHb|a IHa b IHb|n a IHa| |]; intros p q H k K;
    cbn [re_match] in K.
  - inversion H as [f' b' c s cs F| | | | | | | | |]; subst. cbn [p_rest p_caps] in K.
    rewrite F in K. exact K.
  - eapply star_complete; [exact H|reflexivity|exact K].
  - inversion H; subst. exact K.
  - inversion H as [| | | |a' b' p' m q' Ha Hb| | | | |]; subst.
    apply (IHa _ _ Ha) in K. apply (IHb _ _ Hb) in K. exact K.
  - destruct (re_match a p k) eqn:E; [discriminate|].
    inversion H as [| | | | |a' b' p' q' Ha|a' b' p' q' Hb| | |]; subst.
    + apply (IHa _ _ Ha) in E. exact E.
    + apply (IHb _ _ Hb) in K. exact K.
  - inversion H as [| | | | | | |n' a' p' q' Ha| |]; subst. apply (IHa _ _ Ha) in K. exact K.
  - inversion H as [| | | | | | | |p' B|]; subst. rewrite B in K. exact K.
  - inversion H as [| | | | | | | | |p' B]; subst. rewrite B in K. exact K.
Qed.

(** No match at all: the matcher fails. *)
Lemma re_fail : forall A r p (k : rpos -> option A),
  (forall q, rm r p q -> k q = None) -> re_match r p k = None.
Proof.
  intros A r p k H. destruct (re_match r p k) as [x|] eqn:E; [|reflexivity].
  apply re_sound in E. destruct E as (q & Q & K). rewrite (H q Q) in K. discriminate.
Qed.

(** Finding the preferred match. *)
Lemma star_first : forall A f w s b cs (k : rpos -> option A) x,
  forallb f w = true -> match s with [] => True | c :: _ => f c = false end ->
  k (mkPos (match w with [] => b | _ => false end) s cs) = Some x ->
  star_match f b (w ++ s) cs k = Some x.
Proof.
  intros A f w; induction w as [|c w IH]; intros s b cs k x W S K.
  - cbn [app]. destruct s as [|c s]; cbn [star_match]; [exact K|]. rewrite S. exact K.
  - cbn [forallb] in W. apply andb_true_iff in W. destruct W as (F & W). cbn [app star_match].
    rewrite F. rewrite (IH s false cs k x W S); [reflexivity|]. destruct w; exact K.
Qed.

Lemma star_none : forall A f v t b cs (k : rpos -> option A), forallb f v = true ->
  match t with [] => True | c :: _ => f c = false end ->
  (forall w u, v = w ++ u -> k (mkPos (match w with [] => b | _ => false end) (u ++ t) cs) = None) ->
  star_match f b (v ++ t) cs k = None.
Proof.
  intros A f v; induction v as [|c v IH]; intros t b cs k V T K.
  - cbn [app]. destruct t as [|c t]; cbn [star_match].
    + apply (K [] []). reflexivity.
    + rewrite T. apply (K [] []). reflexivity.
  - cbn [forallb] in V. apply andb_true_iff in V. destruct V as (F & V). cbn [app star_match].
    rewrite F. rewrite IH; [|exact V|exact T|].
    + apply (K [] (c :: v)). reflexivity.
    + intros w u E. specialize (K (c :: w) u). cbn [app] in K. rewrite E in K.
      specialize (K eq_refl). destruct w; exact K.
Qed.

(** Greedy repetition stopping before the end of the run: all longer ones fail. *)
Lemma star_back : forall A f w v t b cs (k : rpos -> option A) x,
  forallb f w = true -> forallb f v = true ->
  match t with [] => True | c :: _ => f c = false end ->
  (forall c u' u, v = c :: u' ++ u -> k (mkPos false (u ++ t) cs) = None) ->
  k (mkPos (match w with [] => b | _ => false end) (v ++ t) cs) = Some x ->
  star_match f b (w ++ v ++ t) cs k = Some x.
Proof.
  intros A f w; induction w as [|c w IH]; intros v t b cs k x W V T L K.
  - cbn [app]. destruct v as [|c v].
    { cbn [app] in *. destruct t as [|c t]; cbn [star_match]; [exact K|]. rewrite T. exact K. }
    cbn [app star_match]. cbn [forallb] in V. apply andb_true_iff in V. destruct V as (F & V). rewrite F.
    rewrite star_none; [exact K|exact V|exact T|]. intros w u E.
    assert (K' : k (mkPos false (u ++ t) cs) = None).
    { apply (L c w u). rewrite E. reflexivity. }
    destruct w; exact K'.
  - cbn [forallb] in W. apply andb_true_iff in W. destruct W as (F & W). cbn [app star_match].
    rewrite F. rewrite (IH v t false cs k x W V T L); [reflexivity|]. destruct w; exact K.
Qed.

Lemma alt_left : forall A a b p (k : rpos -> option A) x, re_match a p k = Some x ->
  re_match (RAlt a b) p k = Some x.
Proof. intros A a b p k x H. cbn [re_match]. rewrite H. reflexivity. Qed.
Lemma alt_right : forall A a b p (k : rpos -> option A) x, re_match a p k = None ->
  re_match b p k = Some x -> re_match (RAlt a b) p k = Some x.
Proof. intros A a b p k x H H'. cbn [re_match]. rewrite H. exact H'. Qed.

(** ** Shape of matches *)
Lemma rm_star_inv : forall r p q, rm r p q -> forall f, r = RStar f ->
  exists w, p_rest p = w ++ p_rest q /\ forallb f w = true /\ p_caps q = p_caps p /\
    p_begin q = match w with [] => p_begin p | _ => false end.
Proof.
  intros r p q H; induction H; intros f0 E; try discriminate.
  - exists []. repeat split.
  - injection E as ->. destruct (IHrm _ eq_refl) as (w & W1 & W2 & W3 & W4). cbn [p_rest p_caps p_begin] in *.
    exists (c :: w). split; [rewrite W1; reflexivity|]. split; [cbn; rewrite H; exact W2|].
    split; [exact W3|]. rewrite W4. destruct w; reflexivity.
Qed.
Lemma rm_star : forall f p q, rm (RStar f) p q ->
  exists w, p_rest p = w ++ p_rest q /\ forallb f w = true /\ p_caps q = p_caps p /\
    p_begin q = match w with [] => p_begin p | _ => false end.
Proof. intros f p q H. eapply rm_star_inv; [exact H|reflexivity]. Qed.
Lemma rm_chr_inv : forall f p q, rm (RChr f) p q ->
  exists c, p_rest p = c :: p_rest q /\ f c = true /\ p_caps q = p_caps p /\ p_begin q = false.
Proof. intros f p q H. inversion H; subst. eexists. repeat split. assumption. Qed.
Lemma rm_plus : forall f p q, rm (rplus f) p q ->
  exists w, p_rest p = w ++ p_rest q /\ forallb f w = true /\ w <> [] /\ p_caps q = p_caps p /\
    p_begin q = false.
Proof.
  intros f p q H. inversion H as [| | | |a' b' p' m q' Ha Hb| | | | |]; subst.
  apply rm_chr_inv in Ha. destruct Ha as (c & C1 & C2 & C3 & C4).
  apply rm_star in Hb. destruct Hb as (w & W1 & W2 & W3 & W4).
  exists (c :: w). split; [rewrite C1, W1; reflexivity|]. split; [cbn; rewrite C2; exact W2|].
  split; [discriminate|]. split; [congruence|]. rewrite W4. destruct w; [exact C4|reflexivity].
Qed.

Fixpoint nocap (r : re) : bool :=
  match r with
  | RCat a b | RAlt a b => nocap a && nocap b
  | RCap _ _ => false
  | _ => true
  end.
Lemma rm_nocap : forall r p q, rm r p q -> nocap r = true -> p_caps q = p_caps p.
Proof.
  intros r p q H; induction H; intros N; cbn [nocap] in N; try reflexivity; try discriminate.
  - exact (IHrm N).
  - apply andb_true_iff in N. destruct N as (N1 & N2). rewrite IHrm2, IHrm1; auto.
  - apply andb_true_iff in N. destruct N as (N1 & N2). auto.
  - apply andb_true_iff in N. destruct N as (N1 & N2). auto.
Qed.
(** A match consumes a part of the text. *)
Lemma rm_text : forall r p q, rm r p q -> exists w, p_rest p = w ++ p_rest q.
Proof.
  intros r p q H; induction H; cbn [p_rest] in *.
  - exists [c]. reflexivity.
  - exists []. reflexivity.
  - destruct IHrm as (w & ->). exists (c :: w). reflexivity.
  - exists []. reflexivity.
  - destruct IHrm1 as (w & W), IHrm2 as (v & V). exists (w ++ v). rewrite W, V, app_assoc. reflexivity.
  - exact IHrm.
  - exact IHrm.
  - exact IHrm.
  - exists []. reflexivity.
  - exists []. reflexivity.
Qed.
Lemma firstn_diff : forall (w s : list rune), firstn (length (w ++ s) - length s) (w ++ s) = w.
Proof.
  intros w s. rewrite app_length. replace (length w + length s - length s)%nat with (length w) by lia.
  rewrite firstn_app, Nat.sub_diag, firstn_all. cbn [firstn]. apply app_nil_r.
Qed.
Lemma rm_cap_inv : forall n a p q, rm (RCap n a) p q ->
  exists q0 w, rm a p q0 /\ p_rest p = w ++ p_rest q /\ p_rest q = p_rest q0 /\
    p_caps q = (n, w) :: p_caps q0 /\ p_begin q = p_begin q0.
Proof.
  intros n a p q H. inversion H as [| | | | | | |n' a' p' q0 Ha| |]; subst.
  destruct (rm_text _ _ _ Ha) as (w & W).
  exists q0, w. cbn [p_rest p_caps p_begin]. split; [exact Ha|]. split; [exact W|].
  split; [reflexivity|]. split; [|reflexivity]. rewrite W, firstn_diff. reflexivity.
Qed.
Lemma rm_cat_inv : forall a b p q, rm (RCat a b) p q -> exists m, rm a p m /\ rm b m q.
Proof. intros a b p q H. inversion H; subst. eauto. Qed.

(** ** Search *)
Lemma search_from_sound : forall r s b i n q, re_search_from r b s i = Some (n, q) ->
  exists w s' b', s = w ++ s' /\ n = (i + length w)%nat /\ rm r (mkPos b' s' []) q /\
    b' = match w with [] => b | _ => false end /\
    (forall w1 w2, w = w1 ++ w2 -> w2 <> [] -> forall q',
       ~ rm r (mkPos (match w1 with [] => b | _ => false end) (w2 ++ s') []) q').
Proof.
  intros r s; induction s as [|c s IH]; intros b i n q H; cbn [re_search_from] in H.
  - destruct (re_match r (mkPos b [] []) Some) as [x|] eqn:M; [|discriminate].
    injection H as <- <-. apply re_sound in M. destruct M as (q' & Q & E). injection E as ->.
    exists [], [], b. split; [reflexivity|]. split; [cbn; lia|]. split; [exact Q|]. split; [reflexivity|].
    intros w1 w2 W N. symmetry in W. apply app_eq_nil in W. destruct W; congruence.
  - destruct (re_match r (mkPos b (c :: s) []) Some) as [x|] eqn:M.
    + injection H as <- <-. apply re_sound in M. destruct M as (q' & Q & E). injection E as ->.
      exists [], (c :: s), b. split; [reflexivity|]. split; [cbn; lia|]. split; [exact Q|]. split; [reflexivity|].
      intros w1 w2 W N. symmetry in W. apply app_eq_nil in W. destruct W; congruence.
    + apply IH in H. destruct H as (w & s' & b' & E & N & R & B & L).
      exists (c :: w), s', b'. split; [rewrite E; reflexivity|]. split; [cbn; lia|]. split; [exact R|].
      split; [destruct w; exact B|]. intros w1 w2 W N2 q' Q. destruct w1 as [|c1 w1].
      * cbn [app] in W. subst w2. cbn [app] in Q. rewrite <- E in Q.
        assert (K := re_complete rpos _ _ _ Q _ M). discriminate.
      * cbn [app] in W. injection W as <- W. apply (L w1 w2 W N2 q'). destruct w1; exact Q.
Qed.

Lemma search_none : forall r s b i,
  (forall w s', s = w ++ s' -> forall q, ~ rm r (mkPos (match w with [] => b | _ => false end) s' []) q) ->
  re_search_from r b s i = None.
Proof.
  intros r s; induction s as [|c s IH]; intros b i H; cbn [re_search_from].
  - rewrite re_fail; [reflexivity|]. intros q Q. exfalso. exact (H [] [] eq_refl q Q).
  - rewrite re_fail.
    + apply IH. intros w s' E q Q. apply (H (c :: w) s') with (q := q); [rewrite E; reflexivity|].
      destruct w; exact Q.
    + intros q Q. exfalso. exact (H [] (c :: s) eq_refl q Q).
Qed.

(** The search finds the match at the first position that has one. *)
Lemma search_at : forall r w s' b i q,
  (forall w1 w2, w = w1 ++ w2 -> w2 <> [] -> forall q',
     ~ rm r (mkPos (match w1 with [] => b | _ => false end) (w2 ++ s') []) q') ->
  re_match r (mkPos (match w with [] => b | _ => false end) s' []) Some = Some q ->
  re_search_from r b (w ++ s') i = Some ((i + length w)%nat, q).
Proof.
  intros r w; induction w as [|c w IH]; intros s' b i q L M.
  - cbn [app]. destruct s'; cbn [re_search_from]; rewrite M; cbn [length]; rewrite Nat.add_0_r; reflexivity.
  - cbn [app re_search_from]. rewrite re_fail.
    + rewrite IH with (q := q).
      * cbn [length]. f_equal. f_equal. lia.
      * intros w1 w2 W N q' Q. apply (L (c :: w1) w2) with (q' := q'); [rewrite W; reflexivity|exact N|].
        destruct w1; exact Q.
      * destruct w; exact M.
    + intros q0 Q. exfalso. apply (L [] (c :: w) eq_refl) with (q' := q0); [discriminate|exact Q].
Qed.
