(** Lemmas behind C131: texts that differ in characters the regular expressions
    do not tell apart match alike. *)
From Verif Require Import Base Spec Spec_Alike Model_Unicode Model_Crand Model_Functions Model_Types
  Model_Cipher Model_Keys Model_Regex Model_Messages.

Section Lockstep.
Context (g : rune -> rune).
Definition same (s s' : list rune) : Prop := map g s = map g s'.
Definition respects (f : rune -> bool) : Prop := forall a b, g a = g b -> f a = f b.
Fixpoint re_respects (r : re) : Prop :=
  match r with
  | RChr f | RStar f => respects f
  | RCat a b | RAlt a b => re_respects a /\ re_respects b
  | RCap _ a => re_respects a
  | REmpty | RBegin | REnd => True
  end.

Definition pos_same (p p' : rpos) : Prop :=
  p_begin p = p_begin p' /\ same (p_rest p) (p_rest p') /\
  Forall2 (fun a b => fst a = fst b /\ same (snd a) (snd b)) (p_caps p) (p_caps p').
Definition opt_same (o o' : option rpos) : Prop :=
  match o, o' with
  | Some p, Some p' => pos_same p p'
  | None, None => True
  | _, _ => False
  end.

Lemma same_len : forall s s', same s s' -> length s = length s'.
Proof. intros s s' H. rewrite <- (map_length g s), <- (map_length g s'), H. reflexivity. Qed.
Lemma same_firstn : forall n s s', same s s' -> same (firstn n s) (firstn n s').
Proof. intros n s s' H. unfold same in *. rewrite <- !firstn_map, H. reflexivity. Qed.
Lemma same_cons : forall a s s', same (a :: s) s' -> exists b t, s' = b :: t /\ g a = g b /\ same s t.
Proof.
  intros a s [|b t] H; unfold same in H; cbn [map] in H; [discriminate|].
  injection H as H1 H2. exists b, t. auto.
Qed.
Lemma same_nil : forall s', same [] s' -> s' = [].
Proof. intros [|b t] H; [reflexivity|discriminate]. Qed.

Lemma star_same : forall f, respects f -> forall s s' b caps caps' k k', same s s' ->
  Forall2 (fun a b => fst a = fst b /\ same (snd a) (snd b)) caps caps' ->
  (forall q q', pos_same q q' -> opt_same (k q) (k' q')) ->
  opt_same (star_match f b s caps k) (star_match f b s' caps' k').
Proof.
  intros f Hf s. induction s as [|c s IH]; intros s' b caps caps' k k' Hs Hc Hk.
  - apply same_nil in Hs as ->. apply Hk. split; [reflexivity|]. split; [reflexivity|exact Hc].
  - pose proof Hs as Hs0. apply same_cons in Hs. destruct Hs as (c' & t & -> & E & Hs).
    cbn [star_match]. rewrite <- (Hf c c' E). destruct (f c).
    + pose proof (IH t false caps caps' k k' Hs Hc Hk) as H.
      destruct (star_match f false s caps k), (star_match f false t caps' k'); try contradiction; [exact H|].
      apply Hk. split; [reflexivity|]. split; [exact Hs0|exact Hc].
    + apply Hk. split; [reflexivity|]. split; [exact Hs0|exact Hc].
Qed.

Lemma match_same : forall r, re_respects r -> forall p p' k k', pos_same p p' ->
  (forall q q', pos_same q q' -> opt_same (k q) (k' q')) ->
  opt_same (re_match r p k) (re_match r p' k').
Proof.
  induction r as [f|f| |a IHa b IHb|a IHa b IHb|n a IHa| |]; intros Hr p p' k k' Hp Hk; cbn [re_match re_respects] in *.
  - destruct Hp as (P1 & P2 & P3). destruct (p_rest p) as [|c s].
    + apply same_nil in P2 as ->. exact I.
    + apply same_cons in P2. destruct P2 as (c' & t & -> & E & P2). rewrite <- (Hr c c' E).
      destruct (f c); [|exact I]. apply Hk. split; [reflexivity|]. auto.
  - destruct Hp as (P1 & P2 & P3). rewrite P1. apply star_same; auto.
  - apply Hk. exact Hp.
  - destruct Hr as (R1 & R2). apply IHa; auto.
  - destruct Hr as (R1 & R2). pose proof (IHa R1 p p' k k' Hp Hk) as H.
    destruct (re_match a p k), (re_match a p' k'); try contradiction; [exact H|]. apply IHb; auto.
  - apply IHa; auto. intros q q' Hq. apply Hk. destruct Hp as (P1 & P2 & P3), Hq as (Q1 & Q2 & Q3).
    split; [exact Q1|]. split; [exact Q2|]. constructor; [|exact Q3]. split; [reflexivity|].
    cbn [snd]. rewrite (same_len _ _ P2), (same_len _ _ Q2). apply same_firstn. exact P2.
  - pose proof (proj1 Hp) as P1. rewrite P1. destruct (p_begin p'); [|exact I]. apply Hk. exact Hp.
  - destruct Hp as (P1 & P2 & P3). destruct (p_rest p) as [|c s] eqn:E.
    + apply same_nil in P2. rewrite P2. apply Hk. split; [exact P1|]. rewrite E, P2. split; [reflexivity|exact P3].
    + apply same_cons in P2. destruct P2 as (c' & t & -> & _). exact I.
Qed.

Lemma search_same : forall r, re_respects r -> forall s s' b i, same s s' ->
  match re_search_from r b s i, re_search_from r b s' i with
  | Some (n, q), Some (n', q') => n = n' /\ pos_same q q'
  | None, None => True
  | _, _ => False
  end.
Proof.
  intros r Hr s. induction s as [|c s IH]; intros s' b i Hs.
  - apply same_nil in Hs as ->. cbn [re_search_from].
    assert (P : pos_same (mkPos b [] []) (mkPos b [] [])).
    { split; [reflexivity|]. split; [reflexivity|constructor]. }
    pose proof (match_same r Hr _ _ Some Some P (fun q q' H => H)) as M.
    destruct (re_match r {| p_begin := b; p_rest := []; p_caps := [] |} Some); auto.
  - pose proof Hs as Hs0. apply same_cons in Hs. destruct Hs as (c' & t & -> & E & Hs).
    cbn [re_search_from].
    assert (P : pos_same (mkPos b (c :: s) []) (mkPos b (c' :: t) [])).
    { split; [reflexivity|]. split; [exact Hs0|constructor]. }
    pose proof (match_same r Hr _ _ Some Some P (fun q q' H => H)) as M.
    destruct (re_match r {| p_begin := b; p_rest := c :: s; p_caps := [] |} Some),
             (re_match r {| p_begin := b; p_rest := c' :: t; p_caps := [] |} Some); try contradiction; auto.
    apply IH. exact Hs.
Qed.

Lemma group_same : forall n q q', pos_same q q' -> same (group n q) (group n q').
Proof.
  intros n q q' (_ & _ & H). unfold group. induction H as [|a b l l' (E & H) F IH]; [reflexivity|].
  cbn [find]. rewrite <- E. destruct a as [x u], b as [y v]. cbn [fst snd] in *.
  destruct (Nat.eqb x n); [exact H|exact IH].
Qed.

(** The expressions. *)
Definition class_ok : Prop :=
  respects c_alpha /\ respects c_digit /\ respects c_space /\ respects c_any /\ respects (fun c => c =? 47) /\
  respects (fun c => c =? 44) /\ respects (fun c => c =? 43) /\
  forall u, 43 <= u <= 96 -> u <> 44 -> u <> 47 -> respects (c_lit u).

Lemma respects_or : forall f h, respects f -> respects h -> respects (fun c => f c || h c).
Proof. intros f h F H a b E. rewrite (F a b E), (H a b E). reflexivity. Qed.

Lemma rseq_respects : forall l, Forall re_respects l -> re_respects (rseq l).
Proof.
  induction l as [|a l IH]; intros H; [exact I|]. destruct l as [|b l]; [exact (Forall_inv H)|].
  change (re_respects a /\ re_respects (rseq (b :: l))). split; [exact (Forall_inv H)|exact (IH (Forall_inv_tail H))].
Qed.
Lemma ralt_respects : forall l, Forall re_respects l -> re_respects (ralt l).
Proof.
  induction l as [|a l IH]; intros H; [exact I|]. destruct l as [|b l]; [exact (Forall_inv H)|].
  change (re_respects a /\ re_respects (ralt (b :: l))). split; [exact (Forall_inv H)|exact (IH (Forall_inv_tail H))].
Qed.
Lemma rrep_respects : forall n f, respects f -> re_respects (rrep n f).
Proof. induction n as [|n IH]; intros f H; cbn; auto. Qed.
Lemma ruptot_respects : forall n f, respects f -> re_respects (ruptot n f).
Proof. induction n as [|n IH]; intros f H; cbn; auto. Qed.
Lemma rlit_respects : forall w, class_ok -> Forall (fun u => 43 <= u <= 96 /\ u <> 44 /\ u <> 47) w -> re_respects (rlit w).
Proof.
  intros w C H. apply rseq_respects. apply Forall_forall. intros r Hr. apply in_map_iff in Hr.
  destruct Hr as (u & <- & Hu). rewrite Forall_forall in H. specialize (H u Hu). apply C; tauto.
Qed.

Lemma months_respects : class_ok -> Forall re_respects (map rlit months).
Proof.
  intros C. apply Forall_forall. intros r Hr. apply in_map_iff in Hr. destruct Hr as (w & <- & Hw).
  apply rlit_respects; [exact C|].
  assert (G : forallb (forallb (fun u => (43 <=? u) && (u <=? 96) && negb (u =? 44) && negb (u =? 47))) months = true)
    by reflexivity.
  rewrite forallb_forall in G. specialize (G w Hw). rewrite forallb_forall in G.
  apply Forall_forall. intros u Hu. specialize (G u Hu). lia.
Qed.

Lemma head_respects : class_ok -> forall rs, Forall re_respects rs -> re_respects (r_head rs).
Proof.
  intros C rs H. pose proof C as (C1 & C2 & C3 & C4 & C5 & C6 & C7 & C8).
  assert (T : respects c_to) by (unfold c_to; auto 10 using respects_or).
  assert (K : respects c_call) by (unfold c_call; auto 10 using respects_or).
  unfold r_head. apply rseq_respects. apply Forall_app. split; [|exact H].
  repeat apply Forall_cons; [exact T|split; [split; [exact C3|exact C3]|exact I]| | | | | | | |constructor].
  - apply C8; lia.
  - apply C8; lia.
  - split; exact C3.
  - split; exact K.
  - exact C3.
  - split; [|exact I]. unfold r_dtg. apply (rseq_respects [_; _; _; _]).
    repeat apply Forall_cons; [apply (rrep_respects 6), C2|split; [exact C1|exact I]| | |constructor].
    + split; [|exact I]. apply ralt_respects, months_respects, C.
    + split; [|exact I]. apply (rrep_respects 2), C2.
  - exact C3.
Qed.

Ltac each := repeat (apply Forall_cons; [|]); [..|apply Forall_nil].
Lemma regexps_respect : class_ok -> Forall re_respects regexps.
Proof.
  intros C. pose proof C as (C1 & C2 & C3 & C4 & C5 & C6 & C7 & C8).
  assert (T : re_respects (RStar c_to)) by (cbn [re_respects]; unfold c_to; auto 10 using respects_or).
  assert (Q : re_respects r_eq) by (apply C8; lia).
  assert (X : re_respects r_text) by exact C4.
  assert (W : re_respects r_sp) by exact C3.
  assert (D : re_respects (RStar c_digit)) by exact C2.
  unfold regexps. each; apply (head_respects C); each; try assumption.
  - exact (respects_or _ _ C1 C3).
  - apply ruptot_respects, C1.
  - apply ruptot_respects, C2.
Qed.

Lemma trail_respects : class_ok -> re_respects r_trail.
Proof.
  intros C. pose proof C as (C1 & C2 & C3 & C4 & C5 & C6 & C7 & C8).
  assert (Q : re_respects r_eq) by (apply C8; lia).
  assert (W : re_respects r_sp) by exact C3.
  assert (K : respects c_kplus) by (unfold c_kplus; apply (respects_or _ _ (C8 75 ltac:(lia) ltac:(lia) ltac:(lia)) C7)).
  assert (A1 : re_respects (rlit [91; 65; 82; 93])).
  { apply rlit_respects; [exact C|]. each; lia. }
  assert (A2 : re_respects (rlit [65; 82])).
  { apply rlit_respects; [exact C|]. each; lia. }
  unfold r_trail. apply rseq_respects. each; [|exact W|exact I].
  apply ralt_respects. each; apply rseq_respects; each; try assumption.
Qed.

Lemma remove_trail_same : class_ok -> forall s s', same s s' -> same (remove_trail s) (remove_trail s').
Proof.
  intros C s s' H. unfold remove_trail, re_search.
  pose proof (search_same r_trail (trail_respects C) s s' true 0 H) as M.
  destruct (re_search_from r_trail true s 0) as [[n q]|], (re_search_from r_trail true s' 0) as [[n' q']|];
    try contradiction; [|exact H]. destruct M as (-> & _). apply same_firstn. exact H.
Qed.

(** Which expression matches, and the groups. *)
Lemma split_same : forall U rs, Forall re_respects rs -> forall s s', same s s' ->
  match split_radiogram U rs s, split_radiogram U rs s' with
  | None, None => True
  | Some x, Some x' => exists q q', pos_same q q' /\
     x = (vetted_keepers U [group 1 q], str_upper U (trim_space U (group 2 q)),
          str_upper U (trim_space U (group 3 q)),
          trim_right_rune_func (trim_space U (remove_trail (group 4 q))) (end_sign U)) /\
     x' = (vetted_keepers U [group 1 q'], str_upper U (trim_space U (group 2 q')),
          str_upper U (trim_space U (group 3 q')),
          trim_right_rune_func (trim_space U (remove_trail (group 4 q'))) (end_sign U))
  | _, _ => False
  end.
Proof.
  intros U rs H s s' Hs. induction H as [|r rs Hr H IH]; [exact I|]. cbn [split_radiogram].
  pose proof (search_same r Hr s s' true 0 Hs) as M. unfold re_search.
  destruct (re_search_from r true s 0) as [[n q]|], (re_search_from r true s' 0) as [[n' q']|];
    try contradiction; [|exact IH].
  exists q, q'. split; [apply M|]. split; reflexivity.
Qed.

(** *** Trimming *)
Lemma drop_same : forall f, respects f -> forall s s', same s s' -> same (drop_while f s) (drop_while f s').
Proof.
  intros f Hf s. induction s as [|c s IH]; intros s' H.
  - apply same_nil in H as ->. reflexivity.
  - pose proof H as H0. apply same_cons in H. destruct H as (c' & t & -> & E & H). cbn [drop_while].
    rewrite <- (Hf c c' E). destruct (f c); [apply IH; exact H|exact H0].
Qed.
Lemma rev_same : forall s s', same s s' -> same (rev s) (rev s').
Proof. intros s s' H. unfold same in *. rewrite !map_rev, H. reflexivity. Qed.
Lemma trim_same : forall U, respects (is_space U) -> forall s s', same s s' -> same (trim_space U s) (trim_space U s').
Proof. intros U Hf s s' H. unfold trim_space. auto using rev_same, drop_same. Qed.

Lemma same_nth : forall n s s', same s s' ->
  match nth_error s n, nth_error s' n with
  | Some a, Some b => g a = g b | None, None => True | _, _ => False end.
Proof.
  intros n s s' H. assert (E : nth_error (map g s) n = nth_error (map g s') n) by (rewrite H; reflexivity).
  rewrite !nth_error_map in E. destruct (nth_error s n), (nth_error s' n); cbn in E; try discriminate; [congruence|exact I].
Qed.
Lemma trim_right_same : forall f, respects f -> forall s s', same s s' ->
  same (trim_right_rune_func s f) (trim_right_rune_func s' f).
Proof.
  intros f Hf s s' H. unfold trim_right_rune_func. rewrite <- (same_len _ _ H).
  generalize (length s) as n. intros n. revert s s' H. induction n as [|n IH]; intros s s' H; [exact H|].
  cbn [trim_right_loop]. pose proof (same_nth n s s' H) as N.
  destruct (nth_error s n), (nth_error s' n); try contradiction; [|exact H].
  rewrite <- (Hf _ _ N). destruct (f z); [|exact H]. apply IH. apply same_firstn. exact H.
Qed.

Lemma fields_same : forall f, respects f -> forall s s' cur cur', same s s' -> same cur cur' ->
  Forall2 same (fields_func_aux f s cur) (fields_func_aux f s' cur').
Proof.
  intros f Hf s. induction s as [|c s IH]; intros s' cur cur' H Hc.
  - apply same_nil in H as ->. cbn [fields_func_aux].
    destruct cur as [|x cur]; [apply same_nil in Hc as ->; constructor|].
    pose proof Hc as Hc0. apply same_cons in Hc. destruct Hc as (y & t & -> & _). constructor; [|constructor].
    apply rev_same. exact Hc0.
  - apply same_cons in H. destruct H as (c' & t & -> & E & H). cbn [fields_func_aux]. rewrite <- (Hf c c' E).
    destruct (f c).
    + destruct cur as [|x cur]; [apply same_nil in Hc as ->; apply IH; [exact H|reflexivity]|].
      pose proof Hc as Hc0. apply same_cons in Hc. destruct Hc as (y & u & -> & _). constructor.
      * apply rev_same. exact Hc0.
      * apply IH; [exact H|reflexivity].
    + apply IH; [exact H|]. unfold same in *. cbn [map]. congruence.
Qed.
End Lockstep.

(** *** The two relations *)
Lemma big_cases : forall c,
  (97 <= c <= 122 /\ big c = c - 32) \/ (224 <= c <= 254 /\ c <> 247 /\ big c = c - 32) \/
  (c = 383 /\ big c = 83) \/
  (~ 97 <= c <= 122 /\ ~ (224 <= c <= 254 /\ c <> 247) /\ c <> 383 /\ big c = c).
Proof.
  intros c. unfold big. destruct ((97 <=? c) && (c <=? 122)) eqn:E1; [lia|].
  destruct ((224 <=? c) && (c <=? 254) && negb (c =? 247)) eqn:E2; [lia|].
  destruct (c =? 383) eqn:E3; lia.
Qed.
Lemma sign_cases : forall c,
  (c = 8490 /\ plain_sign c = 75) \/ ((c = 9 \/ c = 12 \/ c = 13) /\ plain_sign c = 32) \/
  (c <> 8490 /\ c <> 9 /\ c <> 12 /\ c <> 13 /\ plain_sign c = big c).
Proof.
  intros c. unfold plain_sign. destruct (c =? 8490) eqn:E1; [lia|].
  destruct ((c =? 9) || (c =? 12) || (c =? 13)) eqn:E2; lia.
Qed.

Lemma factors : forall g f, (forall c : rune, f c = f (g c)) -> respects g f.
Proof. intros g f H a b E. rewrite (H a), (H b), E. reflexivity. Qed.

Lemma by_big : forall f : rune -> bool,
  (forall c, 97 <= c <= 122 -> f c = f (c - 32)) ->
  (forall c, 224 <= c <= 254 -> c <> 247 -> f c = f (c - 32)) ->
  f 383 = f 83 -> respects big f.
Proof.
  intros f H1 H2 H3. apply factors. intros c.
  destruct (big_cases c) as [(H & ->)|[(H & N & ->)|[(-> & ->)|(_ & _ & _ & ->)]]]; auto.
Qed.
Lemma by_sign : forall f : rune -> bool, respects big f -> f 8490 = f 75 ->
  f 9 = f 32 -> f 12 = f 32 -> f 13 = f 32 -> respects plain_sign f.
Proof.
  intros f H H1 H2 H3 H4. apply factors. intros c.
  destruct (sign_cases c) as [(-> & ->)|[([->|[->| ->]] & ->)|(_ & _ & _ & _ & ->)]]; auto.
  apply H. destruct (big_cases c) as [(B & ->)|[(B & N & ->)|[(-> & ->)|(_ & _ & _ & E)]]]; [| |reflexivity|].
  - destruct (big_cases (c - 32)); lia.
  - destruct (big_cases (c - 32)); lia.
  - rewrite !E. reflexivity.
Qed.

Lemma big_class : class_ok big.
Proof.
  unfold class_ok.
  repeat (split; [apply by_big; unfold c_alpha, c_digit, c_space, c_any; intros; lia|]).
  intros u H1 H2 H3. apply by_big; unfold c_lit; intros; lia.
Qed.
Lemma sign_class : class_ok plain_sign.
Proof.
  pose proof big_class as (C1 & C2 & C3 & C4 & C5 & C6 & C7 & C8). unfold class_ok.
  split; [apply by_sign; [exact C1|reflexivity..]|]. split; [apply by_sign; [exact C2|reflexivity..]|].
  split; [apply by_sign; [exact C3|reflexivity..]|]. split; [apply by_sign; [exact C4|reflexivity..]|].
  split; [apply by_sign; [exact C5|reflexivity..]|]. split; [apply by_sign; [exact C6|reflexivity..]|].
  split; [apply by_sign; [exact C7|reflexivity..]|].
  intros u H1 H2 H3. apply by_sign; [exact (C8 u H1 H2 H3)|unfold c_lit; lia..].
Qed.

Lemma big_space : forall U, respects big (is_space U).
Proof.
  intros U. apply factors. intros c. destruct (big_cases c) as [(H & ->)|[(H & N & ->)|[(-> & ->)|(_ & _ & _ & ->)]]].
  - unfold is_space, in_latin1. replace ((0 <=? c) && (c <=? 255)) with true by lia.
    replace ((0 <=? c - 32) && (c - 32 <=? 255)) with true by lia. lia.
  - unfold is_space, in_latin1. replace ((0 <=? c) && (c <=? 255)) with true by lia.
    replace ((0 <=? c - 32) && (c - 32 <=? 255)) with true by lia. lia.
  - reflexivity.
  - reflexivity.
Qed.

Lemma big_upper : forall U a b, big a = big b -> to_upper U a = to_upper U b.
Proof.
  assert (A : forall U c, to_upper U c = to_upper U (big c)).
  { intros U c. destruct (big_cases c) as [(H & ->)|[(H & N & ->)|[(-> & ->)|(_ & _ & _ & ->)]]];
      [| |reflexivity|reflexivity]; unfold to_upper, in_latin1.
    - replace ((0 <=? c) && (c <=? 255)) with true by lia.
      replace ((0 <=? c - 32) && (c - 32 <=? 255)) with true by lia.
      replace ((97 <=? c) && (c <=? 122)) with true by lia.
      replace ((97 <=? c - 32) && (c - 32 <=? 122)) with false by lia.
      replace (c - 32 =? 181) with false by lia.
      replace ((224 <=? c - 32) && (c - 32 <=? 254) && negb (c - 32 =? 247)) with false by lia.
      replace (c - 32 =? 255) with false by lia. reflexivity.
    - replace ((0 <=? c) && (c <=? 255)) with true by lia.
      replace ((0 <=? c - 32) && (c - 32 <=? 255)) with true by lia.
      replace ((97 <=? c) && (c <=? 122)) with false by lia.
      replace ((97 <=? c - 32) && (c - 32 <=? 122)) with false by lia.
      replace (c =? 181) with false by lia. replace (c - 32 =? 181) with false by lia.
      replace ((224 <=? c) && (c <=? 254) && negb (c =? 247)) with true by lia.
      replace ((224 <=? c - 32) && (c - 32 <=? 254) && negb (c - 32 =? 247)) with false by lia.
      replace (c - 32 =? 255) with false by lia. reflexivity. }
  intros U a b H. rewrite (A U a), (A U b), H. reflexivity.
Qed.

Lemma big_str_upper : forall U s s', same big s s' -> str_upper U s = str_upper U s'.
Proof.
  intros U s. induction s as [|c s IH]; intros s' H.
  - apply same_nil in H as ->. reflexivity.
  - apply same_cons in H. destruct H as (c' & t & -> & E & H). unfold str_upper in *. cbn [map].
    f_equal; [apply big_upper, E|apply IH, H].
Qed.

Lemma big_vetted : forall U s s', same big s s' -> vetted_keepers U [s] = vetted_keepers U [s'].
Proof.
  intros U s s' H. unfold vetted_keepers. cbn [flat_map]. rewrite !app_nil_r.
  assert (K : respects big keeper_sep) by (apply by_big; unfold keeper_sep; intros; lia).
  pose proof (fields_same big keeper_sep K s s' [] [] H eq_refl) as F. fold (fields_func keeper_sep s) in F.
  fold (fields_func keeper_sep s') in F. induction F as [|x y l l' E F IH]; [reflexivity|].
  cbn [flat_map]. rewrite IH. f_equal.
  pose proof (big_str_upper U _ _ (trim_same big U (big_space U) x y E)) as Q. cbv zeta. rewrite Q. reflexivity.
Qed.

Lemma c131_case_lemma : forall U lb dp i raw raw' now t, map big (lb raw) = map big (lb raw') ->
  match parse_radiogram U lb dp i raw now t, parse_radiogram U lb dp i raw' now t with
  | Ok (m, t1), Ok (m', t1') => mid m = mid m' /\ mrecipients m = mrecipients m' /\ mfrom m = mfrom m' /\
      mdtg m = mdtg m' /\ map big (mplain m) = map big (mplain m') /\ t1 = t1'
  | Err e, Err e' => e = e'
  | Panic, Panic | Diverge, Diverge => True
  | _, _ => False
  end.
Proof.
  intros U lb dp i raw raw' now t H. unfold parse_radiogram.
  destruct (new_unique_message_id (i_messages i) t) as [[id t1]|e| |]; cbn [bind]; auto.
  pose proof (split_same big U regexps (regexps_respect big big_class) _ _ H) as M.
  destruct (split_radiogram U regexps (lb raw)) as [x|], (split_radiogram U regexps (lb raw')) as [x'|];
    try contradiction; [|reflexivity].
  destruct M as (q & q' & Q & -> & ->).
  pose proof (trim_same big U (big_space U)) as T.
  rewrite (big_vetted U _ _ (group_same big 1 q q' Q)).
  rewrite (big_str_upper U _ _ (T _ _ (group_same big 2 q q' Q))).
  rewrite (big_str_upper U _ _ (T _ _ (group_same big 3 q q' Q))).
  destruct (if len (str_upper U (trim_space U (group 3 q'))) =? 0 then Some now
            else dp (str_upper U (trim_space U (group 3 q')))) as [w|]; [|reflexivity].
  cbn [mid mrecipients mfrom mdtg mplain]. repeat (split; [reflexivity|]). split; [|reflexivity].
  apply (trim_right_same big).
  - intros a b E. unfold end_sign. rewrite (big_space U a b E).
    replace (a =? 43) with (b =? 43) by (symmetry; apply (proj1 (proj2 (proj2 (proj2 (proj2 (proj2 (proj2 big_class)))))) a b E)).
    assert (L : c_lit 61 a = c_lit 61 b) by (apply big_class; auto; lia).
    unfold c_lit in L. cbn in L. rewrite !orb_false_r in L. rewrite L. reflexivity.
  - apply T. apply (remove_trail_same big big_class). apply group_same. exact Q.
Qed.

Lemma c131_signs_lemma : forall U lb dp i raw raw' now t, map plain_sign (lb raw) = map plain_sign (lb raw') ->
  (parse_radiogram U lb dp i raw now t = Err ErrParsingRadiogram <->
   parse_radiogram U lb dp i raw' now t = Err ErrParsingRadiogram).
Proof.
  intros U lb dp i raw raw' now t H. unfold parse_radiogram.
  destruct (new_unique_message_id (i_messages i) t) as [[id t1]|e| |]; cbn [bind]; try tauto.
  pose proof (split_same plain_sign U regexps (regexps_respect plain_sign sign_class) _ _ H) as M.
  destruct (split_radiogram U regexps (lb raw)) as [[[[to from] d] text]|],
           (split_radiogram U regexps (lb raw')) as [[[[to' from'] d'] text']|]; try contradiction; [|tauto].
  destruct (if len d =? 0 then Some now else dp d), (if len d' =? 0 then Some now else dp d'); split; discriminate.
Qed.

Lemma c131_case_ok : forall U lb dp i raw raw' now t m t1, map big (lb raw) = map big (lb raw') ->
  parse_radiogram U lb dp i raw now t = Ok (m, t1) ->
  exists m', parse_radiogram U lb dp i raw' now t = Ok (m', t1) /\
    mid m' = mid m /\ mrecipients m' = mrecipients m /\ mfrom m' = mfrom m /\ mdtg m' = mdtg m /\
    map big (mplain m') = map big (mplain m).
Proof.
  intros U lb dp i raw raw' now t m t1 H E. pose proof (c131_case_lemma U lb dp i raw raw' now t H) as M.
  rewrite E in M. destruct (parse_radiogram U lb dp i raw' now t) as [[m' t1']|e| |]; try contradiction.
  destruct M as (M1 & M2 & M3 & M4 & M5 & ->). exists m'. auto 10.
Qed.
Lemma c131_case_err : forall U lb dp i raw raw' now t e, map big (lb raw) = map big (lb raw') ->
  parse_radiogram U lb dp i raw now t = Err e -> parse_radiogram U lb dp i raw' now t = Err e.
Proof.
  intros U lb dp i raw raw' now t e H E. pose proof (c131_case_lemma U lb dp i raw raw' now t H) as M.
  rewrite E in M. destruct (parse_radiogram U lb dp i raw' now t) as [[m' t1']|e'| |]; try contradiction.
  congruence.
Qed.
