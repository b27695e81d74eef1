(** Lemmas on the questions asked by initialize. *)
From Verif Require Import Base Model_Unicode Model_Crand Model_Functions Model_Types Model_Keys Model_Station Model_Persist Model_Cli
  Model_Initialize Spec Spec_Persist Spec_Cli Spec_CliPfk Spec_Keys Spec_Initialize Proofs_Functions Proofs_CliPfk.

(** ** Numbers *)
Lemma dec_value_app s c : dec_value (s ++ [c]) = 10 * dec_value s + (c - 48).
Proof. unfold dec_value. rewrite fold_left_app. reflexivity. Qed.
Lemma decimal_iff s n : decimal s n <-> s <> [] /\ forallb is_digit s = true /\ n = dec_value s.
Proof.
  split.
  - induction 1 as [c H|s n c H (A & B & ->) C].
    + split; [discriminate|]. split; [cbn [forallb]; unfold is_digit; lia|]. unfold dec_value. cbn [fold_left]. lia.
    + split; [destruct s; discriminate|]. split; [|symmetry; apply dec_value_app].
      rewrite forallb_app, B. cbn [forallb]. unfold is_digit. lia.
  - revert n. induction s as [|c s IH] using rev_ind; intros n (A & B & ->); [congruence|].
    rewrite forallb_app in B. cbn [forallb] in B. unfold is_digit at 2 in B. rewrite dec_value_app.
    destruct s as [|d s].
    + unfold dec_value. cbn [fold_left app]. replace (10 * 0 + (c - 48)) with (c - 48) by lia. constructor. lia.
    + constructor; [apply IH; split; [discriminate|split; [|reflexivity]]|]; lia.
Qed.
Lemma decimal_head c s n : decimal (c :: s) n -> 48 <= c <= 57.
Proof. intros H. apply decimal_iff in H. destruct H as (_ & H & _). cbn [forallb] in H. unfold is_digit in H. lia. Qed.
Lemma digits_of_dec : forall fuel n, 0 <= n < 10 ^ Z.of_nat fuel -> (fuel <> 0)%nat -> decimal (digits_of fuel n) n.
Proof.
  induction fuel as [|f IH]; intros n H F; [congruence|]. cbn [digits_of]. destruct (n <? 10) eqn:E.
  - replace n with (48 + n - 48) at 2 by lia. constructor. lia.
  - assert (0 <= n mod 10 < 10) as M by (apply Z.mod_pos_bound; lia).
    assert (n = 10 * (n / 10) + (48 + n mod 10 - 48)) as D by (pose proof (Z.div_mod n 10 ltac:(lia)); lia).
    rewrite Nat2Z.inj_succ, Z.pow_succ_r in H by lia.
    rewrite D at 3. constructor; [|lia]. apply IH; [lia|]. intros ->. cbn in H. lia.
Qed.
Lemma itoa_number n : int64 n -> number (itoa n) n.
Proof.
  intros H. split; [exact H|]. unfold int64 in H. unfold itoa. destruct (n <? 0) eqn:E.
  - right. right. exists (digits_of 20 (- n)). split; [reflexivity|]. apply digits_of_dec; [|discriminate].
    change (10 ^ Z.of_nat 20) with 100000000000000000000. lia.
  - left. apply digits_of_dec; [|discriminate]. change (10 ^ Z.of_nat 20) with 100000000000000000000. lia.
Qed.
Lemma len_0' {A} (s : list A) : len s = 0 <-> s = [].
Proof. unfold len. destruct s; cbn [length]; [tauto|]. split; [lia|discriminate]. Qed.
Lemma atoi_number s n : atoi s = Some n <-> number s n.
Proof.
  unfold atoi. destruct s as [|c s].
  { split; [discriminate|]. intros (_ & [H|[(t & E & _)|(t & E & _)]]); [|discriminate..].
    apply decimal_iff in H. destruct H. congruence. }
  cbv zeta. split.
  - intros H. destruct ((c =? 43) || (c =? 45)) eqn:E.
    + destruct ((len s =? 0) || negb (forallb is_digit s)) eqn:G; [discriminate|].
      assert (decimal s (dec_value s)) as D.
      { apply decimal_iff. split; [|split; [|reflexivity]]; [|destruct (forallb is_digit s); [reflexivity|cbn in G; rewrite Bool.orb_true_r in G; discriminate]].
        intros ->. discriminate. }
      destruct (c =? 45) eqn:E5; (destruct (_ && _) eqn:B in H; [|discriminate]); injection H as <-; (split; [unfold int64; lia|]); right.
      * right. exists s. split; [f_equal; lia|]. rewrite Z.opp_involutive. exact D.
      * left. exists s. split; [f_equal; lia|exact D].
    + destruct ((len (c :: s) =? 0) || negb (forallb is_digit (c :: s))) eqn:G; [discriminate|].
      replace (c =? 45) with false in H by lia. destruct (_ && _) eqn:B in H; [|discriminate]. injection H as <-.
      split; [unfold int64; lia|]. left. apply decimal_iff. split; [discriminate|split; [|reflexivity]].
      destruct (forallb is_digit (c :: s)); [reflexivity|rewrite Bool.orb_true_r in G; discriminate].
  - intros (I & H). unfold int64 in I. destruct H as [H|[(t & E & H)|(t & E & H)]].
    + pose proof (decimal_head _ _ _ H) as C. apply decimal_iff in H. destruct H as (_ & H & ->).
      replace ((c =? 43) || (c =? 45)) with false by lia. rewrite H. replace (c =? 45) with false by lia.
      replace (len (c :: s) =? 0) with false by (symmetry; apply Z.eqb_neq; rewrite len_0'; discriminate). cbn [orb negb].
      destruct (_ && _) eqn:B; [reflexivity|lia].
    + injection E as -> ->. apply decimal_iff in H. destruct H as (N & H & ->). change ((43 =? 43) || (43 =? 45)) with true.
      cbv iota. rewrite H. change (43 =? 45) with false. cbv iota.
      replace (len t =? 0) with false by (symmetry; apply Z.eqb_neq; rewrite len_0'; exact N). cbn [orb negb].
      destruct (_ && _) eqn:B; [reflexivity|lia].
    + injection E as -> ->. apply decimal_iff in H. destruct H as (N & H & D). change ((45 =? 43) || (45 =? 45)) with true.
      cbv iota. rewrite H. change (45 =? 45) with true. cbv iota.
      replace (len t =? 0) with false by (symmetry; apply Z.eqb_neq; rewrite len_0'; exact N). cbn [orb negb]. rewrite <- D, Z.opp_involutive.
      destruct (_ && _) eqn:B; [reflexivity|lia].
Qed.
Lemma at_least_iff m s n : at_least m s = Some n <-> m <= n /\ number s n.
Proof.
  unfold at_least. rewrite <- atoi_number. destruct (atoi s) as [x|]; [|split; [discriminate|intros (_ & H); discriminate]].
  destruct (x <? m) eqn:E; split.
  - discriminate.
  - intros (H & G). injection G as ->. lia.
  - intros H. injection H as <-. split; [lia|reflexivity].
  - intros (_ & H). exact H.
Qed.
Lemma runes_eqb_spec : forall a b, runes_eqb a b = true <-> a = b.
Proof.
  induction a as [|x a IH]; intros [|y b]; cbn [runes_eqb]; [tauto|split; discriminate..|].
  rewrite Bool.andb_true_iff, IH. split; [intros (H & ->); f_equal; lia|intros H; injection H as -> ->; split; [lia|reflexivity]].
Qed.

(** ** Questions *)
Lemma first_good_ext (p q : list rune -> Prop) : (forall s, p s <-> q s) -> forall l s rest, first_good p l s rest <-> first_good q l s rest.
Proof.
  intros H. assert (forall p q : list rune -> Prop, (forall s, p s <-> q s) -> forall l s rest, first_good p l s rest -> first_good q l s rest) as X.
  { clear. intros p q H l s rest (a & F & G & ->). exists a. split; [|split; [apply H, G|reflexivity]].
    eapply Forall_impl; [|exact F]. intros x (t & -> & N). exists t. split; [reflexivity|]. rewrite <- H. exact N. }
  intros l s rest. split; apply X; [exact H|]. intros x. symmetry. apply H.
Qed.
Lemma ask_input_iff {A} help d (read : list rune -> option A) : let value s := read (if len s =? 0 then d else s) in
  let good s := (help = true -> s <> [63]) /\ exists a, value s = Some a in
  forall l a rest, ask_input help d read l = (Some a, rest) <-> exists s, first_good good l s rest /\ value s = Some a.
Proof.
  intros value good. induction l as [|[s|] l IH]; intros a rest; cbn [ask_input].
  - split; [discriminate|]. intros (s & (x & _ & _ & E) & _). destruct x; discriminate.
  - fold (value s).
    assert (good s \/ ~ good s) as [G|G].
    { unfold good. destruct (value s) as [v|]; [|right; intros (_ & x & X); discriminate].
      destruct help; [|left; split; [discriminate|exists v; reflexivity]].
      destruct (list_eq_dec Z.eq_dec s [63]) as [E|E]; [right; intros (X & _); exact (X eq_refl E)|left; split; [intros _; exact E|exists v; reflexivity]]. }
    + destruct G as (G1 & v & G2) eqn:Q. clear Q. replace (help && runes_eqb s [63]) with false.
      2: { symmetry. apply Bool.not_true_iff_false. rewrite Bool.andb_true_iff, runes_eqb_spec. intros (X & Y). exact (G1 X Y). }
      rewrite G2. split.
      * intros H. injection H as -> ->. exists s. split; [|exact G2]. exists []. split; [constructor|]. split; [split; [exact G1|exists a; exact G2]|reflexivity].
      * intros (t & (x & F & _ & E) & V). destruct x as [|y x]; cbn [app] in E.
        -- injection E as -> ->. rewrite G2 in V. injection V as ->. reflexivity.
        -- injection E as <- _. inversion F as [|? ? (z & Z & N) _]; subst. injection Z as <-. destruct N. split; [exact G1|exists v; exact G2].
    + assert ((if help && runes_eqb s [63] then ask_input help d read l
               else match value s with Some a => (Some a, l) | None => ask_input help d read l end) = ask_input help d read l) as ->.
      { destruct (help && runes_eqb s [63]) eqn:E; [reflexivity|]. destruct (value s) as [v|] eqn:V; [|reflexivity].
        destruct G. split; [|exists v; exact V]. intros -> ->. discriminate. }
      rewrite IH. split; intros (t & (x & F & g & E) & V); exists t; (split; [|exact V]).
      * exists (Some s :: x). split; [constructor; [exists s; split; [reflexivity|exact G]|exact F]|]. split; [exact g|]. rewrite E. reflexivity.
      * destruct x as [|y x]; cbn [app] in E; [injection E as -> _; destruct (G g)|]. injection E as _ ->. exists x. inversion F; subst.
        split; [assumption|]. split; [exact g|reflexivity].
  - split; [discriminate|]. intros (s & (x & F & _ & E) & _). destruct x as [|y x]; [discriminate|]. injection E as <- _.
    inversion F as [|? ? (z & Z & _) _]; subst. discriminate.
Qed.
Lemma means_iff m p s n : int64 p -> at_least m (if len s =? 0 then itoa p else s) = Some n <-> means m p s n.
Proof.
  intros I. rewrite at_least_iff. unfold means. destruct (len s =? 0) eqn:E.
  - apply Z.eqb_eq, len_0' in E. subst s. split; intros (H & N); (split; [exact H|]).
    + left. split; [reflexivity|]. apply atoi_number in N. pose proof (itoa_number p I) as P. apply atoi_number in P. congruence.
    + destruct N as [(_ & ->)|N]; [apply itoa_number, I|]. apply atoi_number in N. discriminate.
  - assert (s <> []) as S by (intros ->; discriminate). tauto.
Qed.
Lemma ask_number h m p l n rest : int64 p -> ask_input h (itoa p) (at_least m) l = (Some n, rest) <-> number_typed m p l n rest.
Proof.
  intros I. rewrite ask_input_iff. unfold number_typed. apply Morphisms_Prop.ex_iff_morphism. intros s. rewrite means_iff by exact I.
  apply Morphisms_Prop.and_iff_morphism; [|reflexivity]. apply first_good_ext. clear s. intros s. split.
  - intros (_ & x & H). exists x. apply means_iff in H; assumption.
  - intros (x & H). split; [|exists x; apply means_iff; assumption]. intros _ ->. destruct H as (_ & [(H & _)|H]); [discriminate|].
    apply atoi_number in H. discriminate.
Qed.
Lemma ask_text l s rest : ask_input true [] Some l = (Some s, rest) <-> text_typed l s rest.
Proof.
  rewrite ask_input_iff. unfold text_typed. assert (forall t : list rune, (if len t =? 0 then [] else t) = t) as V.
  { intros t. destruct (len t =? 0) eqn:E; [|reflexivity]. apply Z.eqb_eq, len_0' in E. subst. reflexivity. }
  split.
  - intros (t & F & E). rewrite V in E. injection E as <-. eapply first_good_ext; [|exact F]. intros x. split; [|intros (H & _); exact (H eq_refl)].
    intros H. split; [intros _; exact H|]. exists x. rewrite V. reflexivity.
  - intros F. exists s. rewrite V. split; [|reflexivity]. eapply first_good_ext; [|exact F]. intros x. split; [intros (H & _); exact (H eq_refl)|].
    intros H. split; [intros _; exact H|]. exists x. rewrite V. reflexivity.
Qed.
Lemma ask_req l s rest : ask_input false [] required l = (Some s, rest) <-> first_good (fun s => s <> []) l s rest.
Proof.
  rewrite ask_input_iff.
  assert (forall t, required (if len t =? 0 then [] else t) = match t with [] => None | _ => Some t end) as V.
  { intros [|c t]; [reflexivity|]. replace (len (c :: t) =? 0) with false by (rewrite len_cons; pose proof (len_nonneg _ t); lia).
    unfold required. replace (len (c :: t) =? 0) with false by (rewrite len_cons; pose proof (len_nonneg _ t); lia). reflexivity. }
  assert (forall x : list rune, ((false = true -> x <> [63]) /\ exists a, required (if len x =? 0 then [] else x) = Some a) <-> x <> []) as G.
  { intros x. rewrite V. destruct x; split; try congruence.
    - intros (_ & y & Y). discriminate.
    - intros _. split; [discriminate|eexists; reflexivity]. }
  split.
  - intros (t & F & E). rewrite V in E. destruct t as [|c t]; [discriminate|]. injection E as <-. eapply first_good_ext; [|exact F]. intros x. symmetry. apply G.
  - intros F. exists s. rewrite V. split; [|destruct s; [|reflexivity]]; [eapply first_good_ext; [|exact F]; apply G|].
    destruct F as (a & _ & N & _). congruence.
Qed.

(** ** Keepers *)
Section K.
Context (U : Uni).
Notation V s := (vetted_keepers U [s]).
Notation sep c := (c = 44 \/ c = 32).
Definition vet1 (sub : list rune) : list (list rune) :=
  let v := str_upper U (trim_space U sub) in if 0 <? len v then [v] else [].

Lemma V_nosep p : nosep p -> V p = vet1 p.
Proof.
  intros H. rewrite vetted_one. unfold fields_func. rewrite fields_aux_nosep.
  2: { intros c C. unfold nosep in H. rewrite Forall_forall in H. specialize (H c C). unfold keeper_sep. lia. }
  cbn [rev app]. destruct p; [reflexivity|]. cbn [flat_map]. apply app_nil_r.
Qed.
Lemma trim_front w p : is_space U w = true -> trim_space U (w :: p) = trim_space U p.
Proof. intros H. unfold trim_space. cbn [drop_while]. rewrite H. reflexivity. Qed.
Lemma trim_back w p : is_space U w = true -> trim_space U (p ++ [w]) = trim_space U p.
Proof.
  intros H. destruct (trim_split U p) as (w1 & w2 & E & A & B & C). rewrite E at 1. rewrite <- !app_assoc.
  apply trim_exact; [exact A|apply Forall_app; split; [exact B|constructor; [exact H|constructor]]|exact C].
Qed.
Lemma nosep_dec c : sep c \/ (c <> 44 /\ c <> 32).
Proof. lia. Qed.
Lemma first_sep s : nosep s \/ exists p c t, s = p ++ c :: t /\ nosep p /\ sep c.
Proof.
  induction s as [|c s IH]; [left; constructor|]. destruct (nosep_dec c) as [C|C]; [right; exists [], c, s; repeat split; [constructor|exact C]|].
  destruct IH as [IH|(p & d & t & -> & P & D)]; [left; constructor; assumption|].
  right. exists (c :: p), d, t. split; [reflexivity|]. split; [constructor; assumption|exact D].
Qed.
Lemma last_sep s : nosep s \/ exists t c p, s = t ++ c :: p /\ nosep p /\ sep c.
Proof.
  induction s as [|c s IH] using rev_ind; [left; constructor|]. destruct (nosep_dec c) as [C|C].
  { right. exists s, c, []. split; [reflexivity|]. split; [constructor|exact C]. }
  destruct IH as [IH|(t & d & p & -> & P & D)]; [left; apply Forall_app; split; [exact IH|constructor; [exact C|constructor]]|].
  right. exists t, d, (p ++ [c]). split; [rewrite <- app_assoc; reflexivity|]. split; [apply Forall_app; split; [exact P|constructor; [exact C|constructor]]|exact D].
Qed.
Lemma V_front w s : is_space U w = true -> V (w :: s) = V s.
Proof.
  intros H. destruct (nosep_dec w) as [W|W]; [exact (vetted_sep U [] w s W)|].
  assert (forall p, nosep p -> V (w :: p) = V p) as N.
  { intros p P. rewrite !V_nosep by (try constructor; assumption). unfold vet1. rewrite trim_front by exact H. reflexivity. }
  destruct (first_sep s) as [S|(p & c & t & -> & P & C)]; [apply N, S|].
  change (w :: p ++ c :: t) with ((w :: p) ++ c :: t). rewrite !vetted_sep by exact C. rewrite N by exact P. reflexivity.
Qed.
Lemma V_back w s : is_space U w = true -> V (s ++ [w]) = V s.
Proof.
  intros H. destruct (nosep_dec w) as [W|W]; [rewrite vetted_sep by exact W; cbn; apply app_nil_r|].
  assert (forall p, nosep p -> V (p ++ [w]) = V p) as N.
  { intros p P. rewrite !V_nosep by (try (apply Forall_app; split; [|constructor; [|constructor]]); assumption).
    unfold vet1. rewrite trim_back by exact H. reflexivity. }
  destruct (last_sep s) as [S|(t & c & p & -> & P & C)]; [apply N, S|].
  rewrite <- app_assoc. cbn [app]. rewrite (vetted_sep U t c (p ++ [w]) C), (vetted_sep U t c p C). rewrite N by exact P. reflexivity.
Qed.
Lemma V_trim s : V (trim_space U s) = V s.
Proof.
  destruct (trim_split U s) as (w1 & w2 & E & A & B & _). rewrite E at 2. clear E. set (t := trim_space U s). clearbody t.
  assert (V (t ++ w2) = V t) as <-.
  { revert B. induction w2 as [|w w2 IH] using rev_ind; intros B; [rewrite app_nil_r; reflexivity|].
    apply Forall_app in B. destruct B as (B1 & B2). inversion B2; subst. rewrite app_assoc, V_back by assumption. apply IH, B1. }
  induction A as [|w w1 A _ IH]; [reflexivity|]. cbn [app]. rewrite V_front by exact A. exact IH.
Qed.
Lemma split_shape c s : exists p, ~ In c p /\
  ((split_on c s = [p] /\ s = p) \/ exists t, split_on c s = p :: split_on c t /\ s = p ++ c :: t).
Proof.
  induction s as [|x s (p & N & IH)].
  { exists []. split; [intros []|]. left. split; reflexivity. }
  cbn [split_on]. destruct (x =? c) eqn:E.
  - exists []. split; [intros []|]. right. exists s. split; [reflexivity|]. cbn [app]. f_equal. lia.
  - exists (x :: p). split; [intros [->|I]; [lia|exact (N I)]|].
    destruct IH as [(-> & ->)|(t & -> & ->)]; [left; split; reflexivity|right]. exists t. split; reflexivity.
Qed.
Lemma split_flat c (P : list rune -> Prop) g : sep c -> (forall p, P p -> ~ In c p -> g p = V p) ->
  (forall p t, P (p ++ c :: t) -> P p /\ P t) -> forall s, P s -> flat_map g (split_on c s) = V s.
Proof.
  intros C G H s. remember (length s) as n eqn:E. revert s E.
  induction n as [n IH] using (well_founded_induction lt_wf). intros s -> Ps.
  destruct (split_shape c s) as (p & N & [(-> & ->)|(t & -> & E)]).
  - cbn [flat_map]. rewrite app_nil_r. apply G; assumption.
  - subst s. destruct (H _ _ Ps) as (Pp & Pt). cbn [flat_map]. rewrite vetted_sep by exact C. f_equal; [apply G; assumption|].
    eapply IH; [|reflexivity|exact Pt]. rewrite app_length. cbn [length]. lia.
Qed.
Lemma In_trim c s : In c (trim_space U s) -> In c s.
Proof. intros I. destruct (trim_split U s) as (w1 & w2 & E & _). rewrite E. apply in_app_iff. right. apply in_app_iff. left. exact I. Qed.
Lemma split_keepers_V s : split_keepers U s = V s.
Proof.
  unfold split_keepers. apply (split_flat 44 (fun _ => True)); [tauto| |tauto|exact I]. intros p _ N.
  rewrite <- V_trim. change (flat_map vet1 (split_on 32 (trim_space U p)) = V (trim_space U p)).
  apply (split_flat 32 (fun q => ~ In 44 q)); [tauto| | |].
  - intros q A B. symmetry. apply V_nosep. apply Forall_forall. intros c C. split; intros ->; tauto.
  - intros a t A. split; intros X; apply A; apply in_app_iff; cbn [In]; tauto.
  - intros X. apply N, In_trim, X.
Qed.
Lemma vetted_again : uni_ok U -> uni_upper_idem U -> uni_space_upper U -> forall a s,
  vetted_keepers U (a ++ split_keepers U s) = vetted_keepers U (a ++ [s]).
Proof.
  intros K1 K2 K3 a s. rewrite !vetted_app, split_keepers_V. f_equal. apply vetted_list.
  apply Forall_forall. intros v. apply vetted_all_ok; assumption.
Qed.
Lemma new_keys_keepers a b : vetted_keepers U a = vetted_keepers U b -> forall n i now e t,
  new_keys U n i now e a t = new_keys U n i now e b t.
Proof.
  intros E. induction n as [|n IH]; intros i now e t; [reflexivity|]. cbn [new_keys].
  assert (new_key U i now e a t = new_key U i now e b t) as -> by (unfold new_key; rewrite E; reflexivity).
  destruct (new_key U i now e b t) as [((i1, k), t1)| | |]; [apply IH|reflexivity..].
Qed.
Lemma generate_keepers a b : vetted_keepers U a = vetted_keepers U b -> forall i n now x t,
  generate_keys U i n now x a t = generate_keys U i n now x b t.
Proof. intros E i n now x t. unfold generate_keys. destruct x as [[x|]|]; [| reflexivity|]; apply new_keys_keepers, E. Qed.
Lemma initialize_keepers L dp r g f h file yes call n ex a b kl gs kc cl : vetted_keepers U a = vetted_keepers U b ->
  cmd_initialize L U dp r g (mkI file yes call n ex a kl gs kc cl) f h = cmd_initialize L U dp r g (mkI file yes call n ex b kl gs kc cl) f h.
Proof.
  intros E. unfold cmd_initialize. cbn [io_call io_keepers io_file io_yes io_keys io_expire io_keylength io_groupsize io_keycolumns io_columns].
  destruct call as [call|]; [|reflexivity]. destruct (new_station _ _ _) as [s h1]. destruct (set_salt_and_pfk _ _ _ _ _) as [f1 h2 s1 ms|? ? ? ?]; [|reflexivity].
  cbn [andthen]. destruct (assert_settings s1); [|reflexivity..]. rewrite (generate_keepers a b E). reflexivity.
Qed.
End K.

(** ** The command *)
Lemma blank_iff U call : len (str_upper U (trim_space U call)) = 0 <-> Forall (fun c => is_space U c = true) call.
Proof.
  unfold str_upper. rewrite len_0'. destruct (trim_split U call) as (w1 & w2 & E & A & B & C). split.
  - intros H. apply map_eq_nil in H. rewrite H in E. cbn [app] in E. rewrite E. apply Forall_app. split; assumption.
  - intros F. rewrite E in F. apply Forall_app in F. destruct F as (_ & F). apply Forall_app in F. destruct F as (F & _).
    destruct (trim_space U call) as [|c t]; [reflexivity|]. inversion F; subst. destruct C. left. assumption.
Qed.
Lemma ask_call_iff U o l call rest : io_call o = None -> io_yes o = false ->
  ask_call U o l = Ok (call, rest) <-> call_typed U l call rest.
Proof.
  intros E Y. unfold ask_call, call_typed. rewrite E, Y, <- ask_req, <- blank_iff.
  destruct (ask_input false [] required l) as [[c|] l1]; [|split; [discriminate|intros (X & _); discriminate]].
  destruct (len (str_upper U (trim_space U c)) =? 0) eqn:B.
  - split; [discriminate|]. intros (X & N). injection X as -> ->. lia.
  - split; [intros X; injection X as -> ->; split; [reflexivity|lia]|]. intros (X & _). injection X as -> ->. reflexivity.
Qed.
Lemma ask_call_err U o l : io_call o = None -> (exists call rest, ask_call U o l = Ok (call, rest)) \/ exists e, ask_call U o l = Err e.
Proof.
  intros E. unfold ask_call. rewrite E. destruct (io_yes o); [right; eexists; reflexivity|].
  destruct (ask_input false [] required l) as [[c|] l1]; [|right; eexists; reflexivity].
  destruct (len (str_upper U (trim_space U c)) =? 0); [right; eexists; reflexivity|left; eexists _, _; reflexivity].
Qed.
Lemma ask_rest_iff U o call l o' : int64 (io_keys o) -> int64 (io_keylength o) -> int64 (io_groupsize o) ->
  ask_rest U o call l = Ok o' <-> exists n kp ex kl gs l2 l3 l4 l5 l6,
    number_typed 0 (io_keys o) l n l2 /\ text_typed l2 kp l3 /\
    text_typed l3 ex l4 /\ number_typed 20 (io_keylength o) l4 kl l5 /\
    number_typed 1 (io_groupsize o) l5 gs l6 /\
    o' = mkI (io_file o) (io_yes o) (Some call) n (trim_space U ex) (io_keepers o ++ split_keepers U kp) kl gs (io_keycolumns o) (io_columns o).
Proof.
  intros I1 I2 I3. unfold ask_rest. split.
  - intros H.
    destruct (ask_input false _ _ l) as [[n|] l2] eqn:E1; [|discriminate].
    destruct (ask_input true [] Some l2) as [[kp|] l3] eqn:E2; [|discriminate].
    destruct (ask_input true [] Some l3) as [[ex|] l4] eqn:E3; [|discriminate].
    destruct (ask_input true _ (at_least 20) l4) as [[kl|] l5] eqn:E4; [|discriminate].
    destruct (ask_input true _ (at_least 1) l5) as [[gs|] l6] eqn:E5; [|discriminate].
    injection H as <-. apply ask_number in E1, E4, E5; try assumption. apply ask_text in E2, E3.
    exists n, kp, ex, kl, gs, l2, l3, l4, l5, l6. tauto.
  - intros (n & kp & ex & kl & gs & l2 & l3 & l4 & l5 & l6 & E1 & E2 & E3 & E4 & E5 & ->).
    apply (ask_number false) in E1; [|assumption]. apply (ask_number true) in E4, E5; try assumption. apply ask_text in E2, E3.
    rewrite E1, E2, E3, E4, E5. reflexivity.
Qed.
Lemma ask_rest_err U o call l : (exists o', ask_rest U o call l = Ok o') \/ exists e, ask_rest U o call l = Err e.
Proof.
  unfold ask_rest. do 5 (destruct (ask_input _ _ _ _) as [[?|] ?]; [|right; eexists; reflexivity]). left. eexists. reflexivity.
Qed.
Lemma dialogue_of U o l call n kp ex kl gs l1 l2 l3 l4 l5 l6 : int64 (io_keys o) -> int64 (io_keylength o) -> int64 (io_groupsize o) ->
  io_call o = None -> io_yes o = false -> ask_call U o l = Ok (call, l1) -> ask_input false (itoa (io_keys o)) (at_least 0) l1 = (Some n, l2) ->
  ask_input true [] Some l2 = (Some kp, l3) -> ask_input true [] Some l3 = (Some ex, l4) ->
  ask_input true (itoa (io_keylength o)) (at_least 20) l4 = (Some kl, l5) ->
  ask_input true (itoa (io_groupsize o)) (at_least 1) l5 = (Some gs, l6) -> dialogue U o l call n kp ex kl gs.
Proof.
  intros I1 I2 I3 C Y E0 E1 E2 E3 E4 E5. apply ask_number in E1, E4, E5; try assumption. apply ask_text in E2, E3.
  apply (ask_call_iff _ _ _ _ _ C Y) in E0. exists l1, l2, l3, l4, l5, l6. tauto.
Qed.
Lemma without_trim U s t : without_space U s t -> trim_space U s = t.
Proof.
  intros (a & b & -> & A & B & C & D). apply trim_exact; [exact A|exact B|]. intros [X|X].
  - destruct t as [|c x]; [exact X|]. rewrite (C c x eq_refl) in X. discriminate.
  - destruct (rev t) as [|c x] eqn:E; [exact X|]. assert (t = rev x ++ [c]) as T by (rewrite <- (rev_involutive t), E; reflexivity).
    rewrite (D c _ T) in X. discriminate.
Qed.
Section C.
Context (L : lib) (U : Uni) (dp : list rune -> option Z).
Notation asked := (cmd_initialize_asked U L dp).
Notation init := (cmd_initialize L U dp).
Lemma asked_dialogue r g i o l f h call n kp ex kl gs t : uni_ok U -> uni_upper_idem U -> uni_space_upper U ->
  int64 (io_keys o) -> int64 (io_keylength o) -> int64 (io_groupsize o) ->
  none_given i -> io_call o = None -> io_yes o = false ->
  dialogue U o l call n kp ex kl gs -> without_space U ex t ->
  asked r g i o l f h =
  init r g (mkI (io_file o) false (Some call) n t (io_keepers o ++ [kp]) kl gs (io_keycolumns o) (io_columns o)) f h.
Proof.
  intros K1 K2 K3 I1 I2 I3 (G1 & G2 & G3 & G4 & G5) C Y (l1 & l2 & l3 & l4 & l5 & l6 & D1 & D2 & D3 & D4 & D5 & D6) T.
  unfold cmd_initialize_asked, ask_options. apply (ask_call_iff U o l call l1 C Y) in D1. rewrite D1. cbn [bind].
  rewrite G1, G2, G3, G4, G5, C. cbn [orb negb]. cbv zeta.
  assert (ask_rest U o call l1 = Ok (mkI (io_file o) (io_yes o) (Some call) n (trim_space U ex) (io_keepers o ++ split_keepers U kp) kl gs (io_keycolumns o) (io_columns o))) as ->.
  { apply ask_rest_iff; [assumption..|]. exists n, kp, ex, kl, gs, l2, l3, l4, l5, l6. tauto. }
  cbv beta iota. rewrite Y, (without_trim _ _ _ T). apply initialize_keepers, vetted_again; assumption.
Qed.
Lemma asked_incomplete r g i o l f h :
  int64 (io_keys o) -> int64 (io_keylength o) -> int64 (io_groupsize o) ->
  none_given i -> io_call o = None -> io_yes o = false ->
  (forall call n kp ex kl gs, ~ dialogue U o l call n kp ex kl gs) ->
  let x := asked r g i o l f h in exists e, result x = Err e /\ files x = f /\ shown x = [].
Proof.
  intros I1 I2 I3 (G1 & G2 & G3 & G4 & G5) C Y N x. subst x. unfold cmd_initialize_asked, ask_options.
  destruct (ask_call_err U o l C) as [(call & l1 & E)|(e & E)]; rewrite E; cbn [bind]; [|exists e; split; [|split]; reflexivity].
  rewrite G1, G2, G3, G4, G5, C. cbn [orb negb]. cbv zeta. apply (ask_call_iff _ _ _ _ _ C Y) in E.
  destruct (ask_rest_err U o call l1) as [(o' & R)|(e & R)]; rewrite R; [|exists e; split; [|split]; reflexivity].
  apply ask_rest_iff in R; [|assumption..]. destruct R as (n & kp & ex & kl & gs & l2 & l3 & l4 & l5 & l6 & D1 & D2 & D3 & D4 & D5 & ->).
  destruct (N call n kp ex kl gs). exists l1, l2, l3, l4, l5, l6. tauto.
Qed.
Lemma asked_call r g i o l f h call rest : ~ none_given i -> io_call o = None -> io_yes o = false -> call_typed U l call rest ->
  asked r g i o l f h = init r g (set_call o call) f h.
Proof.
  intros G C Y D. unfold cmd_initialize_asked, ask_options. apply (ask_call_iff U o l call rest C Y) in D. rewrite D. cbn [bind]. cbv zeta. rewrite C.
  destruct (negb _) eqn:E; [|reflexivity]. destruct G. unfold none_given. destruct (is_yes i), (is_keys i), (is_keepers i), (is_keylength i), (is_groupsize i); try discriminate. repeat split.
Qed.
Lemma asked_no_call r g i o l f h : io_call o = None -> (io_yes o = false -> forall call rest, ~ call_typed U l call rest) ->
  let x := asked r g i o l f h in exists e, result x = Err e /\ files x = f /\ shown x = [].
Proof.
  intros C N x. subst x. unfold cmd_initialize_asked, ask_options. destruct (ask_call_err U o l C) as [(call & l1 & E)|(e & E)]; rewrite E; cbn [bind]; [|exists e; split; [|split]; reflexivity].
  destruct (io_yes o) eqn:Y; [unfold ask_call in E; rewrite C, Y in E; discriminate|].
  apply (ask_call_iff _ _ _ _ _ C Y) in E. destruct (N eq_refl _ _ E).
Qed.
Lemma asked_nothing r g i o l f h call : io_call o = Some call -> asked r g i o l f h = init r g o f h.
Proof.
  intros C. unfold cmd_initialize_asked, ask_options, ask_call. rewrite C. cbn [bind]. cbv zeta.
  replace (negb _) with false.
  2: { symmetry. apply Bool.negb_false_iff. rewrite Bool.orb_true_r. reflexivity. }
  destruct o. cbn in C |- *. subst. reflexivity.
Qed.
End C.
Lemma number_typed_least m p l n rest : number_typed m p l n rest -> m <= n.
Proof. intros (s & _ & H & _). exact H. Qed.
Section E.
Context (L : lib) (U : Uni) (dp : list rune -> option Z).
Notation asked := (cmd_initialize_asked U L dp).
Lemma asked_enough r g i o l f h q call n kp ex kl gs t :
  lib_ok L -> uni_ok U -> uni_upper_idem U -> uni_space_upper U ->
  int64 (io_keys o) -> int64 (io_keylength o) -> int64 (io_groupsize o) ->
  none_given i -> io_call o = None -> io_yes o = false ->
  dialogue U o l call n kp ex kl gs -> without_space U ex t ->
  io_file o <> [] -> 85 <= io_columns o -> gs <= io_keycolumns o -> (t = [] \/ dp t <> None) ->
  path_of L (r_env r 1) (io_file o) q -> f q = None -> disk_ok (r_env r 1) -> can_write (r_env r 1) ->
  (exists key, key_given L (r_env r 1) g key) ->
  let x := asked r g i o l f h in
  result x = Panic \/
  (result x = Ok tt /\ exists key s, key_given L (r_env r 1) g key /\ stored L (files x) q key s /\
    i_groupsize s = gs /\ i_keylength s = kl /\ len (i_keys s) = n /\
    (forall k, In k (i_keys s) -> t <> [] -> dp t = Some (kexpires k))).
Proof.
  intros LK K1 K2 K3 I1 I2 I3 G C Y D T F CL GS DT P N DK W KG x. subst x.
  rewrite (asked_dialogue L U dp r g i o l f h call n kp ex kl gs t K1 K2 K3 I1 I2 I3 G C Y D T).
  destruct D as (l1 & l2 & l3 & l4 & l5 & l6 & _ & D2 & _ & _ & D5 & D6). apply number_typed_least in D2, D5, D6.
  set (o' := mkI _ _ _ _ _ _ _ _ _ _). 
  destruct (init_lemma L U dp r g o' f h call q LK K2 K3 eq_refl DK P) as (_ & [(R & (X & _) & _)|[(R & S & _ & _ & key & ks & c' & cs & KK & ST & _ & _ & LN & FA & _)|(R & _ & X)]]).
  - congruence.
  - right. split; [exact R|]. exists key, (mkInst gs kl (io_columns o) (io_keycolumns o) ks [] cs). split; [exact KK|]. split; [exact ST|].
    split; [reflexivity|]. split; [reflexivity|]. cbn [i_keys]. cbn [io_keys o'] in LN. split; [lia|]. intros k Hk Ht. destruct (FA k Hk) as (_ & _ & _ & _ & _ & _ & _ & _ & E & _).
    exact (E Ht).
  - left. apply X; [|intros _ Ht; destruct DT as [DT|DT]; [destruct (Ht DT)|exact DT]|left; exact N|exact W|exact KG].
    unfold settings_ok. cbn. repeat split; assumption.
Qed.
Lemma asked_expire r g i o l f h call q : lib_ok L -> uni_upper_idem U -> uni_space_upper U ->
  io_call o = Some call -> disk_ok (r_env r 1) -> path_of L (r_env r 1) (io_file o) q -> io_expire o <> [] -> f q = None ->
  let x := asked r g i o l f h in result x = Ok tt ->
  exists key s, stored L (files x) q key s /\ len (i_keys s) = Z.max 0 (io_keys o) /\
    forall k, In k (i_keys s) -> dp (io_expire o) = Some (kexpires k).
Proof.
  intros LK K2 K3 C DK P E N x R. subst x. rewrite (asked_nothing L U dp r g i o l f h call C) in *.
  destruct (init_lemma L U dp r g o f h call q LK K2 K3 C DK P) as (_ & [(_ & (X & _) & _)|[(_ & S & _ & _ & key & ks & c' & cs & KK & ST & _ & _ & LN & FA & _)|(X & _)]]); [congruence| |congruence].
  eexists key, _. split; [exact ST|]. cbn [i_keys]. split; [exact LN|]. intros k Hk. destruct (FA k Hk) as (_ & _ & _ & _ & _ & _ & _ & _ & X & _). exact (X E).
Qed.
End E.
