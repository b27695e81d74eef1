(** Lemmas about the dialogues for passwords and the command that prints a file
    key. *)
From Verif Require Import Base Model_Unicode Model_Functions Model_Crand Model_Types Model_Station Model_Persist
  Model_Cli Model_Ask Spec Spec_Persist Spec_Cli Spec_CliPfk Spec_Ask Proofs_Functions Proofs_Station Proofs_Persist
  Proofs_Cli Proofs_CliRun Proofs_CliPfk.

Lemma same_bytes_true a b : same_bytes a b = true <-> b = a.
Proof. unfold same_bytes. destruct (list_eq_dec Z.eq_dec a b); split; congruence. Qed.
Lemma same_bytes_false a b : same_bytes a b = false <-> b <> a.
Proof. unfold same_bytes. destruct (list_eq_dec Z.eq_dec a b); split; congruence. Qed.

Lemma ask_zero l : ask_for_password 0 l =
  match l with [] => (None, []) | None :: l' => (None, l') | Some w :: l' => (Some w, l') end.
Proof.
  destruct l as [|[w|] l]; try reflexivity. cbn [ask_for_password]. pose proof (len_nonneg _ w).
  replace (len w <? 0) with false by lia. reflexivity.
Qed.

(** ** AskAndConfirmPassword *)
Lemma confirm_loop_ok strong : forall fuel l w rest, ask_and_confirm_loop fuel strong l = (Ok w, rest) ->
  chosen (fun w => strong w = true) l w rest.
Proof.
  induction fuel as [|f IH]; intros l w rest H; [discriminate|]. cbn [ask_and_confirm_loop] in H.
  rewrite ask_zero in H. destruct l as [|[w1|] l]; try discriminate.
  destruct (strong w1) eqn:S; cbn [negb] in H.
  - rewrite ask_zero in H. destruct l as [|[w2|] l]; try discriminate.
    destruct (same_bytes w1 w2) eqn:E.
    + apply same_bytes_true in E. injection H as -> ->. subst. exists []. split; [constructor|]. split; [exact S|reflexivity].
    + apply same_bytes_false in E. apply IH in H. destruct H as (a & A & SW & ->).
      exists (Some w1 :: Some w2 :: a). split; [constructor; assumption|]. split; [exact SW|reflexivity].
  - apply IH in H. destruct H as (a & A & SW & ->). exists (Some w1 :: a). split; [|split; [exact SW|reflexivity]].
    apply refused; [congruence|exact A].
Qed.
Lemma confirm_loop_chosen strong w rest : strong w = true -> forall a, failed_attempts (fun w => strong w = true) a ->
  forall fuel, (length a < fuel)%nat -> ask_and_confirm_loop fuel strong (a ++ [Some w; Some w] ++ rest) = (Ok w, rest).
Proof.
  intros S a A. induction A as [|w1 l N A IH|w1 v l S1 D A IH]; intros [|fuel] F; try (cbn [length] in F; lia).
  - cbn [app ask_and_confirm_loop]. rewrite ask_zero, S. cbn [negb]. rewrite ask_zero.
    replace (same_bytes w w) with true by (symmetry; apply same_bytes_true; reflexivity). reflexivity.
  - cbn [app ask_and_confirm_loop]. rewrite ask_zero. destruct (strong w1); [congruence|]. cbn [negb].
    apply IH. cbn [length] in F. lia.
  - cbn [app ask_and_confirm_loop]. rewrite ask_zero, S1. cbn [negb]. rewrite ask_zero.
    apply same_bytes_false in D. rewrite D. apply IH. cbn [length] in F. lia.
Qed.
Lemma confirm_loop_total strong : forall fuel l, (length l < fuel)%nat ->
  exists rest, ask_and_confirm_loop fuel strong l = (Err ErrPasswordInput, rest) \/
    exists w, ask_and_confirm_loop fuel strong l = (Ok w, rest).
Proof.
  induction fuel as [|f IH]; intros l F; [lia|]. cbn [ask_and_confirm_loop].
  rewrite ask_zero. destruct l as [|[w1|] l]; try (eexists; left; reflexivity). cbn [length] in F.
  destruct (strong w1); cbn [negb]; [|apply IH; lia].
  rewrite ask_zero. destruct l as [|[w2|] l]; try (eexists; left; reflexivity). cbn [length] in F.
  destruct (same_bytes w1 w2); [eexists; right; eexists; reflexivity|apply IH; lia].
Qed.
Lemma confirm_lemma strong l w rest :
  ask_and_confirm strong l = (Ok w, rest) <-> chosen (fun w => strong w = true) l w rest.
Proof.
  split; [apply confirm_loop_ok|]. intros (a & A & S & ->). apply confirm_loop_chosen; [exact S|exact A|].
  rewrite app_length. lia.
Qed.
Lemma confirm_total strong l : exists rest, ask_and_confirm strong l = (Err ErrPasswordInput, rest) \/
    exists w, ask_and_confirm strong l = (Ok w, rest).
Proof. apply confirm_loop_total. lia. Qed.
Lemma interrupted_cons w l rest : interrupted l rest -> interrupted (Some w :: l) rest.
Proof.
  intros (a & F & E). exists (Some w :: a). split; [constructor; [discriminate|exact F]|].
  destruct E as [->|(-> & ->)]; [left|right; split]; reflexivity.
Qed.
Lemma interrupted_now l : interrupted (None :: l) l.
Proof. exists []. split; [constructor|left; reflexivity]. Qed.
Lemma interrupted_end : interrupted [] [].
Proof. exists []. split; [constructor|right; split; reflexivity]. Qed.
Lemma confirm_loop_err strong : forall fuel l e rest, ask_and_confirm_loop fuel strong l = (Err e, rest) -> interrupted l rest.
Proof.
  induction fuel as [|f IH]; intros l e rest H; [discriminate|]. cbn [ask_and_confirm_loop] in H. rewrite ask_zero in H.
  destruct l as [|[w1|] l]; [injection H as _ <-; apply interrupted_end| |injection H as _ <-; apply interrupted_now].
  apply interrupted_cons. destruct (strong w1); cbn [negb] in H; [|exact (IH _ _ _ H)]. rewrite ask_zero in H.
  destruct l as [|[w2|] l]; [injection H as _ <-; apply interrupted_end| |injection H as _ <-; apply interrupted_now].
  apply interrupted_cons. destruct (same_bytes w1 w2); [discriminate|]. exact (IH _ _ _ H).
Qed.
Lemma confirm_otherwise strong l : (exists w rest, chosen (fun w => strong w = true) l w rest) \/
  exists rest, ask_and_confirm strong l = (Err ErrPasswordInput, rest) /\ interrupted l rest.
Proof.
  destruct (confirm_total strong l) as (rest & [E|(w & E)]).
  - right. exists rest. split; [exact E|]. exact (confirm_loop_err _ _ _ _ _ E).
  - left. exists w, rest. apply confirm_lemma, E.
Qed.

(** ** OldAskAndConfirmPassword *)
Lemma ask_some m : forall l w l', ask_for_password m l = (Some w, l') ->
  exists a, failed_attempts (fun w => m <= len w) a /\ l = a ++ Some w :: l' /\ m <= len w /\
    forall b, failed_attempts (fun w => m <= len w) b -> failed_attempts (fun w => m <= len w) (a ++ b).
Proof.
  induction l as [|[w1|] l IH]; intros w l' H; cbn [ask_for_password] in H; try discriminate.
  destruct (len w1 <? m) eqn:E.
  - apply IH in H. destruct H as (a & A & -> & M & C). exists (Some w1 :: a). split; [constructor; [lia|exact A]|].
    split; [reflexivity|]. split; [exact M|]. intros b B. cbn [app]. constructor; [lia|apply C, B].
  - injection H as -> ->. exists []. split; [constructor|]. split; [reflexivity|]. split; [lia|]. intros b B; exact B.
Qed.
Lemma old_loop_ok m : forall fuel l w rest, old_ask_loop fuel m l = (Ok w, rest) -> chosen (fun w => m <= len w) l w rest.
Proof.
  induction fuel as [|f IH]; intros l w rest H; [discriminate|]. cbn [old_ask_loop] in H.
  destruct (ask_for_password m l) as [[w1|] l1] eqn:A; [|discriminate].
  apply ask_some in A. destruct A as (a & FA & -> & M & C).
  rewrite ask_zero in H. destruct l1 as [|[w2|] l]; try discriminate.
  destruct (same_bytes w1 w2) eqn:E.
  - apply same_bytes_true in E. injection H as -> ->. subst. exists a. split; [exact FA|]. split; [exact M|reflexivity].
  - apply same_bytes_false in E. apply IH in H. destruct H as (b & B & SW & ->).
    exists (a ++ Some w1 :: Some w2 :: b). split; [apply C; constructor; assumption|]. split; [exact SW|].
    rewrite <- app_assoc. reflexivity.
Qed.
Lemma old_loop_chosen m w rest : m <= len w -> forall a, failed_attempts (fun w => m <= len w) a ->
  forall fuel, (length a < fuel)%nat -> old_ask_loop fuel m (a ++ [Some w; Some w] ++ rest) = (Ok w, rest).
Proof.
  intros SW a A. induction A as [|w1 l N A IH|w1 v l S1 D A IH]; intros [|fuel] F; try (cbn [length] in F; lia).
  - cbn [app old_ask_loop ask_for_password]. replace (len w <? m) with false by lia. rewrite ask_zero.
    replace (same_bytes w w) with true by (symmetry; apply same_bytes_true; reflexivity). reflexivity.
  - cbn [length] in F. specialize (IH (S fuel) ltac:(lia)). cbn [app old_ask_loop ask_for_password].
    replace (len w1 <? m) with true by lia. exact IH.
  - cbn [app old_ask_loop ask_for_password]. replace (len w1 <? m) with false by lia. rewrite ask_zero. apply same_bytes_false in D. rewrite D. apply IH. cbn [length] in F. lia.
Qed.
Lemma ask_shorter m : forall l x l', ask_for_password m l = (x, l') -> (length l' <= length l)%nat /\
  (x <> None -> (length l' < length l)%nat).
Proof.
  induction l as [|[w1|] l IH]; intros x l' H; cbn [ask_for_password] in H; cbn [length].
  - injection H as <- <-. cbn [length]. split; [lia|congruence].
  - destruct (len w1 <? m); [apply IH in H; split; [lia|]; intros X; destruct H as (_ & H); specialize (H X); lia|].
    injection H as <- <-. lia.
  - injection H as <- <-. split; [lia|congruence].
Qed.
Lemma old_loop_total m : forall fuel l, (length l < fuel)%nat ->
  exists rest, old_ask_loop fuel m l = (Err ErrPasswordInput, rest) \/ exists w, old_ask_loop fuel m l = (Ok w, rest).
Proof.
  induction fuel as [|f IH]; intros l F; [lia|]. cbn [old_ask_loop].
  destruct (ask_for_password m l) as [[w1|] l1] eqn:A; [|eexists; left; reflexivity].
  apply ask_shorter in A. destruct A as (_ & A). specialize (A ltac:(discriminate)).
  destruct (ask_for_password 0 l1) as [[w2|] l2] eqn:B; [|eexists; left; reflexivity].
  apply ask_shorter in B. destruct (same_bytes w1 w2); [eexists; right; eexists; reflexivity|apply IH; lia].
Qed.
Lemma old_lemma m l w rest : old_ask_and_confirm m l = (Ok w, rest) <-> chosen (fun w => m <= len w) l w rest.
Proof.
  split; [apply old_loop_ok|]. intros (a & A & S & ->). apply old_loop_chosen; [exact S|exact A|].
  rewrite app_length. lia.
Qed.
Lemma old_total m l : exists rest, old_ask_and_confirm m l = (Err ErrPasswordInput, rest) \/
    exists w, old_ask_and_confirm m l = (Ok w, rest).
Proof. apply old_loop_total. lia. Qed.
Lemma ask_none m : forall l rest, ask_for_password m l = (None, rest) -> interrupted l rest.
Proof.
  induction l as [|[w|] l IH]; intros rest H; cbn [ask_for_password] in H.
  - injection H as <-. apply interrupted_end.
  - apply interrupted_cons. destruct (len w <? m); [apply IH, H|discriminate].
  - injection H as <-. apply interrupted_now.
Qed.
Lemma ask_some_cons m : forall l w l1 rest, ask_for_password m l = (Some w, l1) -> interrupted l1 rest -> interrupted l rest.
Proof.
  induction l as [|[w1|] l IH]; intros w l1 rest H I; cbn [ask_for_password] in H; try discriminate.
  apply interrupted_cons. destruct (len w1 <? m); [exact (IH _ _ _ H I)|]. injection H as _ ->. exact I.
Qed.
Lemma old_loop_err m : forall fuel l e rest, old_ask_loop fuel m l = (Err e, rest) -> interrupted l rest.
Proof.
  induction fuel as [|f IH]; intros l e rest H; [discriminate|]. cbn [old_ask_loop] in H.
  destruct (ask_for_password m l) as [[w1|] l1] eqn:A; [|injection H as _ <-; exact (ask_none _ _ _ A)].
  apply (ask_some_cons _ _ _ _ _ A).
  destruct (ask_for_password 0 l1) as [[w2|] l2] eqn:B; [|injection H as _ <-; exact (ask_none _ _ _ B)].
  apply (ask_some_cons _ _ _ _ _ B). destruct (same_bytes w1 w2); [discriminate|]. exact (IH _ _ _ H).
Qed.
Lemma old_otherwise m l : (exists w rest, chosen (fun w => m <= len w) l w rest) \/
  exists rest, old_ask_and_confirm m l = (Err ErrPasswordInput, rest) /\ interrupted l rest.
Proof.
  destruct (old_total m l) as (rest & [E|(w & E)]).
  - right. exists rest. split; [exact E|]. exact (old_loop_err _ _ _ _ _ E).
  - left. exists w, rest. apply old_lemma, E.
Qed.

(** ** The command that prints a file key *)
Section Gen.
Context (L : lib) (U : Uni).

Lemma salt_given_eq g g' salt : g_salt g = g_salt g' -> salt_given g salt <-> salt_given g' salt.
Proof. unfold salt_given. intros ->. tauto. Qed.
Lemma salt_given_one g a b : salt_given g a -> salt_given g b -> a = b.
Proof.
  unfold salt_given. destruct (g_salt g) as [x|]; [|congruence]. intros (A & _) (B & _).
  apply hex_text_decode in A, B. congruence.
Qed.
Lemma salt_given_bytes g a : salt_given g a -> Forall byte a.
Proof.
  unfold salt_given. destruct (g_salt g) as [x|]; [intros ((A & _) & _); exact A|]. intros ->.
  apply Forall_forall. intros y Y. assert (forallb (fun y => (0 <=? y) && (y <=? 255)) default_salt = true) as B by (vm_compute; reflexivity).
  rewrite forallb_forall in B. specialize (B y Y). unfold byte. lia.
Qed.

(** The salt after --new-salt. *)
Lemma new_salt_step g ns h s salt : salt_given g salt -> ready_salt salt h s ->
  let x := match ns with
           | None => (Ok tt, s, h)
           | Some x => set_salt_from_string h s (if list_eq_dec Z.eq_dec x w_default then default_salt_hex else x)
           end in
  (exists e, fst (fst x) = Err e /\ forall a, ~ salt_given (mkG (salt_option g ns) None None) a) \/
  (exists s1 h1 a, x = (Ok tt, s1, h1) /\ salt_given (mkG (salt_option g ns) None None) a /\ ready_salt a h1 s1).
Proof.
  intros SG RS. cbv zeta. unfold salt_option, salt_given. cbn [g_salt]. destruct ns as [x|].
  2:{ right. exists s, h, salt. split; [reflexivity|]. split; [exact SG|exact RS]. }
  unfold w_default. destruct (list_eq_dec Z.eq_dec x _) as [E|E].
  - right. unfold set_salt_from_string. rewrite default_hex.
    replace (len default_salt <? 32) with false by (vm_compute; reflexivity). cbn [alloc].
    eexists _, _, default_salt. split; [reflexivity|]. split; [reflexivity|].
    exists (length h). split; [reflexivity|apply cell_last].
  - unfold set_salt_from_string. destruct (hex_decode x) as [b|] eqn:D.
    + destruct (len b <? 32) eqn:B.
      * left. eexists. split; [reflexivity|]. intros a (A & Y). apply hex_text_decode in A.
        assert (a = b) by congruence. subst. lia.
      * right. cbn [alloc]. eexists _, _, b. split; [reflexivity|]. split; [split; [apply hex_decode_text, D|lia]|].
        exists (length h). split; [reflexivity|apply cell_last].
    + left. eexists. split; [reflexivity|]. intros a (A & _). apply hex_text_decode in A. congruence.
Qed.

Lemma hex_of_text b x : Forall byte b -> x = hex_encode b -> hex_text b x.
Proof. intros B ->. split; [exact B|]. exact (proj2 (proj2 (hex_encode_digits b B))). Qed.

Lemma derive_ready1 h s w salt : ready_salt salt h s -> 32 <= len salt ->
  derive_pfk (kdf L) h s w = (Ok tt, set_pfk s (Some (length h)), h ++ [kdf L w salt]).
Proof. clear U.
  intros (q & Q1 & Q2 & Q3) B. unfold derive_pfk. rewrite Q1, Q3. replace (len salt <? 32) with false by lia. reflexivity.
Qed.

Lemma ssp_err g f h s r f' ms out : set_salt_and_pfk L g f h s = Over r f' ms out -> exists e, r = Err e.
Proof.
  clear U. assert (forall h s x r0 s2 h2, set_salt_from_string h s x = (r0, s2, h2) -> r0 = Ok tt \/ exists e, r0 = Err e) as A.
  { intros h0 s0 x r0 s2 h2. unfold set_salt_from_string. destruct (hex_decode x); [destruct (_ <? _); cbn [alloc]|];
      intros H; injection H as <- _ _; [right; eexists; reflexivity|left; reflexivity|right; eexists; reflexivity]. }
  assert (forall h s x r0 s2 h2, set_pfk_from_string h s x = (r0, s2, h2) -> r0 = Ok tt \/ exists e, r0 = Err e) as B.
  { intros h0 s0 x r0 s2 h2. unfold set_pfk_from_string. destruct (hex_decode x); [destruct (negb _); cbn [alloc]|];
      intros H; injection H as <- _ _; [right; eexists; reflexivity|left; reflexivity|right; eexists; reflexivity]. }
  assert (forall h s x r0 s2 h2, derive_pfk (kdf L) h s x = (r0, s2, h2) -> r0 = Ok tt \/ exists e, r0 = Err e) as C.
  { intros h0 s0 x r0 s2 h2. unfold derive_pfk. destruct (st_salt s0); [destruct (_ <? _); cbn [alloc]|];
      intros H; injection H as <- _ _; [right; eexists; reflexivity|left; reflexivity|right; eexists; reflexivity]. }
  assert (forall h s, andthen (Go f h s) (fun f h s =>
        match g_pfk g, g_password g with
        | Some x, _ => match set_pfk_from_string h s x with
                       | (Ok _, s1, h1) => Go f h1 s1
                       | (r, _, _) => End r f []
                       end
        | None, Some x => match derive_pfk (kdf L) h s x with
                          | (Ok _, s1, h1) => Go f h1 s1
                          | (r, _, _) => End r f []
                          end
        | None, None => Go f h s
        end) = Over r f' ms out -> exists e, r = Err e) as D.
  { clear h s. intros h s. unfold Go, andthen, show. destruct (g_pfk g) as [x|].
    - destruct (set_pfk_from_string h s x) as [[[[]|e| |] s1] h1] eqn:E; try discriminate;
        apply B in E; destruct E as [E|(e' & E)]; try discriminate; intros H; injection H; intros; subst; eexists; reflexivity.
    - destruct (g_password g) as [x|]; [|discriminate].
      destruct (derive_pfk (kdf L) h s x) as [[[[]|e| |] s1] h1] eqn:E; try discriminate;
        apply C in E; destruct E as [E|(e' & E)]; try discriminate; intros H; injection H; intros; subst; eexists; reflexivity. }
  unfold set_salt_and_pfk. set (k := fun f h s => _). fold k in D. clearbody k.
  intros H. assert (andthen (match g_salt g with
        | None => Go f h s
        | Some x => match set_salt_from_string h s x with
                    | (Ok _, s1, h1) => Go f h1 s1
                    | (r, _, _) => End r f []
                    end
        end) k = Over r f' ms out \/ exists e, r = Err e) as H'.
  { destruct (g_pfk g), (g_password g); try (left; exact H). right. injection H; intros; subst; eexists; reflexivity. }
  clear H. destruct H' as [H|H]; [|exact H]. destruct (g_salt g) as [x|]; [|exact (D _ _ H)].
  destruct (set_salt_from_string h s x) as [[[[]|e| |] s1] h1] eqn:E; [exact (D _ _ H)|..];
    apply A in E; destruct E as [E|(e' & E)]; try discriminate; injection H; intros; subst; eexists; reflexivity.
Qed.

(** What the command does up to the choice of the password. *)
Lemma gen_spec strong l t g ns random :
  let x := cmd_gen_pfk L U strong l t g ns random in
  (exists e, x = Err e /\
     ~ ((g_pfk g = None \/ g_password g = None) /\
        (forall k, g_pfk g = Some k -> exists b, hex_text b k /\ len b = 32) /\
        (exists a, salt_given g a) /\ exists a, salt_given (mkG (salt_option g ns) None None) a)) \/
  (exists a, salt_given (mkG (salt_option g ns) None None) a /\
     x = if random then match generate_pfk t with Ok (x, _) => Ok x | Err e => Err e | Panic => Panic | Diverge => Diverge end
         else match g_password g with
              | Some w => if strong w then Ok (hex_encode (kdf L w a)) else Err ErrWeakPassword
              | None => match ask_and_confirm strong l with
                        | (Ok w, _) => Ok (hex_encode (kdf L w a))
                        | (Err e, _) => Err e
                        | (Panic, _) => Panic
                        | (Diverge, _) => Diverge
                        end
              end).
Proof.
  cbv zeta. unfold cmd_gen_pfk. set (s0 := mkSt default_persistence None (Some O) false false false fresh_inst).
  replace (new_station U [] []) with (s0, [default_salt]) by reflexivity.
  assert (exists e : env, e_term e = true /\ e_password e = Some []) as (e0 & T0 & P0)
    by (exists (mkEnv None false true None (Some []) true [] [] 0 None); split; reflexivity).
  destruct (ssp_spec L g (fun _ => None) [default_salt] s0 eq_refl (default_ready [] s0 eq_refl))
    as [(r & N & E & NK)|(h1 & s1 & salt & -> & SE & SG & RS & PK)].
  { left. rewrite E. unfold End in *. apply ssp_err in E. destruct E as (e & ->).
    exists e. split; [reflexivity|]. intros (C & P & (a & A) & _).
    destruct (g_pfk g) as [k|] eqn:EP, (g_password g) as [w|] eqn:EW.
    - destruct C; discriminate.
    - destruct (P k eq_refl) as (b & B1 & B2). apply (NK e0 b). exists a. rewrite EP, EW. tauto.
    - apply (NK e0 (kdf L w a)). exists a. rewrite EP, EW. tauto.
    - apply (NK e0 (kdf L [] a)). exists a. rewrite EP, EW. split; [exact A|]. split; [exact T0|]. exists []. tauto. }
  unfold Go.
  pose proof (new_salt_step g ns h1 s1 salt SG RS) as NS. cbv zeta in NS.
  set (x := match ns with None => _ | Some _ => _ end) in *.
  destruct NS as [(e & E & F)|(s2 & h2 & a & E & A & RA)].
  { left. exists e. destruct x as [[r x2] x3]. cbn [fst] in E. subst r. split; [reflexivity|].
    intros (_ & _ & _ & (b & B)). exact (F b B). }
  right. exists a. split; [exact A|]. rewrite E. destruct random; [reflexivity|]. pose proof (salt_given_len _ _ A) as LA.
  assert (forall w, get_pfk_string (h2 ++ [kdf L w a]) (set_pfk s2 (Some (length h2))) = hex_encode (kdf L w a)) as G.
  { intros w. unfold get_pfk_string. cbn [st_pfk set_pfk]. rewrite (proj2 (cell_last h2 _)). reflexivity. }
  destruct (g_password g) as [w|].
  - unfold derive_pfk_validated. destruct RA as (q & Q1 & Q2 & Q3). rewrite Q1, Q3.
    replace (len a <? 32) with false by lia. destruct (strong w); [|reflexivity]. cbn [negb alloc]. rewrite G. reflexivity.
  - destruct (ask_and_confirm strong l) as [[w|e| |] rest]; try reflexivity.
    rewrite (derive_ready1 h2 s2 w a RA LA), G. reflexivity.
Qed.

(** --pfk with the hexadecimal text of a key. *)
Lemma hex_key_given e s b x salt : Forall byte b -> len b = 32 -> x = hex_encode b -> salt_given (mkG s None None) salt ->
  forall key, key_given L e (mkG s (Some x) None) key <-> key = b.
Proof.
  clear U. intros FB LB EX SG key. pose proof (hex_of_text b x FB EX) as HT. unfold key_given. cbn [g_pfk g_password]. split.
  - intros (sl & _ & X & _). apply hex_text_decode in X, HT. congruence.
  - intros ->. exists salt. split; [exact SG|]. split; [exact HT|exact LB].
Qed.

Lemma gen_password strong l t g ns x : lib_ok L -> kdf_bytes L -> (forall w, In (Some w) l -> Forall byte w) ->
  (forall w, g_password g = Some w -> Forall byte w) ->
  cmd_gen_pfk L U strong l t g ns false = Ok x ->
  exists w, strong w = true /\
    (g_password g = Some w \/ g_password g = None /\ exists rest, chosen (fun w => strong w = true) l w rest) /\
    forall e s salt, salt_given (mkG s None None) salt ->
    forall key, key_given L e (mkG s (Some x) None) key <-> key_given L e (mkG (salt_option g ns) None (Some w)) key.
Proof.
  intros (_ & _ & _ & LK) KB TB PB H.
  destruct (gen_spec strong l t g ns false) as [(e & E & _)|(a & A & E)]; [congruence|]. rewrite E in H. clear E.
  assert (forall w, Forall byte w -> x = hex_encode (kdf L w a) -> forall e s salt, salt_given (mkG s None None) salt ->
    forall key, key_given L e (mkG s (Some x) None) key <-> key_given L e (mkG (salt_option g ns) None (Some w)) key) as K.
  { intros w FW EX e s salt SG key.
    rewrite (hex_key_given e s (kdf L w a) x salt (KB w a FW (salt_given_bytes _ _ A)) (LK w a) EX SG).
    unfold key_given. cbn [g_pfk g_password]. split.
    - intros ->. exists a. split; [exact A|reflexivity].
    - intros (b & B & ->). f_equal. exact (salt_given_one _ _ _ B A). }
  destruct (g_password g) as [w|].
  - destruct (strong w) eqn:S; [|discriminate]. injection H as H. exists w. split; [exact S|]. split; [left; reflexivity|].
    apply K; [apply PB; reflexivity|congruence].
  - destruct (ask_and_confirm strong l) as [[w|e| |] rest] eqn:Q; try discriminate. injection H as H.
    apply confirm_lemma in Q. pose proof Q as (p & _ & S & EL). exists w. split; [exact S|].
    split; [right; split; [reflexivity|exists rest; exact Q]|].
    apply K; [|congruence]. apply TB. rewrite EL. apply in_or_app. right. left. reflexivity.
Qed.

Lemma generated_fresh t x t' : generate_pfk t = Ok (x, t') \/ generate_salt t = Ok (x, t') ->
  exists draws, t = draws ++ t' /\ length draws = 32%nat /\ hex_text (map (fun w => w mod 256) draws) x.
Proof.
  unfold generate_pfk, generate_salt, read_bytes. intros H.
  destruct (Nat.leb 32 (length t)) eqn:T; [|destruct H; discriminate]. apply Nat.leb_le in T.
  assert (x = hex_encode (map (fun w => w mod 256) (firstn 32 t)) /\ t' = skipn 32 t) as (-> & ->) by (destruct H as [[=]|[=]]; auto).
  exists (firstn 32 t). split; [symmetry; apply firstn_skipn|]. split; [rewrite firstn_length; lia|].
  apply hex_of_text; [|reflexivity]. apply Forall_forall. intros y Y. apply in_map_iff in Y. destruct Y as (w & <- & _).
  unfold byte. pose proof (Z.mod_pos_bound w 256). lia.
Qed.

Lemma gen_random strong l t g ns x : cmd_gen_pfk L U strong l t g ns true = Ok x ->
  exists words rest, t = words ++ rest /\ length words = 32%nat /\
    forall e s salt, salt_given (mkG s None None) salt ->
    forall key, key_given L e (mkG s (Some x) None) key <-> key = map (fun w => w mod 256) words.
Proof.
  intros H. destruct (gen_spec strong l t g ns true) as [(e & E & _)|(a & A & E)]; [congruence|]. rewrite E in H. clear E.
  unfold generate_pfk, read_bytes in H. destruct (Nat.leb 32 (length t)) eqn:T; [|discriminate]. apply Nat.leb_le in T.
  injection H as H. exists (firstn 32 t), (skipn 32 t). split; [symmetry; apply firstn_skipn|].
  split; [rewrite firstn_length; lia|]. intros e s salt SG key.
  apply (hex_key_given e s _ x salt); [|unfold len; rewrite map_length, firstn_length; lia|symmetry; exact H|exact SG].
  apply Forall_forall. intros y Y. apply in_map_iff in Y. destruct Y as (w & <- & _).
  unfold byte. pose proof (Z.mod_pos_bound w 256). lia.
Qed.

Lemma gen_weak strong l t g ns w : g_password g = Some w -> strong w = false ->
  exists e, cmd_gen_pfk L U strong l t g ns false = Err e.
Proof.
  intros P S. destruct (gen_spec strong l t g ns false) as [(e & E & _)|(a & A & E)]; [exists e; exact E|].
  rewrite P, S in E. exists ErrWeakPassword. exact E.
Qed.

Lemma gen_prints strong l t g ns w rest : g_pfk g = None ->
  (exists a, salt_given g a) -> (exists a, salt_given (mkG (salt_option g ns) None None) a) ->
  (g_password g = Some w /\ strong w = true \/ g_password g = None /\ chosen (fun w => strong w = true) l w rest) ->
  exists x, cmd_gen_pfk L U strong l t g ns false = Ok x.
Proof.
  intros P S1 S2 W. destruct (gen_spec strong l t g ns false) as [(e & E & F)|(a & A & E)].
  { exfalso. apply F. split; [left; exact P|]. split; [intros k K; congruence|]. split; assumption. }
  rewrite E. destruct W as [(-> & ->)|(-> & C)]; [eexists; reflexivity|].
  apply confirm_lemma in C. rewrite C. eexists; reflexivity.
Qed.
End Gen.
