(** Lemmas on the options of New and on wiping PFK and salt. *)
From Verif Require Import Base Model_Unicode Model_Crand Model_Types Model_Functions Model_Station Spec_Persist Spec_Cli
  Spec_Options Proofs_Station Proofs_Heap Proofs_Keys Proofs_Persist Proofs_CliRun.

Definition decided {A} (says : opt -> A -> Prop) (o : opt) (a a' : A) : Prop :=
  says o a' \/ ((forall b, ~ says o b) /\ a' = a).

Lemma last_of_snoc {A} (says : opt -> A -> Prop) l o d a a' :
  last_of says l d a -> decided says o a a' -> last_of says (l ++ [o]) d a'.
Proof.
  intros H [D | [D ->]].
  - left. exists l, o, []. repeat split; auto.
  - destruct H as [(b & p & r & -> & S1 & N) | [N ->]].
    + left. exists b, p, (r ++ [o]). rewrite <- app_assoc. repeat split; auto.
      intros x c I. apply in_app_iff in I. destruct I as [I | [<- | []]]; auto.
    + right. split; auto. intros x c I. apply in_app_iff in I. destruct I as [I | [<- | []]]; auto.
Qed.

Section Fold.
Context (U : Uni) (init : station * mem) (Inv : station * mem -> Prop) (good : opt -> Prop)
  (I0 : Inv init) (step : forall sh o, good o -> Inv sh -> Inv (apply_opt U sh o)).
Lemma fold_inv l : (forall o, In o l -> good o) -> Inv (fold_left (apply_opt U) l init).
Proof.
  induction l as [|o l IH] using rev_ind; intros G; [exact I0|].
  rewrite fold_left_app. cbn [fold_left]. apply step; [apply G, in_app_iff; right; left; reflexivity|].
  apply IH. intros x I. apply G, in_app_iff. left; exact I.
Qed.
Lemma fold_last {A} (says : opt -> A -> Prop) (f : station * mem -> A) :
  (forall sh o, good o -> Inv sh -> decided says o (f sh) (f (apply_opt U sh o))) ->
  forall l, (forall o, In o l -> good o) ->
  last_of says l (f init) (f (fold_left (apply_opt U) l init)).
Proof.
  intros D. induction l as [|o l IH] using rev_ind; intros G.
  - right. split; [intros x b []|reflexivity].
  - assert (G' : forall x, In x l -> good x) by (intros x I; apply G, in_app_iff; left; exact I).
    rewrite fold_left_app. cbn [fold_left]. eapply last_of_snoc; [apply IH; exact G'|].
    apply D; [apply G, in_app_iff; right; left; reflexivity | apply fold_inv; exact G'].
Qed.
End Fold.

(** Memory only grows; PFK and salt are in it. *)
Definition grown (h : mem) (sh : station * mem) : Prop :=
  exists x, snd sh = h ++ x /\
  (forall p, st_pfk (fst sh) = Some p -> (p < length (snd sh))%nat) /\
  (forall p, st_salt (fst sh) = Some p -> (p < length (snd sh))%nat).

Definition addressed (h : mem) (o : opt) : Prop :=
  forall p, o = WithPFK (Some p) \/ o = WithSalt (Some p) -> (p < length h)%nat.

Lemma grown_step U h sh o : addressed h o -> grown h sh -> grown h (apply_opt U sh o).
Proof.
  destruct sh as [s h1]. intros A (x & E & P & Q). cbn [fst snd] in *. subst h1.
  assert (same : forall s', st_pfk s' = st_pfk s -> st_salt s' = st_salt s -> grown h (s', h ++ x)).
  { intros s' E1 E2. exists x. cbn [fst snd]. rewrite E1, E2. auto. }
  assert (new : forall s' b, (forall p, st_pfk s' = Some p -> (p <= length (h ++ x))%nat) ->
     (forall p, st_salt s' = Some p -> (p <= length (h ++ x))%nat) -> grown h (s', (h ++ x) ++ [b])).
  { intros s' b E1 E2. exists (x ++ [b]). cbn [fst snd]. rewrite (app_length (h ++ x)). cbn [length].
    rewrite app_assoc. split; [reflexivity|]. split; intros p Y; [apply E1 in Y | apply E2 in Y]; lia. }
  assert (A' : forall p, o = WithPFK (Some p) \/ o = WithSalt (Some p) -> (p < length (h ++ x))%nat).
  { intros p Y. apply A in Y. rewrite app_length. lia. }
  destruct o as [[p|] | y | [p|] | y | y | n | n | n | n | y | b | b | b]; unfold apply_opt; cbv zeta;
    try (apply same; reflexivity).
  - exists x. cbn [fst snd]. split; [reflexivity|]. split; [|exact Q].
    intros q Y. cbn [st_pfk set_pfk] in Y. destruct (len (cell (h ++ x) p) =? 32); [|discriminate].
    injection Y as <-. apply A'. left; reflexivity.
  - exists x. cbn [fst snd]. split; [reflexivity|]. split; [discriminate|exact Q].
  - destruct (negb (len y =? 64)); [exists x; cbn [fst snd]; split; [reflexivity|]; split; [discriminate|exact Q]|].
    destruct (hex_decode y); [|exists x; cbn [fst snd]; split; [reflexivity|]; split; [discriminate|exact Q]].
    unfold alloc. apply new; intros p Y; [injection Y as <-; lia | apply Q in Y; lia].
  - exists x. cbn [fst snd]. split; [reflexivity|]. split; [exact P|].
    intros q Y. cbn [st_salt set_salt] in Y. destruct (len (cell (h ++ x) p) <? 32); [discriminate|].
    injection Y as <-. apply A'. right; reflexivity.
  - exists x. cbn [fst snd]. split; [reflexivity|]. split; [exact P|discriminate].
  - destruct (hex_decode y); [|exists x; cbn [fst snd]; split; [reflexivity|]; split; [exact P|discriminate]].
    destruct (len l <? 32); [exists x; cbn [fst snd]; split; [reflexivity|]; split; [exact P|discriminate]|].
    unfold alloc. apply new; intros p Y; [apply P in Y; lia | injection Y as <-; lia].
  - unfold set_call_sign. cbv zeta. destruct (len _ <? 2); cbn [snd]; apply same; reflexivity.
Qed.

Lemma hex_len b x : hex_text b x -> len x = 2 * len b.
Proof.
  intros [_ E]. apply (f_equal (@length rune)) in E. rewrite map_length in E. unfold len. rewrite E. clear.
  induction b as [|v b IH]; [reflexivity|]. cbn [flat_map length app] in *. lia.
Qed.
Lemma hex_none x : hex_decode x = None -> forall b, ~ hex_text b x.
Proof. intros E b T. apply hex_text_decode in T. congruence. Qed.

(** The holding after the memory has grown. *)
Lemma cell_app h x p : (p < length h)%nat -> cell (h ++ x) p = cell h p.
Proof. intros L. unfold cell. apply app_nth1. exact L. Qed.
Lemma holding_app h h1 b p : (forall q, p = Some q -> (q < length h1)%nat) ->
  holding h (h1 ++ [b]) p = holding h h1 p.
Proof. intros L. destruct p as [q|]; [|reflexivity]. unfold holding. rewrite cell_app by (apply L; reflexivity). reflexivity. Qed.
Lemma holding_new h x b : holding h ((h ++ x) ++ [b]) (Some (length (h ++ x))) = Some (Own b).
Proof.
  unfold holding. rewrite app_length. replace (Nat.ltb (length h + length x) (length h)) with false.
  - rewrite <- app_length, cell_new. reflexivity.
  - symmetry. apply Nat.ltb_ge. lia.
Qed.
Lemma holding_callers h x p : (p < length h)%nat -> holding h (h ++ x) (Some p) = Some (Callers p (cell h p)).
Proof. intros L. unfold holding. rewrite (proj2 (Nat.ltb_lt _ _) L), cell_app by exact L. reflexivity. Qed.

Ltac unsaid := right; split; [let b := fresh in let H := fresh in intros b H; unfold says_callsign, says_pfk, says_salt, says_bytes in H;
  repeat match goal with
  | X : _ \/ _ |- _ => destruct X
  | X : exists _, _ |- _ => destruct X
  | X : _ /\ _ |- _ => destruct X end; congruence | ].

Lemma pfk_step U h sh o : addressed h o -> grown h sh ->
  decided (says_pfk h) o (holding h (snd sh) (st_pfk (fst sh)))
    (holding h (snd (apply_opt U sh o)) (st_pfk (fst (apply_opt U sh o)))).
Proof.
  destruct sh as [s h1]. intros A (x & E & P & Q). cbn [fst snd] in *. subst h1.
  destruct o as [[p|] | y | [p|] | y | y | n | n | n | n | y | b | b | b]; unfold apply_opt; cbv zeta.
  - left. right. left. exists p. split; [reflexivity|]. cbn [fst snd st_pfk set_pfk].
    assert (L : (p < length h)%nat) by (apply A; left; reflexivity). rewrite cell_app by exact L.
    destruct (len (cell h p) =? 32) eqn:Z1; [left | right]; (split; [lia|]); [apply holding_callers; exact L | reflexivity].
  - left. left. split; reflexivity.
  - left. right. right. exists y. split; [reflexivity|]. destruct (len y =? 64) eqn:L; cbn [negb].
    + destruct (hex_decode y) as [b|] eqn:D.
      * left. exists b. apply hex_decode_text in D. split; [exact D|]. pose proof (hex_len _ _ D).
        split; [lia|]. unfold alloc. cbn [fst snd st_pfk set_pfk]. apply holding_new.
      * right. split; [|reflexivity]. intros b T _. revert T. apply hex_none; exact D.
    + right. split; [|reflexivity]. intros b T Lb. apply hex_len in T. lia.
  - unsaid. reflexivity.
  - unsaid. reflexivity.
  - unsaid. destruct (hex_decode y); [|reflexivity]. destruct (len l <? 32); [reflexivity|].
    unfold alloc. cbn [fst snd st_pfk set_salt]. apply holding_app. exact P.
  - unsaid. unfold set_call_sign. cbv zeta. destruct (len _ <? 2); reflexivity.
  - unsaid. reflexivity.
  - unsaid. reflexivity.
  - unsaid. reflexivity.
  - unsaid. reflexivity.
  - unsaid. reflexivity.
  - unsaid. reflexivity.
  - unsaid. reflexivity.
  - unsaid. reflexivity.
Qed.

Lemma salt_step U h sh o : addressed h o -> grown h sh ->
  decided (says_salt h) o (holding h (snd sh) (st_salt (fst sh)))
    (holding h (snd (apply_opt U sh o)) (st_salt (fst (apply_opt U sh o)))).
Proof.
  destruct sh as [s h1]. intros A (x & E & P & Q). cbn [fst snd] in *. subst h1.
  destruct o as [[p|] | y | [p|] | y | y | n | n | n | n | y | b | b | b]; unfold apply_opt; cbv zeta.
  - unsaid. reflexivity.
  - unsaid. reflexivity.
  - unsaid. destruct (negb (len y =? 64)); [reflexivity|]. destruct (hex_decode y); [|reflexivity].
    unfold alloc. cbn [fst snd st_salt set_pfk]. apply holding_app. exact Q.
  - left. right. left. exists p. split; [reflexivity|]. cbn [fst snd st_salt set_salt].
    assert (L : (p < length h)%nat) by (apply A; right; reflexivity). rewrite cell_app by exact L.
    destruct (len (cell h p) <? 32) eqn:Z1; [right | left]; (split; [lia|]); [reflexivity | apply holding_callers; exact L].
  - left. left. split; reflexivity.
  - left. right. right. exists y. split; [reflexivity|]. destruct (hex_decode y) as [b|] eqn:D.
    + destruct (len b <? 32) eqn:L.
      * right. split; [|reflexivity]. intros c T Lc. apply hex_text_decode in T. rewrite D in T. injection T as <-. lia.
      * left. exists b. apply hex_decode_text in D. split; [exact D|].
        split; [lia|]. unfold alloc. cbn [fst snd st_salt set_salt]. apply holding_new.
    + right. split; [|reflexivity]. intros b T _. revert T. apply hex_none; exact D.
  - unsaid. unfold set_call_sign. cbv zeta. destruct (len _ <? 2); reflexivity.
  - unsaid. reflexivity.
  - unsaid. reflexivity.
  - unsaid. reflexivity.
  - unsaid. reflexivity.
  - unsaid. reflexivity.
  - unsaid. reflexivity.
  - unsaid. reflexivity.
  - unsaid. reflexivity.
Qed.

(** Settings that one kind of option sets unconditionally. *)
Ltac plain := 
  let s := fresh "s" in let h := fresh "h" in let o := fresh "o" in
  intros [s h] o _ _; unfold apply_opt; cbv zeta; cbn [fst];
  destruct o as [[p|] | y | [p|] | y | y | n | n | n | n | y | b | b | b];
  repeat match goal with
  | |- context [if ?c then _ else _] => destruct c
  | |- context [hex_decode ?y] => destruct (hex_decode y)
  end; unfold alloc, set_call_sign; cbv zeta;
  repeat match goal with
  | |- context [if ?c then _ else _] => destruct c
  end;
  first [left; reflexivity | right; split; [intros ? ?; discriminate | reflexivity]].

Lemma callsign_step U sh o :
  decided (says_callsign U) o (i_callsign (st_inst (fst sh))) (i_callsign (st_inst (fst (apply_opt U sh o)))).
Proof.
  destruct sh as [s h].
  destruct o as [[p|] | y | [p|] | y | y | n | n | n | n | y | b | b | b]; unfold apply_opt; cbv zeta;
    try (unsaid; reflexivity).
  - unsaid. destruct (negb (len y =? 64)); [reflexivity|]. destruct (hex_decode y); reflexivity.
  - unsaid. destruct (hex_decode y); [|reflexivity]. destruct (len l <? 32); reflexivity.
  - unfold set_call_sign. cbv zeta. destruct (len (str_upper U (trim_space U y)) <? 2) eqn:L.
    + right. split; [|reflexivity]. intros b (z & Ez & -> & Lz). injection Ez as <-. lia.
    + left. exists y. cbn [fst snd set_inst st_inst i_callsign]. repeat split. lia.
Qed.

Lemma no_items U opts sh : i_keys (st_inst (fst sh)) = [] -> i_messages (st_inst (fst sh)) = [] ->
  i_keys (st_inst (fst (fold_left (apply_opt U) opts sh))) = [] /\
  i_messages (st_inst (fst (fold_left (apply_opt U) opts sh))) = [].
Proof.
  revert sh. induction opts as [|o opts IH]; intros sh K M; [split; assumption|]. cbn [fold_left]. apply IH; clear IH;
  destruct sh as [s h]; destruct o as [[p|] | y | [p|] | y | y | n | n | n | n | y | b | b | b]; unfold apply_opt; cbv zeta;
    repeat match goal with
    | |- context [if ?c then _ else _] => destruct c
    | |- context [hex_decode ?y] => destruct (hex_decode y)
    end; unfold alloc, set_call_sign; cbv zeta;
    repeat match goal with
    | |- context [if ?c then _ else _] => destruct c
    end; assumption.
Qed.

Lemma options_lemma U h opts s h' : callers_addresses h opts -> new_station U h opts = (s, h') ->
  last_of (fun o n => o = WithGroupSize n) opts 5 (i_groupsize (st_inst s)) /\
  last_of (fun o n => o = WithKeyLength n) opts 350 (i_keylength (st_inst s)) /\
  last_of (fun o n => o = WithColumns n) opts 110 (i_columns (st_inst s)) /\
  last_of (fun o n => o = WithKeyColumns n) opts 30 (i_keycolumns (st_inst s)) /\
  last_of (fun o p => o = WithPersistence p) opts default_persistence (st_path s) /\
  last_of (fun o b => o = WithOverwritePersistenceIfExists b) opts false (st_over s) /\
  last_of (fun o b => o = WithInteractive b) opts false (st_inter s) /\
  last_of (fun o b => o = WithOverwriteExistingKeysOnImport b) opts false (st_overkeys s) /\
  last_of (says_callsign U) opts [] (i_callsign (st_inst s)) /\
  last_of (says_pfk h) opts None (holding h h' (st_pfk s)) /\
  last_of (says_salt h) opts (Some (Own default_salt)) (holding h h' (st_salt s)) /\
  i_keys (st_inst s) = [] /\ i_messages (st_inst s) = [] /\
  exists x, h' = h ++ x.
Proof.
  intros A E. unfold new_station, alloc in E.
  set (init := (mkSt default_persistence None (Some (length h)) false false false (mkInst 5 350 110 30 [] [] []),
    h ++ [default_salt])) in *. change (fold_left (apply_opt U) opts init = (s, h')) in E.
  assert (G : forall o, In o opts -> addressed h o).
  { intros o I p [-> | ->]; apply A; [left | right]; exact I. }
  assert (I0 : grown h init).
  { exists [default_salt]. split; [reflexivity|]. split; [discriminate|].
    intros p Y. injection Y as <-. unfold init. cbn [snd]. rewrite app_length. cbn [length]. lia. }
  assert (ST := fun sh o a b => grown_step U h sh o a b).
  assert (F := fun B says f D => @fold_last U init (grown h) (addressed h) I0 ST B says f D opts G).
  assert (W := fold_inv U init (grown h) (addressed h) I0 ST opts G).
  pose proof (no_items U opts init eq_refl eq_refl) as N.
  assert (Es : s = fst (fold_left (apply_opt U) opts init)) by (rewrite E; reflexivity).
  assert (Eh : h' = snd (fold_left (apply_opt U) opts init)) by (rewrite E; reflexivity).
  rewrite Es, Eh.
  split; [refine (F _ _ (fun sh => i_groupsize (st_inst (fst sh))) _); plain|].
  split; [refine (F _ _ (fun sh => i_keylength (st_inst (fst sh))) _); plain|].
  split; [refine (F _ _ (fun sh => i_columns (st_inst (fst sh))) _); plain|].
  split; [refine (F _ _ (fun sh => i_keycolumns (st_inst (fst sh))) _); plain|].
  split; [refine (F _ _ (fun sh => st_path (fst sh)) _); plain|].
  split; [refine (F _ _ (fun sh => st_over (fst sh)) _); plain|].
  split; [refine (F _ _ (fun sh => st_inter (fst sh)) _); plain|].
  split; [refine (F _ _ (fun sh => st_overkeys (fst sh)) _); plain|].
  split; [refine (F _ _ (fun sh => i_callsign (st_inst (fst sh))) _); intros sh o _ _; apply callsign_step|].
  split; [refine (F _ _ (fun sh => holding h (snd sh) (st_pfk (fst sh))) _); intros sh o X Y; apply pfk_step; assumption|].
  split.
  { replace (Some (Own default_salt)) with (holding h (snd init) (st_salt (fst init)))
      by (pose proof (holding_new h [] default_salt) as X; rewrite !app_nil_r in X; exact X).
    refine (F _ _ (fun sh => holding h (snd sh) (st_salt (fst sh))) _). intros sh o X Y; apply salt_step; assumption. }
  split; [apply N|]. split; [apply N|]. destruct W as (x & W & _). exists x. exact W.
Qed.

(** Wiping of PFK and salt. *)
Lemma wipe_bytes_some h p t : (length (cell h p) <= length t)%nat ->
  wipe_bytes h (Some p) t = (list_update h p [], skipn (length (cell h p)) t).
Proof. intros L. unfold wipe_bytes, read_bytes. rewrite (proj2 (Nat.leb_le _ _) L). reflexivity. Qed.

Lemma skip_add {A} (l : list A) : forall a b, skipn b (skipn a l) = skipn (a + b) l.
Proof.
  induction l as [|x l IH]; intros [|a] b; try reflexivity; [destruct b; reflexivity|].
  cbn [skipn Nat.add]. apply IH.
Qed.
Lemma cell_wiped h p : cell (list_update h p []) p = [].
Proof.
  unfold cell. destruct (Nat.ltb p (length h)) eqn:L.
  - rewrite nth_list_update, Nat.eqb_refl, L. reflexivity.
  - apply Nat.ltb_ge in L. apply nth_overflow. rewrite list_update_length. exact L.
Qed.
Lemma cell_kept h p q : p <> q -> cell (list_update h p []) q = cell h q.
Proof. intros N. unfold cell. apply update_nth_other. exact N. Qed.

Lemma wipe_station_lemma h s t s' h' t' : wipe_station h s t = (s', h', t') ->
  (forall q, st_pfk s = Some q -> st_salt s <> Some q) ->
  (length (bytes_at h (st_pfk s)) + length (bytes_at h (st_salt s)) <= length t)%nat ->
  bytes_at h' (st_pfk s) = [] /\ bytes_at h' (st_salt s) = [] /\
  (forall q, st_pfk s <> Some q -> st_salt s <> Some q -> cell h' q = cell h q) /\
  i_keys (st_inst s') = [] /\ i_messages (st_inst s') = [] /\
  exists used, t = used ++ t' /\ length used = (length (bytes_at h (st_pfk s)) + length (bytes_at h (st_salt s)))%nat.
Proof.
  intros E D L. unfold wipe_station in E.
  assert (C : forall (g : mem) p (w : tape), (length (bytes_at g p) <= length w)%nat ->
     wipe_bytes g p w = (match p with Some q => list_update g q [] | None => g end, skipn (length (bytes_at g p)) w)).
  { intros g [q|] w Lw; [apply wipe_bytes_some; exact Lw | reflexivity]. }
  rewrite C in E by lia. set (h1 := match st_pfk s with Some q => list_update h q [] | None => h end) in E.
  assert (B : bytes_at h1 (st_salt s) = bytes_at h (st_salt s)).
  { unfold h1, bytes_at. destruct (st_salt s) as [q|] eqn:S1; [|reflexivity]. destruct (st_pfk s) as [p|] eqn:S2; [|reflexivity].
    apply cell_kept. intros ->. apply (D q); reflexivity. }
  rewrite C in E by (rewrite B, skipn_length; lia). injection E as <- <- <-. rewrite B.
  split. { unfold bytes_at, h1. destruct (st_pfk s) as [p|] eqn:S2; [|reflexivity].
    destruct (st_salt s) as [q|] eqn:S1; [|apply cell_wiped]. rewrite cell_kept; [apply cell_wiped|].
    intros ->. apply (D p); reflexivity. }
  split. { unfold bytes_at. destruct (st_salt s) as [q|]; [apply cell_wiped|reflexivity]. }
  split. { intros q N1 N2. unfold h1. destruct (st_salt s) as [a|]; destruct (st_pfk s) as [b|];
    rewrite ?cell_kept by congruence; reflexivity. }
  split; [reflexivity|]. split; [reflexivity|].
  exists (firstn (length (bytes_at h (st_pfk s)) + length (bytes_at h (st_salt s))) t). split.
  - rewrite skip_add. symmetry. apply firstn_skipn.
  - rewrite firstn_length. lia.
Qed.
