(** Lemmas about Save, Load, ExportKeys and ImportKeys on complete instances. *)
From Verif Require Import Base Model_Unicode Model_Functions Model_Crand Model_Types Model_Keys Model_Import
  Model_Station Model_Persist Spec_Persist Proofs_Station.

Section WithLib.
Context (L : lib).

Lemma resolve_name e s p : len (st_path s) <> 0 ->
  (resolve L e (st_path s) = Some p <-> file_name L e s p).
Proof.
  unfold file_name. generalize (st_path s) as x. intros x N.
  assert (x <> []) as N' by (intros ->; apply N; reflexivity).
  destruct x as [|a [|b rest]]; [congruence| |].
  - cbn [resolve]. split.
    + intros [=<-]. right. split; [exact N'|]. split; [|reflexivity]. intros r. discriminate.
    + intros [(r & d & H & _)|(_ & _ & ->)]; [discriminate|reflexivity].
  - unfold resolve. destruct ((a =? 126) && (b =? 47)) eqn:E.
    + assert (a = 126) by lia. assert (b = 47) by lia. subst a b. destruct (e_home e) as [d|].
      * split.
        -- intros [=<-]. left. exists rest, d. repeat split; reflexivity.
        -- intros [(r & d' & [=<-] & [=<-] & ->)|(_ & F & _)]; [reflexivity|exfalso; exact (F rest eq_refl)].
      * split; [discriminate|]. intros [(r & d' & _ & [=] & _)|(_ & F & _)]. exfalso; exact (F rest eq_refl).
    + split.
      * intros [=<-]. right. split; [exact N'|]. split; [|reflexivity]. intros r [=-> -> _]. discriminate.
      * intros [(r & d & [=-> -> _] & _)|(_ & _ & ->)]; [discriminate|reflexivity].
Qed.
Lemma file_name_nonempty e s p : file_name L e s p -> len (st_path s) <> 0.
Proof.
  intros [(r & d & -> & _)|(N & _)].
  - unfold len. rewrite app_length. cbn [length]. lia.
  - destruct (st_path s); [congruence|]. unfold len. cbn [length]. lia.
Qed.
Lemma file_name_fun e s p q : file_name L e s p -> file_name L e s q -> p = q.
Proof.
  intros H K. pose proof (file_name_nonempty _ _ _ H) as N.
  apply resolve_name in H; [|exact N]. apply resolve_name in K; [|exact N]. congruence.
Qed.

Lemma obtain_yes e h s key : file_key L e h s key ->
  exists s2 h2, obtain_key L e h s = (Ok tt, s2, h2) /\ pfk_bytes h2 s2 = key /\
    st_inst s2 = st_inst s /\ st_path s2 = st_path s /\ st_over s2 = st_over s /\ (exists q, st_pfk s2 = Some q) /\
    exists l, h2 = h ++ l.
Proof.
  unfold file_key, obtain_key. intros [(p & E & ->)|(E & I & T & pwd & q & P & S & G & ->)]; rewrite E.
  - exists s, h. unfold pfk_bytes. rewrite E. repeat split; eauto. exists []. symmetry. apply app_nil_r.
  - rewrite I, T, P. unfold derive_pfk. rewrite S. replace (len (cell h q) <? 32) with false by lia.
    unfold alloc. eexists _, _. split; [reflexivity|]. unfold pfk_bytes. cbn [st_pfk set_pfk].
    rewrite cell_new. repeat split; eauto.
Qed.
Lemma obtain_no e h s : (forall key, ~ file_key L e h s key) ->
  exists x, obtain_key L e h s = (Err x, s, h).
Proof.
  intros H. unfold obtain_key. destruct (st_pfk s) as [p|] eqn:E.
  { exfalso. apply (H (cell h p)). left. eauto. }
  destruct (st_inter s) eqn:I; [|cbn [andb]; eauto]. destruct (e_term e) eqn:T; [|cbn [andb]; eauto].
  cbn [andb]. destruct (e_password e) as [pwd|] eqn:P; [|eauto]. unfold derive_pfk.
  destruct (st_salt s) as [q|] eqn:S; [|eauto]. destruct (len (cell h q) <? 32) eqn:G; [eauto|].
  exfalso. apply (H (kdf L pwd (cell h q))). right. repeat split; auto. exists pwd, q. repeat split; auto. lia.
Qed.
Lemma file_key_dec e h s : (exists key, file_key L e h s key) \/ (forall key, ~ file_key L e h s key).
Proof.
  unfold file_key. destruct (st_pfk s) as [p|] eqn:E; [left; eauto|].
  destruct (st_inter s) eqn:I; [|right; intros key [(q & [=] & _)|(_ & [=] & _)]].
  destruct (e_term e) eqn:T; [|right; intros key [(q & [=] & _)|(_ & _ & [=] & _)]].
  destruct (e_password e) as [pwd|] eqn:P;
    [|right; intros key [(q & [=] & _)|(_ & _ & _ & pwd & q & [=] & _)]].
  destruct (st_salt s) as [q|] eqn:S;
    [|right; intros key [(q & [=] & _)|(_ & _ & _ & pwd' & q & _ & [=] & _)]].
  destruct (len (cell h q) <? 32) eqn:G.
  - right. intros key [(r & [=] & _)|(_ & _ & _ & pwd' & r & _ & [=<-] & K & _)]. lia.
  - left. exists (kdf L pwd (cell h q)). right. repeat split. exists pwd, q. repeat split. lia.
Qed.
Lemma file_key_fun e h s k1 k2 : file_key L e h s k1 -> file_key L e h s k2 -> k1 = k2.
Proof.
  intros H K. destruct (obtain_yes _ _ _ _ H) as (s1 & h1 & E1 & <- & _).
  destruct (obtain_yes _ _ _ _ K) as (s2 & h2 & E2 & <- & _). congruence.
Qed.
Lemma file_key_path e h s p key : file_key L e h (set_path s p) key <-> file_key L e h s key.
Proof. reflexivity. Qed.

(** What Save does, in full. *)
Definition save_result (e : env) (p key : list Z) (i : inst) : res unit * list effect :=
  match array32 key with
  | None => (Panic, [Truncate p])
  | Some k =>
      let ps := pieces (e_cuts e) (seal L k (e_nonce e) (encode L i)) in
      (if fails_early e ps then Err ErrIO else Ok tt, Truncate p :: map (Append p) (written e ps))
  end.
Lemma save_yes e f h s p key : file_name L e s p -> e_stat_err e = false -> may_write e f s p ->
  file_key L e h s key -> e_open e = true ->
  exists s' h', save L e f h s =
    (fst (save_result e p key (st_inst s)), s', h', snd (save_result e p key (st_inst s))) /\
    pfk_bytes h' s' = key /\ st_inst s' = st_inst s /\ st_path s' = p /\ (exists q, st_pfk s' = Some q) /\
    exists l, h' = h ++ l.
Proof.
  intros N S W K O. pose proof (file_name_nonempty _ _ _ N) as NE.
  destruct (obtain_yes e h (set_path s p) key K) as (s2 & h2 & OB & PB & IN & PA & _ & PF & HL).
  unfold save. replace (len (st_path s) =? 0) with false by lia.
  apply resolve_name in N; [|exact NE]. rewrite N, S. cbv zeta. rewrite OB, O, PB. cbn [negb].
  unfold save_result. cbn [st_inst set_path st_path] in IN, PA.
  exists s2, h2. split; [|auto]. rewrite IN.
  assert (forall x : res unit * station * mem * list effect,
    match f p with
    | None => x
    | Some _ =>
      if st_over (set_path s p) then x
      else if st_inter (set_path s p) && e_term e then
        match e_confirm e with
        | None => (Err ErrPrompt, set_path s p, h, [])
        | Some false => (Ok tt, set_path s p, h, [])
        | Some true => x
        end
      else (Err ErrFileExists, set_path s p, h, [])
    end = x) as G.
  { intros x. cbn [st_over st_inter set_path]. destruct W as [->|[->|(-> & -> & ->)]]; [reflexivity| |].
    - destruct (f p); reflexivity.
    - destruct (f p); [|reflexivity]. destruct (st_over s); reflexivity. }
  rewrite G. destruct (array32 key); reflexivity.
Qed.
Lemma save_no e f h s : (forall p key, ~ (file_name L e s p /\ e_stat_err e = false /\ may_write e f s p /\
  file_key L e h s key /\ e_open e = true)) ->
  exists r s' h', save L e f h s = (r, s', h', []) /\ st_inst s' = st_inst s /\
    (r = Ok tt -> exists p, file_name L e s p /\ declined e f s p) /\ r <> Panic /\ r <> Diverge.
Proof.
  intros H. unfold save. destruct (len (st_path s) =? 0) eqn:N0.
  { do 3 eexists. repeat split; discriminate. }
  destruct (resolve L e (st_path s)) as [p|] eqn:R; [|do 3 eexists; repeat split; discriminate].
  apply resolve_name in R; [|lia]. cbv zeta.
  destruct (e_stat_err e) eqn:S; [do 3 eexists; repeat split; discriminate|].
  assert (may_write e f s p -> exists r s' h',
    match obtain_key L e h (set_path s p) with
    | (Ok _, s2, h2) =>
        if negb (e_open e) then (Err ErrIO, s2, h2, [])
        else match array32 (pfk_bytes h2 s2) with
        | None => (Panic, s2, h2, [Truncate p])
        | Some key =>
            (if fails_early e (pieces (e_cuts e) (seal L key (e_nonce e) (encode L (st_inst s2)))) then Err ErrIO else Ok tt, s2, h2,
             Truncate p :: map (Append p) (written e (pieces (e_cuts e) (seal L key (e_nonce e) (encode L (st_inst s2))))))
        end
    | (Err x, s2, h2) => (Err x, s2, h2, [])
    | (Panic, s2, h2) => (Panic, s2, h2, [])
    | (Diverge, s2, h2) => (Diverge, s2, h2, [])
    end = (r, s', h', @nil effect) /\ st_inst s' = st_inst s /\ (r = Ok tt -> exists p, file_name L e s p /\ declined e f s p) /\
    r <> Panic /\ r <> Diverge) as G.
  { intros W. destruct (file_key_dec e h s) as [(key & K)|K].
    - destruct (obtain_yes e h (set_path s p) key K) as (s2 & h2 & -> & _ & IN & _).
      destruct (e_open e) eqn:O; [exfalso; apply (H p key); repeat split; auto|].
      do 3 eexists. split; [reflexivity|]. repeat split; try discriminate. exact IN.
    - destruct (obtain_no e h (set_path s p) K) as (x & ->). do 3 eexists. split; [reflexivity|].
      repeat split; discriminate. }
  destruct (f p) as [c|] eqn:F; [|apply G; left; exact F]. cbn [st_over st_inter set_path].
  destruct (st_over s) eqn:O; [apply G; right; left; exact O|].
  destruct (st_inter s) eqn:I; [|do 3 eexists; repeat split; discriminate].
  destruct (e_term e) eqn:T; [|do 3 eexists; repeat split; discriminate]. cbn [andb].
  destruct (e_confirm e) as [[|]|] eqn:C; [apply G; right; right; repeat split; auto| |].
  - do 3 eexists. split; [reflexivity|]. repeat split; try discriminate. intros _. exists p. split; [exact R|].
    repeat split; auto. rewrite F. discriminate.
  - do 3 eexists. repeat split; discriminate.
Qed.

(** Effects on the file. *)
Lemma effects_same p l f : forall c, f p = Some c ->
  apply_effects f (map (Append p) l) p = Some (c ++ concat l).
Proof.
  revert f. induction l as [|b l IH]; intros f c F; cbn [map apply_effects fold_left concat].
  - rewrite app_nil_r. exact F.
  - unfold apply_effects in IH. rewrite (IH (apply_effect f (Append p b)) (c ++ b)); [rewrite app_assoc; reflexivity|].
    unfold apply_effect. cbn [target]. destruct (list_eq_dec Z.eq_dec p p); [|congruence]. rewrite F. reflexivity.
Qed.
Lemma effects_file p l f : apply_effects f (Truncate p :: map (Append p) l) p = Some (concat l).
Proof.
  change (apply_effects f (Truncate p :: map (Append p) l)) with
    (apply_effects (apply_effect f (Truncate p)) (map (Append p) l)).
  rewrite (effects_same p l _ []); [reflexivity|]. unfold apply_effect. cbn [target].
  destruct (list_eq_dec Z.eq_dec p p); [reflexivity|congruence].
Qed.
Lemma effects_other p xs f q : (forall x, In x xs -> target x = p) -> q <> p -> apply_effects f xs q = f q.
Proof.
  intros H N. revert f. induction xs as [|x xs IH]; intros f; [reflexivity|].
  cbn [apply_effects fold_left]. unfold apply_effects in IH. rewrite IH by (intros y Y; apply H; right; exact Y).
  unfold apply_effect. rewrite (H x) by (left; reflexivity).
  destruct (list_eq_dec Z.eq_dec q p); [congruence|reflexivity].
Qed.

Lemma pieces_concat cuts : forall b, concat (pieces cuts b) = b.
Proof.
  induction cuts as [|n cuts IH]; intros b; cbn [pieces concat].
  - apply app_nil_r.
  - rewrite IH. apply firstn_skipn.
Qed.
Lemma concat_firstn_prefix {A} (l : list (list A)) : forall n, exists r, concat (firstn n l) ++ r = concat l.
Proof.
  induction l as [|x l IH]; intros [|n]; cbn [firstn concat]; [exists []; reflexivity|exists []; reflexivity|eexists; reflexivity|].
  destruct (IH n) as (r & R). exists r. rewrite <- app_assoc, R. reflexivity.
Qed.
Lemma partial_prefix {A} (l : list (list A)) : forall i n, exists r,
  concat (firstn i l ++ (match nth_error l i with Some p => [firstn n p] | None => [] end)) ++ r = concat l.
Proof.
  induction l as [|x l IH]; intros [|i] n; cbn [firstn nth_error concat app].
  - exists []. reflexivity.
  - exists []. reflexivity.
  - exists (skipn n x ++ concat l). rewrite app_nil_r, app_assoc, firstn_skipn. reflexivity.
  - destruct (IH i n) as (r & R). exists r. rewrite <- app_assoc, R. reflexivity.
Qed.
Lemma written_prefix e ps n : exists r, concat (firstn n (written e ps)) ++ r = concat ps.
Proof.
  destruct (concat_firstn_prefix (written e ps) n) as (r & R).
  assert (exists r', concat (written e ps) ++ r' = concat ps) as (r' & R').
  { unfold written. destruct (e_fail e) as [(i, k)|]; [apply partial_prefix|]. exists []. apply app_nil_r. }
  exists (r ++ r'). rewrite app_assoc, R, R'. reflexivity.
Qed.
Lemma written_all e ps : e_fail e = None \/
  (exists i n, e_fail e = Some (i, n) /\ (i < e_early e)%nat) /\ fails_early e ps = false ->
  written e ps = ps.
Proof.
  unfold written, fails_early. intros [->|((i & n & -> & G) & F)]; [reflexivity|].
  replace (Nat.ltb i (e_early e)) with true in F by lia. cbn [andb] in F.
  rewrite firstn_all2 by lia. destruct (nth_error ps i) eqn:N; [|apply app_nil_r].
  assert (i < length ps)%nat by (apply nth_error_Some; congruence). lia.
Qed.

(** Crash points. *)
Lemma firstn_effects p l n : firstn n (Truncate p :: map (Append p) l) = [] \/
  firstn n (Truncate p :: map (Append p) l) = Truncate p :: map (Append p) (firstn (n - 1) l).
Proof.
  destruct n as [|n]; [left; reflexivity|]. right. cbn [firstn]. rewrite firstn_map.
  replace (S n - 1)%nat with n by lia. reflexivity.
Qed.

Lemma save_dec e f h s :
  (exists p key, file_name L e s p /\ e_stat_err e = false /\ may_write e f s p /\
     file_key L e h s key /\ e_open e = true) \/
  (forall p key, ~ (file_name L e s p /\ e_stat_err e = false /\ may_write e f s p /\
     file_key L e h s key /\ e_open e = true)).
Proof.
  destruct (Z.eq_dec (len (st_path s)) 0) as [Z0|NZ].
  { right. intros p key (N & _). apply file_name_nonempty in N. contradiction. }
  destruct (resolve L e (st_path s)) as [p|] eqn:R.
  2:{ right. intros p key (N & _). apply resolve_name in N; [congruence|exact NZ]. }
  apply resolve_name in R; [|exact NZ].
  destruct (e_stat_err e); [right; intros q key (_ & [=] & _)|].
  destruct (e_open e); [|right; intros q key (_ & _ & _ & _ & [=])].
  destruct (file_key_dec e h s) as [(key & K)|K]; [|right; intros q key (_ & _ & _ & H & _); exact (K key H)].
  assert (may_write e f s p \/ ~ may_write e f s p) as [W|W].
  { unfold may_write, confirmed. destruct (f p); [|left; left; reflexivity].
    destruct (st_over s); [left; right; left; reflexivity|].
    destruct (st_inter s); [|right; intros [[=]|[[=]|([=] & _)]]].
    destruct (e_term e); [|right; intros [[=]|[[=]|(_ & [=] & _)]]].
    destruct (e_confirm e) as [[|]|]; [left; right; right; auto| |];
      right; intros [[=]|[[=]|(_ & _ & [=])]]. }
  - left. exists p, key. auto.
  - right. intros q key' (N & _ & W' & _). rewrite (file_name_fun _ _ _ _ N R) in W'. contradiction.
Qed.

Lemma result_effects e p key i : exists l, snd (save_result e p key i) = Truncate p :: map (Append p) l /\
  (len key < 32 /\ l = [] \/
   32 <= len key /\ l = written e (pieces (e_cuts e) (complete_file L key (e_nonce e) i))).
Proof.
  unfold save_result, array32. destruct (len key <? 32) eqn:G; cbn [snd].
  - exists []. split; [reflexivity|]. left. split; [lia|reflexivity].
  - eexists. split; [reflexivity|]. right. split; [lia|reflexivity].
Qed.

(** C62 *)
Lemma save_writes_lemma e f h s r s' h' xs : save L e f h s = (r, s', h', xs) ->
  (xs <> [] <-> exists p key, file_name L e s p /\ e_stat_err e = false /\ may_write e f s p /\
     file_key L e h s key /\ e_open e = true).
Proof.
  intros E. destruct (save_dec e f h s) as [(p & key & C)|C].
  - split; [eauto|]. intros _. destruct C as (N & S & W & K & O).
    destruct (save_yes e f h s p key N S W K O) as (s1 & h1 & E1 & _). rewrite E1 in E.
    destruct (result_effects e p key (st_inst s)) as (l & X & _). rewrite X in E. inversion E. discriminate.
  - destruct (save_no e f h s C) as (r1 & s1 & h1 & E1 & _). rewrite E1 in E. inversion E; subst.
    split; [congruence|]. intros (p & key & H). exfalso. exact (C p key H).
Qed.
Lemma save_inst e f h s r s' h' xs : save L e f h s = (r, s', h', xs) -> st_inst s' = st_inst s.
Proof.
  intros E. destruct (save_dec e f h s) as [(p & key & (N & S & W & K & O))|C].
  - destruct (save_yes e f h s p key N S W K O) as (s1 & h1 & E1 & _ & I & _). congruence.
  - destruct (save_no e f h s C) as (r1 & s1 & h1 & E1 & I & _). congruence.
Qed.
(** C33 *)
Lemma crash_lemma e f h s r s' h' xs n : save L e f h s = (r, s', h', xs) ->
  (forall q, ~ file_name L e s q -> apply_effects f (firstn n xs) q = f q) /\
  (forall p, file_name L e s p ->
    apply_effects f (firstn n xs) p = f p \/
    exists c, apply_effects f (firstn n xs) p = Some c /\
      (c = [] \/ exists key rest, file_key L e h s key /\ c ++ rest = complete_file L key (e_nonce e) (st_inst s))).
Proof.
  intros E. destruct (save_dec e f h s) as [(p & key & (N & S & W & K & O))|C].
  - destruct (save_yes e f h s p key N S W K O) as (s1 & h1 & E1 & _ & I & _). rewrite E1 in E.
    destruct (result_effects e p key (st_inst s)) as (l & X & Y). rewrite X in E. inversion E; subst; clear E.
    destruct (firstn_effects p l n) as [->| ->].
    + split; [intros; reflexivity|]. intros q Q. left. reflexivity.
    + split.
      * intros q Q. apply effects_other with p; [|congruence].
        intros x [<-|H]; [reflexivity|]. apply in_map_iff in H. destruct H as (b & <- & _). reflexivity.
      * intros q Q. rewrite (file_name_fun _ _ _ _ Q N). right. rewrite effects_file. eexists. split; [reflexivity|].
        destruct Y as [(_ & ->)|(G & ->)].
        -- left. destruct (n - 1)%nat; reflexivity.
        -- right. destruct (written_prefix e (pieces (e_cuts e) (complete_file L key (e_nonce e) (st_inst s))) (n - 1))
             as (rest & R). exists key, rest. split; [exact K|]. rewrite R. apply pieces_concat.
  - destruct (save_no e f h s C) as (r1 & s1 & h1 & E1 & _). rewrite E1 in E. inversion E; subst.
    rewrite firstn_nil. split; auto.
Qed.
Lemma save_else_lemma e f h s r s' h' xs : save L e f h s = (r, s', h', xs) ->
  st_inst s' = st_inst s /\ forall q, ~ file_name L e s q -> apply_effects f xs q = f q.
Proof.
  intros E. split; [exact (save_inst _ _ _ _ _ _ _ _ E)|]. intros q Q.
  destruct (crash_lemma _ _ _ _ _ _ _ _ (length xs) E) as (H & _). rewrite firstn_all in H. exact (H q Q).
Qed.
(** C34 *)
Lemma complete_lemma e f h s s' h' xs p key : save L e f h s = (Ok tt, s', h', xs) ->
  file_name L e s p -> ~ declined e f s p ->
  e_fail e = None \/ (exists i n, e_fail e = Some (i, n) /\ (i < e_early e)%nat) ->
  file_key L e h s key ->
  apply_effects f xs p = Some (complete_file L key (e_nonce e) (st_inst s)).
Proof.
  intros E N' D F K'. destruct (save_dec e f h s) as [(q & key0 & (N & S & W & K & O))|C].
  - assert (q = p) by exact (file_name_fun _ _ _ _ N N'). assert (key0 = key) by exact (file_key_fun _ _ _ _ _ K K').
    subst q key0. clear N K.
    destruct (save_yes e f h s p key N' S W K' O) as (s1 & h1 & E1 & _). rewrite E1 in E.
    unfold save_result, array32 in E. destruct (len key <? 32) eqn:G; cbn [fst snd] in E; [discriminate|].
    fold (complete_file L key (e_nonce e) (st_inst s)) in E.
    destruct (fails_early e (pieces (e_cuts e) (complete_file L key (e_nonce e) (st_inst s)))) eqn:FE;
      cbn [fst snd] in E; [discriminate|].
    inversion E; subst; clear E. rewrite effects_file. rewrite written_all.
    + rewrite pieces_concat. reflexivity.
    + destruct F as [F|F]; [left; exact F|]. right. split; assumption.
  - destruct (save_no e f h s C) as (r1 & s1 & h1 & E1 & _ & OK & _). rewrite E1 in E. inversion E; subst.
    destruct (OK eq_refl) as (q & N & D'). rewrite (file_name_fun _ _ _ _ N N') in D'. contradiction.
Qed.
(** C35 *)
Lemma no_key_lemma e f h s : (forall key, ~ file_key L e h s key) ->
  (forall p, ~ declined e f s p) ->
  exists x s' h', save L e f h s = (Err x, s', h', []).
Proof.
  intros K D. destruct (save_no e f h s) as (r & s' & h' & E & _ & OK & P & V).
  { intros p key (_ & _ & _ & H & _). exact (K key H). }
  destruct r as [[]|x| |]; [|eauto|congruence|congruence].
  destruct (OK eq_refl) as (p & _ & H). exfalso. exact (D p H).
Qed.
(** C31 *)
Lemma untouched_lemma e f h s r s' h' xs : save L e f h s = (r, s', h', xs) ->
  st_path s = [] \/
  (exists p, file_name L e s p /\ f p <> None /\ st_over s = false /\ ~ confirmed e s) \/
  (forall key, ~ file_key L e h s key) ->
  xs = [].
Proof.
  intros E H. destruct xs as [|x xs]; [reflexivity|exfalso].
  destruct (proj1 (save_writes_lemma _ _ _ _ _ _ _ _ E)) as (p & key & N & _ & W & K & _); [discriminate|].
  destruct H as [H|[(q & N' & F & O & C)|H]].
  - apply file_name_nonempty in N. rewrite H in N. apply N. reflexivity.
  - rewrite (file_name_fun _ _ _ _ N N') in W. destruct W as [W|[W|W]]; congruence || contradiction.
  - exact (H key K).
Qed.

(** Load *)
Lemma load_reads e f h a s p key c : file_name L e s p -> e_stat_err e = false -> f p = Some c ->
  file_key L e h s key -> e_open e = true -> 32 <= len key ->
  exists s2 h2, st_inst s2 = st_inst s /\ load L e f h a s =
    match match unseal L (firstn 32 key) c with None => None | Some b => decode L b end with
    | None => (Err ErrDecrypt, s2, h2)
    | Some i => (Ok tt, set_over (set_inst s2 (merge_inst a i (st_inst s2))) true, h2)
    end.
Proof.
  intros N S F K O G. pose proof (file_name_nonempty _ _ _ N) as NE.
  destruct (obtain_yes e h (set_path s p) key K) as (s2 & h2 & OB & PB & IN & _).
  exists s2, h2. split; [exact IN|]. unfold load. replace (len (st_path s) =? 0) with false by lia.
  apply resolve_name in N; [|exact NE]. rewrite N, S. cbv zeta. rewrite F, OB, O, PB. cbn [negb].
  unfold array32. replace (len key <? 32) with false by lia.
  destruct (unseal L (firstn 32 key) c); [|reflexivity]. destruct (decode L l); reflexivity.
Qed.
Lemma obtain_inst e h s r s2 h2 : obtain_key L e h s = (r, s2, h2) -> st_inst s2 = st_inst s.
Proof.
  intros E. destruct (file_key_dec e h s) as [(key & K)|K].
  - destruct (obtain_yes _ _ _ _ K) as (s1 & h1 & E1 & _ & I & _). congruence.
  - destruct (obtain_no _ _ _ K) as (x & E1). congruence.
Qed.
Lemma load_fails e f h a s r s' h' : load L e f h a s = (r, s', h') -> r <> Ok tt -> st_inst s' = st_inst s.
Proof.
  unfold load. intros E N. destruct (len (st_path s) =? 0); [congruence|].
  destruct (resolve L e (st_path s)) as [p|]; [|congruence].
  assert (forall x : res unit * station * mem, x = (r, s', h') ->
    forall y, x = (y, set_path s p, h) -> st_inst s' = st_inst s) as Q.
  { intros x -> y [= _ -> _]. reflexivity. }
  destruct (e_stat_err e); [eapply Q; [exact E|reflexivity]|].
  destruct (f p) as [c|]; [|eapply Q; [exact E|reflexivity]].
  destruct (obtain_key L e h (set_path s p)) as [[[[]|x| |] s2] h2] eqn:OB;
    pose proof (obtain_inst _ _ _ _ _ _ OB) as I; cbn [st_inst set_path] in I; [|congruence|congruence|congruence].
  destruct (negb (e_open e)); [congruence|]. destruct (array32 (pfk_bytes h2 s2)); [|congruence].
  destruct (unseal L l c); [|congruence]. destruct (decode L l0); [|congruence]. congruence.
Qed.

Lemma merge_l_nil {A} (x : list A) : merge_l x [] = x.
Proof. destruct x; reflexivity. Qed.
Lemma merge_l_same {A} (x : list A) : merge_l x x = x.
Proof. destruct x; reflexivity. Qed.
Lemma merge_z_0 x : merge_z x 0 = x.
Proof. unfold merge_z. destruct (x =? 0) eqn:E; lia. Qed.
Lemma merge_z_same x : merge_z x x = x.
Proof. unfold merge_z. destruct (x =? 0); reflexivity. Qed.
Lemma merge_key_zero k : merge_key k zero_key = k.
Proof.
  unfold merge_key, zero_key. cbn [kid krunes kkeepers kcreated kexpires kused kcompromised kcomment].
  rewrite !merge_l_nil, !merge_z_0, !orb_false_r. destruct k; reflexivity.
Qed.
Lemma merge_msg_zero m : merge_msg m zero_msg = m.
Proof.
  unfold merge_msg, zero_msg. cbn [mid mrecipients mfrom mdtg mkeyid mplain mbinary mcipher mradiogram].
  rewrite !merge_l_nil, !merge_z_0. destruct m; reflexivity.
Qed.
Lemma merge_key_same k : merge_key k k = k.
Proof. unfold merge_key. rewrite !merge_l_same, !merge_z_same, !orb_diag. destruct k; reflexivity. Qed.
Lemma merge_msg_same m : merge_msg m m = m.
Proof. unfold merge_msg. rewrite !merge_l_same, !merge_z_same. destruct m; reflexivity. Qed.
Lemma merge_elems_zero {A} (mg : A -> A -> A) z : (forall x, mg x z = x) -> forall l, merge_elems mg z l [] = l.
Proof. intros H. induction l as [|x l IH]; [reflexivity|]. cbn [merge_elems hd tl]. rewrite H, IH. reflexivity. Qed.
Lemma merge_elems_same {A} (mg : A -> A -> A) z sp : (forall x, mg x x = x) ->
  forall l, merge_elems mg z l (l ++ sp) = l.
Proof. intros H. induction l as [|x l IH]; [reflexivity|]. cbn [merge_elems hd tl app]. rewrite H, IH. reflexivity. Qed.
Lemma merge_slice_new {A} (mg : A -> A -> A) z cap : (forall x, mg x z = x) ->
  forall l, merge_slice mg z cap l [] [] = l.
Proof.
  intros H l. unfold merge_slice. destruct l as [|x l]; [reflexivity|].
  destruct (len (x :: l) <=? cap); apply (merge_elems_zero mg z H (x :: l)).
Qed.
Lemma merge_slice_same {A} (mg : A -> A -> A) z cap sp : (forall x, mg x z = x) -> (forall x, mg x x = x) ->
  forall l, merge_slice mg z cap l l sp = l.
Proof.
  intros H K l. unfold merge_slice. destruct l as [|x l]; [reflexivity|].
  destruct (len (x :: l) <=? cap); [apply (merge_elems_same mg z sp K (x :: l))|apply (merge_elems_zero mg z H (x :: l))].
Qed.
Lemma merge_fresh i o : i_keys o = [] -> i_messages o = [] ->
  (i_callsign i <> [] \/ i_callsign o = []) -> no_zero_setting i ->
  merge_inst new_arrays i o = i.
Proof.
  intros K M C (A & B & D & E). unfold merge_inst, new_arrays. cbn [a_kcap a_kspare a_mcap a_mspare]. rewrite K, M.
  rewrite (merge_slice_new _ _ _ merge_key_zero), (merge_slice_new _ _ _ merge_msg_zero).
  unfold merge_z. replace (i_groupsize i =? 0) with false by lia. replace (i_keylength i =? 0) with false by lia.
  replace (i_columns i =? 0) with false by lia. replace (i_keycolumns i =? 0) with false by lia.
  replace (merge_l (i_callsign i) (i_callsign o)) with (i_callsign i); [destruct i; reflexivity|].
  destruct C as [C| ->]; [|rewrite merge_l_nil; reflexivity]. destruct (i_callsign i); [congruence|reflexivity].
Qed.
Lemma merge_same a i : merge_inst a i i = i.
Proof.
  unfold merge_inst. rewrite !merge_z_same, merge_l_same.
  rewrite (merge_slice_same _ _ _ _ merge_key_zero merge_key_same), (merge_slice_same _ _ _ _ merge_msg_zero merge_msg_same).
  destruct i; reflexivity.
Qed.

(** New *)
Lemma fold_opts_keys U opts : forall s h s' h', fold_left (apply_opt U) opts (s, h) = (s', h') ->
  i_keys (st_inst s') = i_keys (st_inst s) /\ i_messages (st_inst s') = i_messages (st_inst s) /\
  exists l, h' = h ++ l.
Proof.
  induction opts as [|o opts IH]; intros s h s' h' E.
  - injection E as <- <-. repeat split; auto. exists []. symmetry. apply app_nil_r.
  - cbn [fold_left] in E. destruct (apply_opt U (s, h) o) as (s1, h1) eqn:A.
    destruct (IH _ _ _ _ E) as (K & M & l & H). clear IH E.
    assert (i_keys (st_inst s1) = i_keys (st_inst s) /\ i_messages (st_inst s1) = i_messages (st_inst s) /\
      exists l, h1 = h ++ l) as (K1 & M1 & l1 & H1).
    { assert (exists l, h = h ++ l) as NIL by (exists []; symmetry; apply app_nil_r).
      destruct o as [[p|]|x|[p|]|x|x|n|n|n|n|p|b|b|b]; cbn [apply_opt] in A;
        try (injection A as <- <-; repeat split; auto; fail).
      - destruct (negb (len x =? 64)); [injection A as <- <-; repeat split; auto|].
        destruct (hex_decode x); injection A as <- <-; repeat split; eauto.
      - destruct (hex_decode x); [|injection A as <- <-; repeat split; eauto].
        destruct (len l0 <? 32); injection A as <- <-; repeat split; eauto.
      - injection A as <- <-. unfold set_call_sign.
        destruct (len (str_upper U (trim_space U x)) <? 2); repeat split; auto. }
    rewrite K, M. repeat split; [exact K1|exact M1|]. exists (l1 ++ l). rewrite app_assoc. congruence.
Qed.
Lemma new_station_keys U h opts s h' : new_station U h opts = (s, h') ->
  i_keys (st_inst s) = [] /\ i_messages (st_inst s) = [] /\ exists l, h' = h ++ default_salt :: l.
Proof.
  unfold new_station, alloc. intros E. apply fold_opts_keys in E. destruct E as (K & M & l & ->).
  repeat split; [exact K|exact M|]. exists l. rewrite <- app_assoc. reflexivity.
Qed.

(** C32 *)
Lemma restore_lemma : lib_ok L -> forall U e f h s s' h' xs p key,
  save L e f h s = (Ok tt, s', h', xs) -> file_name L e s p -> ~ declined e f s p -> e_fail e = None ->
  file_key L e h s key ->
  forall opts e2 h1 n h2 key2, new_station U h1 opts = (n, h2) -> file_name L e2 n p ->
  e_stat_err e2 = false -> e_open e2 = true -> file_key L e2 h2 n key2 ->
  (key2 = key -> no_zero_setting (st_inst s) -> i_callsign (st_inst s) <> [] \/ i_callsign (st_inst n) = [] ->
   exists n' h3, load L e2 (apply_effects f xs) h2 new_arrays n = (Ok tt, n', h3) /\ st_inst n' = st_inst s) /\
  (len key = 32 -> len key2 = 32 -> key2 <> key ->
   exists x n' h3, load L e2 (apply_effects f xs) h2 new_arrays n = (Err x, n', h3) /\ st_inst n' = st_inst n).
Proof.
  intros (LD & LS & LX & LK) U e f h s s' h' xs p key SV N D F K opts e2 h1 n h2 key2 NS N2 S2 O2 K2.
  pose proof (complete_lemma _ _ _ _ _ _ _ _ _ SV N D (or_introl F) K) as CF.
  destruct (new_station_keys _ _ _ _ _ NS) as (NK & NM & _).
  assert (32 <= len key) as G.
  { destruct (save_dec e f h s) as [(q & key0 & (N' & S & W & K' & O))|C].
    - assert (key0 = key) by exact (file_key_fun _ _ _ _ _ K' K). subst key0. destruct (save_yes e f h s q key N' S W K O) as (s1 & h3 & E1 & _).
      rewrite E1 in SV. unfold save_result, array32 in SV. destruct (len key <? 32) eqn:G; [discriminate|lia].
    - destruct (save_no e f h s C) as (r1 & s1 & h3 & E1 & _ & OK & _). rewrite E1 in SV. inversion SV; subst.
      destruct (OK eq_refl) as (q & N' & D'). rewrite (file_name_fun _ _ _ _ N' N) in D'. contradiction. }
  split.
  - intros -> NZ CS. destruct (load_reads e2 _ h2 new_arrays n p key _ N2 S2 CF K2 O2 G) as (s2 & h3 & I & ->).
    unfold complete_file. rewrite LS, LD. eexists _, _. split; [reflexivity|]. cbn [st_inst set_over set_inst].
    rewrite I. apply merge_fresh; assumption.
  - intros G1 G2 NE. destruct (load_reads e2 _ h2 new_arrays n p key2 _ N2 S2 CF K2 O2) as (s2 & h3 & I & ->); [lia|].
    unfold complete_file. unfold len in G1, G2. rewrite !firstn_all2 by lia.
    rewrite LX by (unfold len; congruence). do 3 eexists. split; [reflexivity|exact I].
Qed.

(** C65 *)
Lemma reload_lemma : lib_ok L -> forall e f h s s' h' xs p,
  save L e f h s = (Ok tt, s', h', xs) -> file_name L e s p -> ~ declined e f s p -> e_fail e = None ->
  forall e2 a, file_name L e2 s' p -> e_stat_err e2 = false -> e_open e2 = true ->
  exists s2 h2, load L e2 (apply_effects f xs) h' a s' = (Ok tt, s2, h2) /\ st_inst s2 = st_inst s.
Proof.
  intros (LD & LS & LX & LK) e f h s s' h' xs p SV N D F e2 a N2 S2 O2.
  destruct (save_dec e f h s) as [(q & key & (N' & S & W & K & O))|C].
  2:{ destruct (save_no e f h s C) as (r1 & s1 & h3 & E1 & _ & OK & _). rewrite E1 in SV. inversion SV; subst.
      destruct (OK eq_refl) as (q & N' & D'). rewrite (file_name_fun _ _ _ _ N' N) in D'. contradiction. }
  pose proof (complete_lemma _ _ _ _ _ _ _ _ _ SV N D (or_introl F) K) as CF.
  destruct (save_yes e f h s q key N' S W K O) as (s1 & h3 & E1 & PB & I & _ & (c & PF) & _). rewrite E1 in SV.
  assert (32 <= len key) as G.
  { unfold save_result, array32 in SV. destruct (len key <? 32) eqn:G; [discriminate|lia]. }
  assert (s1 = s' /\ h3 = h') as (-> & ->) by (split; congruence). clear SV.
  assert (file_key L e2 h' s' key) as K2.
  { left. exists c. split; [exact PF|]. unfold pfk_bytes in PB. rewrite PF in PB. symmetry. exact PB. }
  destruct (load_reads e2 _ h' a s' p key _ N2 S2 CF K2 O2 G) as (s2 & h2 & I2 & E2).
  unfold complete_file in E2. rewrite LS, LD in E2. eexists _, _. split; [exact E2|].
  cbn [st_inst set_over set_inst]. rewrite I2, I. apply merge_same.
Qed.

(** ExportKeys *)
Lemma export_lemma U h s flt opts n h1 : export_station U h s flt opts = (n, h1) ->
  i_keys (st_inst n) = filter flt (i_keys (st_inst s)) /\ i_messages (st_inst n) = [] /\
  (exists l, h1 = h ++ l) /\
  (opts = [] ->
     i_groupsize (st_inst n) = i_groupsize (st_inst s) /\ i_keylength (st_inst n) = i_keylength (st_inst s) /\
     i_columns (st_inst n) = i_columns (st_inst s) /\ i_keycolumns (st_inst n) = i_keycolumns (st_inst s) /\
     i_callsign (st_inst n) = i_callsign (st_inst s) /\ st_path n = [] /\
     get_pfk_string h1 n = get_pfk_string h s /\ get_salt_string h1 n = get_salt_string h s /\
     (forall p, st_pfk n = Some p \/ st_salt n = Some p -> (length h <= p)%nat)).
Proof.
  unfold export_station, alloc. intros E.
  destruct (fold_left (apply_opt U) opts _) as (n1, h3) eqn:F in E. injection E as <- <-.
  pose proof (fold_opts_keys _ _ _ _ _ _ F) as (K & M & l & ->). cbn [st_inst set_inst set_keys i_keys i_messages] in *.
  rewrite K, M. cbn [i_keys i_messages app]. repeat split.
  { rewrite <- !app_assoc. eauto. }
  all: subst opts; cbn [fold_left] in F; injection F as <- HL; try reflexivity.
  - unfold get_pfk_string. cbn [st_pfk set_inst]. rewrite <- HL. rewrite cell_old by (rewrite app_length; cbn [length]; lia).
    rewrite cell_new. destruct (st_pfk s); reflexivity.
  - unfold get_salt_string. cbn [st_salt set_inst]. rewrite <- HL. rewrite cell_new. destruct (st_salt s); reflexivity.
  - cbn [st_pfk st_salt set_inst]. rewrite app_length. cbn [length]. intros p [[= <-]|[= <-]]; lia.
Qed.

(** C68 *)
Lemma handover_lemma : lib_ok L -> forall U e f h s flt opts n h1 n' h2 xs p key,
  export_station U h s flt opts = (n, h1) ->
  save L e f h1 n = (Ok tt, n', h2, xs) -> file_name L e n p -> ~ declined e f n p -> e_fail e = None ->
  file_key L e h1 n key -> no_zero_setting (st_inst n) ->
  forall r flt2 opts2 answers t e2 h3 inc h4, new_station U h3 opts2 = (inc, h4) -> file_name L e2 inc p ->
  e_stat_err e2 = false -> e_open e2 = true -> file_key L e2 h4 inc key ->
  i_callsign (st_inst n) <> [] \/ i_callsign (st_inst inc) = [] ->
  exists sent i' cnt x h5,
    i_keys sent = filter flt (i_keys (st_inst s)) /\ i_callsign sent = i_callsign (st_inst n) /\
    import_keys U (st_inst r) (st_overkeys r) (st_inter r && e_term e2) flt2 sent answers = (i', cnt, x) /\
    import_station L U e2 (apply_effects f xs) h3 r flt2 opts2 answers t =
      (match x with None => Ok tt | Some err => Err err end, cnt, set_inst r i', h5).
Proof.
  intros LO U e f h s flt opts n h1 n' h2 xs p key EX SV N D F K NZ r flt2 opts2 answers t e2 h3 inc h4 NS N2 S2 O2 K2 CS.
  destruct (export_lemma _ _ _ _ _ _ _ EX) as (EK & _).
  destruct (restore_lemma LO U e f h1 n n' h2 xs p key SV N D F K opts2 e2 h3 inc h4 key NS N2 S2 O2 K2) as (R & _).
  destruct (R eq_refl NZ CS) as (inc' & h5 & LD & LI).
  exists (st_inst n). unfold import_station. rewrite NS, LD, LI.
  destruct (import_keys U (st_inst r) (st_overkeys r) (st_inter r && e_term e2) flt2 (st_inst n) answers)
    as [[i' cnt] x] eqn:IK.
  destruct (wipe_station h5 inc' t) as [[w h6] t'] eqn:W.
  exists i', cnt, x, h6. repeat split; auto.
Qed.

(** C67: memory cells that ImportKeys leaves alone. *)
Lemma update_nth_other {A} (l : list A) : forall i j x d, i <> j -> nth j (list_update l i x) d = nth j l d.
Proof.
  induction l as [|y l IH]; intros [|i] [|j] x d H; cbn [list_update nth]; try reflexivity; [congruence|].
  apply IH. congruence.
Qed.
Lemma wipe_bytes_other h p t q : p <> Some q -> cell (fst (wipe_bytes h p t)) q = cell h q.
Proof.
  unfold wipe_bytes, cell. destruct p as [c|]; [|reflexivity]. intros N.
  destruct (read_bytes (length (nth c h [])) t) as [(b, t')|]; [|reflexivity].
  cbn [fst]. apply update_nth_other. congruence.
Qed.
Lemma fold_opts_ptrs U q opts : ~ In (WithPFK (Some q)) opts -> ~ In (WithSalt (Some q)) opts ->
  forall s h s' h', fold_left (apply_opt U) opts (s, h) = (s', h') -> (q < length h)%nat ->
  st_pfk s <> Some q -> st_salt s <> Some q -> st_pfk s' <> Some q /\ st_salt s' <> Some q.
Proof.
  intros NP NS. induction opts as [|o opts IH]; intros s h s' h' E G P S.
  - injection E as <- <-. auto.
  - cbn [fold_left] in E. destruct (apply_opt U (s, h) o) as (s1, h1) eqn:A.
    assert (st_pfk s1 <> Some q /\ st_salt s1 <> Some q /\ (length h <= length h1)%nat) as (P1 & S1 & G1).
    { assert (forall b : list Z, length (h ++ [b]) = (length h + 1)%nat) as AL
        by (intros b; rewrite app_length; cbn [length]; lia).
      destruct o as [[c|]|x|[c|]|x|x|z|z|z|z|z|b|b|b]; cbn [apply_opt] in A;
        try (injection A as <- <-; cbn [st_pfk st_salt set_pfk set_salt set_inst set_path set_over set_inter set_overkeys];
             repeat split; auto; discriminate).
      - injection A as <- <-. cbn [st_pfk st_salt set_pfk]. repeat split; auto.
        destruct (len (cell h c) =? 32); [|discriminate]. intros [= ->]. apply NP. left. reflexivity.
      - destruct (negb (len x =? 64)); [injection A as <- <-; cbn [st_pfk st_salt set_pfk]; repeat split; auto; discriminate|].
        destruct (hex_decode x); injection A as <- <-; cbn [st_pfk st_salt set_pfk]; repeat split; auto; try discriminate.
        + intros [=]. lia.
        + rewrite AL. lia.
      - injection A as <- <-. cbn [st_pfk st_salt set_salt]. repeat split; auto.
        destruct (len (cell h c) <? 32); [discriminate|]. intros [= ->]. apply NS. left. reflexivity.
      - destruct (hex_decode x) as [b|]; [|injection A as <- <-; cbn [st_pfk st_salt set_salt]; repeat split; auto; discriminate].
        destruct (len b <? 32); injection A as <- <-; cbn [st_pfk st_salt set_salt]; repeat split; auto; try discriminate.
        + intros [=]. lia.
        + rewrite AL. lia.
      - injection A as <- <-. unfold set_call_sign.
        destruct (len (str_upper U (trim_space U x)) <? 2); cbn [snd st_pfk st_salt set_inst]; repeat split; auto. }
    apply (IH (fun H => NP (or_intror H)) (fun H => NS (or_intror H)) _ _ _ _ E); auto. lia.
Qed.
Lemma obtain_ptrs e h s r s2 h2 q : obtain_key L e h s = (r, s2, h2) -> (q < length h)%nat ->
  st_pfk s <> Some q -> st_salt s <> Some q ->
  st_pfk s2 <> Some q /\ st_salt s2 <> Some q /\ cell h2 q = cell h q.
Proof.
  unfold obtain_key. intros E G P S. destruct (st_pfk s) as [c|] eqn:PF; [inversion E; subst; rewrite PF; auto|].
  destruct (st_inter s && e_term e); [|inversion E; subst; rewrite PF; repeat split; auto; discriminate].
  destruct (e_password e); [|inversion E; subst; rewrite PF; repeat split; auto; discriminate]. unfold derive_pfk, alloc in E.
  destruct (st_salt s) as [c|] eqn:SF; [|inversion E; subst; rewrite PF, SF; repeat split; auto; discriminate].
  destruct (len (cell h c) <? 32); inversion E; subst; cbn [st_pfk st_salt set_pfk]; rewrite ?PF, ?SF; repeat split; auto; try discriminate.
  - intros [=]. lia.
  - apply cell_old. exact G.
Qed.
Lemma load_ptrs e f h a s r s2 h2 q : load L e f h a s = (r, s2, h2) -> (q < length h)%nat ->
  st_pfk s <> Some q -> st_salt s <> Some q ->
  st_pfk s2 <> Some q /\ st_salt s2 <> Some q /\ cell h2 q = cell h q.
Proof.
  unfold load. intros E G P S. destruct (len (st_path s) =? 0); [inversion E; subst; auto|].
  destruct (resolve L e (st_path s)) as [p|]; [|inversion E; subst; auto].
  destruct (e_stat_err e); [inversion E; subst; auto|].
  destruct (f p) as [c|]; [|inversion E; subst; auto].
  destruct (obtain_key L e h (set_path s p)) as [[r1 s1] h1] eqn:OB.
  pose proof (obtain_ptrs _ _ _ _ _ _ q OB G P S) as I.
  destruct r1 as [[]|x| |]; try (inversion E; subst; exact I).
  destruct (negb (e_open e)); [inversion E; subst; exact I|].
  destruct (array32 (pfk_bytes h1 s1)); [|inversion E; subst; exact I].
  destruct (unseal L l c); [|inversion E; subst; exact I]. destruct (decode L l0); inversion E; subst; exact I.
Qed.
Lemma import_memory U e f h s flt opts answers t r cnt s' h' q :
  import_station L U e f h s flt opts answers t = (r, cnt, s', h') -> (q < length h)%nat ->
  ~ In (WithPFK (Some q)) opts -> ~ In (WithSalt (Some q)) opts -> cell h' q = cell h q.
Proof.
  unfold import_station. intros E G NP NS.
  destruct (new_station U h opts) as (inc, h1) eqn:N. pose proof N as N0.
  apply new_station_keys in N0. destruct N0 as (_ & _ & l & H1).
  assert (st_pfk inc <> Some q /\ st_salt inc <> Some q) as (P & S).
  { unfold new_station, alloc in N. apply (fold_opts_ptrs U q opts NP NS _ _ _ _ N).
    - rewrite app_length. lia.
    - discriminate.
    - cbn [st_salt]. intros [=]. lia. }
  assert (cell h1 q = cell h q) as C1 by (rewrite H1; unfold cell; apply app_nth1; exact G).
  destruct (load L e f h1 new_arrays inc) as [[r2 inc2] h2] eqn:LD.
  destruct (load_ptrs _ _ _ _ _ _ _ _ q LD) as (P2 & S2 & C2); [rewrite H1, app_length; lia|exact P|exact S|].
  destruct r2 as [[]|x| |]; try (inversion E; subst; congruence).
  destruct (import_keys U (st_inst s) (st_overkeys s) (st_inter s && e_term e) flt (st_inst inc2) answers) as [[i' n] x].
  unfold wipe_station in E. destruct (wipe_bytes h2 (st_pfk inc2) t) as (h3, t3) eqn:W3.
  destruct (wipe_bytes h3 (st_salt inc2) t3) as (h4, t4) eqn:W4. inversion E; subst.
  pose proof (wipe_bytes_other h2 (st_pfk inc2) t q P2) as X. rewrite W3 in X.
  pose proof (wipe_bytes_other h3 (st_salt inc2) t3 q S2) as Y. rewrite W4 in Y. cbn [fst] in X, Y. congruence.
Qed.
Lemma import_frame U e f h s flt opts answers t r cnt s' h' :
  import_station L U e f h s flt opts answers t = (r, cnt, s', h') ->
  st_pfk s' = st_pfk s /\ st_salt s' = st_salt s /\ st_path s' = st_path s /\ st_over s' = st_over s /\
  i_messages (st_inst s') = i_messages (st_inst s) /\ i_callsign (st_inst s') = i_callsign (st_inst s).
Proof.
  unfold import_station. intros E. destruct (new_station U h opts) as (inc, h1).
  destruct (load L e f h1 new_arrays inc) as [[[[]|x| |] inc2] h2]; try (inversion E; subst; repeat split; reflexivity).
  unfold import_keys in E.
  destruct (import_loop U (i_groupsize (st_inst s)) (i_callsign (st_inst s)) (i_callsign (st_inst inc2)) (st_overkeys s)
              (st_inter s && e_term e) flt (i_keys (st_inst inc2)) answers (i_keys (st_inst s)) 0) as [[ks n] x].
  destruct (wipe_station h2 inc2 t) as [[w h3] t3]. inversion E; subst. repeat split; reflexivity.
Qed.
Lemma import_keeps_pfk U e f h s flt opts answers t r cnt s' h' :
  import_station L U e f h s flt opts answers t = (r, cnt, s', h') ->
  (forall q, st_pfk s = Some q \/ st_salt s = Some q ->
     (q < length h)%nat /\ ~ In (WithPFK (Some q)) opts /\ ~ In (WithSalt (Some q)) opts) ->
  get_pfk_string h' s' = get_pfk_string h s /\ get_salt_string h' s' = get_salt_string h s.
Proof.
  intros E H. destruct (import_frame _ _ _ _ _ _ _ _ _ _ _ _ _ E) as (P & S & _).
  unfold get_pfk_string, get_salt_string. rewrite P, S.
  assert (forall q, st_pfk s = Some q \/ st_salt s = Some q -> cell h' q = cell h q) as C.
  { intros q Q. destruct (H q Q) as (G & A & B). eapply import_memory; eassumption. }
  destruct (st_pfk s) as [p|] eqn:PE, (st_salt s) as [q|] eqn:SE; split; try reflexivity; rewrite C; auto.
Qed.
End WithLib.
