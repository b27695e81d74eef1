(** ImportKeys on shared memory; invariant of whole histories. *)
From Coq Require Import Permutation.
From Verif Require Import Base Model_Unicode Model_Crand Model_Functions Model_Types
  Model_Codec Model_Cipher Model_Keys Model_Import Model_Messages Model_Heap Spec Spec_Heap Proofs_Keys
  Proofs_KeyOps Proofs_Encipher Proofs_Cipher Proofs_Heap Proofs_Sharing Proofs_Shared
  Proofs_HeapOps Proofs_HeapText Proofs_HeapRun Proofs_HeapHist.

Ltac settings := unfold same_settings; repeat split; reflexivity.

Section WithUnicode.
Context (U : Uni).

Lemma himport_key_value : forall h own from k h' hk ks ms ex, inv h ks ms ex ->
  In (KKeeper, from) ex -> himport_key U h own from k = (h', hk) ->
  inv h' (ks ++ [hk]) ms ex /\ grows h h' /\ key_of h' hk = import_key U own (rd h from) k.
Proof.
  intros h own from k h' hk ks ms ex I J H.
  set (kp := remove_keeper U (kkeepers k) [own]).
  set (more := if contains_keeper U kp [rd h from] then [] else [from]).
  assert (E : himport_key U h own from k = key_with h k kp more).
  { unfold himport_key, key_with, new, new_outer. fold kp. cbn [h_runes h_outer].
    destruct (new_all _ _) as [h4 ss] eqn:E. apply new_all_spec in E.
    cbn [h_runes h_outer] in E. destruct E as (A & B & C).
    assert (RD : rd h4 from = rd h from).
    { apply grows_rd.
      - eexists (_ :: _ :: _ :: _), []. rewrite A, B, <- !app_assoc, (app_nil_r (h_outer h)).
        split; reflexivity.
      - exact (inv_ex_ok _ _ _ _ _ I J). }
    rewrite RD. unfold more.
    rewrite A, B, C, <- !app_assoc. rewrite !app_length. cbn [app length].
    replace (length (h_runes h) + 1 + 1 + 1)%nat with (length (h_runes h) + 3)%nat by lia.
    replace (length (h_runes h) + 1 + 1)%nat with (length (h_runes h) + 2)%nat by lia.
    destruct (contains_keeper _ _ _); rewrite ?app_nil_r; reflexivity. }
  rewrite E in H.
  assert (MO : Forall (fun s => In (KKeeper, s) ex) more).
  { unfold more. destruct (contains_keeper _ _ _); repeat constructor; exact J. }
  split; [exact (key_with_inv _ _ _ _ _ _ _ _ _ H I MO)|].
  split; [exact (key_with_grows _ _ _ _ _ _ H)|].
  rewrite (key_with_of _ _ _ _ _ _ H).
  - unfold import_key, add_keeper, add_keeper1. cbn [fold_left]. fold kp. unfold more.
    destruct (contains_keeper U kp [rd h from]); cbn [map]; rewrite ?app_nil_r; reflexivity.
  - revert MO. apply Forall_impl. intros s Js. exact (inv_ex_ok _ _ _ _ _ I Js).
Qed.

Lemma contains_same : forall ks ks' id, Forall2 same_but_keepers ks ks' ->
  contains_key_id U ks id = contains_key_id U ks' id.
Proof.
  intros ks ks' id H. unfold contains_key_id. induction H as [|k k' ks ks' Hk H IH]; [reflexivity|].
  cbn [existsb]. destruct Hk as (E & _). rewrite E, IH. reflexivity.
Qed.

Lemma same_but_keepers_trans : forall a b c, same_but_keepers a b -> same_but_keepers b c -> same_but_keepers a c.
Proof. unfold same_but_keepers. intros a b c H K. intuition congruence. Qed.
Lemma same_but_keepers_refl' : forall a, same_but_keepers a a.
Proof. unfold same_but_keepers. tauto. Qed.

Lemma himport_loop_spec : forall gs own from overwrite ask filter incoming answers h ks ms ex t h1 ks1 t1 ov fv vs n,
  inv h ks ms ex -> In (KCall, own) ex -> In (KKeeper, from) ex ->
  (forall x, In x ex -> fst x = KCall \/ fst x = KKeeper) ->
  rd h own = ov ->
  Forall2 same_but_keepers vs (map (key_of h) ks) ->
  himport_loop U gs own from overwrite ask filter incoming answers h ks t = (h1, ks1, t1) ->
  inv h1 ks1 ms ex /\
  Forall2 same_but_keepers (fst (fst (import_loop U gs ov fv overwrite ask filter incoming answers vs n)))
    (map (key_of h1) ks1) /\
  Forall2 same_but_keyid (map (msg_of h) ms) (map (msg_of h1) ms) /\
  (forall s, In (KCall, s) ex -> rd h1 s = rd h s) /\
  (overwrite = false -> ask = false -> rd h from = fv -> vs = map (key_of h) ks -> 
   fst (fst (import_loop U gs ov fv overwrite ask filter incoming answers vs n)) = map (key_of h1) ks1 /\
   map (msg_of h1) ms = map (msg_of h) ms).
Proof.
  intros gs own from overwrite ask filter incoming.
  induction incoming as [|k rest IH];
    intros answers h ks ms ex t h1 ks1 t1 ov fv vs n I JO JF EX RO V H.
  { cbn [himport_loop] in H. injection H as <- <- _. cbn [import_loop fst].
    split; [exact I|]. split; [exact V|]. split; [apply Forall2_refl, same_but_keyid_refl|]. auto. }
  cbn [himport_loop] in H. cbn [import_loop]. cbv zeta in H |- *.
  (* adding *)
  assert (ADD : forall answers0 h0 ks0 t0 vs0, inv h0 ks0 ms ex -> rd h0 own = ov ->
    Forall2 same_but_keepers vs0 (map (key_of h0) ks0) ->
    (let (h1, hk) := himport_key U h0 (rd h0 own) from k in
     himport_loop U gs own from overwrite ask filter rest answers0 h1 (ks0 ++ [hk]) t0) = (h1, ks1, t1) ->
    inv h1 ks1 ms ex /\
    Forall2 same_but_keepers (fst (fst (import_loop U gs ov fv overwrite ask filter rest answers0
       (vs0 ++ [import_key U ov fv k]) (n + 1)))) (map (key_of h1) ks1) /\
    Forall2 same_but_keyid (map (msg_of h0) ms) (map (msg_of h1) ms) /\
    (forall s, In (KCall, s) ex -> rd h1 s = rd h0 s) /\
    (overwrite = false -> ask = false -> rd h0 from = fv -> vs0 = map (key_of h0) ks0 ->
     fst (fst (import_loop U gs ov fv overwrite ask filter rest answers0
       (vs0 ++ [import_key U ov fv k]) (n + 1))) = map (key_of h1) ks1 /\
     map (msg_of h1) ms = map (msg_of h0) ms)).
  { intros answers0 h0 ks0 t0 vs0 I0 R0 V0 Q.
    destruct (himport_key U h0 (rd h0 own) from k) as [h2 hk] eqn:EK.
    destruct (himport_key_value _ _ _ _ _ _ _ _ _ I0 JF EK) as (I2 & G2 & K2).
    assert (KK : map (key_of h2) (ks0 ++ [hk]) = map (key_of h0) ks0 ++ [import_key U ov (rd h0 from) k]).
    { rewrite map_app. cbn [map]. rewrite K2, R0, (keys_grow _ _ _ _ _ G2 I0). reflexivity. }
    assert (RO2 : rd h2 own = ov).
    { rewrite <- R0. apply (grows_rd _ _ _ G2). exact (inv_ex_ok _ _ _ _ _ I0 JO). }
    destruct (IH answers0 h2 (ks0 ++ [hk]) ms ex t0 h1 ks1 t1 ov fv (vs0 ++ [import_key U ov fv k]) (n + 1)
                I2 JO JF EX RO2) as (A & B & C & D & E); [|exact Q|].
    { rewrite KK. apply Forall2_app; [exact V0|]. repeat constructor. }
    split; [exact A|]. split; [exact B|].
    split; [rewrite <- (msgs_grow _ _ _ _ _ G2 I0); exact C|].
    assert (EXOK : forall s kd, In (kd, s) ex -> rd h2 s = rd h0 s).
    { intros s kd J. apply (grows_rd _ _ _ G2). exact (inv_ex_ok _ _ _ _ _ I0 J). }
    split; [intros s J; rewrite (D s J); exact (EXOK s KCall J)|].
    intros O1 O2 O3 O4. rewrite <- (msgs_grow _ _ _ _ _ G2 I0). apply E; auto.
    - rewrite (EXOK from KKeeper JF). exact O3.
    - rewrite KK, O3, O4. reflexivity. }
  assert (SKIP : forall answers0,
    himport_loop U gs own from overwrite ask filter rest answers0 h ks t = (h1, ks1, t1) ->
    inv h1 ks1 ms ex /\
    Forall2 same_but_keepers (fst (fst (import_loop U gs ov fv overwrite ask filter rest answers0 vs n)))
      (map (key_of h1) ks1) /\
    Forall2 same_but_keyid (map (msg_of h) ms) (map (msg_of h1) ms) /\
    (forall s, In (KCall, s) ex -> rd h1 s = rd h s) /\
    (overwrite = false -> ask = false -> rd h from = fv -> vs = map (key_of h) ks ->
     fst (fst (import_loop U gs ov fv overwrite ask filter rest answers0 vs n)) = map (key_of h1) ks1 /\
     map (msg_of h1) ms = map (msg_of h) ms)).
  { intros answers0 Q. apply (IH answers0 h ks ms ex t h1 ks1 t1 ov fv vs n); auto. }
  assert (REPL : forall answers0, (overwrite = false -> ask = false -> False) ->
    (let '(h2, ks2, t2) := hdelete_key U h ks [kid k] t in
     let (h3, hk) := himport_key U h2 (rd h2 own) from k in
     himport_loop U gs own from overwrite ask filter rest answers0 h3 (ks2 ++ [hk]) t2) = (h1, ks1, t1) ->
    inv h1 ks1 ms ex /\
    Forall2 same_but_keepers (fst (fst (import_loop U gs ov fv overwrite ask filter rest answers0
      (fst (delete_key U vs [kid k]) ++ [import_key U ov fv k]) (n + 1))))
      (map (key_of h1) ks1) /\
    Forall2 same_but_keyid (map (msg_of h) ms) (map (msg_of h1) ms) /\
    (forall s, In (KCall, s) ex -> rd h1 s = rd h s) /\
    (overwrite = false -> ask = false -> rd h from = fv -> vs = map (key_of h) ks ->
     fst (fst (import_loop U gs ov fv overwrite ask filter rest answers0
      (fst (delete_key U vs [kid k]) ++ [import_key U ov fv k]) (n + 1))) = map (key_of h1) ks1 /\
     map (msg_of h1) ms = map (msg_of h) ms)).
  { intros answers0 NO Q. destruct (hdelete_key U h ks [kid k] t) as [[h2 ks2] t2] eqn:ED.
    destruct (hdelete_key_spec U _ _ _ _ _ _ _ _ _ I EX ED) as (I2 & K2 & M2 & C2).
    destruct (ADD answers0 h2 ks2 t2 (fst (delete_key U vs [kid k])) I2) as (A & B & C & D & _).
    - rewrite (C2 _ JO). exact RO.
    - eapply Forall2_trans2; [apply same_but_keepers_trans| |exact K2]. apply delete_key_same. exact V.
    - exact Q.
    - split; [exact A|]. split; [exact B|].
      split; [eapply Forall2_trans2; [apply same_but_keyid_trans|exact M2|exact C]|].
      split; [intros s J; rewrite (D s J); exact (C2 s J)|]. intros O1 O2. destruct (NO O1 O2). }
  destruct (negb (len (kid k) =? gs)); [apply SKIP; exact H|].
  destruct (negb (filter k)); [apply SKIP; exact H|].
  rewrite (contains_same _ _ (kid k) V).
  destruct (contains_key_id U (map (key_of h) ks) (kid k)).
  - destruct (negb overwrite && ask) eqn:OA.
    + assert (NO : overwrite = false -> ask = false -> False) by (intros -> ->; discriminate).
      destruct answers as [|[[|]|] answers'].
      * injection H as <- <- _. cbn [fst]. split; [exact I|]. split; [exact V|].
        split; [apply Forall2_refl, same_but_keyid_refl|]. auto.
      * apply REPL; [exact NO|exact H].
      * apply SKIP; exact H.
      * injection H as <- <- _. cbn [fst]. split; [exact I|]. split; [exact V|].
        split; [apply Forall2_refl, same_but_keyid_refl|]. auto.
    + destruct (negb overwrite) eqn:O; [apply SKIP; exact H|].
      apply REPL; [intros ->; discriminate|exact H].
  - apply (ADD answers h ks t vs); auto.
Qed.

Lemma inv_more : forall h ks ms ex x, inv h ks ms ex -> slot_ok h x ->
  (forall y, In y (slots h ks ms ex) -> R x y) -> inv h ks ms (ex ++ [x]).
Proof.
  intros h ks ms ex x [A B C D] O N.
  assert (E : slots h ks ms (ex ++ [x]) = slots h ks ms ex ++ [x]).
  { unfold slots. rewrite <- !app_assoc. reflexivity. }
  constructor; auto; rewrite E.
  - apply (pairwise_perm _ _ R_sym _ _ (Permutation_cons_append (slots h ks ms ex) x)).
    cbn [pairwise]. split; [|exact A]. rewrite Forall_forall. exact N.
  - rewrite Forall_app. split; [exact B|]. repeat constructor. exact O.
Qed.
Lemma inv_less : forall h ks ms ex x, inv h ks ms (ex ++ [x]) -> inv h ks ms ex.
Proof.
  intros h ks ms ex x [A B C D].
  assert (E : slots h ks ms (ex ++ [x]) = slots h ks ms ex ++ [x]).
  { unfold slots. rewrite <- !app_assoc. reflexivity. }
  rewrite E in A, B. constructor; auto.
  - apply pairwise_app in A. apply A.
  - rewrite Forall_app in B. apply B.
Qed.

Lemma Forall2_keys : forall a b : list key, a = b -> Forall2 same_but_keepers b a.
Proof. intros a b <-. apply Forall2_refl, same_but_keepers_refl'. Qed.

Lemma himport_spec : forall h i overwrite ask filter incoming answers t h' i' t', good h i ->
  himport U h i overwrite ask filter incoming answers t = (h', i', t') ->
  good h' i' /\ same_settings i i' /\ rd h' (hi_callsign i) = rd h (hi_callsign i) /\
  Forall2 same_but_keepers (i_keys (fst (fst (import_keys U (inst_of h i) overwrite ask filter incoming answers))))
    (keys_of h' i') /\
  Forall2 same_but_keyid (messages_of h i) (messages_of h' i') /\
  (overwrite = false -> ask = false ->
   fst (fst (import_keys U (inst_of h i) overwrite ask filter incoming answers)) = inst_of h' i').
Proof.
  intros h i overwrite ask filter incoming answers t h' i' t' G H. unfold himport in H. unfold good in G.
  destruct (new h (i_callsign incoming)) as [h1 from] eqn:EN.
  destruct (himport_loop _ _ _ _ _ _ _ _ _ _ _ _) as [[h2 ks] t1] eqn:EL. injection H as <- <- _.
  pose proof (grows_new _ _ _ _ EN) as GR. pose proof (rd_new _ _ _ _ EN) as RF.
  apply new_spec in EN. destruct EN as [E1 E2].
  pose proof (inv_grows _ _ _ _ _ GR G) as I1.
  set (ex := call_slot i ++ [(KKeeper, from)]).
  assert (I2 : inv h1 (hi_keys i) (hi_messages i) ex).
  { apply inv_more; [exact I1| |].
    - unfold slot_ok; cbn [snd]. rewrite E2, E1. cbn [slice_ok h_runes]. rewrite app_length. cbn [length]. lia.
    - intros y J. subst from. apply (fresh_R h); [unfold fresh; cbn; lia|].
      assert (ES : slots h1 (hi_keys i) (hi_messages i) (call_slot i) = slots h (hi_keys i) (hi_messages i) (call_slot i)).
      { apply slots_outer. destruct G as [_ _ _ D]. revert D. apply Forall_impl.
        intros k0 O0. apply (grows_outer _ _ _ GR O0). }
      rewrite ES in J. destruct G as [_ B _ _]. rewrite Forall_forall in B. apply B. exact J. }
  assert (JO : In (KCall, hi_callsign i) ex) by (left; reflexivity).
  assert (JF : In (KKeeper, from) ex) by (right; left; reflexivity).
  assert (EX : forall x, In x ex -> fst x = KCall \/ fst x = KKeeper).
  { intros x [<-|[<-|[]]]; auto. }
  assert (KG : map (key_of h1) (hi_keys i) = keys_of h i) by exact (keys_grow _ _ _ _ _ GR G).
  assert (MG : map (msg_of h1) (hi_messages i) = messages_of h i) by exact (msgs_grow _ _ _ _ _ GR G).
  assert (CG : rd h1 (hi_callsign i) = rd h (hi_callsign i)).
  { apply (grows_rd _ _ _ GR). apply (inv_ex_ok _ _ _ _ (KCall, hi_callsign i) G). left; reflexivity. }
  destruct (himport_loop_spec _ _ _ _ _ _ _ _ _ _ _ _ _ _ _ _ (rd h (hi_callsign i)) (i_callsign incoming)
    (keys_of h i) 0 I2 JO JF EX CG (Forall2_keys _ _ KG) EL) as (A & B & C & D & E).
  split; [exact (inv_less _ _ _ _ _ A)|]. split; [settings|].
  split; [rewrite (D _ JO); exact CG|].
  unfold import_keys. cbn [inst_of i_groupsize i_callsign i_keys].
  destruct (import_loop _ _ _ _ _ _ _ _ _ _ _) as [[kv nv] ev]. cbn [fst set_keys i_keys] in *.
  split; [exact B|]. split; [rewrite <- MG; exact C|].
  intros O1 O2. destruct (E O1 O2 RF (eq_sym KG)) as [E3 E4]. symmetry.
  apply inst_of_eq; [settings|symmetry; exact E3| |].
  - unfold messages_of at 1. cbn [hset_keys hi_messages]. rewrite E4. exact MG.
  - rewrite (D _ JO). exact CG.
Qed.
End WithUnicode.
