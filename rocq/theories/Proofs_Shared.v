(** The sharing invariant is kept by every operation. *)
From Coq Require Import Permutation.
From Verif Require Import Base Model_Unicode Model_Crand Model_Functions Model_Types
  Model_Cipher Model_Keys Model_Import Model_Messages Model_Heap Spec_Heap Proofs_Keys Proofs_KeyOps
  Proofs_Heap Proofs_Sharing.

(** ** New keys and messages *)
Lemma new_spec : forall h v h' s, new h v = (h', s) ->
  h' = mkHeap (h_runes h ++ [v]) (h_outer h) /\ s = Some (length (h_runes h)).
Proof. intros h v h' s H. injection H as <- <-. auto. Qed.

(** A key made of new arrays, except that its last keeper may be [from]. *)
Definition key_with (h : heap) (k : key) (keepers : list (list rune)) (more : list slice)
  : heap * hkey :=
  let n := length (h_runes h) in
  let inner := map Some (seq (n + 3) (length keepers)) ++ more in
  (mkHeap (h_runes h ++ [kid k; krunes k; kcomment k] ++ keepers) (h_outer h ++ [inner]),
   mkHKey (Some n) (Some (n + 1)%nat) (Some (length (h_outer h))) (kcreated k) (kexpires k)
     (kused k) (kcompromised k) (Some (n + 2)%nat)).

Lemma new_key_arrays_with : forall h k, new_key_arrays h k = key_with h k (kkeepers k) [].
Proof.
  intros h k. unfold new_key_arrays, key_with, new, new_outer. cbn [h_runes h_outer].
  destruct (new_all _ _) as [h4 ss] eqn:E. apply new_all_spec in E.
  cbn [h_runes h_outer] in E. destruct E as (A & B & C).
  rewrite A, B, C, <- !app_assoc. rewrite !app_length. cbn [app length]. rewrite app_nil_r.
  repeat f_equal; lia.
Qed.

Lemma himport_key_with : forall U h own from k,
  exists more, (more = [] \/ more = [from]) /\
    himport_key U h own from k = key_with h k (remove_keeper U (kkeepers k) [own]) more.
Proof.
  intros U h own from k. unfold himport_key, key_with, new, new_outer. cbn [h_runes h_outer].
  destruct (new_all _ _) as [h4 ss] eqn:E. apply new_all_spec in E.
  cbn [h_runes h_outer] in E. destruct E as (A & B & C).
  exists (if contains_keeper U (remove_keeper U (kkeepers k) [own]) [rd h4 from] then [] else [from]).
  split; [destruct (contains_keeper _ _ _); auto|].
  rewrite A, B, C, <- !app_assoc. rewrite !app_length. cbn [app length].
  replace (length (h_runes h) + 1 + 1 + 1)%nat with (length (h_runes h) + 3)%nat by lia.
  replace (length (h_runes h) + 1 + 1)%nat with (length (h_runes h) + 2)%nat by lia.
  destruct (contains_keeper _ _ _); rewrite ?app_nil_r; reflexivity.
Qed.

Lemma key_with_grows : forall h k kp more h' hk, key_with h k kp more = (h', hk) -> grows h h'.
Proof.
  intros h k kp more h' hk H. unfold key_with in H. injection H as <- _.
  eexists _, _. cbn [h_runes h_outer]. split; reflexivity.
Qed.

Lemma key_with_slots : forall h k kp more h' hk, key_with h k kp more = (h', hk) ->
  let n := length (h_runes h) in
  key_slots h' hk = (KId, Some n) :: (KPriv, Some (n + 1)%nat) :: (KPriv, Some (n + 2)%nat)
    :: tag KKeeper (map Some (seq (n + 3) (length kp)) ++ more).
Proof.
  intros h k kp more h' hk H n. unfold key_with in H. injection H as <- <-.
  unfold key_slots. cbn [hk_id hk_runes hk_comment hk_keepers rd_outer h_outer].
  rewrite app_nth2, Nat.sub_diag by lia. reflexivity.
Qed.

Lemma key_with_inv : forall h k kp more h' hk ks ms ex,
  key_with h k kp more = (h', hk) -> inv h ks ms ex ->
  Forall (fun s => In (KKeeper, s) ex) more ->
  inv h' (ks ++ [hk]) ms ex.
Proof.
  intros h k kp more h' hk ks ms ex H I M. rewrite Forall_forall in M.
  pose proof (key_with_slots _ _ _ _ _ _ H) as S. cbv zeta in S.
  set (n := length (h_runes h)) in *.
  assert (EX : forall s, In s more -> In (KKeeper, s) (slots h ks ms ex)).
  { intros s J. unfold slots. apply in_or_app. right. apply in_or_app. right. apply M. exact J. }
  assert (MO : forall s a, In s more -> s = Some a -> (a < n)%nat).
  { intros s a J E. destruct I as [_ B _ _]. rewrite Forall_forall in B. specialize (B _ (EX s J)).
    unfold slot_ok in B. cbn [snd] in B. rewrite E in B. exact B. }
  assert (IN : forall x, In x (key_slots h' hk) ->
             fresh h x \/ (exists s, x = (KKeeper, s) /\ In s more)).
  { intros x J. rewrite S in J. cbn [In] in J. destruct J as [<-|[<-|[<-|J]]].
    - left; cbn; lia.
    - left; cbn; lia.
    - left; cbn; lia.
    - unfold tag in J. apply in_map_iff in J. destruct J as (s & <- & J). apply in_app_or in J.
      destruct J as [J|J]; [|right; exists s; auto]. left.
      apply in_seq_slots in J. destruct J as (a & -> & J). cbn. lia. }
  assert (L : (n + 3 + length kp <= length (h_runes h'))%nat).
  { unfold key_with in H. injection H as <- _. cbn [h_runes]. rewrite !app_length. cbn [length]. fold n. lia. }
  apply (inv_add_key h h' ks ms ex hk); auto.
  - exact (key_with_grows _ _ _ _ _ _ H).
  - rewrite S. cbn [pairwise].
    assert (T : forall kd m x, In x (tag KKeeper (map Some (seq (n + 3) (length kp)) ++ more)) ->
              (n <= m < n + 3)%nat -> R (kd, Some m) x).
    { intros kd m x J Lm. unfold tag in J. apply in_map_iff in J. destruct J as (s & <- & J).
      intros a H1 H2. cbn [snd fst] in *. injection H1 as <-. apply in_app_or in J.
      destruct J as [J|J].
      - apply in_seq_slots in J. destruct J as (b & E & J). rewrite E in H2. injection H2 as ->. lia.
      - pose proof (MO s m J H2). lia. }
    split; [|split; [|split]].
    + repeat constructor.
      * intros a H1 H2. cbn [snd] in *. injection H1 as <-. injection H2 as H2. lia.
      * intros a H1 H2. cbn [snd] in *. injection H1 as <-. injection H2 as H2. lia.
      * rewrite Forall_forall. intros x J. apply (T KId n x J). lia.
    + repeat constructor.
      * intros a H1 H2. cbn [snd] in *. injection H1 as <-. injection H2 as H2. lia.
      * rewrite Forall_forall. intros x J. apply (T _ _ x J). lia.
    + rewrite Forall_forall. intros x J. apply (T _ _ x J). lia.
    + apply tag_same. reflexivity.
  - rewrite S. repeat constructor; unfold slot_ok; cbn [snd slice_ok]; try lia.
    rewrite Forall_forall. intros x J. unfold tag in J. apply in_map_iff in J.
    destruct J as (s & <- & J). cbn [snd]. apply in_app_or in J. destruct J as [J|J].
    + apply in_seq_slots in J. destruct J as (b & -> & J). cbn [slice_ok]. lia.
    + destruct s as [a|]; [|exact Logic.I]. pose proof (MO _ a J eq_refl). cbn [slice_ok]. lia.
  - intros x J y Iy. destruct (IN x J) as [F|(s & -> & Is)].
    + apply (fresh_R h); [exact F|]. destruct I as [_ B _ _]. rewrite Forall_forall in B. apply B. exact Iy.
    + destruct I as [A _ _ _].
      destruct (pairwise_In _ _ R_sym _ (KKeeper, s) y A (EX s Is) Iy) as [<-|Q]; [|exact Q].
      intros a _ _. reflexivity.
  - unfold key_with in H. injection H as _ <-. reflexivity.
  - unfold key_with in H. injection H as <- <-. cbn [hk_keepers outer_ok h_outer].
    rewrite app_length. cbn [length]. lia.
Qed.

(** What a key made this way shows. *)
Lemma key_with_of : forall h k kp more h' hk, key_with h k kp more = (h', hk) ->
  Forall (slice_ok h) more ->
  key_of h' hk = set_keepers k (kp ++ map (rd h) more).
Proof.
  intros h k kp more h' hk H M. unfold key_with in H. injection H as <- <-.
  unfold key_of, set_keepers.
  cbn [hk_id hk_runes hk_comment hk_keepers hk_created hk_expires hk_used hk_compromised].
  assert (X : forall d v l1 l2, d = length l1 ->
            rd (mkHeap (h_runes h ++ l1 ++ v :: l2) (h_outer h ++ [map Some (seq (length (h_runes h) + 3) (length kp)) ++ more]))
               (Some (length (h_runes h) + d)%nat) = v).
  { intros d v l1 l2 ->. unfold rd; cbn [h_runes]. rewrite app_nth2 by lia.
    replace (length (h_runes h) + length l1 - length (h_runes h))%nat with (length l1) by lia.
    rewrite app_nth2 by lia. rewrite Nat.sub_diag. reflexivity. }
  f_equal.
  - pose proof (X 0%nat (kid k) [] ([krunes k; kcomment k] ++ kp) eq_refl) as Q.
    rewrite Nat.add_0_r in Q. exact Q.
  - exact (X 1%nat (krunes k) [kid k] ([kcomment k] ++ kp) eq_refl).
  - unfold rd_outer; cbn [h_outer]. rewrite app_nth2, Nat.sub_diag by lia. cbn [nth].
    rewrite map_app. f_equal.
    + pose proof (rd_seq kp (h_runes h ++ [kid k; krunes k; kcomment k])
        (h_outer h ++ [map Some (seq (length (h_runes h) + 3) (length kp)) ++ more])
        (length (h_runes h) + 3)) as Q.
      specialize (Q ltac:(rewrite app_length; reflexivity) []).
      rewrite app_nil_r, <- app_assoc in Q. exact Q.
    + apply map_ext_in. intros s J. rewrite Forall_forall in M. specialize (M s J).
      destruct s as [a|]; [|reflexivity]. unfold rd; cbn [h_runes]. apply app_nth1. exact M.
  - exact (X 2%nat (kcomment k) [kid k; krunes k] kp eq_refl).
Qed.

Definition msg_with (h : heap) (m : msg) : heap * hmsg :=
  let n := length (h_runes h) in
  (mkHeap (h_runes h ++ [mid m; mfrom m; mkeyid m; mplain m; mcipher m; mradiogram m] ++ mrecipients m)
     (h_outer h),
   mkHMsg (Some n) (map Some (seq (n + 6) (length (mrecipients m)))) (Some (n + 1)%nat) (mdtg m)
     (Some (n + 2)%nat) (Some (n + 3)%nat) (mbinary m) (Some (n + 4)%nat) (Some (n + 5)%nat)).

Lemma new_msg_arrays_with : forall h m, new_msg_arrays h m = msg_with h m.
Proof.
  intros h m. unfold new_msg_arrays, msg_with, new. cbn [h_runes h_outer].
  destruct (new_all _ _) as [h4 ss] eqn:E. apply new_all_spec in E.
  cbn [h_runes h_outer] in E. destruct E as (A & B & C). destruct h4 as [r4 o4].
  cbn [h_runes h_outer] in *. rewrite A, B, C, <- !app_assoc, !app_length. cbn [app length].
  repeat f_equal; lia.
Qed.

Lemma msg_with_grows : forall h m h' hm, msg_with h m = (h', hm) -> grows h h'.
Proof.
  intros h m h' hm H. unfold msg_with in H. injection H as <- _.
  eexists _, []. cbn [h_runes h_outer]. rewrite (app_nil_r (h_outer h)). split; reflexivity.
Qed.

Lemma msg_with_of : forall h m h' hm, msg_with h m = (h', hm) -> msg_of h' hm = m.
Proof.
  intros h m h' hm H. unfold msg_with in H. injection H as <- <-. destruct m as [a b c d e f g x y].
  unfold msg_of.
  cbn [hm_id hm_recipients hm_from hm_dtg hm_keyid hm_plain hm_binary hm_cipher hm_radiogram
       mid mrecipients mfrom mdtg mkeyid mplain mbinary mcipher mradiogram].
  assert (X : forall d v l1 l2, d = length l1 ->
            rd (mkHeap (h_runes h ++ l1 ++ v :: l2) (h_outer h)) (Some (length (h_runes h) + d)%nat) = v).
  { intros d0 v l1 l2 ->. unfold rd; cbn [h_runes]. rewrite app_nth2 by lia.
    replace (length (h_runes h) + length l1 - length (h_runes h))%nat with (length l1) by lia.
    rewrite app_nth2 by lia. rewrite Nat.sub_diag. reflexivity. }
  f_equal.
  - pose proof (X 0%nat a [] ([c; e; f; x; y] ++ b) eq_refl) as Q. rewrite Nat.add_0_r in Q. exact Q.
  - pose proof (rd_seq b (h_runes h ++ [a; c; e; f; x; y]) (h_outer h) (length (h_runes h) + 6)) as Q.
    specialize (Q ltac:(rewrite app_length; reflexivity) []).
    rewrite app_nil_r, <- app_assoc in Q. exact Q.
  - exact (X 1%nat c [a] ([e; f; x; y] ++ b) eq_refl).
  - exact (X 2%nat e [a; c] ([f; x; y] ++ b) eq_refl).
  - exact (X 3%nat f [a; c; e] ([x; y] ++ b) eq_refl).
  - exact (X 4%nat x [a; c; e; f] ([y] ++ b) eq_refl).
  - exact (X 5%nat y [a; c; e; f; x] b eq_refl).
Qed.

Ltac rneq := let a := fresh "a" in let H1 := fresh in let H2 := fresh in
  intros a H1 H2; cbn [snd fst] in *; injection H1 as <-; injection H2 as H2; exfalso; lia.

Lemma msg_with_inv : forall h m h' hm ks ms ex,
  msg_with h m = (h', hm) -> inv h ks ms ex -> inv h' ks (ms ++ [hm]) ex.
Proof.
  intros h m h' hm ks ms ex H I. pose proof (msg_with_grows _ _ _ _ H) as G.
  set (n := length (h_runes h)) in *.
  assert (L : (n + 6 + length (mrecipients m) <= length (h_runes h'))%nat).
  { unfold msg_with in H. injection H as <- _. cbn [h_runes]. rewrite !app_length. cbn [length]. fold n. lia. }
  assert (S : msg_slots hm = (KKeyId, Some (n + 2)%nat) :: (KPriv, Some (n + 4)%nat)
     :: (KPriv, Some (n + 3)%nat) :: (KPriv, Some n) :: (KPriv, Some (n + 1)%nat)
     :: (KPriv, Some (n + 5)%nat) :: tag KCall (map Some (seq (n + 6) (length (mrecipients m))))).
  { unfold msg_with in H. injection H as _ <-. reflexivity. }
  assert (T : forall kd m0 x, In x (tag KCall (map Some (seq (n + 6) (length (mrecipients m))))) ->
            (m0 < n + 6)%nat -> R (kd, Some m0) x).
  { intros kd m0 x J Lm. unfold tag in J. apply in_map_iff in J. destruct J as (s & <- & J).
    intros a H1 H2. cbn [snd fst] in *. injection H1 as <-.
    apply in_seq_slots in J. destruct J as (b & E & J). rewrite E in H2. injection H2 as ->. lia. }
  assert (T' : forall kd m0, (m0 < n + 6)%nat ->
            Forall (R (kd, Some m0)) (tag KCall (map Some (seq (n + 6) (length (mrecipients m)))))).
  { intros kd m0 Lm. rewrite Forall_forall. intros x J. apply (T kd m0 x J Lm). }
  apply (inv_add_msg h h' ks ms ex hm); auto.
  - rewrite S. cbn [pairwise]. repeat apply conj;
      repeat (apply Forall_cons; [rneq|]); try (apply T'; lia); apply tag_same; reflexivity.
  - rewrite S. repeat constructor; unfold slot_ok; cbn [snd slice_ok]; try lia.
    rewrite Forall_forall. intros x J. unfold tag in J. apply in_map_iff in J.
    destruct J as (s & <- & J). cbn [snd]. apply in_seq_slots in J. destruct J as (b & -> & J).
    cbn [slice_ok]. lia.
  - intros x J y Iy. apply (fresh_R h).
    + rewrite S in J. cbn [In] in J.
      destruct J as [<-|[<-|[<-|[<-|[<-|[<-|J]]]]]]; try (cbn; fold n; lia).
      unfold tag in J. apply in_map_iff in J. destruct J as (s & <- & J).
      apply in_seq_slots in J. destruct J as (b & -> & J). cbn. fold n. lia.
    + destruct I as [_ B _ _]. rewrite Forall_forall in B. apply B. exact Iy.
Qed.

(** ** Reading a file *)
Lemma new_keys_arrays_inv : forall vs h h' hks ks ex,
  new_keys_arrays h vs = (h', hks) -> inv h ks [] ex ->
  inv h' (ks ++ hks) [] ex /\ map (key_of h') (ks ++ hks) = map (key_of h) ks ++ vs /\ grows h h'.
Proof.
  induction vs as [|v vs IH]; intros h h' hks ks ex H I; cbn [new_keys_arrays] in H.
  - injection H as <- <-. rewrite !app_nil_r. repeat split; auto using grows_refl; apply I.
  - rewrite new_key_arrays_with in H. destruct (key_with h v (kkeepers v) []) as [h1 hk] eqn:E.
    destruct (new_keys_arrays h1 vs) as [h2 hks2] eqn:E2. injection H as <- <-.
    pose proof (key_with_inv _ _ _ _ _ _ _ _ _ E I (Forall_nil _)) as I1.
    destruct (IH _ _ _ _ _ E2 I1) as (A & B & G). rewrite <- app_assoc in A, B. cbn [app] in A, B.
    split; [exact A|]. split; [|exact (grows_trans _ _ _ (key_with_grows _ _ _ _ _ _ E) G)].
    rewrite B. rewrite map_app. cbn [map].
    rewrite (key_with_of _ _ _ _ _ _ E (Forall_nil _)). cbn [map]. rewrite app_nil_r.
    destruct v; unfold set_keepers; cbn. rewrite <- app_assoc. cbn [app]. f_equal.
    apply map_ext_in. intros k J. pose proof (key_with_grows _ _ _ _ _ _ E) as G1.
    destruct I as [_ O _ OO]. rewrite Forall_forall in O, OO. specialize (OO k J). cbv beta in OO.
    assert (X : forall x, In x (key_slots h k) -> slice_ok h (snd x)).
    { intros x Jx. apply (O x). unfold slots. apply in_or_app. left. apply in_flat_map. exists k. auto. }
    unfold key_of.
    rewrite (grows_outer _ _ _ G1 OO).
    rewrite (grows_rd _ _ (hk_id k) G1), (grows_rd _ _ (hk_runes k) G1), (grows_rd _ _ (hk_comment k) G1).
    + f_equal. apply map_ext_in. intros s Js. apply (grows_rd _ _ _ G1).
      apply (X (KKeeper, s)). right; right; right. apply in_map. exact Js.
    + apply (X (KPriv, hk_comment k)). cbn; auto.
    + apply (X (KPriv, hk_runes k)). cbn; auto.
    + apply (X (KId, hk_id k)). cbn; auto.
Qed.

(** Growth keeps what is shown. *)
Lemma key_of_grows : forall h h' k, grows h h' ->
  Forall (slot_ok h) (key_slots h k) -> outer_ok h (hk_keepers k) -> key_of h' k = key_of h k.
Proof.
  intros h h' k G1 O OO. rewrite Forall_forall in O.
  assert (X : forall x, In x (key_slots h k) -> slice_ok h (snd x)) by (intros x J; apply (O x J)).
  unfold key_of. rewrite (grows_outer _ _ _ G1 OO).
  rewrite (grows_rd _ _ (hk_id k) G1), (grows_rd _ _ (hk_runes k) G1), (grows_rd _ _ (hk_comment k) G1).
  - f_equal. apply map_ext_in. intros s Js. apply (grows_rd _ _ _ G1).
    apply (X (KKeeper, s)). right; right; right. apply in_map. exact Js.
  - apply (X (KPriv, hk_comment k)). cbn; auto.
  - apply (X (KPriv, hk_runes k)). cbn; auto.
  - apply (X (KId, hk_id k)). cbn; auto.
Qed.

Lemma msg_of_grows : forall h h' m, grows h h' -> Forall (slot_ok h) (msg_slots m) ->
  msg_of h' m = msg_of h m.
Proof.
  intros h h' m G O. rewrite Forall_forall in O.
  assert (X : forall kd s, In (kd, s) (msg_slots m) -> rd h' s = rd h s).
  { intros kd s J. apply (grows_rd _ _ _ G). apply (O _ J). }
  unfold msg_of.
  rewrite (X KPriv (hm_id m)), (X KPriv (hm_from m)), (X KKeyId (hm_keyid m)),
    (X KPriv (hm_plain m)), (X KPriv (hm_cipher m)), (X KPriv (hm_radiogram m));
    try (cbn [msg_slots In]; tauto).
  f_equal. apply map_ext_in. intros s J. apply (X KCall). unfold msg_slots.
  do 6 right. apply in_map. exact J.
Qed.

Lemma inv_key_ok : forall h ks ms ex k, inv h ks ms ex -> In k ks ->
  Forall (slot_ok h) (key_slots h k) /\ outer_ok h (hk_keepers k).
Proof.
  intros h ks ms ex k [_ O _ OO] J. rewrite Forall_forall in *. split; [|apply (OO k J)].
  intros x Jx. apply (O x). unfold slots. apply in_or_app. left. apply in_flat_map. exists k. auto.
Qed.
Lemma inv_msg_ok : forall h ks ms ex m, inv h ks ms ex -> In m ms -> Forall (slot_ok h) (msg_slots m).
Proof.
  intros h ks ms ex m [_ O _ _] J. rewrite Forall_forall in *.
  intros x Jx. apply (O x). unfold slots. apply in_or_app. right. apply in_or_app. left.
  apply in_flat_map. exists m. auto.
Qed.
Lemma inv_ex_ok : forall h ks ms ex x, inv h ks ms ex -> In x ex -> slot_ok h x.
Proof.
  intros h ks ms ex x [_ O _ _] J. rewrite Forall_forall in O. apply (O x).
  unfold slots. apply in_or_app. right. apply in_or_app. right. exact J.
Qed.

Lemma keys_grow : forall h h' ks ms ex, grows h h' -> inv h ks ms ex ->
  map (key_of h') ks = map (key_of h) ks.
Proof.
  intros h h' ks ms ex G I. apply map_ext_in. intros k J.
  destruct (inv_key_ok _ _ _ _ _ I J). apply key_of_grows; auto.
Qed.
Lemma msgs_grow : forall h h' ks ms ex, grows h h' -> inv h ks ms ex ->
  map (msg_of h') ms = map (msg_of h) ms.
Proof.
  intros h h' ks ms ex G I. apply map_ext_in. intros m J.
  apply msg_of_grows; auto. exact (inv_msg_ok _ _ _ _ _ I J).
Qed.

Lemma new_msgs_arrays_inv : forall vs h h' hms ks ms ex,
  new_msgs_arrays h vs = (h', hms) -> inv h ks ms ex ->
  inv h' ks (ms ++ hms) ex /\ map (msg_of h') (ms ++ hms) = map (msg_of h) ms ++ vs /\ grows h h'.
Proof.
  induction vs as [|v vs IH]; intros h h' hms ks ms ex H I; cbn [new_msgs_arrays] in H.
  - injection H as <- <-. rewrite !app_nil_r. repeat split; auto using grows_refl; apply I.
  - rewrite new_msg_arrays_with in H. destruct (msg_with h v) as [h1 hm] eqn:E.
    destruct (new_msgs_arrays h1 vs) as [h2 hms2] eqn:E2. injection H as <- <-.
    pose proof (msg_with_inv _ _ _ _ _ _ _ E I) as I1.
    pose proof (msg_with_grows _ _ _ _ E) as G1.
    destruct (IH _ _ _ _ _ _ E2 I1) as (A & B & G). rewrite <- app_assoc in A, B. cbn [app] in A, B.
    split; [exact A|]. split; [|exact (grows_trans _ _ _ G1 G)].
    rewrite B, map_app. cbn [map]. rewrite (msg_with_of _ _ _ _ E), <- app_assoc. cbn [app]. f_equal.
    exact (msgs_grow _ _ _ _ _ G1 I).
Qed.

Definition call_slot (i : hinst) : list slot := [(KCall, hi_callsign i)].
Definition good (h : heap) (i : hinst) : Prop := inv h (hi_keys i) (hi_messages i) (call_slot i).

Lemma loaded_good : forall i h hi, loaded i = (h, hi) -> good h hi /\ inst_of h hi = i.
Proof.
  intros i h hi H. unfold loaded in H. unfold new in H. cbn [h_runes h_outer app length] in H.
  destruct (new_keys_arrays _ (i_keys i)) as [h2 ks] eqn:E1.
  destruct (new_msgs_arrays h2 (i_messages i)) as [h3 ms] eqn:E2. injection H as <- <-.
  assert (I0 : inv (mkHeap [i_callsign i] []) [] [] [(KCall, Some 0%nat)]).
  { constructor; cbn; repeat constructor. }
  destruct (new_keys_arrays_inv _ _ _ _ _ _ E1 I0) as (I1 & K1 & G1). cbn [app map] in *.
  destruct (new_msgs_arrays_inv _ _ _ _ _ _ _ E2 I1) as (I2 & K2 & G2). cbn [app map] in *.
  split; [exact I2|]. unfold inst_of, keys_of, messages_of.
  cbn [hi_groupsize hi_keylength hi_columns hi_keycolumns hi_keys hi_messages hi_callsign].
  rewrite K2, (keys_grow _ _ _ _ _ G2 I1), K1.
  assert (C : rd h3 (Some 0%nat) = i_callsign i).
  { pose proof (grows_trans _ _ _ G1 G2) as G.
    rewrite (grows_rd _ _ (Some 0%nat) G); [reflexivity|cbn; lia]. }
  rewrite C. destruct i; reflexivity.
Qed.
