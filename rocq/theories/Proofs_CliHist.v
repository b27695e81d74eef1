(** Lemmas about histories of commands. *)
From Coq Require Import Permutation FinFun.
From Verif Require Import Base Model_Unicode Model_Functions Model_Crand Model_Types Model_Cipher Model_Keys Model_Import
  Model_Messages Model_Station Model_Persist Model_Listing Model_Cli Spec Spec_Persist Spec_Cli Spec_Listing Spec_CliHist
  Proofs_Functions Proofs_Keys Proofs_Cipher Proofs_KeyOps Proofs_KeyProps Proofs_Listing Proofs_Cli Proofs_CliRun Proofs_CliCmd
  Proofs_CliOps Proofs_CliMsg Spec_CliPfk Proofs_CliPfk.

(** [all]: the keys there ever were. [jss]: those of them used for the messages
    so far. The keys [ks] there are now are distinct ones of [all]; those used
    for messages are marked. *)
Definition copies (all : list key) (used : list nat) (es : list nat) (ks : list key) : Prop :=
  length es = length ks /\ NoDup es /\
  forall n e k, nth_error es n = Some e -> nth_error ks n = Some k ->
    exists k0, nth_error all e = Some k0 /\ kid k = kid k0 /\ krunes k = krunes k0 /\
      (kused k0 = true -> kused k = true) /\ (In e used -> kused k = true).
Definition inv (all : list key) (used : list nat) (ks : list key) : Prop :=
  Forall (fun j => (j < length all)%nat) used /\ exists es, copies all used es ks.

Lemma copies_start ks : inv ks [] ks.
Proof.
  split; [constructor|]. exists (seq 0 (length ks)). split; [apply seq_length|]. split; [apply seq_NoDup|].
  intros n e k E K. assert (e = n) as ->.
  { assert (n < length ks)%nat as B by (apply nth_error_Some; congruence).
    rewrite (nth_error_nth' (seq 0 (length ks)) O) in E by (rewrite seq_length; exact B). rewrite seq_nth in E by exact B.
    injection E as <-. reflexivity. }
  exists k. split; [exact K|]. split; [reflexivity|]. split; [reflexivity|]. split; [auto|]. intros [].
Qed.

Lemma inv_more all used ks ks' : more_used ks ks' -> inv all used ks -> inv all used ks'.
Proof.
  intros M (B & es & E1 & E2 & E3). split; [exact B|]. exists es. pose proof (more_used_len _ _ M) as LN.
  split; [congruence|]. split; [exact E2|]. intros n e k N K.
  destruct (nth_error ks n) as [k1|] eqn:K1.
  - destruct (E3 n e k1 N K1) as (k0 & A1 & A2 & A3 & A4 & A5).
    destruct (more_used_nth _ _ _ _ M K1) as (k' & C1 & C2 & C3 & C4). rewrite K in C1. injection C1 as <-.
    exists k0. split; [exact A1|]. split; [congruence|]. split; [congruence|]. split; auto.
  - apply nth_error_None in K1. assert (n < length ks')%nat by (apply nth_error_Some; congruence). lia.
Qed.

Lemma NoDup_app_intro A (a b : list A) : NoDup a -> NoDup b -> (forall x, In x a -> ~ In x b) -> NoDup (a ++ b).
Proof.
  intros Na Nb D. induction Na as [|x a X Na IH]; [exact Nb|]. cbn [app]. constructor.
  - rewrite in_app_iff. intros [Q|Q]; [exact (X Q)|]. exact (D x (or_introl eq_refl) Q).
  - apply IH. intros y Y. apply D. right. exact Y.
Qed.

Lemma inv_delete all used ks ks' del : Permutation ks (del ++ ks') -> inv all used ks -> inv all used ks'.
Proof.
  intros P (B & es & E1 & E2 & E3). split; [exact B|].
  assert (Permutation ks (ks' ++ del)) as P2 by (rewrite P; apply Permutation_app_comm).
  apply Permutation_nth_error in P2. destruct P2 as (PL & g & G1 & G2).
  assert (forall n, (n < length ks')%nat -> (g n < length es)%nat /\ nth_error ks' n = nth_error ks (g n)) as GN.
  { intros n H. pose proof (G2 n) as Q. rewrite nth_error_app1 in Q by exact H. split; [|exact Q]. rewrite E1.
    apply nth_error_Some. rewrite <- Q. apply nth_error_Some. exact H. }
  exists (map (fun n => nth (g n) es O) (seq 0 (length ks'))). split; [rewrite map_length; apply seq_length|]. split.
  - apply NoDup_nth_error. intros a b LA EQ. rewrite map_length, seq_length in LA. rewrite !nth_error_map in EQ.
    assert (nth_error (seq 0 (length ks')) a = Some a) as SA.
    { rewrite (nth_error_nth' _ O) by (rewrite seq_length; exact LA). rewrite seq_nth by exact LA. reflexivity. }
    rewrite SA in EQ. cbn [option_map] in EQ. destruct (nth_error (seq 0 (length ks')) b) as [b'|] eqn:SB; [|discriminate].
    assert (b < length ks')%nat as LB by (rewrite <- (seq_length (length ks') 0); apply nth_error_Some; congruence).
    rewrite (nth_error_nth' _ O) in SB by (rewrite seq_length; exact LB). rewrite seq_nth in SB by exact LB. injection SB as <-.
    cbn [Nat.add option_map] in EQ. injection EQ as EQ. destruct (GN a LA) as (XA & _). destruct (GN b LB) as (XB & _).
    apply G1. apply (proj1 (NoDup_nth es O) E2); assumption.
  - intros n e k N K. assert (n < length ks')%nat as LN by (apply nth_error_Some; congruence).
    destruct (GN n LN) as (X1 & X2). rewrite nth_error_map in N.
    rewrite (nth_error_nth' (seq 0 (length ks')) O) in N by (rewrite seq_length; exact LN). rewrite seq_nth in N by exact LN.
    cbn [Nat.add option_map] in N. injection N as <-.
    apply (E3 (g n)); [apply nth_error_nth'; exact X1|congruence].
Qed.

Lemma inv_new all used ks new : inv all used ks -> inv (all ++ new) used (ks ++ new).
Proof.
  intros (B & es & E1 & E2 & E3).
  assert (forall e, In e es -> (e < length all)%nat) as BE.
  { intros e I. apply In_nth_error in I. destruct I as (n & N). assert (n < length ks)%nat as LN by (rewrite <- E1; apply nth_error_Some; congruence).
    destruct (nth_error ks n) as [k|] eqn:K; [|apply nth_error_None in K; lia].
    destruct (E3 n e k N K) as (k0 & A & _). apply nth_error_Some. congruence. }
  split.
  - eapply Forall_impl; [|exact B]. cbv beta. intros j J. rewrite app_length. lia.
  - exists (es ++ seq (length all) (length new)). split; [rewrite !app_length, seq_length; lia|]. split.
    + apply NoDup_app_intro; [exact E2|apply seq_NoDup|]. intros e I Q. apply in_seq in Q. specialize (BE e I). lia.
    + intros n e k N K. destruct (Nat.lt_ge_cases n (length ks)) as [LN|LN].
      * rewrite nth_error_app1 in N by lia. rewrite nth_error_app1 in K by exact LN.
        destruct (E3 n e k N K) as (k0 & A & R). exists k0. split; [|exact R].
        rewrite nth_error_app1; [exact A|]. apply nth_error_Some. congruence.
      * rewrite nth_error_app2 in N by lia. rewrite nth_error_app2 in K by exact LN. rewrite E1 in N.
        assert (n - length ks < length new)%nat as LX by (apply nth_error_Some; congruence).
        rewrite (nth_error_nth' _ O) in N by (rewrite seq_length; exact LX). rewrite seq_nth in N by exact LX. injection N as <-.
        exists k. rewrite nth_error_app2 by lia. replace (length all + (n - length ks) - length all)%nat with (n - length ks)%nat by lia.
        split; [exact K|]. split; [reflexivity|]. split; [reflexivity|]. split; [auto|].
        intros I. rewrite Forall_forall in B. specialize (B _ I). lia.
Qed.

Lemma message_remap gs ks all (g : nat -> nat) js p c :
  (forall j k, In j js -> nth_error ks j = Some k -> exists k0, nth_error all (g j) = Some k0 /\ kid k = kid k0 /\ krunes k = krunes k0) ->
  message gs ks js p c -> message gs all (map g js) p c.
Proof.
  intros H M. induction M as [j k s p tl Hk Hs LK R T|j k s p j' k' js p' c' Hk Hs LK Hk' R M IH].
  - destruct (H j k (or_introl eq_refl) Hk) as (k0 & A & B & C). rewrite C. cbn [map].
    apply message_last with (tl := tl); try assumption. rewrite <- C. exact LK.
  - destruct (H j k (or_introl eq_refl) Hk) as (k0 & A & B & C).
    destruct (H j' k' (or_intror (or_introl eq_refl)) Hk') as (k1 & A1 & B1 & C1). rewrite C. cbn [map].
    apply (message_next gs all (g j) k0 s p (g j') k1); try assumption; [rewrite <- C; exact LK|rewrite <- B1; exact R|].
    apply IH. intros i ki I K. apply (H i ki); [right; exact I|exact K].
Qed.
Lemma message_app gs ks new js p c : message gs ks js p c -> message gs (ks ++ new) js p c.
Proof.
  intros M. rewrite <- (map_id js). apply message_remap with (ks := ks); [|exact M].
  intros j k _ K. exists k. split; [|auto]. rewrite nth_error_app1; [exact K|]. apply nth_error_Some. congruence.
Qed.

Lemma inv_message gs all used ks ks' m js : NoDup used -> freshly_enciphered gs ks ks' m js -> inv all used ks ->
  exists js', message gs all js' (map canon (mplain m)) (mcipher m) /\ NoDup (used ++ js') /\ inv all (used ++ js') ks' /\
    (forall j k0, In j js' -> nth_error all j = Some k0 -> kused k0 = false).
Proof.
  intros NU (M & _ & NJ & EL & MK) (B & es & E1 & E2 & E3).
  assert (forall j, In j js -> exists e k k0, nth_error es j = Some e /\ nth j es O = e /\ nth_error ks j = Some k /\ nth_error all e = Some k0 /\
    kid k = kid k0 /\ krunes k = krunes k0 /\ kused k0 = false /\ ~ In e used) as J.
  { intros j I. destruct (EL j I) as (k & K & (U0 & _)). assert (j < length es)%nat as LJ by (rewrite E1; apply nth_error_Some; congruence).
    destruct (nth_error es j) as [e|] eqn:N; [|apply nth_error_None in N; lia].
    destruct (E3 j e k N K) as (k0 & A1 & A2 & A3 & A4 & A5). exists e, k, k0.
    split; [reflexivity|]. split; [apply nth_error_nth, N|]. split; [exact K|]. split; [exact A1|]. split; [exact A2|]. split; [exact A3|].
    split; [destruct (kused k0); [rewrite A4 in U0 by reflexivity; discriminate|reflexivity]|].
    intros Q. rewrite (A5 Q) in U0. discriminate. }
  exists (map (fun j => nth j es O) js). split.
  { apply message_remap with (ks := ks); [|exact M]. intros j k I K. destruct (J j I) as (e & k1 & k0 & _ & -> & K1 & A & C1 & C2 & _).
    rewrite K in K1. injection K1 as <-. exists k0. auto. }
  split.
  { apply NoDup_app_intro; [exact NU| |].
    - clear - NJ J E2. induction NJ as [|j js X NJ IH]; [constructor|]. cbn [map]. constructor.
      + intros Q. apply in_map_iff in Q. destruct Q as (j' & Q & I').
        destruct (J j (or_introl eq_refl)) as (e & _ & _ & N & Y & _). destruct (J j' (or_intror I')) as (e' & _ & _ & N' & Y' & _).
        rewrite Y, Y' in Q. subst e'. assert (j = j') as -> by (apply (proj1 (NoDup_nth_error es) E2); [apply nth_error_Some; congruence|congruence]).
        exact (X I').
      + apply IH. intros i I. apply J. right. exact I.
    - intros e I Q. apply in_map_iff in Q. destruct Q as (j & Q & I'). destruct (J j I') as (e' & _ & _ & _ & Y & _ & _ & _ & _ & _ & Z0).
      rewrite Y in Q. subst e'. exact (Z0 I). }
  split; [|intros j k0 I A; apply in_map_iff in I; destruct I as (i & <- & I); destruct (J i I) as (e & k & k1 & _ & Y & _ & A1 & _ & _ & U0 & _);
    rewrite Y in A; rewrite A in A1; injection A1 as <-; exact U0].
  split.
  - apply Forall_app. split; [exact B|]. apply Forall_forall. intros e I. apply in_map_iff in I. destruct I as (j & <- & I).
    destruct (J j I) as (e & k & k0 & _ & -> & _ & A & _). apply nth_error_Some. congruence.
  - exists es. pose proof (more_used_len _ _ (marked_more _ _ _ MK)) as LN. split; [congruence|]. split; [exact E2|].
    intros n e k N K. pose proof (MK n) as MN. rewrite K in MN. destruct (nth_error ks n) as [k1|] eqn:K1; [|discriminate].
    destruct (E3 n e k1 N K1) as (k0 & A1 & A2 & A3 & A4 & A5). cbn [option_map] in MN. injection MN as MN.
    exists k0. split; [exact A1|]. destruct (existsb (Nat.eqb n) js) eqn:EB; subst k.
    + split; [exact A2|]. split; [exact A3|]. split; reflexivity.
    + split; [exact A2|]. split; [exact A3|]. split; [exact A4|]. intros I. apply in_app_iff in I. destruct I as [I|I]; [exact (A5 I)|].
      apply in_map_iff in I. destruct I as (j & Q & I). destruct (J j I) as (e' & _ & _ & N' & Y & _). rewrite Y in Q. subst e'.
      assert (n = j) as -> by (apply (proj1 (NoDup_nth_error es) E2); [apply nth_error_Some; congruence|congruence]).
      assert (existsb (Nat.eqb j) js = true) as X by (apply existsb_exists; exists j; split; [exact I|apply Nat.eqb_refl]). congruence.
Qed.

Set Default Proof Using "Type".
Section Hist.
Context (L : lib) (U : Uni) (lb : list rune -> list rune) (dp : list rune -> option Z)
  (ds : Z -> list rune) (dg : list rune -> list rune).

Lemma keys_show_nothing r g o f h : shown (cmd_keys L U dp ds r g o f h) = [].
Proof.
  assert (forall x (k : fs -> mem -> station -> flow), shown x = [] -> (forall f h s, shown (k f h s) = []) -> shown (andthen x k) = []) as AT.
  { intros x k H K. destruct x as [f1 h1 s1 ms|? ? ? ?]; cbn [andthen]; [|exact H]. rewrite shown_show, K, app_nil_r. exact H. }
  assert (forall e f h s, shown (save_step L e f h s) = []) as SV.
  { intros e f1 h1 s1. unfold save_step. destruct (save L e f1 h1 s1) as [[[[?|?| |] ?] ?] ?]; reflexivity. }
  unfold cmd_keys. destruct (keys_idle o); [reflexivity|]. apply AT.
  { unfold open_file. destruct (new_station U h _) as [s0 h0]. apply AT.
    - unfold set_salt_and_pfk. destruct (g_pfk g), (g_password g); try reflexivity; apply AT;
        repeat (intros; match goal with
        | |- shown (match ?x with _ => _ end) = [] => destruct x
        | |- shown (let '(_, _) := ?x in _) = [] => destruct x
        | |- _ = [] => reflexivity
        end).
    - intros f1 h1 s1. unfold load_step. destruct (load L _ f1 h1 new_arrays s1) as [[[?|?| |] ?] ?]; reflexivity. }
  intros f1 h1 s1. apply AT.
  { unfold keys_delete. destruct (negb (ko_delete o)); [reflexivity|]. cbv zeta. destruct (len _ =? 0); [reflexivity|].
    destruct (ko_yes o); [destruct (0 <? _); [apply SV|reflexivity]|]. destruct (len _ =? 0); [reflexivity|].
    destruct (r_pick r _); [|reflexivity]. destruct (0 <? _); [apply SV|reflexivity]. }
  intros f2 h2 s2. apply AT.
  { unfold keys_new. destruct (negb _); [reflexivity|]. destruct (generate_keys _ _ _ _ _ _ _) as [[? ?]|?| |]; try reflexivity. apply SV. }
  intros f3 h3 s3. apply AT.
  { unfold keys_import. destruct (ko_import o); [|reflexivity]. destruct (len _ =? 0); [reflexivity|].
    destruct (import_station _ _ _ _ _ _ _ _ _ _) as [[[[?|?| |] ?] ?] ?]; try reflexivity. apply SV. }
  intros f4 h4 s4. apply AT.
  { unfold keys_export. destruct (ko_export o); [|reflexivity]. destruct (len _ =? 0); [reflexivity|].
    destruct (export_station _ _ _ _ _) as [? ?]. apply AT; [apply SV|reflexivity]. }
  intros f5 h5 s5. apply (list_end U ds r o f5 h5 s5).
Qed.

(** What a keys command without import does to the keys. *)
Definition keys_kept (i i' : inst) : Prop :=
  i' = set_keys i (i_keys i') /\
  (station_ok i -> 0 <= i_keylength i -> station_ok i' /\
   forall all used, inv all used (i_keys i) -> exists new, inv (all ++ new) used (i_keys i')).
Lemma keys_kept_closed : keys_closed U False keys_kept.
Proof.
  constructor.
  - intros i. split; [destruct i; reflexivity|]. intros OK _. split; [exact OK|]. intros all used I. exists []. rewrite app_nil_r. exact I.
  - intros a b c (A1 & A2) (B1 & B2). split; [rewrite B1, A1; reflexivity|]. intros OK KL. destruct (A2 OK KL) as (OK1 & A3).
    assert (0 <= i_keylength b) as KL2 by (rewrite A1; exact KL). destruct (B2 OK1 KL2) as (OK2 & B3). split; [exact OK2|].
    intros all used I. destruct (A3 all used I) as (n1 & I1). destruct (B3 _ _ I1) as (n2 & I2). exists (n1 ++ n2). rewrite app_assoc. exact I2.
  - intros i ids. split; [reflexivity|]. intros (G & (N & S) & M) _. destruct (delete_key U (i_keys i) ids) as [ks n] eqn:E. cbn [fst].
    destruct (delete_any U _ _ _ _ E) as (del & P & _). split.
    + split; [exact G|]. split; [|exact M]. cbn [set_keys i_keys i_groupsize]. split.
      * apply (Permutation_map kid) in P. apply (Permutation_NoDup P) in N. rewrite map_app in N.
        clear - N. induction (map kid del) as [|x l IH]; [exact N|]. apply IH. inversion N; assumption.
      * intros k I. apply S. apply (Permutation_in _ (Permutation_sym P)). apply in_app_iff. right. exact I.
    + intros all used I. exists []. rewrite app_nil_r. exact (inv_delete _ _ _ _ _ P I).
  - intros i n now e kp t i' t' E. split.
    + unfold generate_keys in E. destruct e as [[e|]|]; [|discriminate|]; exact (new_keys_only U _ _ _ _ _ _ _ _ E).
    + intros (G & (N & S) & M) KL. destruct (c18_generate_lemma U _ _ _ _ _ _ _ _ G KL E) as (new & -> & _ & P1 & P2).
      split.
      * split; [exact G|]. split; [|exact M]. cbn [set_keys i_keys i_groupsize]. split.
        -- rewrite map_app. apply NoDup_app_intro; [exact N| |].
           ++ clear - P2. assert (forall a k b, new = a ++ k :: b -> forall k0, In k0 a -> kid k0 <> kid k) as Q.
              { intros a k b Q k0 I E. apply (P2 a k b Q k0); [apply in_app_iff; right; exact I|]. unfold same_text. rewrite E. reflexivity. }
              clear P2. induction new as [|k new IH] using rev_ind; [constructor|].
              rewrite map_app. apply NoDup_app_intro; [|constructor; [intros []|constructor]|].
              ** apply IH. intros a x b E. apply (Q a x (b ++ [k])). rewrite E, <- app_assoc. reflexivity.
              ** intros x I [<-|[]]. apply in_map_iff in I. destruct I as (k0 & E & I). exact (Q new k [] eq_refl k0 I E).
           ++ intros x I Q. apply in_map_iff in I. destruct I as (k0 & <- & I). apply in_map_iff in Q. destruct Q as (k & EQ & Q).
              apply in_split in Q. destruct Q as (a & b & Q). apply (P2 a k b Q k0); [apply in_app_iff; left; exact I|].
              unfold same_text. rewrite EQ. reflexivity.
        -- intros k I. apply in_app_iff in I. destruct I as [I|I]; [apply S, I|]. destruct (P1 k I) as (A1 & A2 & A3 & _). auto.
      * intros all used I. exists new. apply inv_new, I.
  - intros [].
Qed.

Lemma history_step p key c f i all jss ms : uni_ok U -> lib_ok L -> plain_path p -> len key = 32 -> no_zero_setting i -> stored L f p key i ->
  station_ok i -> 0 <= i_keylength i -> call_on L p c ->
  (shown (exec L U lb dp ds dg c f) = [] \/ result (exec L U lb dp ds dg c f) = Ok tt) ->
  inv all (concat jss) (i_keys i) -> NoDup (concat jss) ->
  Forall2 (fun m js => same_text (to_upper U) (mfrom m) (i_callsign i) ->
    message (i_groupsize i) all js (map canon (mplain m)) (mcipher m)) ms jss ->
  exists key' i' new jss', len key' = 32 /\ stored L (files (exec L U lb dp ds dg c f)) p key' i' /\ station_ok i' /\ same_settings i i' /\
    inv (all ++ new) (concat jss') (i_keys i') /\ NoDup (concat jss') /\
    Forall2 (fun m js => same_text (to_upper U) (mfrom m) (i_callsign i) ->
      message (i_groupsize i) (all ++ new) js (map canon (mplain m)) (mcipher m)) (ms ++ shown (exec L U lb dp ds dg c f)) jss' /\
    exists add, jss' = jss ++ add /\ forall j k, In j (concat add) -> nth_error all j = Some k -> kused k = false.
Proof.
  intros HU HL PP LK NZ ST OK KL (D1 & D2 & D4 & CO) SH IV ND F2. unfold exec in *. destruct (c_cmd c) as [o|o|o].
  - destruct CO as (PO & OI & EX).
    destruct (follows_stored L p key keys_kept _ f i _ (kc_refl _ _ _ keys_kept_closed) ST
      (keys_follows L U dp ds False keys_kept (c_run c) (c_global c) o f [] p key i HL keys_kept_closed (fun H => H OI) NZ PO PP LK ST D1 D2 D4 EX))
      as ((i' & S & E1 & E2) & _).
    destruct (E2 OK KL) as (OK2 & E3). destruct (E3 _ _ IV) as (new & IV2).
    exists key, i', new, jss. split; [exact LK|]. split; [exact S|]. split; [exact OK2|]. split; [rewrite E1; repeat split|]. split; [exact IV2|]. split; [exact ND|].
    rewrite keys_show_nothing, app_nil_r. split; [|exists []; split; [rewrite app_nil_r; reflexivity|intros j k []]].
    eapply Forall2_imp; [|exact F2]. intros m js H S2. apply message_app, H, S2.
  - destruct (msgs_frame_lemma L U lb dp ds dg (c_run c) (c_global c) o f [] p key i HU HL (conj CO (conj PP (conj LK (conj NZ ST)))) OK D1 D2)
      as (_ & i' & S & OK2 & MO & [E|(i1 & m & E & MO1 & OK1 & _ & _ & R1 & R2)]).
    + exists key, i', [], jss. rewrite E, !app_nil_r. split; [exact LK|]. split; [exact S|]. split; [exact OK2|].
      split; [destruct MO as (-> & _); repeat split|]. split; [exact (inv_more _ _ _ _ (proj2 MO) IV)|]. split; [exact ND|]. split; [exact F2|].
      exists []. split; [rewrite app_nil_r; reflexivity|intros j k []].
    + assert (result (cmd_messages L U lb dp ds dg (c_run c) (c_global c) o f []) = Ok tt) as RO
        by (destruct SH as [SH|SH]; [rewrite E in SH; discriminate|exact SH]).
      destruct (R1 RO) as (MO2 & _). pose proof (inv_more _ _ _ _ (proj2 MO1) IV) as IV1.
      assert (exists js, NoDup (concat (jss ++ [js])) /\ inv all (concat (jss ++ [js])) (i_keys i') /\
        (same_text (to_upper U) (mfrom m) (i_callsign i) -> message (i_groupsize i) all js (map canon (mplain m)) (mcipher m)) /\
        forall j k0, In j js -> nth_error all j = Some k0 -> kused k0 = false) as (js & N2 & IV2 & M2 & U2).
      { destruct (list_eq_dec Z.eq_dec (map (to_upper U) (mfrom m)) (map (to_upper U) (i_callsign i))) as [SM|SM].
        - destruct (R2 SM) as (js & R3 & R4).
          destruct (inv_message _ _ _ _ _ _ _ ND (R3 _ (R4 RO)) IV1) as (js' & A1 & A2 & A3 & A4).
          exists js'. rewrite concat_app. cbn [concat]. rewrite app_nil_r. auto.
        - exists []. rewrite concat_app. cbn [concat]. rewrite !app_nil_r. split; [exact ND|].
          split; [exact (inv_more _ _ _ _ (proj2 MO2) IV1)|]. split; [intros Q; destruct (SM Q)|]. intros j k0 []. }
      exists key, i', [], (jss ++ [js]). rewrite E, !app_nil_r. split; [exact LK|]. split; [exact S|]. split; [exact OK2|].
      split; [destruct MO as (-> & _); repeat split|]. split; [exact IV2|]. split; [exact N2|].
      split; [apply Forall2_app; [exact F2|]; constructor; [exact M2|constructor]|].
      exists [js]. split; [reflexivity|]. cbn [concat]. rewrite app_nil_r. exact U2.
  - destruct (pfk_lemma L U (c_run c) (c_global c) o f [] p key i HL (conj CO (conj PP (conj LK (conj NZ ST)))) D1)
      as (E & R). rewrite E.
    assert (exists key', len key' = 32 /\ stored L (files (cmd_pfk_change L U (c_run c) (c_global c) o f [])) p key' i) as (key' & LK' & S).
    { destruct R as [(_ & S & _)|[(_ & S & _)|(_ & _ & _ & _ & key' & _ & LK' & S)]].
      - exists key. split; [exact LK|]. destruct ST as (n & ST). exists n. rewrite (S p). exact ST.
      - exists key. split; [exact LK|]. destruct ST as (n & ST). exists n. rewrite (S p). exact ST.
      - exists key'. split; assumption. }
    exists key', i, [], jss. rewrite !app_nil_r. split; [exact LK'|]. split; [exact S|]. split; [exact OK|].
    split; [repeat split|]. split; [exact IV|]. split; [exact ND|]. split; [exact F2|].
    exists []. split; [rewrite app_nil_r; reflexivity|intros j k []].
Qed.

Lemma history_lemma p key f cs f' ms i : uni_ok U -> lib_ok L -> plain_path p -> len key = 32 -> no_zero_setting i -> stored L f p key i ->
  station_ok i -> 0 <= i_keylength i -> session L U lb dp ds dg p f cs f' ms ->
  exists key' i' new jss, len key' = 32 /\ stored L f' p key' i' /\ station_ok i' /\ same_settings i i' /\
    Forall2 (fun m js => same_text (to_upper U) (mfrom m) (i_callsign i) ->
      message (i_groupsize i) (i_keys i ++ new) js (map canon (mplain m)) (mcipher m)) ms jss /\
    NoDup (concat jss) /\
    (forall j k, In j (concat jss) -> nth_error (i_keys i) j = Some k -> kused k = false) /\
    exists es, length es = length (i_keys i') /\ NoDup es /\
      forall n e k, nth_error es n = Some e -> nth_error (i_keys i') n = Some k ->
        exists k0, nth_error (i_keys i ++ new) e = Some k0 /\ kid k = kid k0 /\ krunes k = krunes k0 /\
          (kused k0 = true -> kused k = true) /\ (In e (concat jss) -> kused k = true).
Proof.
  intros HU HL PP LK NZ ST OK KL SE.
  assert (forall f cs f' ms0, session L U lb dp ds dg p f cs f' ms0 -> forall key i1 new jss ms1, len key = 32 -> stored L f p key i1 -> station_ok i1 ->
    same_settings i i1 -> inv (i_keys i ++ new) (concat jss) (i_keys i1) -> NoDup (concat jss) ->
    (forall j k, In j (concat jss) -> nth_error (i_keys i) j = Some k -> kused k = false) ->
    Forall2 (fun m js => same_text (to_upper U) (mfrom m) (i_callsign i) ->
      message (i_groupsize i) (i_keys i ++ new) js (map canon (mplain m)) (mcipher m)) ms1 jss ->
    exists key' i' new jss, len key' = 32 /\ stored L f' p key' i' /\ station_ok i' /\ same_settings i i' /\
      inv (i_keys i ++ new) (concat jss) (i_keys i') /\ NoDup (concat jss) /\
      (forall j k, In j (concat jss) -> nth_error (i_keys i) j = Some k -> kused k = false) /\
      Forall2 (fun m js => same_text (to_upper U) (mfrom m) (i_callsign i) ->
        message (i_groupsize i) (i_keys i ++ new) js (map canon (mplain m)) (mcipher m)) (ms1 ++ ms0) jss) as G.
  { clear f cs f' ms ST OK SE key LK. intros f cs f' ms0 SE. induction SE as [f|f c cs f' ms0 CO SH SE IH]; intros key i1 new jss ms1 LK ST OK SS IV ND UN F2.
    - exists key, i1, new, jss. rewrite app_nil_r. auto 11.
    - pose proof SS as (S1 & S2 & S3 & S4 & S5).
      assert (no_zero_setting i1) as NZ1 by (destruct NZ as (A & B & C & D); repeat split; congruence).
      rewrite <- S1, <- S5 in F2.
      destruct (history_step p key c f i1 (i_keys i ++ new) jss ms1 HU HL PP LK NZ1 ST OK ltac:(lia) CO SH IV ND F2)
        as (key2 & i2 & new2 & jss2 & A0 & A1 & A2 & (B1 & B2 & B3 & B4 & B5) & A4 & A5 & A6 & add & A7 & A8).
      rewrite S1, S5, <- app_assoc in A6. rewrite <- app_assoc in A4.
      destruct (IH key2 i2 (new ++ new2) jss2 (ms1 ++ shown (exec L U lb dp ds dg c f)) A0 A1 A2 ltac:(repeat split; congruence) A4 A5)
        as (key3 & i3 & new3 & jss3 & R).
      + intros j k I K. rewrite A7, concat_app, in_app_iff in I. destruct I as [I|I]; [exact (UN j k I K)|].
        apply (A8 j k I). rewrite nth_error_app1; [exact K|]. apply nth_error_Some. congruence.
      + exact A6.
      + exists key3, i3, new3, jss3. rewrite <- app_assoc in R. exact R. }
  destruct (G f cs f' ms SE key i [] [] [] LK ST OK ltac:(repeat split)) as (key' & i' & new & jss & R0 & R1 & R2 & R3 & (_ & es & E1 & E2 & E3) & R5 & R6 & R7).
  - rewrite app_nil_r. apply copies_start.
  - constructor.
  - intros j k [].
  - constructor.
  - exists key', i', new, jss. split; [exact R0|]. split; [exact R1|]. split; [exact R2|]. split; [exact R3|]. split; [exact R7|]. split; [exact R5|]. split; [exact R6|].
    exists es. auto.
Qed.
End Hist.
