(** Lemmas about the command line program: wrong keys, handing over keys. *)
From Verif Require Import Base Model_Unicode Model_Functions Model_Crand Model_Types Model_Cipher Model_Keys Model_Import
  Model_Messages Model_Station Model_Persist Model_Listing Model_Cli Spec Spec_Persist Spec_Cli Spec_Listing Spec_CliPfk
  Spec_CliHist Spec_CliImport Proofs_Functions Proofs_KeyOps Proofs_Import Proofs_Persist Proofs_Cli Proofs_CliRun
  Proofs_CliCmd Proofs_CliOps Proofs_CliMore Proofs_CliMsg Proofs_CliSel Proofs_CliPfk.

Set Default Proof Using "Type".
Section Top.
Context (L : lib) (U : Uni) (lb : list rune -> list rune) (dp : list rune -> option Z)
  (ds : Z -> list rune) (dg : list rune -> list rune).

Lemma wrong_key_lemma c f h p key i : lib_ok L ->
  let r := c_run c in let g := c_global c in
  match c_cmd c with
  | CKeys o => store_at L (r_env r 0) (ko_file o) f p key i /\ ~ key_given L (r_env r 0) g key /\
      (ko_list o = true \/ ko_delete o = true \/ ko_new o <> 0 \/ ko_import o <> None \/ ko_export o <> None)
  | CMessages o => store_at L (r_env r 0) (mo_file o) f p key i /\ ~ key_given L (r_env r 0) g key /\
      (mo_list o = true \/ mo_new o = true \/ mo_delete o = true)
  | CPfk o => store_at L (r_env r 0) (po_file o) f p key i /\ ~ old_key L (r_env r 0) g o key
  end ->
  let x := match c_cmd c with
    | CKeys o => cmd_keys L U dp ds r g o f h
    | CMessages o => cmd_messages L U lb dp ds dg r g o f h
    | CPfk o => cmd_pfk_change L U r g o f h
    end in
  result x <> Ok tt /\ same_files f (files x) /\ shown x = [] /\ listed x = [].
Proof.
  intros HL. cbv zeta. destruct (c_cmd c) as [o|o|o].
  - intros (SA & NK & OP).
    assert (keys_idle o = false) as ID.
    { unfold keys_idle. destruct OP as [->|[->|[N|[N|N]]]]; [reflexivity| | | |].
      - rewrite Bool.orb_true_r. reflexivity.
      - replace (ko_new o =? 0) with false by lia. cbn [negb]. rewrite !Bool.orb_true_r. reflexivity.
      - destruct (ko_import o); [|congruence]. rewrite !Bool.orb_true_r. reflexivity.
      - destruct (ko_export o); [|congruence]. rewrite !Bool.orb_true_r. reflexivity. }
    destruct (keys_open L U dp ds (c_run c) (c_global c) o f h p key i HL ID SA) as [(e & N & -> & _)|(KG & _)]; [|contradiction].
    split; [exact N|]. split; [intros q; reflexivity|]. split; reflexivity.
  - intros (SA & NK & OP).
    assert (mo_list o || mo_new o || mo_delete o = true) as ID
      by (destruct OP as [->|[->| ->]]; rewrite ?Bool.orb_true_r; reflexivity).
    destruct (msgs_open L U lb dp ds dg (c_run c) (c_global c) o f h p key i HL ID SA) as [(e & N & -> & _)|(KG & _)]; [|contradiction].
    split; [exact N|]. split; [intros q; reflexivity|]. split; reflexivity.
  - intros (SA & NK). unfold cmd_pfk_change. pose proof (fun k => pfk_open L U (c_run c) (c_global c) o f h p key i k HL SA) as OP.
    destruct (new_station U h [WithPersistence (po_file o); WithInteractive true]) as [s h1]. cbv zeta in OP.
    match goal with |- context [andthen (load_step _ _ _ _ _) ?k] => specialize (OP k) end.
    destruct OP as [(e & N & -> & _)|(KG & _)]; [|contradiction].
    split; [exact N|]. split; [intros q; reflexivity|]. split; reflexivity.
Qed.

Lemma cli_handover_lemma r g o f h p key i file q w
    r2 g2 o2 f2 h2 p2 key2 i2 file2 q2 : lib_ok L ->
  (* the sender exports keys *)
  store_at L (r_env r 0) (ko_file o) f p key i -> key = kdf L w default_salt ->
  ko_export o = Some file -> path_of L (r_env r 5) file q ->
  ko_delete o = false -> ko_new o <= 0 -> ko_import o = None -> disk_ok (r_env r 5) ->
  let x := cmd_keys L U dp ds r g o f h in
  result x = Ok tt -> (f q = None \/ ko_yes o = true) ->
  distinct_ids (to_upper U) (i_keys i) ->
  (* the receiver imports the file *)
  f2 q2 = files x q -> path_of L (r_env r2 3) file2 q2 -> plain_path q2 ->
  store_at L (r_env r2 0) (ko_file o2) f2 p2 key2 i2 -> ko_import o2 = Some file2 ->
  ko_delete o2 = false -> ko_new o2 <= 0 -> ko_export o2 = None ->
  key_given L (r_env r2 0) g2 key2 -> can_read (r_env r2 0) -> can_read (r_env r2 3) -> can_write (r_env r2 4) ->
  e_term (r_env r2 3) = true -> e_password (r_env r2 3) = Some w ->
  distinct_ids (to_upper U) (i_keys i2) ->
  (forall k k0, In k (i_keys i) -> In k0 (i_keys i2) -> ~ same_text (to_upper U) (kid k0) (kid k)) ->
  let y := cmd_keys L U dp ds r2 g2 o2 f2 h2 in
  result y = Ok tt /\ exists ks, stored L (files y) p2 key2 (set_keys i2 ks) /\ distinct_ids (to_upper U) ks /\
    let handed k := In k (i_keys i) /\ key_selected U (r_now r) o k /\ len (kid k) = i_groupsize i2 /\
      key_selected U (r_now r2) o2 k in
    incl (i_keys i2) ks /\
    (forall k', In k' ks -> In k' (i_keys i2) \/
       exists k, handed k /\ imported_copy U (i_callsign i2) (i_callsign i) k k') /\
    (forall k, handed k -> exists k', In k' ks /\ imported_copy U (i_callsign i2) (i_callsign i) k k').
Proof.
  clear lb dg. intros HL SA EK OE PO OD ON OI D x RX AG DI EF PO2 PP2 SB OI2 OD2 ON2 OE2 KG CR CR3 CW ET EW DI2 NC y.
  pose proof (picked_filter _ _ (key_selected_spec U (r_now r) o) (i_keys i)) as PK.
  set (chosen := filter (key_filter U (r_now r) o) (i_keys i)) in PK.
  assert (forall k, In k chosen <-> In k (i_keys i) /\ key_selected U (r_now r) o k) as CI by exact (picked_in _ _ _ PK).
  destruct (sel_export_lemma L U dp ds r g o f h p key i file q chosen HL SA D OE PO OD ON OI PK) as (_ & R).
  fold x in R. destruct R as [(_ & _ & ST)|[(_ & NF & NY & _)|(NR & _)]]; [|destruct AG; congruence|congruence].
  set (sent := mkInst (i_groupsize i) (i_keylength i) (i_columns i) (i_keycolumns i) chosen [] (i_callsign i)) in ST.
  assert (stored L f2 q2 key sent) as ST2 by (destruct ST as (n & ST); exists n; congruence).
  destruct SA as (_ & _ & LK & NZ & _).
  assert (store_at L (r_env r2 3) file2 f2 q2 key sent) as SS by (split; [exact PO2|]; split; [exact PP2|]; split; [exact LK|]; split; [exact NZ|exact ST2]).
  assert (distinct_ids (to_upper U) (i_keys sent)) as DS.
  { unfold sent. cbn [i_keys]. unfold chosen. clear - DI. unfold distinct_ids, distinct_texts in *. rewrite !map_map in *.
    induction (i_keys i) as [|k l IH]; [constructor|]. cbn [filter map] in *. inversion DI as [|? ? N ND]; subst.
    destruct (key_filter U (r_now r) o k); cbn [map]; [constructor|]; auto.
    intros H. apply N. apply in_map_iff in H. destruct H as (k' & E & I). apply in_map_iff. exists k'. split; [exact E|].
    apply filter_In in I. tauto. }
  set (flt2 := fun k => (len (kid k) =? i_groupsize i2) && key_filter U (r_now r2) o2 k).
  assert (picked (fun k => len (kid k) = i_groupsize i2 /\ key_selected U (r_now r2) o2 k) (i_keys sent) (filter flt2 chosen)) as PC.
  { apply picked_filter. intros k. unfold flt2. rewrite Bool.andb_true_iff, key_selected_spec. split; intros (A & B); (split; [lia|exact B]). }
  assert (picked (fun k => exists k0, In k0 (i_keys i2) /\ same_text (to_upper U) (kid k0) (kid k)) (filter flt2 chosen) []) as PA.
  { assert (forall k, In k (filter flt2 chosen) -> In k (i_keys i)) as IN by (intros k I; apply filter_In in I; apply CI; tauto).
    clear - IN NC. induction (filter flt2 chosen) as [|k l IH]; [constructor|]. apply picked_no; [|apply IH; intros; apply IN; right; assumption].
    intros (k0 & A & B). exact (NC k k0 (IN k (or_introl eq_refl)) A B). }
  destruct (sel_import_lemma L U dp ds r2 g2 o2 f2 h2 p2 key2 i2 file2 q2 key sent (filter flt2 chosen) [] HL SB OI2 SS DI2 DS
    (proj2 (proj2 CW)) OD2 ON2 OE2 PC PA) as (_ & R). fold y in R.
  destruct R as [(RY & _ & ks & added & S2 & DK & INC & _ & IFF & ALL & _)|(_ & _ & NO)].
  - split; [exact RY|]. exists ks. split; [exact S2|]. split; [exact DK|]. cbv zeta. unfold sent in IFF. cbn [i_callsign] in IFF.
    assert (forall k, In k added <-> In k (filter flt2 chosen)) as AD by (intros k; split; [apply INC|intros I; apply ALL; [exact I|intros []]]).
    assert (forall k, In k added <-> In k (i_keys i) /\ key_selected U (r_now r) o k /\ len (kid k) = i_groupsize i2 /\ key_selected U (r_now r2) o2 k) as AD2.
    { intros k. rewrite AD, (picked_in _ _ _ PC). unfold sent. cbn [i_keys]. rewrite CI. tauto. }
    split; [|split].
    + intros k' I. apply IFF. left. split; [exact I|]. intros k A SM. apply AD2 in A. exact (NC k k' (proj1 A) I SM).
    + intros k' I. apply IFF in I. destruct I as [(I & _)|(k & I & ->)]; [left; exact I|right]. exists k. split; [apply AD2, I|apply import_key_lemma].
    + intros k I. exists (import_key U (i_callsign i2) (i_callsign i) k). split; [|apply import_key_lemma].
      apply IFF. right. exists k. split; [apply AD2, I|reflexivity].
  - exfalso. apply NO. split; [exact KG|]. split; [exact CR|]. split; [split; [exact ET|]; exists w; tauto|].
    split; [exact CR3|]. split; [exact CW|]. cbn [length]. intros j J. lia.
Qed.

Lemma import_copies_lemma r g o f h p key i file q key2 i2 candidates asked : lib_ok L ->
  store_at L (r_env r 0) (ko_file o) f p key i ->
  ko_import o = Some file -> store_at L (r_env r 3) file f q key2 i2 ->
  distinct_ids (to_upper U) (i_keys i) -> distinct_ids (to_upper U) (i_keys i2) -> disk_ok (r_env r 4) ->
  ko_delete o = false -> ko_new o <= 0 -> ko_export o = None ->
  picked (fun k => len (kid k) = i_groupsize i /\ key_selected U (r_now r) o k) (i_keys i2) candidates ->
  picked (fun k => exists k0, In k0 (i_keys i) /\ same_text (to_upper U) (kid k0) (kid k)) candidates asked ->
  let x := cmd_keys L U dp ds r g o f h in
  let password_typed := e_term (r_env r 3) = true /\
    exists w, e_password (r_env r 3) = Some w /\ key2 = kdf L w default_salt in
  same_other_files p f (files x) /\
  ((result x = Ok tt /\ password_typed /\ exists ks added,
    stored L (files x) p key (set_keys i ks) /\ distinct_ids (to_upper U) ks /\
    incl added candidates /\ NoDup added /\
    (forall k', In k' ks ->
       (In k' (i_keys i) /\ forall k, In k added -> ~ same_text (to_upper U) (kid k') (kid k)) \/
       exists k, In k added /\ imported_copy U (i_callsign i) (i_callsign i2) k k') /\
    (forall k', In k' (i_keys i) -> (forall k, In k added -> ~ same_text (to_upper U) (kid k') (kid k)) -> In k' ks) /\
    (forall k, In k added -> exists k', In k' ks /\ imported_copy U (i_callsign i) (i_callsign i2) k k') /\
    (forall k, In k candidates -> ~ In k asked -> In k added) /\
    forall j k, nth_error asked j = Some k ->
      exists b, nth_error (r_answers r) j = Some (Some b) /\ (In k added <-> b = true)) \/
   (result x <> Ok tt /\ files x p = f p /\
    ~ (key_given L (r_env r 0) g key /\ can_read (r_env r 0) /\ password_typed /\ can_read (r_env r 3) /\
       can_write (r_env r 4) /\
       forall j, (j < length asked)%nat -> exists b, nth_error (r_answers r) j = Some (Some b)))).
Proof.
  clear lb dg. intros HL SA OI SB DI DI2 D OD ON OE PC PA. cbv zeta.
  destruct (sel_import_lemma L U dp ds r g o f h p key i file q key2 i2 candidates asked HL SA OI SB DI DI2 D OD ON OE PC PA)
    as (A & B). split; [exact A|]. destruct B as [(R & PT & ks & added & S & DK & IN & ND & IFF & ALL & ASK)|B]; [left|right; exact B].
  split; [exact R|]. split; [exact PT|]. exists ks, added. split; [exact S|]. split; [exact DK|]. split; [exact IN|].
  split; [exact ND|]. split; [|split; [|split; [|split; [exact ALL|exact ASK]]]].
  - intros k' I. apply IFF in I. destruct I as [I|(k & I & ->)]; [left; exact I|right]. exists k. split; [exact I|apply import_key_lemma].
  - intros k' I N. apply IFF. left. split; assumption.
  - intros k I. exists (import_key U (i_callsign i) (i_callsign i2) k). split; [|apply import_key_lemma].
    apply IFF. right. exists k. split; [exact I|reflexivity].
Qed.

Lemma msg_picked o ms chosen : picked (message_chosen U o) ms chosen -> chosen = filter (msg_filter U o) ms.
Proof. intros P. eapply picked_fun; [|exact P]. apply picked_filter. intros m. apply msg_filter_spec. Qed.

Lemma sel_msg_pick_lemma r g o f h p key i chosen : uni_ok U -> lib_ok L -> store_at L (r_env r 0) (mo_file o) f p key i -> station_ok i ->
  disk_ok (r_env r 1) -> mo_delete o = true -> mo_yes o = false -> mo_new o = false ->
  picked (message_chosen U o) (i_messages i) chosen ->
  let x := cmd_messages L U lb dp ds dg r g o f h in
  exists lines, length lines = length chosen /\
  ((result x = Ok tt /\ same_other_files p f (files x) /\ shown x = [] /\
     ((chosen = [] /\ same_files f (files x)) \/ forall js, Forall (fun j => (j < length lines)%nat) js ->
       r_pick r lines = Some (map (fun j => nth j lines []) js) ->
     exists i', stored L (files x) p key i' /\ messages_only i i' /\
       (forall m', In m' (i_messages i') -> exists m, In m (i_messages i) /\ tried U (i_groupsize i) (i_keys i) m m') /\
       forall id, In id (map mid (i_messages i')) <->
         In id (map mid (i_messages i)) /\ ~ exists j m, In j js /\ nth_error chosen j = Some m /\ mid m = id)) \/
  (result x <> Ok tt /\ same_files f (files x) /\
   ~ (key_given L (r_env r 0) g key /\ can_read (r_env r 0) /\ can_write (r_env r 1) /\ r_pick r lines <> None))).
Proof.
  intros UO HL SA SO D OD OY ON PK. rewrite (msg_picked _ _ _ PK).
  exact (cli_msg_pick_lemma L U lb dp ds dg r g o f h p key i UO HL SA SO D OD OY ON).
Qed.

Lemma sel_msg_list_lemma r g o f h p key i chosen : uni_ok U -> lib_ok L -> store_at L (r_env r 0) (mo_file o) f p key i -> station_ok i ->
  (forall x, len (ds x) = 12) -> (forall m, In m (i_messages i) -> mfrom m <> []) ->
  mo_delete o = false -> mo_new o = false -> mo_list o = true ->
  picked (message_chosen U o) (i_messages i) chosen ->
  let x := cmd_messages L U lb dp ds dg r g o f h in
  same_files f (files x) /\ shown x = [] /\
  (result x = Ok tt <-> key_given L (r_env r 0) g key /\ can_read (r_env r 0)) /\
  (result x = Ok tt -> exists sel w2 w3,
     Forall2 (tried U (i_groupsize i) (i_keys i)) chosen sel /\
     Forall2 (fun m line => exists a, line = a ++ dg (go_string (mplain m) ++ go_string (mcipher m)) /\
      columns [5; 13; w2; w3] [mid m; ds (mdtg m);
        match mrecipients m with [] => str_nil | l => join [44] (map go_string l) end; mfrom m] a) sel (listed x)).
Proof.
  intros UO HL SA SO DS FR OD ON OL PK. rewrite (msg_picked _ _ _ PK).
  exact (cli_msg_list_lemma L U lb dp ds dg r g o f h p key i UO HL SA SO DS FR OD ON OL).
Qed.

Lemma call_of_fun call a b : call_of U call a -> call_of U call b -> 0 < len a -> a = b.
Proof.
  clear lb dp ds dg. intros (x & t & y & E1 & -> & FX & FY & HT & LT) (x2 & t2 & y2 & E2 & -> & FX2 & FY2 & HT2 & LT2) N.
  destruct t as [|c t]; [cbn in N; lia|].
  assert (forall l1 l2 m1 m2 c, Forall (fun c => is_space U c = true) l1 -> l1 ++ c :: m1 = l2 ++ m2 -> is_space U c = false ->
    Forall (fun c => is_space U c = true) l2 -> exists d, l1 = l2 ++ d) as HEAD.
  { clear. induction l1 as [|a l1 IH]; intros l2 m1 m2 c F E S F2.
    - destruct l2 as [|b l2]; [exists []; reflexivity|]. injection E as -> _. inversion F2; congruence.
    - destruct l2 as [|b l2]; [exists (a :: l1); reflexivity|]. injection E as -> E. inversion F; inversion F2; subst.
      destruct (IH l2 m1 m2 c H2 E S H6) as (d & ->). exists d. reflexivity. }
  assert (is_space U c = false) as SC by (eapply HT; reflexivity).
  rewrite E1 in E2. cbn [app] in E2.
  destruct (HEAD x x2 (t ++ y) (t2 ++ y2) c FX E2 SC FX2) as (d & ->).
  rewrite <- app_assoc in E2. apply app_inv_head in E2.
  destruct d as [|c' d].
  2:{ exfalso. apply Forall_app in FX. destruct FX as (_ & FD). inversion FD as [|? ? S1 S2]; subst.
      destruct t2 as [|e t2].
      - cbn [app] in E2. rewrite <- E2 in FY2. apply Forall_inv_tail, Forall_app in FY2. destruct FY2 as (_ & FY2).
        apply Forall_inv in FY2. congruence.
      - injection E2 as -> _. rewrite (HT2 e t2 eq_refl) in S1. discriminate. }
  cbn [app] in E2. destruct t2 as [|c2 t2].
  { cbn [app] in E2. rewrite <- E2 in FY2. inversion FY2. congruence. }
  injection E2 as -> E2. cbn [map]. f_equal. apply (f_equal (@rev _)) in E2. rewrite !rev_app_distr in E2.
  assert (forall t' : list rune, (forall c s, c2 :: t' = s ++ [c] -> is_space U c = false) ->
     match rev t' with [] => True | c :: _ => is_space U c = false end) as LAST.
  { intros t' H. destruct (rev t') as [|e s] eqn:R; [exact I|]. apply (H e (c2 :: rev s)).
    rewrite <- (rev_involutive t'), R. reflexivity. }
  apply LAST in LT. apply LAST in LT2.
  assert (Forall (fun c => is_space U c = true) (rev y)) as RY by (apply Forall_rev, FY).
  assert (Forall (fun c => is_space U c = true) (rev y2)) as RY2 by (apply Forall_rev, FY2).
  assert (rev t = rev t2) as R.
  { revert E2 LT LT2 RY RY2. generalize (rev t), (rev t2), (rev y), (rev y2). clear.
    intros t t2 y. revert t t2. induction y as [|a y IH]; intros t t2 y2 E L1 L2 F1 F2.
    - destruct y2 as [|b y2]; [exact E|]. cbn [app] in E. subst t. cbn in L1. inversion F2. congruence.
    - destruct y2 as [|b y2].
      + cbn [app] in E. subst t2. inversion F1. congruence.
      + injection E as -> E. inversion F1; inversion F2; subst. apply (IH t t2 y2); assumption. }
  apply (f_equal (@rev _)) in R. rewrite !rev_involutive in R. rewrite R. reflexivity.
Qed.

Lemma init_call_lemma r g o f h call call' q : lib_ok L -> uni_upper_idem U -> uni_space_upper U ->
  io_call o = Some call -> disk_ok (r_env r 1) -> path_of L (r_env r 1) (io_file o) q ->
  call_of U call call' -> 2 <= len call' -> io_yes o = true ->
  result (cmd_initialize L U dp r g o f h) = Ok tt ->
  exists key keys, stored L (files (cmd_initialize L U dp r g o f h)) q key
    (mkInst (io_groupsize o) (io_keylength o) (io_columns o) (io_keycolumns o) keys [] call').
Proof.
  clear lb ds dg. intros HL U1 U2 OC D PO C N OY R.
  destruct (init_lemma L U dp r g o f h call q HL U1 U2 OC D PO) as (_ & [(_ & (_ & A & _) & _)|[(_ & _ & _ & _ & key & ks & c2 & cs & _ & S & C2 & CS & _)|(A & _)]]);
    [congruence| |contradiction].
  assert (call' = c2) by (apply (call_of_fun call); [assumption|assumption|lia]). subst c2.
  replace (2 <=? len call') with true in CS by lia. subst cs. exists key, ks. exact S.
Qed.
End Top.
