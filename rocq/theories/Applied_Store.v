(** Theorems on keys, messages, files and shared memory applied to concrete
    stores: every hypothesis is met. *)
From Coq Require Import Permutation.
From Verif Require Import Base Spec Model_Unicode Model_Crand Model_Functions Model_Types Model_Cipher Model_Keys Model_Import
  Model_Messages Model_Station Model_Persist Model_Heap Spec_Keys Spec_Messages Spec_Persist Spec_Heap Examples Examples_Persist
  Props_Cipher Props_Keys Props_Messages Props_Persist Props_Heap.

Lemma sp_ok : store_ok 5 ex_keys.
Proof. apply store_okb_ok. vm_compute. reflexivity. Qed.
Lemma sp_distinct : distinct_ids (to_upper uni_id) ex_keys.
Proof. unfold distinct_ids, distinct_texts. cbn. repeat constructor; cbn; intuition discriminate. Qed.
Ltac letters_by := repeat (apply Forall_cons; [vm_compute; split; discriminate|]); apply Forall_nil.

(** ** Keys *)
Example c18_applied : exists i' k t', new_key uni_id (ex_inst ex_keys) 10 20 [[118; 113; 44; 79; 83]] ex_tape = Ok (i', k, t') /\
  letters (kid k) /\ len (kid k) = 5 /\ (forall k0, In k0 ex_keys -> ~ same_text (to_upper uni_id) (kid k0) (kid k)) /\
  kused k = false /\ kexpires k = 20.
Proof.
  assert (Q : exists i' k t', new_key uni_id (ex_inst ex_keys) 10 20 [[118; 113; 44; 79; 83]] ex_tape = Ok (i', k, t'))
    by (do 3 eexists; vm_compute; reflexivity).
  destruct Q as (i' & k & t' & E). exists i', k, t'. split; [exact E|].
  destruct (c18_new_key uni_id (ex_inst ex_keys) 10 20 [[118; 113; 44; 79; 83]] ex_tape i' k t' eq_refl
    ltac:(vm_compute; discriminate) E) as (_ & A & B & C & _ & _ & _ & D & _ & _ & F & _).
  split; [exact A|]. split; [exact B|]. split; [exact C|]. split; [exact D|exact F].
Qed.
Example c18_generate_applied : exists i' t' k1 k2, generate_keys uni_id (ex_inst ex_keys) 2 10 None [] (ex_tape ++ ex_tape) = Ok (i', t') /\
  i_keys i' = ex_keys ++ [k1; k2] /\ kexpires k1 = 10 + 365 * 24 * 3600 * 1000000000 /\
  ~ same_text (to_upper uni_id) (kid k1) (kid k2).
Proof.
  assert (Q : exists i' t', generate_keys uni_id (ex_inst ex_keys) 2 10 None [] (ex_tape ++ ex_tape) = Ok (i', t'))
    by (do 2 eexists; vm_compute; reflexivity).
  destruct Q as (i' & t' & E). destruct (c18_generate_keys uni_id (ex_inst ex_keys) 2 10 None [] (ex_tape ++ ex_tape) i' t' eq_refl
    ltac:(vm_compute; discriminate) E) as (new & I & N & P & D).
  destruct new as [|k1 [|k2 [|k3 new]]]; try (exfalso; unfold len in N; cbn [length] in N; lia).
  exists i', t', k1, k2. split; [exact E|]. split; [rewrite I; reflexivity|].
  split; [apply (P k1 (or_introl eq_refl)); reflexivity|]. apply (D [k1] k2 [] eq_refl). apply in_or_app. right. left. reflexivity.
Qed.
(** Two possible new keys of a store with keys of ten letters. *)
Definition sp_short : inst := mkInst 5 10 110 80 ex_keys [] callOS.
Definition sp_id1 : list rune := [81; 81; 81; 81; 81].
Definition sp_id2 : list rune := [65; 66; 67; 68; 69].
Definition sp_text1 : list rune := repeat 65 10.
Definition sp_text2 : list rune := [75; 82; 89; 80; 84; 79; 70; 73; 82; 69].
Lemma sp_free1 : forall k, In k (i_keys sp_short) -> ~ same_text (to_upper uni_id) (kid k) sp_id1.
Proof. intros k [<-|[<-|[<-|[<-|[]]]]] H; discriminate H. Qed.
Lemma sp_free2 : forall k, In k (i_keys sp_short) -> ~ same_text (to_upper uni_id) (kid k) sp_id2.
Proof. intros k [<-|[<-|[<-|[<-|[]]]]] H; discriminate H. Qed.
Example c19_possible_applied : exists t i' k t', new_key uni_id sp_short 10 20 [] t = Ok (i', k, t') /\ kid k = sp_id2 /\ krunes k = sp_text2.
Proof.
  destruct (c19_keys_possible uni_id sp_short 10 20 [] sp_id2 sp_text2 eq_refl ltac:(vm_compute; discriminate) ltac:(letters_by)
    ltac:(letters_by) eq_refl ltac:(exists 2; reflexivity) ltac:(vm_compute; split; [discriminate|reflexivity]) sp_free2)
    as (t & i' & k & t' & _ & E & A & B).
  exists t, i', k, t'. split; [exact E|]. split; [exact A|exact B].
Qed.
Example c19_uniform_applied : exists f g : tape -> tape, forall t i' k t', Forall (fun w => 0 <= w < 2 ^ 64) t ->
  new_key uni_id sp_short 10 20 [] t = Ok (i', k, t') -> kid k = sp_id1 -> krunes k = sp_text1 ->
  length (f t) = length t /\ g (f t) = t /\
  exists i2 k2 t2, new_key uni_id sp_short 10 20 [] (f t) = Ok (i2, k2, t2) /\ kid k2 = sp_id2 /\ krunes k2 = sp_text2.
Proof.
  destruct (c19_keys_uniform uni_id sp_short 10 20 [] sp_id1 sp_text1 sp_id2 sp_text2 eq_refl ltac:(vm_compute; discriminate)
    ltac:(letters_by) ltac:(letters_by) ltac:(letters_by) ltac:(letters_by) eq_refl eq_refl sp_free1 sp_free2) as (f & g & H & _).
  exists f, g. intros t i' k t' W E A B. destruct (H t W) as (_ & L & P & G).
  - exists i', k, t'. split; [exact E|]. split; [exact A|exact B].
  - split; [exact L|]. split; [exact G|exact P].
Qed.
Example c21_applied : exists ks' n, delete_key uni_id ex_keys [[98; 82; 97; 86; 79]; idD; idD; [88]] = (ks', n) /\
  n = 4 - len ks' /\ ~ In (ex_key idB 5 40 [callVQ]) ks' /\ In (ex_key idA 3 40 [callVQ]) ks'.
Proof.
  destruct (delete_key uni_id ex_keys [[98; 82; 97; 86; 79]; idD; idD; [88]]) as (ks', n) eqn:E. exists ks', n. split; [reflexivity|].
  destruct (c21_delete_exact uni_id ex_keys _ ks' n sp_distinct E) as (_ & N & H). split; [exact N|]. split.
  - intros I. apply H in I. destruct I as (_ & I). apply (I [98; 82; 97; 86; 79]); [left; reflexivity|reflexivity].
  - apply H. split; [left; reflexivity|]. intros id [<-|[<-|[<-|[<-|[]]]]] X; discriminate X.
Qed.
Example c23_applied : exists i' k t', new_key uni_id (ex_inst ex_keys) 10 20 [[118; 113; 44; 79; 83]] ex_tape = Ok (i', k, t') /\
  In callVQ (kkeepers k) /\ ~ In callOS (kkeepers k).
Proof.
  assert (Q : exists i' k t', new_key uni_id (ex_inst ex_keys) 10 20 [[118; 113; 44; 79; 83]] ex_tape = Ok (i', k, t'))
    by (do 3 eexists; vm_compute; reflexivity).
  destruct Q as (i' & k & t' & E). exists i', k, t'. split; [exact E|].
  pose proof (c23_own_call_sign_partial uni_id (ex_inst ex_keys) 10 20 [[118; 113; 44; 79; 83]] ex_tape i' k t' eq_refl
    ltac:(vm_compute; discriminate) (proj1 c23_nontrivial) E) as H.
  split; [apply H; split; [left; reflexivity|intros X; discriminate X]|]. intros I. apply H in I. destruct I as (_ & I). apply I. reflexivity.
Qed.
(** The user is asked about D and says yes; the key with a short ID is no candidate. *)
Definition sp_inc : inst :=
  mkInst 5 40 110 80 [ex_key idD 9 5 [callOS]; ex_key [69;67;72;79;88] 4 5 [callOS]; ex_key [70] 1 1 []] [] callVQ.
Example c36_applied : exists i' n added,
  import_keys uni_id (ex_inst ex_keys) false true (fun _ => true) sp_inc [Some true] = (i', n, None) /\ n = len added /\
  In (ex_key idD 9 5 [callOS]) added /\ In (ex_key [69;67;72;79;88] 4 5 [callOS]) added /\ ~ In (ex_key [70] 1 1 []) added /\
  In (import_key uni_id callOS callVQ (ex_key idD 9 5 [callOS])) (i_keys i') /\ ~ In (ex_key idD 2 40 []) (i_keys i').
Proof.
  assert (Q : exists i' n, import_keys uni_id (ex_inst ex_keys) false true (fun _ => true) sp_inc [Some true] = (i', n, None))
    by (do 2 eexists; vm_compute; reflexivity).
  destruct Q as (i' & n & E).
  assert (D2 : distinct_ids (to_upper uni_id) (i_keys sp_inc))
    by (unfold distinct_ids, distinct_texts; cbn; repeat constructor; cbn; intuition discriminate).
  destruct (c36_import uni_id (ex_inst ex_keys) false true (fun _ => true) sp_inc [Some true] i' n None D2 sp_distinct E)
    as (added & I & _ & N & K & _ & _ & _ & _ & A & _ & _).
  destruct (A eq_refl eq_refl eq_refl) as (A1 & A2). exists i', n, added.
  assert (X : In (ex_key idD 9 5 [callOS]) added).
  { destruct (A2 0%nat (ex_key idD 9 5 [callOS])) as (b & B1 & B2); [vm_compute; reflexivity|].
    cbn [nth_error] in B1. apply B2. congruence. }
  split; [exact E|]. split; [exact N|]. split; [exact X|].
  split; [apply A1; [right; left; reflexivity|vm_compute; reflexivity]|].
  split; [intros H; apply I in H; vm_compute in H; destruct H as [H|[H|[]]]; discriminate H|].
  split; [apply K; right; exists (ex_key idD 9 5 [callOS]); split; [exact X|reflexivity]|].
  intros H. apply K in H. destruct H as [(_ & H)|(k & H & Y)].
  - apply (H _ X). reflexivity.
  - apply I in H. vm_compute in H. destruct H as [<-|[<-|[]]]; vm_compute in Y; discriminate Y.
Qed.
Example c50_applied : exists header lines ks' n,
  summary_of_keys ex_dtg 5 (fun k => negb (Z.eqb (len (kkeepers k)) 0)) ex_keys = (header, lines) /\
  delete_keys_by_summary uni_id ex_keys (map (fun j => nth j lines []) [1; 0]%nat) = (ks', n) /\
  forall k, In k ks' <-> In k ex_keys /\
    ~ exists j, In j [1; 0]%nat /\ nth_error (filter (fun k => negb (Z.eqb (len (kkeepers k)) 0)) ex_keys) j = Some k.
Proof.
  destruct (summary_of_keys ex_dtg 5 (fun k => negb (Z.eqb (len (kkeepers k)) 0)) ex_keys) as (header, lines) eqn:S.
  destruct (delete_keys_by_summary uni_id ex_keys (map (fun j => nth j lines []) [1; 0]%nat)) as (ks', n) eqn:D.
  exists header, lines, ks', n. split; [reflexivity|]. split; [exact D|].
  apply (c50_delete_lines uni_id ex_dtg 5 (fun k => negb (Z.eqb (len (kkeepers k)) 0)) ex_keys header lines [1; 0]%nat ks' n
    eq_refl sp_ok (fun _ => eq_refl) S D).
Qed.
(** The ID of a key typed in lower case with a space in front. *)
Example c25_applied : get_key uni_id (32 :: [98; 114; 97; 118; 111]) ex_keys = Some 1%nat.
Proof.
  refine (proj1 (proj2 (c25_get_key uni_id 5 ex_keys idB (32 :: [98; 114; 97; 118; 111]) 1 (ex_key idB 5 40 [callVQ]) sp_ok _ _)) eq_refl eq_refl).
  - letters_by.
  - exists [32], [98; 114; 97; 118; 111], []. split; [reflexivity|]. split; [constructor; [|constructor]; vm_compute; tauto|].
    split; [constructor|]. repeat (apply Forall2_cons; [right; reflexivity|]). apply Forall2_nil.
Qed.

(** ** Messages *)
Example c41_applied : exists i' m t' j js k, new_text_message uni_id ex_lb ex_dp (ex_inst ex_keys) [rg_out; []; (32 :: idB)%list] 7 ex_tape = (i', Ok (m, t')) /\
  nth_error ex_keys j = Some k /\ kid k = idB /\ mkeyid m = idB /\ message 5 ex_keys (j :: js) (map canon (mplain m)) (mcipher m).
Proof.
  assert (Q : exists p t1 i' m t', parse_radiogram uni_id ex_lb ex_dp (ex_inst ex_keys) rg_out 7 ex_tape = Ok (p, t1) /\ mfrom p = callOS /\
    new_text_message uni_id ex_lb ex_dp (ex_inst ex_keys) [rg_out; []; (32 :: idB)%list] 7 ex_tape = (i', Ok (m, t'))).
  { do 5 eexists. split; [vm_compute; reflexivity|]. split; [reflexivity|vm_compute; reflexivity]. }
  destruct Q as (p & t1 & i' & m & t' & P & F & E). exists i', m, t'.
  destruct (c41_third_argument_partial uni_id ex_lb ex_dp uni_id_ok (ex_inst ex_keys) rg_out [] (32 :: idB) [] 7 ex_tape p t1 idB i' m t'
    eq_refl sp_ok P ltac:(rewrite F; reflexivity) ltac:(letters_by) ltac:(intros X; discriminate X)
    ltac:(exists [32], idB, []; split; [reflexivity|split; [constructor; [vm_compute; tauto|constructor]|split; [constructor|
      repeat (apply Forall2_cons; [left; reflexivity|]); apply Forall2_nil]]]) E)
    as (_ & _ & _ & _ & _ & W & j & js & k & J & I1 & I2 & _ & M).
  exists j, js, k. split; [exact E|]. split; [exact J|]. split; [exact I2|]. split; [congruence|]. rewrite W. exact M.
Qed.
Example c42_outgoing_applied : exists i' m t' j js k, new_text_message uni_id ex_lb ex_dp (ex_inst ex_keys) [rg_out] 7 ex_tape = (i', Ok (m, t')) /\
  i_messages i' = [m] /\ nth_error ex_keys j = Some k /\ mkeyid m = kid k /\
  message 5 ex_keys (j :: js) (map canon (mplain m)) (mcipher m).
Proof.
  assert (Q : exists p t1 i' m t', parse_radiogram uni_id ex_lb ex_dp (ex_inst ex_keys) rg_out 7 ex_tape = Ok (p, t1) /\ mfrom p = callOS /\
    new_text_message uni_id ex_lb ex_dp (ex_inst ex_keys) [rg_out] 7 ex_tape = (i', Ok (m, t'))).
  { do 5 eexists. split; [vm_compute; reflexivity|]. split; [reflexivity|vm_compute; reflexivity]. }
  destruct Q as (p & t1 & i' & m & t' & P & F & E). exists i', m, t'.
  destruct (c42_outgoing uni_id ex_lb ex_dp uni_id_ok (ex_inst ex_keys) rg_out 7 ex_tape p t1 i' m t' eq_refl sp_ok P
    ltac:(rewrite F; reflexivity) E) as (_ & _ & _ & _ & _ & W & j & js & k & J & I1 & _ & M).
  destruct (c42_one_or_none uni_id ex_lb ex_dp uni_id_ok (ex_inst ex_keys) [rg_out] 7 ex_tape i' _ eq_refl sp_ok E) as (A & _).
  exists j, js, k. split; [exact E|]. split; [exact A|]. split; [exact J|]. split; [exact I1|]. rewrite W. exact M.
Qed.
(** What the station sent comes back to it from VQ: the cipher-text is recognised and read. *)
Definition rg_cipher : list rune := Eval vm_compute in
  match new_text_message uni_id ex_lb ex_dp (ex_inst ex_keys) [rg_out] 7 ex_tape with
  | (_, Ok (m, _)) => [79; 83; 32; 68; 69; 32; 86; 81; 32; 61; 32] ++ mkeyid m ++ mcipher m ++ [32; 61; 32; 75]
  | _ => []
  end.
Example c42_incoming_applied : exists i' m t' j js k, new_text_message uni_id ex_lb ex_dp (ex_inst ex_keys) [rg_cipher] 7 (ex_tape ++ ex_tape ++ ex_tape) = (i', Ok (m, t')) /\
  mcipher m <> [] /\ nth_error ex_keys j = Some k /\ mkeyid m = kid k /\
  message 5 ex_keys (j :: js) (mplain m) (mcipher m) /\ marked_used (j :: js) ex_keys (i_keys i').
Proof.
  assert (Q : exists p t1 i' m t', parse_radiogram uni_id ex_lb ex_dp (ex_inst ex_keys) rg_cipher 7 (ex_tape ++ ex_tape ++ ex_tape) = Ok (p, t1) /\ mfrom p = callVQ /\
    (length (mplain p) <= length t1)%nat /\
    new_text_message uni_id ex_lb ex_dp (ex_inst ex_keys) [rg_cipher] 7 (ex_tape ++ ex_tape ++ ex_tape) = (i', Ok (m, t')) /\ mcipher m <> []).
  { do 5 eexists. split; [vm_compute; reflexivity|]. split; [reflexivity|]. split; [vm_compute; lia|].
    split; [vm_compute; reflexivity|intros X; discriminate X]. }
  destruct Q as (p & t1 & i0 & m0 & t0 & P & F & L & E & C).
  assert (N : ~ same_text (to_upper uni_id) (mfrom p) (i_callsign (ex_inst ex_keys))) by (rewrite F; intros X; discriminate X).
  destruct (c42_incoming uni_id ex_lb ex_dp (ex_inst ex_keys) rg_cipher [] 7 (ex_tape ++ ex_tape ++ ex_tape) p t1 eq_refl sp_ok P N)
    as (i' & m & t' & E' & _ & _ & _ & _ & _ & H).
  assert (Y : m = m0) by congruence.
  destruct H as [(_ & Z & _)|(d & _ & _ & H)]; [exfalso; apply C; rewrite <- Y; exact Z|].
  destruct (H L) as (j & js & k & J & I1 & I2 & M & U). exists i', m, t', j, js, k.
  split; [exact E'|]. split; [rewrite Y; exact C|]. split; [exact J|]. split; [congruence|]. split; [exact M|exact U].
Qed.
Example c57_applied : exists m t', parse_radiogram uni_id ex_lb ex_dp (ex_inst ex_keys) rg_in 7 ex_tape = Ok (m, t') /\
  call_sign (mfrom m) /\ Forall call_sign (mrecipients m) /\ length (mid m) = 4%nat.
Proof.
  assert (Q : exists m t', parse_radiogram uni_id ex_lb ex_dp (ex_inst ex_keys) rg_in 7 ex_tape = Ok (m, t')) by (do 2 eexists; vm_compute; reflexivity).
  destruct Q as (m & t' & E). exists m, t'. split; [exact E|].
  destruct (c57_plain_call_signs uni_id ex_lb ex_dp uni_id_kelvin (ex_inst ex_keys) rg_in 7 ex_tape m t' E) as (A & B).
  - assert (W : forallb (fun c => negb (existsb (Z.eqb c) [8490; 9; 10; 12; 13])) (ex_lb rg_in) = true) by (vm_compute; reflexivity).
    rewrite forallb_forall in W. intros c I X. specialize (W c I). apply negb_true_iff in W.
    assert (Y : existsb (Z.eqb c) [8490; 9; 10; 12; 13] = true) by (apply existsb_exists; exists c; split; [exact X|apply Z.eqb_refl]).
    congruence.
  - split; [exact A|]. split; [exact B|]. exact (proj1 (c26_new_id uni_id ex_lb ex_dp (ex_inst ex_keys) rg_in 7 ex_tape m t' E)).
Qed.
