(** Lemmas about the command line program: the commands pfk and initialize. *)
From Verif Require Import Base Model_Unicode Model_Functions Model_Crand Model_Types Model_Cipher Model_Keys Model_Import
  Model_Messages Model_Station Model_Persist Model_Listing Model_Cli Spec Spec_Persist Spec_Cli Spec_CliPfk Spec_Keys Proofs_Functions
  Proofs_KeyOps Proofs_KeyProps Proofs_Station Proofs_Persist Proofs_Settings Proofs_CliRun Proofs_CliCmd Proofs_CliOps
  Proofs_CliMore.

Set Default Proof Using "Type".
Section Pfk.
Context (L : lib) (U : Uni).

(** ** Setting salt and key *)
Lemma ready_app p key h s b : ready p key h s -> ready p key (h ++ [b]) s.
Proof. intros H. apply ready_mem with h; [exact H|]. intros q Q. apply cell_app, Q. Qed.
Lemma ready_salt_app salt h s b : ready_salt salt h s -> ready_salt salt (h ++ [b]) s.
Proof.
  intros (q & Q1 & Q2 & Q3). exists q. split; [exact Q1|]. destruct (cell_app h [b] q Q2) as (A & B).
  split; [exact A|congruence].
Qed.
Lemma derive_ready h s w salt : ready_salt salt h s -> 32 <= len salt ->
  derive_pfk (kdf L) h s w = (Ok tt, set_pfk s (Some (length h)), h ++ [kdf L w salt]).
Proof.
  intros (q & Q1 & Q2 & Q3) B. unfold derive_pfk. rewrite Q1, Q3. replace (len salt <? 32) with false by lia. reflexivity.
Qed.
Lemma ready_new p key h s b : ready p key h s -> len b = 32 -> ready p b (h ++ [b]) (set_pfk s (Some (length h))).
Proof.
  intros (A & B & C & D & E & _) LB. unfold ready. cbn [set_pfk st_path st_over st_inter st_overkeys st_pfk].
  split; [exact A|]. split; [exact B|]. split; [exact C|]. split; [exact D|]. split; [exact LB|].
  exists (length h). split; [reflexivity|]. apply cell_last.
Qed.

Lemma new_salt_fun g o a b : new_salt g o a -> new_salt g o b -> a = b.
Proof.
  unfold new_salt. destruct (po_newsalt o); [|apply salt_given_fun].
  intros [(A & A')|(A & A' & _)] [(B & B')|(B & B' & _)]; try congruence. exact (hex_text_fun _ _ _ A' B').
Qed.
Lemma default_hex : hex_decode default_salt_hex = Some default_salt.
Proof. vm_compute. reflexivity. Qed.
Lemma default_len : (len default_salt <? 32) = false.
Proof. vm_compute. reflexivity. Qed.

Lemma new_salt_step g o f p key h s salt : ready p key h s -> salt_given g salt -> ready_salt salt h s ->
  let y := match po_newsalt o with
           | None => Go f h s
           | Some x => with_result f (set_salt_from_string h s
                         (if list_eq_dec Z.eq_dec x w_default then default_salt_hex else x))
           end in
  (exists e, e <> Ok tt /\ y = End e f [] /\ forall b, ~ new_salt g o b) \/
  (exists h' s' salt', y = Go f h' s' /\ new_salt g o salt' /\ ready_salt salt' h' s' /\ ready p key h' s' /\
     32 <= len salt' /\ st_inst s' = st_inst s).
Proof.
  intros RD SG RS. cbv zeta. unfold new_salt. destruct (po_newsalt o) as [x|].
  - assert (forall y b, hex_decode y = Some b -> (len b <? 32) = false ->
       exists h' s', with_result f (set_salt_from_string h s y) = Go f h' s' /\ ready_salt b h' s' /\
         ready p key h' s' /\ st_inst s' = st_inst s) as GOOD.
    { intros y b E B. unfold set_salt_from_string. rewrite E, B. cbn [alloc with_result].
      do 2 eexists. split; [reflexivity|]. split; [|split; [|reflexivity]].
      - exists (length h). split; [reflexivity|]. apply cell_last.
      - apply (ready_app p key h s b RD). }
    change word_default with w_default.
    destruct (list_eq_dec Z.eq_dec x w_default) as [->|N].
    + right. destruct (GOOD _ _ default_hex default_len) as (h' & s' & E & R1 & R2 & R3).
      exists h', s', default_salt. split; [exact E|]. split; [left; split; reflexivity|]. split; [exact R1|].
      split; [exact R2|]. split; [pose proof default_len; lia|exact R3].
    + destruct (hex_decode x) as [b|] eqn:E.
      * destruct (len b <? 32) eqn:B.
        -- left. exists (Err ErrTooShortSalt). split; [discriminate|]. unfold set_salt_from_string. rewrite E, B.
           split; [reflexivity|]. intros b' [(X & _)|(_ & X & Y)]; [contradiction|]. apply hex_text_decode in X.
           assert (b' = b) by congruence. subst. lia.
        -- right. destruct (GOOD _ _ E B) as (h' & s' & E' & R1 & R2 & R3).
           exists h', s', b. split; [exact E'|]. split; [right; split; [exact N|]; split; [apply hex_decode_text, E|lia]|].
           split; [exact R1|]. split; [exact R2|]. split; [lia|exact R3].
      * left. exists (Err ErrHex). split; [discriminate|]. unfold set_salt_from_string. rewrite E.
        split; [reflexivity|]. intros b' [(X & _)|(_ & X & Y)]; [contradiction|]. apply hex_text_decode in X. congruence.
  - right. exists h, s, salt. split; [reflexivity|]. split; [exact SG|]. split; [exact RS|]. split; [exact RD|].
    split; [exact (salt_given_len _ _ SG)|reflexivity].
Qed.

(** The new key. *)
Lemma new_key_step r g o f p key h s salt : lib_ok L -> ready p key h s -> new_salt g o salt -> ready_salt salt h s ->
  32 <= len salt ->
  let y := match po_how o with
           | ByRandom =>
               andthen (if_agreed (po_agree o) f h s) (fun f h s =>
               match generate_pfk (r_tape r) with
               | Ok (x, _) => with_result f (set_pfk_from_string h s x)
               | x => End (fail x) f []
               end)
           | ByPassword p =>
               andthen (with_result f (derive_pfk (kdf L) h s p)) (if_agreed (po_agree o))
           | ByHex x =>
               andthen (with_result f (set_pfk_from_string h s x)) (if_agreed (po_agree o))
           | ByPrompt =>
               match e_password (r_env r 1) with
               | None => End (Err ErrPasswordInput) f []
               | Some p => with_result f (derive_pfk (kdf L) h s p)
               end
           end in
  (exists e, e <> Ok tt /\ y = End e f [] /\ ~ (agreed o /\ exists b, new_key_given L r g o b)) \/
  (y = End (Ok tt) f [] /\ declined o) \/
  (agreed o /\ exists h' s' key', y = Go f h' s' /\ new_key_given L r g o key' /\ ready p key' h' s' /\ st_inst s' = st_inst s).
Proof.
  intros HL RD NS RS B. cbv zeta. unfold agreed, declined, new_key_given. destruct (po_how o) as [|w|x|].
  - destruct (po_agree o) as [[|]|]; cbn [if_agreed andthen Go End].
    + unfold generate_pfk, read_bytes. destruct (Nat.leb 32 (length (r_tape r))) eqn:T.
      * right. right. split; [tauto|]. apply Nat.leb_le in T.
        set (b := map (fun w => w mod 256) (firstn 32 (r_tape r))).
        assert (Forall byte b) as FB.
        { apply Forall_forall. intros y Y. apply in_map_iff in Y. destruct Y as (w & <- & _).
          unfold byte. pose proof (Z.mod_pos_bound w 256). lia. }
        assert (len b = 32) as LB by (unfold b, len; rewrite map_length, firstn_length; lia).
        assert (hex_decode (hex_encode b) = Some b) as HD.
        { apply hex_decode_text. split; [exact FB|]. exact (proj2 (proj2 (hex_encode_digits b FB))). }
        unfold set_pfk_from_string. rewrite HD, LB. cbn [negb Z.eqb Pos.eqb alloc with_result].
        exists (h ++ [b]), (set_pfk s (Some (length h))), b. split; [reflexivity|]. split.
        { exists salt. split; [exact NS|]. split; [exact LB|]. exists (firstn 32 (r_tape r)), (skipn 32 (r_tape r)).
          split; [symmetry; apply firstn_skipn|reflexivity]. }
        split; [apply (ready_new p key h s b RD LB)|reflexivity].
      * left. exists Panic. split; [discriminate|]. split; [reflexivity|].
        intros (_ & b & sl & _ & LB & words & rest & E & EB). apply Nat.leb_gt in T. rewrite E, app_length in T.
        subst b. unfold len in LB. rewrite map_length in LB. lia.
    + right. left. split; [reflexivity|]. split; [discriminate|reflexivity].
    + left. exists (Err ErrPrompt). split; [discriminate|]. split; [reflexivity|]. intros ([X|X] & _); discriminate.
  - rewrite (derive_ready h s w salt RS B). cbn [with_result andthen Go].
    destruct HL as (_ & _ & _ & LK). destruct (po_agree o) as [[|]|]; cbn [if_agreed Go End].
    + right. right. split; [tauto|]. do 2 eexists. exists (kdf L w salt). split; [reflexivity|]. split; [exists salt; tauto|].
      split; [apply (ready_new p key h s _ RD), LK|reflexivity].
    + right. left. split; [reflexivity|]. split; [discriminate|reflexivity].
    + left. exists (Err ErrPrompt). split; [discriminate|]. split; [reflexivity|]. intros ([X|X] & _); discriminate.
  - unfold set_pfk_from_string. destruct (hex_decode x) as [b|] eqn:E.
    2:{ left. exists (Err ErrHex). split; [discriminate|]. split; [reflexivity|]. intros (_ & b & sl & _ & X & _).
        apply hex_text_decode in X. congruence. }
    destruct (len b =? 32) eqn:LB; cbn [negb alloc with_result andthen Go End].
    2:{ left. exists (Err ErrInvalidPFK). split; [discriminate|]. split; [reflexivity|]. intros (_ & b' & sl & _ & X & Y).
        apply hex_text_decode in X. assert (b' = b) by congruence. subst. lia. }
    destruct (po_agree o) as [[|]|]; cbn [if_agreed Go End].
    + right. right. split; [tauto|]. do 2 eexists. exists b. split; [reflexivity|].
      split; [exists salt; split; [exact NS|]; split; [apply hex_decode_text, E|lia]|].
      split; [apply (ready_new p key h s _ RD); lia|reflexivity].
    + right. left. split; [reflexivity|]. split; [discriminate|reflexivity].
    + left. exists (Err ErrPrompt). split; [discriminate|]. split; [reflexivity|]. intros ([X|X] & _); discriminate.
  - destruct (e_password (r_env r 1)) as [w|] eqn:EW.
    + right. right. split; [tauto|]. rewrite (derive_ready h s w salt RS B). cbn [with_result].
      destruct HL as (_ & _ & _ & LK).
      do 2 eexists. exists (kdf L w salt). split; [reflexivity|]. split; [exists salt; split; [exact NS|]; exists w; tauto|].
      split; [apply (ready_new p key h s _ RD), LK|reflexivity].
    + left. exists (Err ErrPasswordInput). split; [discriminate|]. split; [reflexivity|].
      intros (_ & b & sl & _ & w & X & _). discriminate.
Qed.

(** Opening with the old key. *)
Definition old_options (g : gopts) (o : popts) : gopts :=
  match po_old o with None => g | Some w => mkG (g_salt g) None (Some w) end.
Lemma old_key_options e g o key : old_key L e g o key -> key_given L e (old_options g o) key.
Proof.
  unfold old_key, old_options. destruct (po_old o) as [w|]; [|tauto]. intros (salt & S & K & _).
  exists salt. split; [exact S|exact K].
Qed.
Definition ex_env_any : env := mkEnv None false true None (Some []) true [] [] O None.

Lemma pfk_open r g o f h p key i k : lib_ok L -> store_at L (r_env r 0) (po_file o) f p key i ->
  let (s, h1) := new_station U h [WithPersistence (po_file o); WithInteractive true] in
  let y := andthen (set_salt_and_pfk L g f h1 s) (fun f h s =>
    andthen (match po_old o with
           | None => Go f h s
           | Some p => with_result f (derive_pfk (kdf L) h s p)
           end) (fun f h s =>
    andthen (load_step L (r_env r 0) f h s) k)) in
  (exists e, e <> Ok tt /\ y = End e f [] /\ ~ (old_key L (r_env r 0) g o key /\ can_read (r_env r 0))) \/
  (old_key L (r_env r 0) g o key /\ can_read (r_env r 0) /\ exists h' s' salt, y = andthen (Go f h' s') k /\
     ready p key h' s' /\ salt_given g salt /\ ready_salt salt h' s' /\ st_inst s' = i).
Proof.
  intros HL (PO & PP & LK & NZ & ST). rewrite new_plain. cbv zeta.
  set (s0 := mkSt (po_file o) None (Some (length h)) false true false fresh_inst).
  assert (st_path s0 = po_file o) as SP by reflexivity.
  destruct (ssp_spec L g f (h ++ [default_salt]) s0 eq_refl (default_ready h s0 eq_refl))
    as [(r0 & N & -> & NK)|(h1 & s1 & salt & -> & (S1 & S2 & S3 & S4 & S5) & SG & RS & PK)].
  { left. exists r0. split; [exact N|]. split; [reflexivity|]. intros (K & _). unfold old_key in K.
    destruct (po_old o) as [w|]; [|exact (NK _ _ K)]. destruct K as (sl & K1 & _ & K3).
    destruct (g_pfk g) as [x|] eqn:EP, (g_password g) as [w'|] eqn:EW.
    - exact K3.
    - destruct K3 as (b & K3). apply (NK (r_env r 0) b). exists sl. rewrite EP, EW. split; [exact K1|exact K3].
    - apply (NK (r_env r 0) (kdf L w' sl)). exists sl. rewrite EP, EW. split; [exact K1|reflexivity].
    - apply (NK ex_env_any (kdf L [] sl)). exists sl. rewrite EP, EW. split; [exact K1|]. split; [reflexivity|].
      exists []. split; reflexivity. }
  cbn [s0 st_over st_inter st_overkeys st_inst] in S2, S3, S4, S5. rewrite SP in S1. rewrite andthen_go.
  assert (exists h2 s2, match po_old o with
           | None => Go f h1 s1
           | Some p => with_result f (derive_pfk (kdf L) h1 s1 p) end = Go f h2 s2 /\
      same_else s1 s2 /\ ready_salt salt h2 s2 /\
      match st_pfk s2 with
      | None => g_pfk (old_options g o) = None /\ g_password (old_options g o) = None
      | Some c => (c < length h2)%nat /\ ~ (g_pfk (old_options g o) = None /\ g_password (old_options g o) = None) /\
          forall e, key_given L e (old_options g o) (cell h2 c)
      end) as (h2 & s2 & -> & (T1 & T2 & T3 & T4 & T5) & RS2 & PK2).
  { unfold old_options. destruct (po_old o) as [w|].
    - rewrite (derive_ready h1 s1 w salt RS (salt_given_len _ _ SG)). cbn [with_result].
      do 2 eexists. split; [reflexivity|]. split; [unfold same_else; cbn; tauto|].
      split; [apply (ready_salt_app _ _ _ _ RS)|]. cbn [st_pfk set_pfk g_pfk g_password].
      destruct (cell_last h1 (kdf L w salt)) as (A1 & A2). split; [exact A1|]. split; [intros (_ & X); discriminate|].
      intros e. rewrite A2. exists salt. split; [exact SG|reflexivity].
    - exists h1, s1. split; [reflexivity|]. split; [unfold same_else; tauto|]. split; [exact RS|exact PK]. }
  rewrite andthen_go.
  assert (forall e b, key_given L e (old_options g o) b -> old_key L e g o b) as OK.
  { intros e b. unfold old_options, old_key. destruct (po_old o) as [w|]; [|tauto].
    intros (sl & K1 & K2). cbn [g_pfk g_password] in K2. exists sl. split; [exact K1|]. split; [exact K2|].
    destruct (st_pfk s1) as [c|]; destruct (g_pfk g) as [x|] eqn:EP, (g_password g) as [w'|] eqn:EW; try exact I;
      try (destruct PK as (PK1 & PK2'); discriminate).
    - destruct PK as (_ & _ & X). destruct (X e) as (sl' & _ & Y). rewrite EP, EW in Y. exact Y.
    - destruct PK as (_ & _ & X). destruct (X e) as (sl' & _ & Y). rewrite EP, EW in Y. exists (cell h1 c). exact Y. }
  assert (salt_given (old_options g o) salt) as SG2 by (unfold old_options; destruct (po_old o); exact SG).
  destruct (load_spec L (old_options g o) (r_env r 0) f h2 s2 salt HL ltac:(congruence) ltac:(congruence) ltac:(congruence) SG2 RS2 PK2)
    as [(r0 & N & -> & NK)|(CR & h3 & s3 & p1 & key1 & c & i1 & -> & P1 & K1 & F1 & R1 & RD & RS3 & I3)];
    rewrite T1, S1 in *.
  { left. exists r0. split; [exact N|]. split; [reflexivity|]. intros (K & C).
    destruct (stored_reads _ _ _ _ _ HL ST) as (c & F & R). exact (NK p key c i PO (old_key_options _ _ _ _ K) F R C). }
  rewrite (path_of_fun _ _ _ _ _ P1 PO) in *. pose proof (key_given_len _ _ _ _ HL K1) as L1.
  destruct (reads_stored _ _ _ _ _ _ _ _ HL ST F1 LK L1 R1) as (-> & ->).
  right. split; [apply OK, K1|]. split; [exact CR|]. exists h3, s3, salt. split; [reflexivity|]. split; [exact RD|].
  split; [exact SG|]. split; [exact RS3|]. rewrite I3. apply merge_fresh_inst, NZ.
Qed.

(** pfk --change *)
Lemma pfk_lemma r g o f h p key i : lib_ok L -> store_at L (r_env r 0) (po_file o) f p key i -> disk_ok (r_env r 1) ->
  let x := cmd_pfk_change L U r g o f h in
  shown x = [] /\
  ((result x <> Ok tt /\ same_files f (files x) /\
    ~ (old_key L (r_env r 0) g o key /\ can_read (r_env r 0) /\ agreed o /\ (exists b, new_key_given L r g o b) /\
       can_write (r_env r 1))) \/
   (result x = Ok tt /\ same_files f (files x) /\ declined o) \/
   (result x = Ok tt /\ old_key L (r_env r 0) g o key /\ agreed o /\ same_other_files p f (files x) /\
    exists key', new_key_given L r g o key' /\ len key' = 32 /\ stored L (files x) p key' i)).
Proof.
  intros HL SA D. cbv zeta. pose proof (fun k => pfk_open r g o f h p key i k HL SA) as OP. unfold cmd_pfk_change.
  destruct (new_station U h [WithPersistence (po_file o); WithInteractive true]) as [s h1]. cbv zeta in OP.
  match goal with |- context [andthen (load_step _ _ _ _ _) ?k] => specialize (OP k) end.
  destruct OP as [(e & N & E & NK)|(OK & CR & h2 & s2 & salt & E & RD & SG & RS & I2)]; rewrite E.
  { split; [reflexivity|]. left. split; [exact N|]. split; [intros q; reflexivity|]. tauto. }
  rewrite andthen_go.
  pose proof (new_salt_step g o f p key h2 s2 salt RD SG RS) as NS. cbv zeta in NS.
  destruct NS as [(e & N & -> & NN)|(h3 & s3 & salt' & -> & NS & RS3 & RD3 & LS & I3)].
  { split; [reflexivity|]. left. split; [exact N|]. split; [intros q; reflexivity|].
    intros (_ & _ & _ & (b & sl & X & _) & _). exact (NN _ X). }
  rewrite andthen_go.
  pose proof (new_key_step r g o f p key h3 s3 salt' HL RD3 NS RS3 LS) as NK. cbv zeta in NK.
  destruct NK as [(e & N & -> & NN)|[(-> & DE)|(AG & h4 & s4 & key' & -> & NK & RD4 & I4)]].
  { split; [reflexivity|]. left. split; [exact N|]. split; [intros q; reflexivity|]. tauto. }
  { split; [reflexivity|]. right. left. split; [reflexivity|]. split; [intros q; reflexivity|exact DE]. }
  rewrite andthen_go.
  destruct (save_ready L (r_env r 1) f h4 s4 p key' (proj1 (proj2 SA)) RD4 D) as [(NW & ->)|(CW & f' & -> & ST & O)].
  { split; [reflexivity|]. left. split; [discriminate|]. split; [intros q; reflexivity|]. tauto. }
  split; [reflexivity|]. right. right. split; [reflexivity|]. split; [exact OK|]. split; [exact AG|]. split; [exact O|].
  exists key'. split; [exact NK|]. split; [destruct RD4 as (_ & _ & _ & _ & X & _); exact X|].
  rewrite I4, I3, I2 in ST. exact ST.
Qed.

(** ** Initialize *)
(** Saving an instance whose key may have to be typed in. *)
Lemma save_typed e f h n w salt : st_pfk n = None -> st_inter n = true -> e_term e = true -> e_password e = Some w ->
  ready_salt salt h n -> 32 <= len salt ->
  result (save_step L e f h n) = result (save_step L e f (h ++ [kdf L w salt]) (set_pfk n (Some (length h)))) /\
  files (save_step L e f h n) = files (save_step L e f (h ++ [kdf L w salt]) (set_pfk n (Some (length h)))) /\
  shown (save_step L e f h n) = shown (save_step L e f (h ++ [kdf L w salt]) (set_pfk n (Some (length h)))).
Proof.
  intros NP SI ET EW RS B. unfold save_step, save. cbn [set_pfk st_path].
  destruct (len (st_path n) =? 0); [split; [reflexivity|split; reflexivity]|].
  destruct (resolve L e (st_path n)) as [p|]; [|split; [reflexivity|split; reflexivity]]. cbv zeta.
  destruct (e_stat_err e); [split; [reflexivity|split; reflexivity]|].
  assert (obtain_key L e h (set_path n p) = (Ok tt, set_pfk (set_path n p) (Some (length h)), h ++ [kdf L w salt])) as ->.
  { unfold obtain_key. cbn [st_pfk set_path st_inter]. rewrite NP, SI, ET, EW. cbn [andb]. apply (derive_ready h (set_path n p) w salt RS B). }
  assert (obtain_key L e (h ++ [kdf L w salt]) (set_path (set_pfk n (Some (length h))) p) =
    (Ok tt, set_path (set_pfk n (Some (length h))) p, h ++ [kdf L w salt])) as -> by reflexivity.
  assert (set_pfk (set_path n p) (Some (length h)) = set_path (set_pfk n (Some (length h))) p) as -> by reflexivity.
  cbn [set_path st_over st_inter set_pfk]. rewrite SI, ET. cbn [andb].
  set (go := if negb (e_open e) then _ else _).
  destruct (f p); [|split; [reflexivity|split; reflexivity]].
  destruct (st_over n); [split; [reflexivity|split; reflexivity]|].
  destruct (e_confirm e) as [[|]|]; (split; [reflexivity|split; reflexivity]).
Qed.

Lemma save_first g e f h n q salt : disk_ok e -> path_of L e (st_path n) q -> st_inter n = true -> lib_ok L ->
  salt_given g salt -> ready_salt salt h n ->
  match st_pfk n with
  | None => g_pfk g = None /\ g_password g = None
  | Some c => (c < length h)%nat /\ ~ (g_pfk g = None /\ g_password g = None) /\ forall e, key_given L e g (cell h c)
  end ->
  let x := save_step L e f h n in
  shown x = [] /\
  ((result x = Ok tt /\ said_no e (st_over n) f q /\ same_files f (files x)) \/
   (result x = Ok tt /\ may_write e (st_over n) f q /\ same_other_files q f (files x) /\
    exists key, key_given L e g key /\ stored L (files x) q key (st_inst n)) \/
   (result x <> Ok tt /\ same_files f (files x) /\
    ~ (may_write e (st_over n) f q /\ can_write e /\ exists key, key_given L e g key))).
Proof.
  intros D PO SI HL SG RS PK. cbv zeta.
  assert (forall h n, st_path n = st_path n -> path_of L e (st_path n) q -> st_inter n = true ->
    forall c, st_pfk n = Some c -> (c < length h)%nat -> key_given L e g (cell h c) ->
    let x := save_step L e f h n in
    shown x = [] /\
    ((result x = Ok tt /\ said_no e (st_over n) f q /\ same_files f (files x)) \/
     (result x = Ok tt /\ may_write e (st_over n) f q /\ same_other_files q f (files x) /\
      exists key, key_given L e g key /\ stored L (files x) q key (st_inst n)) \/
     (result x <> Ok tt /\ same_files f (files x) /\
      ~ (may_write e (st_over n) f q /\ can_write e /\ exists key, key_given L e g key)))) as KNOWN.
  { clear h n PO SI RS PK. intros h n _ PO SI c C1 C2 KG. cbv zeta. unfold said_no, may_write.
    destruct (save_new L e f h n q (cell h c) D PO SI (key_given_len _ _ _ _ HL KG)
      (ex_intro _ c (conj C1 (conj C2 eq_refl)))) as [(n' & -> & A)|[(CW & A & n' & f' & -> & ST & O)|(x & N & -> & NO)]].
    - split; [reflexivity|]. left. split; [reflexivity|]. split; [exact A|]. intros z; reflexivity.
    - split; [reflexivity|]. right. left. split; [reflexivity|]. split; [exact A|]. split; [exact O|].
      exists (cell h c). split; [exact KG|exact ST].
    - split; [reflexivity|]. right. right. split; [exact N|]. split; [intros z; reflexivity|]. tauto. }
  destruct (st_pfk n) as [c|] eqn:EP.
  { destruct PK as (C2 & _ & KG). apply (KNOWN h n eq_refl PO SI c EP C2 (KG e)). }
  destruct PK as (NP & NW).
  destruct (e_term e) eqn:ET; [destruct (e_password e) as [w|] eqn:EW|].
  - destruct (save_typed e f h n w salt EP SI ET EW RS (salt_given_len _ _ SG)) as (-> & -> & ->).
    refine (KNOWN (h ++ [kdf L w salt]) (set_pfk n (Some (length h))) eq_refl PO SI (length h) eq_refl _ _).
    + apply cell_last.
    + rewrite (proj2 (cell_last h (kdf L w salt))). exists salt. rewrite NP, NW. split; [exact SG|].
      split; [exact ET|]. exists w. split; [exact EW|reflexivity].
  - assert (forall key, ~ key_given L e g key) as NK.
    { intros key (sl & _ & X). rewrite NP, NW in X. destruct X as (_ & w & X & _). congruence. }
    pose proof (path_of_nonempty _ _ _ _ PO) as NE. apply path_of_resolve in PO; [|exact NE].
    unfold save_step, save. rewrite (not_empty _ NE), PO. cbv zeta.
    destruct (e_stat_err e).
    { split; [reflexivity|]. right. right. split; [discriminate|]. split; [intros z; reflexivity|].
      intros (_ & _ & k & K). exact (NK k K). }
    unfold obtain_key. cbn [st_pfk set_path st_inter st_over]. rewrite EP, SI, ET, EW. cbn [andb].
    assert (~ (may_write e (st_over n) f q /\ can_write e /\ exists key, key_given L e g key)) as NO
      by (intros (_ & _ & k & K); exact (NK k K)).
    unfold said_no. destruct (f q) as [bs|]; [destruct (st_over n); [|destruct (e_confirm e) as [[|]|]]|];
      (split; [reflexivity|]);
      try (right; right; split; [discriminate|]; split; [intros z; reflexivity|exact NO]).
    left. split; [reflexivity|]. split; [|intros z; reflexivity]. split; [discriminate|]. tauto.
  - assert (forall key, ~ key_given L e g key) as NK.
    { intros key (sl & _ & X). rewrite NP, NW in X. destruct X as (X & _). congruence. }
    pose proof (path_of_nonempty _ _ _ _ PO) as NE. apply path_of_resolve in PO; [|exact NE].
    unfold save_step, save. rewrite (not_empty _ NE), PO. cbv zeta.
    destruct (e_stat_err e).
    { split; [reflexivity|]. right. right. split; [discriminate|]. split; [intros z; reflexivity|].
      intros (_ & _ & k & K). exact (NK k K). }
    unfold obtain_key. cbn [st_pfk set_path st_inter st_over]. rewrite EP, SI, ET. cbn [andb].
    destruct (f q) as [bs|]; [destruct (st_over n)|]; (split; [reflexivity|]);
      (right; right; split; [discriminate|]; split; [intros z; reflexivity|]; intros (_ & _ & k & K); exact (NK k K)).
Qed.

(** The call-sign. *)
Lemma call_stored call : uni_upper_idem U -> uni_space_upper U ->
  call_of U call (str_upper U (trim_space U (str_upper U (trim_space U call)))).
Proof.
  intros HI HS. destruct (trim_split U call) as (a & b & E & A & B & N).
  assert (str_upper U (trim_space U (str_upper U (trim_space U call))) = str_upper U (trim_space U call)) as ->.
  { assert (~ space_at_ends U (str_upper U (trim_space U call))) as N2
      by (unfold str_upper; rewrite (space_at_ends_upper U HS); exact N).
    pose proof (trim_exact U [] (str_upper U (trim_space U call)) [] ltac:(constructor) ltac:(constructor) N2) as T.
    cbn [app] in T. rewrite app_nil_r in T. rewrite T. unfold str_upper. rewrite map_map. apply map_ext. intros c. apply HI. }
  exists a, (trim_space U call), b. split; [exact E|]. split; [reflexivity|]. split; [exact A|]. split; [exact B|].
  unfold space_at_ends in N. split.
  - intros c s Q. destruct (is_space U c) eqn:IS; [|reflexivity]. exfalso. apply N. left. rewrite Q. exact IS.
  - intros c s Q. destruct (is_space U c) eqn:IS; [|reflexivity]. exfalso. apply N. right. rewrite Q, rev_app_distr. exact IS.
Qed.

Lemma init_lemma dp r g o f h call q : lib_ok L -> uni_upper_idem U -> uni_space_upper U ->
  io_call o = Some call -> disk_ok (r_env r 1) -> path_of L (r_env r 1) (io_file o) q ->
  let x := cmd_initialize L U dp r g o f h in
  shown x = [] /\
  ((result x = Ok tt /\ said_no (r_env r 1) (io_yes o) f q /\ same_files f (files x)) \/
   (result x = Ok tt /\ settings_ok o /\ may_write (r_env r 1) (io_yes o) f q /\ same_other_files q f (files x) /\
    exists key keys call' cs, key_given L (r_env r 1) g key /\
      stored L (files x) q key
        (mkInst (io_groupsize o) (io_keylength o) (io_columns o) (io_keycolumns o) keys [] cs) /\
      call_of U call call' /\ (if 2 <=? len call' then cs = call' else cs = []) /\
      len keys = Z.max 0 (io_keys o) /\
      (forall k, In k keys -> letters (kid k) /\ len (kid k) = io_groupsize o /\ letters (krunes k) /\
        io_keylength o <= len (krunes k) < io_keylength o + io_groupsize o /\
        kused k = false /\ kcompromised k = false /\ kcreated k = r_now r /\ kcomment k = [] /\
        (io_expire o <> [] -> dp (io_expire o) = Some (kexpires k)) /\
        (io_expire o = [] -> kexpires k = r_now r + 365 * day) /\
        keepers_named U (io_keepers o) cs (kkeepers k)) /\
      (forall a k b, keys = a ++ k :: b -> forall k0, In k0 a -> ~ same_text (to_upper U) (kid k0) (kid k))) \/
   (result x <> Ok tt /\ same_files f (files x) /\
    (settings_ok o -> (0 < io_keys o -> io_expire o <> [] -> dp (io_expire o) <> None) ->
     may_write (r_env r 1) (io_yes o) f q -> can_write (r_env r 1) -> (exists key, key_given L (r_env r 1) g key) ->
     result x = Panic))).
Proof.
  intros HL HI HS EC D PO. cbv zeta. unfold cmd_initialize. rewrite EC.
  set (cs0 := str_upper U (trim_space U (str_upper U (trim_space U call)))).
  set (cs := if len cs0 <? 2 then [] else cs0).
  set (i0 := mkInst (io_groupsize o) (io_keylength o) (io_columns o) (io_keycolumns o) [] [] cs).
  assert (new_station U h
        [WithPersistence (io_file o); WithInteractive true; WithKeyLength (io_keylength o);
         WithGroupSize (io_groupsize o); WithKeyColumns (io_keycolumns o); WithColumns (io_columns o);
         WithCallSign (str_upper U (trim_space U call)); WithOverwritePersistenceIfExists (io_yes o)] =
     (mkSt (io_file o) None (Some (length h)) (io_yes o) true false i0, h ++ [default_salt])) as ->.
  { unfold i0, cs, cs0, new_station. cbn [alloc fold_left apply_opt]. unfold set_call_sign.
    destruct (len (str_upper U (trim_space U (str_upper U (trim_space U call)))) <? 2); reflexivity. }
  set (s0 := mkSt (io_file o) None (Some (length h)) (io_yes o) true false i0).
  assert (st_path s0 = io_file o /\ st_over s0 = io_yes o /\ st_inter s0 = true /\ st_inst s0 = i0) as (Z1 & Z2 & Z3 & Z4)
    by (cbn; tauto).
  destruct (ssp_spec L g f (h ++ [default_salt]) s0 eq_refl (default_ready h s0 eq_refl))
    as [(e & N & -> & NK)|(h1 & s1 & salt & -> & (S1 & S2 & S3 & S4 & S5) & SG & RS & PK)].
  { split; [reflexivity|]. right. right. split; [exact N|]. split; [intros z; reflexivity|].
    intros _ _ _ _ (k & K). destruct (NK _ _ K). }
  rewrite andthen_go. rewrite Z1 in S1. rewrite Z2 in S2. rewrite Z3 in S3. rewrite Z4 in S5. clearbody s0. clear Z1 Z2 Z3 Z4.
  destruct (assert_settings s1) as [[]|e| |] eqn:AS.
  2,3,4: (split; [reflexivity|]; right; right; split; [discriminate|]; split; [intros z; reflexivity|];
      intros SO; exfalso; assert (assert_settings s1 = Ok tt) as X; [|congruence]; apply assert_iff; rewrite S1, S5; exact SO).
  assert (settings_ok o) as SO by (apply assert_iff in AS; rewrite S1, S5 in AS; exact AS).
  set (xp := if 0 <? len (io_expire o) then Some (io_expire o) else None).
  assert ((if 0 <? len (io_expire o) then Some (dp (io_expire o)) else None) = option_map dp xp) as EE
    by (unfold xp; destruct (0 <? len (io_expire o)); reflexivity).
  rewrite EE.
  assert (1 <= i_groupsize i0 /\ 20 <= i_keylength i0) as (G1 & G2) by (unfold settings_ok in SO; cbn; tauto).
  set (y := if 0 <? io_keys o then _ else _).
  assert ((exists e, e <> Ok tt /\ y = End e f [] /\
             ((0 < io_keys o -> io_expire o <> [] -> dp (io_expire o) <> None) -> e = Panic)) \/
    exists keys s2, y = Go f h1 s2 /\ s2 = set_inst s1 (set_keys i0 keys) /\ len keys = Z.max 0 (io_keys o) /\
      (forall k, In k keys -> letters (kid k) /\ len (kid k) = io_groupsize o /\ letters (krunes k) /\
        io_keylength o <= len (krunes k) < io_keylength o + io_groupsize o /\
        kused k = false /\ kcompromised k = false /\ kcreated k = r_now r /\ kcomment k = [] /\
        (io_expire o <> [] -> dp (io_expire o) = Some (kexpires k)) /\
        (io_expire o = [] -> kexpires k = r_now r + 365 * day) /\
        keepers_named U (io_keepers o) cs (kkeepers k)) /\
      (forall a k b, keys = a ++ k :: b -> forall k0, In k0 a -> ~ same_text (to_upper U) (kid k0) (kid k))) as Y.
  { unfold y. destruct (0 <? io_keys o) eqn:NK.
    - rewrite S5. destruct (generate_keys U i0 (io_keys o) (r_now r) (option_map dp xp) (io_keepers o) (r_tape r))
        as [[i' t']|e| |] eqn:EG.
      2,3,4: (left; eexists; split; [|split; [reflexivity|]]; [discriminate|]; intros EX;
        destruct (generate_total U dp i0 (io_keys o) (r_now r) xp (io_keepers o) (r_tape r)) as [(z & X)|X];
        [lia|lia| |rewrite EG in X; discriminate X|rewrite EG in X; try discriminate X; reflexivity];
        unfold xp; intros d; destruct (0 <? len (io_expire o)) eqn:LE; intros [= <-]; apply EX; [lia|];
        intros Q; rewrite Q in LE; discriminate).
      right. destruct (c18_generate_lemma U i0 _ _ _ _ _ _ _ ltac:(lia) ltac:(lia) EG) as (new & -> & LN & P1 & P2).
      exists new. eexists. split; [reflexivity|]. split; [reflexivity|]. split; [exact LN|]. split.
      + intros k I. destruct (P1 k I) as (A1 & A2 & A3 & _ & A4 & A5 & A6 & A7 & A8 & A9 & A10 & A11).
        split; [exact A1|]. split; [exact A2|]. split; [exact A3|]. split; [exact A4|]. split; [exact A5|].
        split; [exact A6|]. split; [exact A7|]. split; [exact A8|]. unfold xp in A9, A10, EG. split; [|split; [|exact A11]].
        * intros NE. replace (0 <? len (io_expire o)) with true in * by (destruct (io_expire o); [congruence|unfold len; cbn [length]; lia]).
          cbn [option_map] in *. destruct (dp (io_expire o)) as [v|]; [|discriminate EG]. rewrite (A9 v eq_refl). reflexivity.
        * intros E. rewrite E in A10. rewrite (A10 eq_refl). unfold day. lia.
      + intros a k b E k0 I. apply (P2 a k b E). exact I.
    - right. exists [], s1. split; [reflexivity|]. split; [rewrite <- S5; destruct s1 as [? ? ? ? ? ? []]; cbn in *; subst;
        injection S5 as -> -> -> -> -> -> ->; reflexivity|]. split; [unfold len; cbn [length]; lia|]. split; [intros k []|]. intros a k b E. destruct a; discriminate. }
  clearbody y. destruct Y as [(e & N & -> & EX)|(keys & s2 & -> & -> & LN & P1 & P2)].
  { split; [reflexivity|]. right. right. split; [exact N|]. split; [intros z; reflexivity|].
    intros _ X _ _ _. rewrite (EX X). reflexivity. }
  rewrite andthen_go.
  assert (st_path (set_inst s1 (set_keys i0 keys)) = io_file o) as SP by exact S1.
  assert (st_over (set_inst s1 (set_keys i0 keys)) = io_yes o) as SV by exact S2.
  pose proof (save_first g (r_env r 1) f h1 (set_inst s1 (set_keys i0 keys)) q salt D) as SF. rewrite SP, SV in SF.
  specialize (SF PO S3 HL SG RS PK). cbv zeta in SF. destruct SF as (SH & SF). split; [exact SH|].
  destruct SF as [(R & SN & SM)|[(R & MW & O & key & KG & ST)|(R & SM & NO)]].
  - left. split; [exact R|]. split; [exact SN|exact SM].
  - right. left. split; [exact R|]. split; [exact SO|]. split; [exact MW|]. split; [exact O|].
    exists key, keys, cs0, cs. split; [exact KG|]. split; [exact ST|]. split; [apply call_stored; assumption|]. split.
    { unfold cs. destruct (len cs0 <? 2) eqn:E1; destruct (2 <=? len cs0) eqn:E2; try reflexivity; lia. }
    split; [exact LN|]. split; [exact P1|exact P2].
  - right. right. split; [exact R|]. split; [exact SM|]. tauto.
Qed.
End Pfk.
