(** Lemmas about the command pfk as a whole. *)
From Verif Require Import Base Model_Unicode Model_Functions Model_Crand Model_Types Model_Station Model_Persist
  Model_Cli Model_Ask Model_Pfk Spec Spec_Persist Spec_Cli Spec_CliPfk Spec_Ask Spec_Pfk Proofs_Functions Proofs_CliRun
  Proofs_CliOps Proofs_CliPfk Proofs_Ask.

Set Default Proof Using "Type".
Section Pfk.
Context (L : lib) (U : Uni) (strong : list Z -> bool).

Lemma opened_spec r g o f h p key i : lib_ok L -> store_at L (r_env r 0) (po_file o) f p key i ->
  (exists e, e <> Ok tt /\ pfk_opened L U r g o f h = End e f [] /\
     ~ (old_key L (r_env r 0) g o key /\ can_read (r_env r 0) /\ exists b, new_salt g o b)) \/
  (exists h' s', pfk_opened L U r g o f h = Go f h' s').
Proof.
  clear strong. intros HL SA. pose proof (fun k => pfk_open L U r g o f h p key i k HL SA) as OP. unfold pfk_opened.
  destruct (new_station U h [WithPersistence (po_file o); WithInteractive true]) as [s h1]. cbv zeta in OP.
  match goal with |- context [andthen (load_step _ _ _ _ _) ?k] => specialize (OP k) end.
  destruct OP as [(e & N & E & NK)|(OK & CR & h2 & s2 & salt & E & RD & SG & RS & I2)]; rewrite E.
  { left. exists e. split; [exact N|]. split; [reflexivity|]. tauto. }
  rewrite andthen_go.
  pose proof (Proofs_CliPfk.new_salt_step g o f p key h2 s2 salt RD SG RS) as NS. cbv zeta in NS.
  destruct NS as [(e & N & -> & NN)|(h3 & s3 & salt' & -> & _)].
  - left. exists e. split; [exact N|]. split; [reflexivity|]. intros (_ & _ & b & B). exact (NN b B).
  - right. exists h3, s3. reflexivity.
Qed.

Lemma andthen_over x k r f m out : x = Over r f m out -> andthen x k = Over r f m out.
Proof. clear. intros ->. reflexivity. Qed.
Lemma andthen_assoc x k1 k2 : andthen (andthen x k1) k2 = andthen x (fun f h s => andthen (k1 f h s) k2).
Proof.
  clear. destruct x as [f h s m|r f m out]; [|reflexivity]. cbn [andthen]. destruct (k1 f h s) as [f1 h1 s1 m1|r1 f1 m1 o1]; cbn [show andthen].
  - destruct (k2 f1 h1 s1); cbn [show]; rewrite app_assoc; reflexivity.
  - reflexivity.
Qed.
Lemma andthen_ext x k1 k2 : (forall f h s, k1 f h s = k2 f h s) -> andthen x k1 = andthen x k2.
Proof. clear. intros H. destruct x; cbn [andthen]; [rewrite H|]; reflexivity. Qed.

Lemma change_splits r g o f h : exists k, cmd_pfk_change L U r g o f h = andthen (pfk_opened L U r g o f h) k.
Proof.
  clear strong. eexists. unfold cmd_pfk_change, pfk_opened.
  destruct (new_station U h [WithPersistence (po_file o); WithInteractive true]) as [s h1].
  rewrite andthen_assoc. apply andthen_ext. intros f2 h2 s2.
  rewrite andthen_assoc. apply andthen_ext. intros f3 h3 s3.
  rewrite andthen_assoc. apply andthen_ext. intros f4 h4 s4. reflexivity.
Qed.

Lemma prints_random r g o f h x : pfk_printed L U r g o f h = [x] ->
  po_how o = ByRandom /\ po_agree o = Some true /\ exists t', generate_pfk (r_tape r) = Ok (x, t').
Proof.
  clear strong. unfold pfk_printed. destruct (pfk_opened L U r g o f h) as [f1 h1 s1 m1|]; [|discriminate].
  destruct (po_how o); try discriminate. destruct (po_agree o) as [[|]|]; try discriminate.
  destruct (generate_pfk (r_tape r)) as [[y t']| | |]; try discriminate.
  destruct (set_pfk_from_string h1 s1 y) as [[[[]| | |] s2] h2]; try discriminate. intros [=->]. eauto.
Qed.

Lemma random_printed r g o f h f1 h1 s1 m1 key : pfk_opened L U r g o f h = GoOn f1 h1 s1 m1 ->
  po_how o = ByRandom -> po_agree o = Some true -> len key = 32 ->
  (exists words rest, r_tape r = words ++ rest /\ key = map (fun w => w mod 256) words) ->
  exists x, pfk_printed L U r g o f h = [x] /\ hex_text key x.
Proof.
  clear strong. intros E H A LK (words & rest & ET & EK). unfold pfk_printed. rewrite E, H, A.
  assert (length words = 32%nat) as LW by (subst key; unfold len in LK; rewrite map_length in LK; lia).
  destruct (generate_pfk (r_tape r)) as [[x t']| | |] eqn:G.
  - destruct (generated_fresh (r_tape r) x t' (or_introl G)) as (draws & ED & LD & HX).
    assert (draws = words) as ->.
    { rewrite ET in ED. apply (f_equal (firstn 32)) in ED. rewrite !firstn_app, LW, LD in ED.
      rewrite Nat.sub_diag, !firstn_O, !app_nil_r in ED.
      rewrite !firstn_all2 in ED by lia. congruence. }
    rewrite <- EK in HX. exists x. split; [|exact HX]. unfold set_pfk_from_string.
    rewrite (hex_text_decode _ _ HX), LK. reflexivity.
  - unfold generate_pfk, read_bytes in G. destruct (Nat.leb 32 (length (r_tape r))) eqn:T; discriminate.
  - unfold generate_pfk, read_bytes in G. destruct (Nat.leb 32 (length (r_tape r))) eqn:T; [discriminate|].
    apply Nat.leb_gt in T. rewrite ET, app_length in T. lia.
  - unfold generate_pfk, read_bytes in G. destruct (Nat.leb 32 (length (r_tape r))) eqn:T; discriminate.
Qed.

Lemma not_random_silent r g o f h : po_how o <> ByRandom -> pfk_printed L U r g o f h = [].
Proof.
  clear strong. intros N. unfold pfk_printed. destruct (pfk_opened L U r g o f h); [|reflexivity].
  destruct (po_how o); try contradiction; reflexivity.
Qed.
Lemma declined_silent r g o f h : po_agree o <> Some true -> pfk_printed L U r g o f h = [].
Proof.
  clear strong. intros N. unfold pfk_printed. destruct (pfk_opened L U r g o f h); [|reflexivity].
  destruct (po_how o); try reflexivity. destruct (po_agree o) as [[|]|]; try reflexivity. congruence.
Qed.

Definition typed_in (l : typed) : option (list Z) :=
  match ask_and_confirm strong l with (Ok w, _) => Some w | _ => None end.
Lemma typed_in_chosen l w : typed_in l = Some w <-> exists rest, chosen (fun w => strong w = true) l w rest.
Proof.
  unfold typed_in. split.
  - destruct (ask_and_confirm strong l) as [[v| | |] rest] eqn:E; try discriminate. intros [=->].
    exists rest. apply confirm_lemma, E.
  - intros (rest & C). apply confirm_lemma in C. rewrite C. reflexivity.
Qed.

(** The options of pfk --change, for each way to give the key. *)
Lemma way q how : chosen_way q = Some how ->
  how = (if q_random q then ByRandom else
         match q_new q, q_newpfk q with Some w, _ => ByPassword w | None, Some x => ByHex x | None, None => ByPrompt end) /\
  (q_random q = true -> q_new q = None) /\ (q_newpfk q <> None -> q_new q = None).
Proof.
  unfold chosen_way. destruct (q_random q), (q_new q) as [w|], (q_newpfk q) as [x|]; cbn [andb]; try discriminate;
    intros [=<-]; (split; [reflexivity|split; congruence]).
Qed.
Lemma no_way q : chosen_way q = None <-> q_new q <> None /\ (q_random q = true \/ q_newpfk q <> None).
Proof.
  unfold chosen_way. destruct (q_random q), (q_new q) as [w|], (q_newpfk q) as [x|]; cbn [andb];
    (split; [intros H|intros (A & B)]); try discriminate; try reflexivity; try contradiction.
  - split; [discriminate|left; reflexivity].
  - split; [discriminate|left; reflexivity].
  - split; [discriminate|right; discriminate].
  - destruct B as [B|B]; [discriminate|contradiction].
Qed.

Lemma change_lemma r l g q f file p key i : lib_ok L -> store_at L (r_env r 0) file f p key i -> disk_ok (r_env r 1) ->
  q_genpfk q = false -> q_gensalt q = false -> q_change q = Some file ->
  let '(x, f', out) := cmd_pfk L U strong r l g q f in
  (x <> Ok tt /\ same_files f f' /\
     ~ (old_key L (r_env r 0) g (opens_with file q) key /\ can_read (r_env r 0) /\ can_write (r_env r 1) /\ goes_ahead q /\
        exists key' out', asked_for L strong (r_tape r) l g file q key' out')) \/
  (x = Ok tt /\ same_files f f' /\ out = [] /\ q_agree q = Some false /\ ~ goes_ahead q) \/
  (x = Ok tt /\ old_key L (r_env r 0) g (opens_with file q) key /\ goes_ahead q /\ same_other_files p f f' /\
     exists key', asked_for L strong (r_tape r) l g file q key' out /\ len key' = 32 /\ stored L f' p key' i).
Proof.
  intros HL SA D G1 G2 C. unfold cmd_pfk. rewrite G1, G2, C. cbn [andb]. fold (typed_in l).
  set (r' := answered r (typed_in l)).
  assert (r_env r' 0 = r_env r 0) as E0 by reflexivity.
  assert (disk_ok (r_env r' 1)) as D' by exact D.
  assert (can_write (r_env r' 1) <-> can_write (r_env r 1)) as W' by (split; intros X; exact X).
  assert (r_tape r' = r_tape r) as T' by reflexivity.
  assert (e_password (r_env r' 1) = typed_in l) as P' by reflexivity.
  assert (store_at L (r_env r' 0) file f p key i) as SA' by exact SA. clearbody r'.
  destruct (chosen_way q) as [how|] eqn:CW.
  2:{ apply no_way in CW. destruct CW as (N1 & N2).
      assert (forall key' out', ~ asked_for L strong (r_tape r) l g file q key' out') as NA.
      { intros key' out' (salt & _ & X). destruct N2 as [N2|N2].
        - rewrite N2 in X. destruct X as (X & _). contradiction.
        - destruct (q_random q); [destruct X as (X & _); contradiction|]. destruct X as (_ & X).
          destruct (q_new q); [|contradiction]. destruct (q_newpfk q); [exact X|contradiction]. }
      set (o := mkP file (q_old q) (q_newsalt q) ByPrompt (q_agree q)).
      destruct (opened_spec r' g o f [] p key i HL SA') as [(e & N & -> & _)|(h' & s' & ->)]; cbn [Go End]; left.
      - split; [exact N|]. split; [intros z; reflexivity|]. intros (_ & _ & _ & _ & key' & out' & X). exact (NA _ _ X).
      - split; [discriminate|]. split; [intros z; reflexivity|]. intros (_ & _ & _ & _ & key' & out' & X). exact (NA _ _ X). }
  destruct (way q how CW) as (HOW & RN & PN).
  set (o := mkP file (q_old q) (q_newsalt q) how (q_agree q)).
  assert (old_key L (r_env r' 0) g o key <-> old_key L (r_env r 0) g (opens_with file q) key) as OK.
  { rewrite E0. split; intros X; exact X. }
  assert (agreed o <-> goes_ahead q) as AG.
  { unfold agreed, goes_ahead, o. cbn [po_how po_agree]. rewrite HOW. destruct (q_random q), (q_new q), (q_newpfk q);
      (split; [intros [X|X]|intros [X|(X & Y & Z)]]); try discriminate; auto. }
  assert (forall key' out', asked_for L strong (r_tape r) l g file q key' out' -> new_key_given L r' g o key') as AN.
  { intros key' out' (salt & NS & X). exists salt. split; [exact NS|]. unfold o. cbn [po_how]. rewrite HOW, T'.
    destruct (q_random q).
    - destruct X as (_ & x & words & rest & _ & _ & X1 & X2 & X3). split; [exact X1|]. exists words, rest. split; [exact X2|exact X3].
    - destruct X as (_ & X). destruct (q_new q) as [w|], (q_newpfk q) as [y|].
      + destruct X.
      + exact X.
      + exact X.
      + destruct X as (w & rest & X1 & X2). exists w. rewrite P'. split; [apply typed_in_chosen; exists rest; exact X1|exact X2]. }
  assert (forall key' out', new_key_given L r' g o key' ->
     (if q_random q then exists x, out' = [x] /\ hex_text key' x else out' = []) ->
     asked_for L strong (r_tape r) l g file q key' out') as NA.
  { intros key' out' (salt & NS & X) H. exists salt. split; [exact NS|]. unfold o in X. cbn [po_how] in X. rewrite HOW, T' in X.
    destruct (q_random q).
    - split; [apply RN; reflexivity|]. destruct H as (x & H1 & H2). destruct X as (X1 & words & rest & X2 & X3).
      exists x, words, rest. tauto.
    - split; [exact H|]. destruct (q_new q) as [w|], (q_newpfk q) as [y|].
      + assert (Some w = None) by (apply PN; discriminate). discriminate.
      + exact X.
      + exact X.
      + destruct X as (w & X1 & X2). rewrite P' in X1. apply typed_in_chosen in X1. destruct X1 as (rest & X1).
        exists w, rest. split; [exact X1|exact X2]. }
  pose proof (pfk_lemma L U r' g o f [] p key i HL SA' D') as PL. cbv zeta in PL. destruct PL as (_ & PL).
  assert ((exists e, e <> Ok tt /\ cmd_pfk_change L U r' g o f [] = Over e f [] []) \/
          exists h1 s1, pfk_opened L U r' g o f [] = Go f h1 s1) as OP.
  { destruct (opened_spec r' g o f [] p key i HL SA') as [(e & N & E & _)|(h' & s' & E)]; [left|right; eauto].
    exists e. split; [exact N|]. destruct (change_splits r' g o f []) as (k & ->). rewrite E. reflexivity. }
  assert (let '(x, f', out) := match cmd_pfk_change L U r' g o f [] with
              | GoOn f' _ _ _ => (Ok tt, f', pfk_printed L U r' g o f [])
              | Over e f' _ _ => (e, f', pfk_printed L U r' g o f []) end in
    x = result (cmd_pfk_change L U r' g o f []) /\ f' = files (cmd_pfk_change L U r' g o f []) /\
    out = pfk_printed L U r' g o f []) as PR by (destruct (cmd_pfk_change L U r' g o f []); repeat split).
  destruct (match cmd_pfk_change L U r' g o f [] with
              | GoOn f' _ _ _ => (Ok tt, f', pfk_printed L U r' g o f [])
              | Over e f' _ _ => (e, f', pfk_printed L U r' g o f []) end) as [[x f'] out].
  destruct PR as (-> & -> & ->).
  destruct PL as [(N & SF & NN)|[(R & SF & (DE1 & DE2))|(R & K1 & K2 & K3 & key' & K4 & K5 & K6)]].
  - left. split; [exact N|]. split; [exact SF|]. intros (A1 & A2 & A3 & A4 & key' & out' & A5). apply NN.
    rewrite E0. split; [exact A1|]. split; [exact A2|]. split; [apply AG, A4|].
    split; [exists key'; exact (AN _ _ A5)|apply W', A3].
  - right. left. split; [exact R|]. split; [exact SF|]. split; [apply declined_silent; congruence|]. split; [exact DE2|].
    intros X. apply AG in X. destruct X as [X|X]; congruence.
  - right. right. split; [exact R|]. split; [apply OK, K1|]. split; [apply AG, K2|]. split; [exact K3|].
    exists key'. split; [|split; [exact K5|exact K6]]. apply NA; [exact K4|].
    destruct (q_random q) eqn:QR.
    + destruct OP as [(e & N & E)|(h1 & s1 & E)]; [rewrite E in R; cbn [result] in R; congruence|].
      destruct K4 as (salt & _ & X). unfold o in X. cbn [po_how] in X. rewrite HOW in X. destruct X as (_ & X).
      apply (random_printed r' g o f [] f h1 s1 [] key' E); [exact HOW| |exact K5|exact X].
      destruct K2 as [K2|K2]; [|exact K2]. unfold o in K2. cbn [po_how] in K2. congruence.
    + apply not_random_silent. unfold o. cbn [po_how]. rewrite HOW. destruct (q_new q), (q_newpfk q); discriminate.
Qed.

(** Two ways to give the key. *)
Lemma conflict_lemma r l g q f file p key i : lib_ok L -> store_at L (r_env r 0) file f p key i ->
  q_genpfk q = false -> q_gensalt q = false -> q_change q = Some file ->
  q_new q <> None -> q_random q = true \/ q_newpfk q <> None ->
  let '(x, f', out) := cmd_pfk L U strong r l g q f in x <> Ok tt /\ same_files f f' /\ out = [].
Proof.
  intros HL SA G1 G2 C N1 N2. unfold cmd_pfk. rewrite G1, G2, C. cbn [andb]. fold (typed_in l).
  rewrite (proj2 (no_way q) (conj N1 N2)).
  set (o := mkP file (q_old q) (q_newsalt q) ByPrompt (q_agree q)).
  destruct (opened_spec (answered r (typed_in l)) g o f [] p key i HL SA) as [(e & N & -> & _)|(h' & s' & ->)]; cbn [Go End].
  - split; [exact N|]. split; [intros z|]; reflexivity.
  - split; [discriminate|]. split; [intros z|]; reflexivity.
Qed.

(** Without --change. *)
Lemma no_change_lemma r l g q f : q_change q = None \/ q_genpfk q = true \/ q_gensalt q = true ->
  let '(x, f', out) := cmd_pfk L U strong r l g q f in f' = f.
Proof.
  intros H. unfold cmd_pfk. destruct (q_genpfk q), (q_gensalt q); cbn [andb]; try reflexivity.
  - destruct (cmd_gen_pfk L U strong l (r_tape r) g (q_newsalt q) (q_random q)); reflexivity.
  - destruct (generate_salt (r_tape r)) as [[x t']| | |]; reflexivity.
  - destruct H as [->|[H|H]]; [reflexivity|discriminate|discriminate].
Qed.
Lemma gen_salt_lemma r l g q f : q_genpfk q = false -> q_gensalt q = true ->
  let '(x, f', out) := cmd_pfk L U strong r l g q f in
  (x = Panic /\ out = [] /\ (length (r_tape r) < 32)%nat) \/
  (x = Ok tt /\ exists y, out = [y] /\ exists words rest, r_tape r = words ++ rest /\ length words = 32%nat /\
     forall p w, salt_given (mkG (Some y) p w) (map (fun w => w mod 256) words)).
Proof.
  intros G1 G2. unfold cmd_pfk. rewrite G1, G2. cbn [andb].
  destruct (generate_salt (r_tape r)) as [[x t']| | |] eqn:G.
  - right. split; [reflexivity|]. exists x. split; [reflexivity|].
    destruct (generated_fresh (r_tape r) x t' (or_intror G)) as (draws & ED & LD & HX).
    exists draws, t'. split; [exact ED|]. split; [exact LD|]. intros p w. cbn [salt_given g_salt].
    split; [exact HX|]. unfold len. rewrite map_length. lia.
  - unfold generate_salt, read_bytes in G. destruct (Nat.leb 32 (length (r_tape r))) eqn:T; discriminate.
  - left. split; [reflexivity|]. split; [reflexivity|].
    unfold generate_salt, read_bytes in G. destruct (Nat.leb 32 (length (r_tape r))) eqn:T; [discriminate|].
    apply Nat.leb_gt in T. exact T.
  - unfold generate_salt, read_bytes in G. destruct (Nat.leb 32 (length (r_tape r))) eqn:T; discriminate.
Qed.
Lemma both_lemma r l g q f : q_genpfk q = true -> q_gensalt q = true ->
  exists e, cmd_pfk L U strong r l g q f = (Err e, f, []).
Proof. intros A B. unfold cmd_pfk. rewrite A, B. eexists. reflexivity. Qed.
Lemma gen_pfk_same r l g q f : q_genpfk q = true -> q_gensalt q = false ->
  let '(x, f', out) := cmd_pfk L U strong r l g q f in
  (exists y, x = Ok tt /\ out = [y] /\ cmd_gen_pfk L U strong l (r_tape r) g (q_newsalt q) (q_random q) = Ok y) \/
  (x <> Ok tt /\ out = []).
Proof.
  intros A B. unfold cmd_pfk. rewrite A, B. cbn [andb].
  destruct (cmd_gen_pfk L U strong l (r_tape r) g (q_newsalt q) (q_random q)) as [y| | |]; [left; eauto|right|right|right];
    (split; [discriminate|reflexivity]).
Qed.
Lemma help_lemma r l g q f : q_genpfk q = false -> q_gensalt q = false -> q_change q = None ->
  cmd_pfk L U strong r l g q f = (Ok tt, f, []).
Proof. intros A B C. unfold cmd_pfk. rewrite A, B, C. reflexivity. Qed.
Lemma typed_lemma r l g q f file p key i : lib_ok L -> store_at L (r_env r 0) file f p key i ->
  disk_ok (r_env r 1) -> q_genpfk q = false -> q_gensalt q = false -> q_change q = Some file ->
  q_random q = false -> q_new q = None -> q_newpfk q = None ->
  let '(x, f', out) := cmd_pfk L U strong r l g q f in
  x = Ok tt -> exists w salt, strong w = true /\ In (Some w) l /\ new_salt g (opens_with file q) salt /\
    stored L f' p (kdf L w salt) i.
Proof.
  intros HL SA D G1 G2 C Q1 Q2 Q3.
  pose proof (change_lemma r l g q f file p key i HL SA D G1 G2 C) as H.
  destruct (cmd_pfk L U strong r l g q f) as [[x f'] out]. intros ->.
  destruct H as [(H & _)|[(_ & _ & _ & _ & H)|(_ & _ & _ & _ & key' & (salt & A1 & A2) & _ & B)]].
  - congruence.
  - exfalso. apply H. right. auto.
  - rewrite Q1, Q2, Q3 in A2. destruct A2 as (_ & w & rest & (a & _ & A3 & A4) & ->). exists w, salt.
    split; [exact A3|]. split; [rewrite A4; apply in_or_app; right; left; reflexivity|]. split; [exact A1|exact B].
Qed.
End Pfk.
