(** Proofs for C141. *)
From Verif Require Import Base Spec Spec_Lookup Model_Unicode Model_Crand Model_Functions Model_Types Model_Cipher
  Proofs_Functions Proofs_Keys Proofs_Cipher Spec_Body Model_Print Model_Body Proofs_Body.

Lemma valid_character : forall c, valid_rune c = true <-> character c.
Proof. intros c. unfold valid_rune, character. lia. Qed.

Section S.
Context (U : Uni) (HU : uni_ok U) (HF : u_isspace U 65533 = false).


Definition gs1 (c : Z) : Z := if valid_rune c then c else 65533.
Lemma go_string_map : forall s, go_string s = map gs1 s.
Proof. reflexivity. Qed.

Lemma blank_space : forall c, is_space U (gs1 c) = true <-> blank U c.
Proof.
  intros c. unfold blank. pose proof (valid_character c) as VC. unfold gs1. destruct (valid_rune c) eqn:V.
  - assert (CH : character c) by (apply VC; reflexivity). unfold is_space, in_latin1.
    destruct ((0 <=? c) && (c <=? 255)) eqn:L.
    + unfold white. cbn [In]. split.
      * intros H. left. lia.
      * intros [H|H]; lia.
    + assert (255 < c) by (unfold character in CH; lia).
      destruct ((c =? 305) || (c =? 383)) eqn:Q.
      * split; [discriminate|]. intros [H1|H1]; [unfold white in H1; cbn [In] in H1; lia|lia].
      * split.
        -- intros H1. right. split; [exact CH|]. split; [assumption|]. split; [lia|]. split; [lia|exact H1].
        -- intros [H1|(_ & _ & _ & _ & H1)]; [unfold white in H1; cbn [In] in H1; lia|exact H1].
  - split.
    + intros H. change (is_space U 65533) with (u_isspace U 65533) in H. congruence.
    + intros [H|(H & _)].
      * exfalso. unfold white in H. cbn [In] in H. unfold valid_rune in V. lia.
      * apply VC in H. discriminate.
Qed.

Lemma stands_upper : forall c u, is_letter u -> (to_upper U (gs1 c) = u <-> stands_for c u).
Proof.
  intros c u Lu. unfold is_letter in Lu. unfold stands_for. pose proof (valid_character c) as VC. unfold gs1.
  destruct (valid_rune c) eqn:V.
  - assert (CH : character c) by (apply VC; reflexivity). unfold to_upper.
    destruct (in_latin1 c) eqn:L; unfold in_latin1 in L.
    + destruct ((97 <=? c) && (c <=? 122)) eqn:A; [lia|]. destruct (c =? 181) eqn:B; [lia|].
      destruct ((224 <=? c) && (c <=? 254) && negb (c =? 247)) eqn:D; [lia|]. destruct (c =? 255) eqn:F; lia.
    + destruct (c =? 305) eqn:A; [lia|]. destruct (c =? 383) eqn:B; [lia|].
      assert (N : in_latin1 (u_upper U c) = false) by (apply HU; [exact L|lia|lia]). unfold in_latin1 in N. lia.
  - assert (N : in_latin1 (u_upper U 65533) = false) by (apply HU; [reflexivity|lia|lia]).
    change (to_upper U 65533) with (u_upper U 65533). unfold in_latin1 in N. unfold valid_rune in V. lia.
Qed.

Lemma stands_not_blank : forall c u, is_letter u -> stands_for c u -> is_space U (gs1 c) = false.
Proof.
  intros c u Lu H. destruct (is_space U (gs1 c)) eqn:E; [|reflexivity]. exfalso. apply blank_space in E. revert E.
  unfold is_letter in Lu. unfold stands_for in H. unfold blank, white. cbn [In]. lia.
Qed.

Lemma map_split : forall (f : Z -> Z) s a b, map f s = a ++ b -> exists x y, s = x ++ y /\ map f x = a /\ map f y = b.
Proof.
  intros f s a b E. apply map_eq_app in E. destruct E as (x & y & A & B & C). exists x, y. repeat split; assumption.
Qed.

Lemma written_query : forall id q, letters id -> (key_query U q = id <-> written U id q).
Proof.
  intros id q L. unfold key_query. split.
  - intros E. destruct (trim_split U (go_string q)) as (w1 & w2 & T1 & T2 & T3 & _).
    rewrite go_string_map in T1 at 1. apply map_split in T1. destruct T1 as (a & y & -> & Ea & T1).
    apply map_split in T1. destruct T1 as (s & b & -> & Es & Eb).
    exists a, s, b. split; [reflexivity|].
    assert (BL : forall x w, map gs1 x = w -> Forall (fun c => is_space U c = true) w -> Forall (blank U) x).
    { intros x w <- F. rewrite Forall_map in F. eapply Forall_impl; [|exact F]. intros c C. apply blank_space. exact C. }
    split; [apply (BL a w1 Ea T2)|]. split; [apply (BL b w2 Eb T3)|].
    unfold str_upper in E. rewrite <- Es, map_map in E. rewrite <- E in L |- *. clear - L HU HF.
    unfold letters in L. induction s as [|c s IH]; [constructor|]. cbn [map] in *. inversion L as [|? ? C L']; subst.
    constructor; [apply stands_upper; [exact C|reflexivity]|apply IH; exact L'].
  - intros (a & s & b & -> & A & B & S2).
    assert (SP : forall x, Forall (blank U) x -> Forall (fun c => is_space U c = true) (map gs1 x)).
    { intros x F. rewrite Forall_map. eapply Forall_impl; [|exact F]. intros c C. apply blank_space. exact C. }
    rewrite go_string_map, !map_app.
    assert (NS : Forall (fun c => is_space U c = false) (map gs1 s) /\ str_upper U (map gs1 s) = id).
    { clear - S2 L HU HF. unfold letters in L. induction S2 as [|c u s id H S2 IH]; [split; constructor|].
      inversion L as [|? ? C L']; subst. destruct (IH L') as (I1 & I2). cbn [map]. split.
      - constructor; [apply (stands_not_blank c u C H)|exact I1].
      - cbn [str_upper map]. rewrite (proj2 (stands_upper c u C) H). f_equal. exact I2. }
    destruct NS as (NS & UP). rewrite <- UP. f_equal. apply SP in A. apply SP in B.
    unfold trim_space. rewrite drop_while_all by exact A. destruct (map gs1 s) as [|c z] eqn:Q.
    + cbn [app]. rewrite <- (app_nil_r (map gs1 b)), drop_while_all by exact B. reflexivity.
    + replace (drop_while (is_space U) ((c :: z) ++ map gs1 b)) with ((c :: z) ++ map gs1 b).
      2: { cbn [app drop_while]. inversion NS as [|? ? Q1 _]; subst. rewrite Q1. reflexivity. }
      rewrite rev_app_distr, drop_while_all by (apply Forall_rev; exact B).
      rewrite drop_while_none by (apply Forall_rev; exact NS). apply rev_involutive.
Qed.

Lemma found_lemma : forall gs ks q j, store_ok gs ks ->
  (get_key U q ks = Some j <-> exists k, nth_error ks j = Some k /\ written U (kid k) q).
Proof.
  intros gs ks q j Hs. split.
  - intros G. unfold get_key in G. apply get_key_loop_some in G. destruct G as (_ & k & N & E).
    rewrite Nat.sub_0_r in N. exists k. split; [exact N|].
    pose proof (proj2 Hs k (nth_error_In _ _ N)) as (L & _). rewrite go_string_letters in E by exact L.
    apply written_query; assumption.
  - intros (k & N & W). pose proof (proj2 Hs k (nth_error_In _ _ N)) as (L & _).
    apply written_query in W; [|exact L].
    pose proof (get_key_found U gs ks j k Hs N) as G. unfold get_key in *. rewrite key_query_letters in G by exact L. rewrite W. exact G.
Qed.

Lemma nothing_lemma : forall gs ks q, store_ok gs ks -> 0 < gs ->
  Forall (blank U) q \/ (exists c, In c q /\ ~ blank U c /\ forall u, is_letter u -> ~ stands_for c u) ->
  get_key U q ks = None.
Proof.
  intros gs ks q Hs Hg H. destruct (get_key U q ks) as [j|] eqn:G; [|reflexivity]. exfalso.
  apply (found_lemma gs ks q j Hs) in G. destruct G as (k & N & (a & s & b & -> & A & B & S2)).
  pose proof (proj2 Hs k (nth_error_In _ _ N)) as (L & N2 & _).
  destruct H as [H|(c & I & NB & NS)].
  - apply Forall_app in H. destruct H as (_ & H). apply Forall_app in H. destruct H as (H & _).
    destruct S2 as [|c u s id C S2]; [cbn in N2; lia|]. unfold letters in L. inversion L as [|? ? Lu _]; subst. inversion H as [|? ? BC _]; subst.
    apply blank_space in BC. rewrite (stands_not_blank c u Lu C) in BC. discriminate.
  - rewrite Forall_forall in A, B. apply in_app_iff in I. destruct I as [I|I]; [exact (NB (A c I))|].
    apply in_app_iff in I. destruct I as [I|I]; [|exact (NB (B c I))].
    clear - I S2 L NS. unfold letters in L. induction S2 as [|x u s id X S2 IH]; [destruct I|]. inversion L as [|? ? Lu L']; subst.
    destruct I as [->|I]; [exact (NS u Lu X)|]. apply IH; assumption.
Qed.
Lemma mark_lemma : forall gs ks q b, store_ok gs ks ->
  forall ks' r, mark_key_used U q b ks = (ks', r) ->
  (r = Ok tt <-> exists k, In k ks /\ written U (kid k) q) /\
  forall j, (exists k, nth_error ks j = Some k /\ written U (kid k) q /\ nth_error ks' j = Some (set_used k b)) \/
    (nth_error ks' j = nth_error ks j /\ forall k, nth_error ks j = Some k -> ~ written U (kid k) q).
Proof.
  intros gs ks q b Hs ks' r H. pose proof (fun j => found_lemma gs ks q j Hs) as F. unfold get_key in F. unfold mark_key_used in H.
  destruct (get_key_loop (key_query U q) ks 0) as [i|] eqn:G.
  - destruct (proj1 (F i) eq_refl) as (k & N & W). assert (ks' = mark ks i b /\ r = Ok tt) as (-> & ->) by (split; congruence).
    split; [split; [intros _; exists k; split; [apply (nth_error_In _ _ N)|exact W]|reflexivity]|].
    intros j. destruct (Nat.eq_dec i j) as [<-|NE].
    + left. exists k. split; [exact N|]. split; [exact W|]. rewrite nth_error_mark, Nat.eqb_refl, N. reflexivity.
    + right. split.
      * rewrite nth_error_mark. replace (Nat.eqb i j) with false by (symmetry; apply Nat.eqb_neq; congruence). destruct (nth_error ks j); reflexivity.
      * intros k2 N2 W2. assert (Some i = Some j) by (apply F; exists k2; split; assumption). congruence.
  - assert (ks' = ks /\ r = Err ErrKeyNotFound) as (-> & ->) by (split; congruence). split.
    + split; [discriminate|]. intros (k & I & W). apply In_nth_error in I. destruct I as (j & N).
      assert (None = Some j) by (apply F; exists k; split; assumption). discriminate.
    + intros j. right. split; [reflexivity|]. intros k N W.
      assert (None = Some j) by (apply F; exists k; split; assumption). discriminate.
Qed.
End S.

Lemma shown_lemma : forall s, Forall2 shown_as s (go_string s).
Proof.
  induction s as [|c s IH]; [constructor|]. cbn [go_string map]. constructor; [|exact IH].
  pose proof (valid_character c) as V. unfold shown_as. destruct (valid_rune c).
  - left. split; [apply V; reflexivity|reflexivity].
  - right. split; [|reflexivity]. intros H. apply V in H. discriminate.
Qed.
Lemma text_lemma : forall U dtg wrap unbreak lb head gs m, 0 < gs -> mcipher m = [] -> wrap [] = [] ->
  exists text, Forall2 shown_as (mplain m) text /\
    message_string U dtg wrap unbreak lb head gs m = head m ++ part lb TEXT (wrap (unbreak text)).
Proof.
  intros U dtg wrap unbreak lb head gs m Hg N W. exists (go_string (mplain m)). split; [apply shown_lemma|].
  apply unsent_lemma; assumption.
Qed.
