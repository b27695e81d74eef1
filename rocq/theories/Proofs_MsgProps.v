(** Lemmas behind the properties of messages.go. *)
From Coq Require Import Permutation.
From Verif Require Import Base Spec Model_Unicode Model_Crand Model_Functions Model_Types Model_Codec Model_Cipher
  Model_Keys Model_Regex Model_Messages Proofs_Functions Proofs_Crand Proofs_Keys Proofs_Encipher
  Proofs_Decipher Proofs_Read Proofs_Cipher Proofs_Cipher2 Proofs_KeyOps Proofs_Regex Proofs_Radiogram
  Spec_Messages Proofs_Messages.

Section WithUnicode.
Context (U : Uni).
Notation up := (to_upper U).

Lemma try_messages : forall i m d t i' m' r t', mid m <> [] -> try_decipher U i m d t = (i', m', r, t') ->
  i_messages i' = i_messages i /\ mid m' = mid m.
Proof.
  intros i m d t i' m' r t' Hm H. unfold try_decipher in H. rewrite (ensure_id_has i m t Hm) in H.
  destruct (0 <? len (mkeyid m)); [inversion H; subst; auto|].
  destruct (filter_letters U (mplain m)); [|inversion H; subst; auto].
  destruct (len l <? i_groupsize i * 2); [inversion H; subst; auto|].
  destruct (i_groupsize i <? 0); [inversion H; subst; auto|].
  destruct (get_key U _ (i_keys i)) as [kp|]; [|inversion H; subst; auto].
  destruct (nth_error (i_keys i) kp) as [k|]; [|inversion H; subst; auto].
  destruct d; [inversion H; subst; auto|].
  destruct (decipher U i _ t) as [[[i2 m2] r2] t2] eqn:Dk.
  destruct ((fun H => decipher_total U _ _ _ _ _ _ _ H Dk) Hm) as (_ & _ & (p & Ep)).
  destruct ((fun H => decipher_frame U _ _ _ _ _ _ _ H Dk) Hm) as (F & _).
  assert (X : i_messages i2 = i_messages i) by (rewrite F; reflexivity).
  assert (Y : mid m2 = mid m) by (rewrite Ep; reflexivity). clear Ep F.
  destruct r2; try (destruct (wipe_value _ t2) as [kid' t3]); inversion H; subst; auto.
Qed.

Section WithLibraries.
Context (lb : list rune -> list rune) (dp : list rune -> option Z).
Notation parse := (parse_radiogram U lb dp).
Notation ntm := (new_text_message U lb dp).

(** What NewTextMessage does to the messages, whatever the store. *)
Lemma ntm_messages : forall i args now t i' r, ntm i args now t = (i', r) ->
  (exists m t', r = Ok (m, t') /\ i_messages i' = i_messages i ++ [m] /\
     length (mid m) = 4%nat /\ Forall alnum (mid m) /\ ~ In (mid m) (map mid (i_messages i))) \/
  (i_messages i' = i_messages i /\ forall m t', r <> Ok (m, t')).
Proof.
  intros i args now t i' r H. unfold new_text_message in H.
  destruct args as [|raw rest]; [injection H as <- <-; right; split; [reflexivity|discriminate]|].
  destruct (parse i raw now t) as [[p t1]|e| |] eqn:P;
    [|injection H as <- <-; right; split; [reflexivity|discriminate]
     |injection H as <- <-; right; split; [reflexivity|discriminate]
     |injection H as <- <-; right; split; [reflexivity|discriminate]].
  pose proof (parse_mid U lb dp _ _ _ _ _ _ P) as Pm. pose proof (parse_id U lb dp _ _ _ _ _ _ P) as Pi.
  destruct (is_my_call U i p) eqn:My.
  - assert (Go : forall m1, mid m1 = mid p ->
      (match encipher U i m1 t1 with
       | (i2, m2, Ok _, t2) => (store_message i2 m2, Ok (m2, t2))
       | (i2, _, Err e, _) => (i2, Err e)
       | (i2, _, Panic, _) => (i2, Panic)
       | (i2, _, Diverge, _) => (i2, Diverge)
       end) = (i', r) ->
      (exists m t', r = Ok (m, t') /\ i_messages i' = i_messages i ++ [m] /\
         length (mid m) = 4%nat /\ Forall alnum (mid m) /\ ~ In (mid m) (map mid (i_messages i))) \/
      (i_messages i' = i_messages i /\ forall m t', r <> Ok (m, t'))).
    { intros m1 Hm E. destruct (encipher U i m1 t1) as [[[i2 m2] r2] t2] eqn:En.
      assert (Hm0 : mid m1 <> []) by congruence.
      destruct (encipher_frame U i m1 t1 i2 m2 r2 t2 Hm0 En) as (F1 & (k & c & F)).
      assert (Mi : i_messages i2 = i_messages i) by (rewrite F1; reflexivity).
      assert (X : mid m2 = mid p) by (rewrite F; exact Hm).
      destruct r2; injection E as <- <-; [left|right; split; [exact Mi|discriminate]..].
      exists m2, t2. split; [reflexivity|]. split; [unfold store_message; cbn [i_messages set_messages]; rewrite Mi; reflexivity|].
      rewrite X. exact Pi. }
    destruct rest as [|a rest]; [apply (Go p eq_refl H)|].
    destruct rest as [|b rest]; [injection H as <- <-; right; split; [reflexivity|discriminate]|].
    cbv zeta in H. destruct (negb (len (str_upper U (trim_space U b)) =? i_groupsize i));
      [injection H as <- <-; right; split; [reflexivity|discriminate]|].
    apply (Go (set_mkeyid p (str_upper U (trim_space U b))) eq_refl H).
  - cbv zeta in H. set (m1 := if len (mrecipients p) =? 0 then _ else _) in H.
    assert (E1 : mid m1 = mid p) by (unfold m1; destruct (len (mrecipients p) =? 0); reflexivity).
    assert (Hm1 : mid m1 <> []) by congruence.
    destruct (try_decipher U i m1 false t1) as [[[i2 m2] r2] t2] eqn:T.
    destruct (try_messages _ _ _ _ _ _ _ _ Hm1 T) as (Mi & X).
    assert (Y : i_messages (store_message i2 m2) = i_messages i ++ [m2])
      by (unfold store_message; cbn [i_messages set_messages]; rewrite Mi; reflexivity).
    rewrite <- E1, <- X in Pi.
    destruct r2; injection H as <- <-;
      [left; exists m2, t2; auto|left; exists m2, t2; auto|right; split; [exact Mi|discriminate]..].
Qed.

Lemma c26_lemma : forall i, messages_reached U lb dp i -> NoDup (map mid (i_messages i)).
Proof.
  intros i H. induction H as [i E|i i' H IH E|i args now t H IH|i ids H IH|i ids H IH|i lines H IH].
  - rewrite E. constructor.
  - rewrite E. exact IH.
  - destruct (ntm i args now t) as [i' r] eqn:N. cbn [fst].
    destruct (ntm_messages _ _ _ _ _ _ N) as [(m & t' & _ & E & _ & _ & D)|(E & _)]; rewrite E; [|exact IH].
    rewrite map_app. cbn [map]. apply Permutation_NoDup with (mid m :: map mid (i_messages i)).
    + rewrite <- (app_nil_r (map mid (i_messages i))) at 1. apply Permutation_middle.
    + constructor; [exact D|exact IH].
  - cbn [i_messages set_messages]. apply delete_msg_nodup. exact IH.
  - cbn [i_messages set_messages]. unfold delete_message_by_string. apply delete_msg_nodup. exact IH.
  - cbn [i_messages set_messages]. apply delete_summary_nodup. exact IH.
Qed.

(** ** Outgoing messages *)
Hypothesis HU : uni_ok U.

Lemma outgoing_go : forall i p m1 t1 i' m t', 0 < i_groupsize i -> store_ok (i_groupsize i) (i_keys i) ->
  mid m1 = mid p -> mid p <> [] -> mcipher m1 = [] -> mplain m1 = mplain p -> mfrom m1 = mfrom p -> mdtg m1 = mdtg p ->
  mrecipients m1 = mrecipients p -> mradiogram m1 = mradiogram p ->
  (match encipher U i m1 t1 with
   | (i2, m2, Ok _, t2) => (store_message i2 m2, Ok (m2, t2))
   | (i2, _, Err e, _) => (i2, Err e)
   | (i2, _, Panic, _) => (i2, Panic)
   | (i2, _, Diverge, _) => (i2, Diverge)
   end) = (i', Ok (m, t')) ->
  mid m = mid p /\ mfrom m = mfrom p /\ mdtg m = mdtg p /\ mradiogram m = mradiogram p /\
  mrecipients m = mrecipients p /\ mplain m = mplain p /\
  exists j js k, nth_error (i_keys i) j = Some k /\ mkeyid m = kid k /\ kused k = false /\
    (mkeyid m1 <> [] -> mkeyid m1 = kid k) /\
    message (i_groupsize i) (i_keys i) (j :: js) (map canon (mplain p)) (mcipher m).
Proof.
  intros i p m1 t1 i' m t' Hg Hs M1 Pm M2 M3 M4 M5 M6 M7 H.
  destruct (encipher U i m1 t1) as [[[i2 m2] r2] t2] eqn:En. destruct r2 as [[]|e| |]; try discriminate.
  injection H as _ <- _.
  destruct (encipher_message U HU i m1 t1 i2 m2 t2 Hg Hs (or_introl M2) En) as
    (j & js & k & A1 & A2 & A3 & A4 & A5 & A6 & A7 & A8 & A9 & A10 & A11 & A12 & A13 & A14 & A15 & A16 & A17 & A18).
  assert (Hm0 : mid m1 <> []) by congruence.
  split; [rewrite A18; [exact M1|exact Hm0]|]. split; [congruence|]. split; [congruence|]. split; [congruence|].
  split; [congruence|]. split; [congruence|]. exists j, js, k. split; [exact A4|]. split; [exact A5|]. split; [exact A6|].
  split; [|rewrite <- M3; exact A1]. intros Hk. destruct A9 as [(Q & _)|(Q & _)]; [congruence|exact Q].
Qed.

Lemma outgoing_lemma : forall i raw now t p t1 i' m t', 0 < i_groupsize i -> store_ok (i_groupsize i) (i_keys i) ->
  parse i raw now t = Ok (p, t1) -> same_text up (mfrom p) (i_callsign i) ->
  ntm i [raw] now t = (i', Ok (m, t')) ->
  mid m = mid p /\ mfrom m = mfrom p /\ mdtg m = mdtg p /\ mradiogram m = mradiogram p /\
  mrecipients m = mrecipients p /\ mplain m = mplain p /\
  exists j js k, nth_error (i_keys i) j = Some k /\ mkeyid m = kid k /\ kused k = false /\
    message (i_groupsize i) (i_keys i) (j :: js) (map canon (mplain p)) (mcipher m).
Proof.
  intros i raw now t p t1 i' m t' Hg Hs P S H. unfold new_text_message in H. rewrite P in H.
  apply (my_call_spec U) in S. rewrite S in H.
  destruct (parse_ok U lb dp _ _ _ _ _ _ P) as (? & ? & ? & ? & _ & _ & _ & _ & _ & Pk & Pc & _).
  destruct (outgoing_go i p p t1 i' m t' Hg Hs eq_refl (parse_mid U lb dp _ _ _ _ _ _ P) Pc
    eq_refl eq_refl eq_refl eq_refl eq_refl H) as (A & B & C & D & E & F & j & js & k & G1 & G2 & G3 & _ & G4).
  repeat (split; [assumption|]). exists j, js, k. auto.
Qed.

(** ** C41 *)
Lemma two_arguments_lemma : forall i raw x now t p t1, parse i raw now t = Ok (p, t1) ->
  same_text up (mfrom p) (i_callsign i) -> ntm i [raw; x] now t = (i, Panic).
Proof.
  intros i raw x now t p t1 P S. unfold new_text_message. rewrite P. apply (my_call_spec U) in S. rewrite S. reflexivity.
Qed.

Lemma query_trim : forall id q, letters id -> query_for id q -> str_upper U (trim_space U q) = id.
Proof.
  intros id q L Q. pose proof (query_ok U id q L Q) as K. unfold key_query in K.
  assert (V : go_string q = q).
  { destruct Q as (a & s & b & -> & Wa & Wb & S).
    assert (W : forall c, white c -> valid_rune c = true) by (intros c Hc; apply (white_space U c Hc)).
    unfold go_string. rewrite <- (map_id (a ++ s ++ b)) at 2. apply map_ext_in. intros c Hc.
    replace (valid_rune c) with true; [reflexivity|]. symmetry.
    rewrite !in_app_iff in Hc. rewrite Forall_forall in Wa, Wb. destruct Hc as [Hc|[Hc|Hc]]; [auto| |auto].
    assert (Z1 : exists u, is_letter u /\ (c = u \/ c = u + 32)).
    { clear -S Hc L. revert L. induction S as [|x y s id Hx S IH]; [destruct Hc|]. intros L. inversion L; subst.
      destruct Hc as [<-|Hc]; [exists y; auto|]. apply IH; assumption. }
    destruct Z1 as (u & Lu & Cu). unfold is_letter in Lu. unfold valid_rune. lia. }
  rewrite V in K. exact K.
Qed.

Lemma three_arguments_lemma : forall i raw x q rest now t p t1 id i' m t',
  0 < i_groupsize i -> store_ok (i_groupsize i) (i_keys i) ->
  parse i raw now t = Ok (p, t1) -> same_text up (mfrom p) (i_callsign i) ->
  letters id -> id <> [] -> query_for id q ->
  ntm i (raw :: x :: q :: rest) now t = (i', Ok (m, t')) ->
  mid m = mid p /\ mfrom m = mfrom p /\ mdtg m = mdtg p /\ mradiogram m = mradiogram p /\
  mrecipients m = mrecipients p /\ mplain m = mplain p /\
  exists j js k, nth_error (i_keys i) j = Some k /\ mkeyid m = kid k /\ kid k = id /\ kused k = false /\
    message (i_groupsize i) (i_keys i) (j :: js) (map canon (mplain p)) (mcipher m).
Proof.
  intros i raw x q rest now t p t1 id i' m t' Hg Hs P S L N Q H. unfold new_text_message in H. rewrite P in H.
  apply (my_call_spec U) in S. rewrite S in H. rewrite (query_trim id q L Q) in H. cbv zeta in H.
  destruct (negb (len id =? i_groupsize i)); [discriminate|].
  destruct (parse_ok U lb dp _ _ _ _ _ _ P) as (? & ? & ? & ? & _ & _ & _ & _ & _ & Pk & Pc & _).
  assert (Pm : mid p <> []) by apply (parse_mid U lb dp _ _ _ _ _ _ P).
  destruct (outgoing_go i p (set_mkeyid p id) t1 i' m t' Hg Hs eq_refl Pm Pc
    eq_refl eq_refl eq_refl eq_refl eq_refl H) as (A & B & C & D & E & F & j & js & k & G1 & G2 & G3 & G5 & G4).
  repeat (split; [assumption|]). exists j, js, k. split; [exact G1|]. split; [exact G2|].
  split; [symmetry; apply G5; exact N|]. auto.
Qed.

(** ** C43 *)
Hypothesis HK : uni_kelvin U.
Lemma to_upper_call : forall d, c_to d = true -> d <> 44 -> d <> 32 ->
  call_char (up d) \/ (up d = 8490 /\ d = 8490) \/ (up d = d /\ In d [9; 10; 12; 13]).
Proof.
  intros d H N1 N2. unfold c_to in H. destruct (c_space d) eqn:S.
  - right. right. split; [apply space_upper; exact S|]. unfold c_space in S. cbn [In]. lia.
  - assert (C : c_call d = true) by (unfold c_call; lia).
    destruct (call_upper U HK d C) as [Q|Q]; [left; exact Q|]. right. left. split; [exact Q|].
    unfold c_call, c_alpha, c_digit in C. unfold to_upper, in_latin1 in Q. clear -C Q. 
    destruct (d =? 8490) eqn:E; [lia|]. exfalso.
    repeat match type of Q with context [if ?b then _ else _] => destruct b eqn:? end; lia.
Qed.

Lemma c43_lemma : forall i raw now t m t', parse i raw now t = Ok (m, t') ->
  exists pre to sep de sp from mid post,
    lb raw = pre ++ to ++ sep ++ de ++ sp ++ from ++ mid ++ mplain m ++ post /\
    same_text up de [68; 69] /\
    mfrom m = map up from /\
    mfrom m <> [] /\ Forall (fun c => call_char c \/ (c = 8490 /\ In c from)) (mfrom m) /\
    Forall (fun r => r <> [] /\ Forall (fun c => call_char c \/ (In c [8490; 9; 10; 12; 13] /\ In c to)) r) (mrecipients m) /\
    mrecipients m = vetted_keepers U [to] /\
    (forall c r, mplain m = c :: r -> is_space U c = false) /\
    (forall c r, mplain m = r ++ [c] -> is_space U c = false /\ c <> 43 /\ c <> 61).
Proof.
  intros i raw now t m t' P. destruct (parse_ok U lb dp _ _ _ _ _ _ P) as (to & from & d & text & S & _ & E1 & E2 & E3 & _).
  destruct (split_shape U HK _ _ _ _ _ S) as
    (pre & g1 & sep & dd & ee & sp & g2 & a & g3 & b & post & A1 & A2 & A3 & A4 & A5 & A6 & A7 & A8 & A9 & A10 & A11 & A12 & A13 & A14 & A15).
  exists pre, g1, sep, [dd; ee], sp, g2, (a ++ g3 ++ b), post. subst to from text.
  split; [exact A1|]. split. { unfold same_text. destruct A4 as [->| ->], A5 as [->| ->]; reflexivity. }
  split; [exact A12|].
  split. { rewrite A12. intros Q. apply map_eq_nil in Q. contradiction. }
  split. { rewrite A12. apply Forall_forall. intros c Hc. apply in_map_iff in Hc. destruct Hc as (d0 & <- & Hd).
    rewrite Forall_forall in A9. specialize (A9 d0 Hd).
    assert (Ct : c_to d0 = true) by (unfold c_to, c_call in *; lia).
    assert (N1 : d0 <> 44 /\ d0 <> 32) by (unfold c_call, c_alpha, c_digit in A9; lia).
    destruct (to_upper_call d0 Ct (proj1 N1) (proj2 N1)) as [Q|[(Q & ->)|(Q & Q2)]]; [left; exact Q| |].
    - right. split; [exact Q|rewrite Q; exact Hd].
    - exfalso. unfold c_call, c_alpha, c_digit in A9. cbn [In] in Q2. lia. }
  split. { rewrite A11. apply Forall_forall. intros v Hv. destruct (vetted_chars U _ _ Hv) as (V1 & V2).
    split; [exact V1|]. apply Forall_forall. intros c Hc. rewrite Forall_forall in V2.
    destruct (V2 c Hc) as (d0 & D1 & D2 & D3 & ->). rewrite Forall_forall in A8.
    destruct (to_upper_call d0 (A8 d0 D1) D2 D3) as [Q|[(Q & ->)|(Q & Q2)]]; [left; exact Q| |].
    - right. rewrite Q. split; [left; reflexivity|exact D1].
    - right. rewrite Q. split; [right; exact Q2|exact D1]. }
  split; [exact A11|]. split; [exact A14|exact A15].
Qed.

Lemma c43_plain_lemma : forall i raw now t m t', parse i raw now t = Ok (m, t') ->
  (forall c, In c (lb raw) -> ~ In c [8490; 9; 10; 12; 13]) ->
  call_sign (mfrom m) /\ Forall call_sign (mrecipients m).
Proof.
  intros i raw now t m t' P N. destruct (c43_lemma _ _ _ _ _ _ P) as
    (pre & to & sep & de & sp & from & mi & post & A1 & A2 & A3 & A4 & A5 & A6 & _).
  assert (N1 : forall c, In c to -> ~ In c [8490; 9; 10; 12; 13]).
  { intros c Hc. apply N. rewrite A1, !in_app_iff. auto. }
  assert (N2 : forall c, In c from -> ~ In c [8490; 9; 10; 12; 13]).
  { intros c Hc. apply N. rewrite A1, !in_app_iff. tauto. }
  split.
  - split; [exact A4|]. rewrite Forall_forall in *. intros c Hc. destruct (A5 c Hc) as [Q|(-> & Q)]; [exact Q|].
    exfalso. apply (N2 _ Q). left. reflexivity.
  - rewrite Forall_forall in *. intros r Hr. destruct (A6 r Hr) as (B1 & B2). split; [exact B1|].
    rewrite Forall_forall in *. intros c Hc. destruct (B2 c Hc) as [Q|(Q1 & Q2)]; [exact Q|].
    exfalso. apply (N1 _ Q2 Q1).
Qed.
End WithLibraries.
End WithUnicode.
