(** Properties C116-C118: the documented forms of radiograms. [lb] is
    blox.ReplaceLineBreaks(_, " "), [dp] parses Date-Time Groups; both are
    arbitrary. *)
From Verif Require Import Base Spec Spec_Forms Model_Unicode Model_Crand Model_Functions Model_Types Model_Cipher
  Model_Messages Proofs_Forms Examples Props_Messages.
From Coq Require Import Ascii String.

(** ** C116 *)
Theorem c116_forms : forall U, uni_kelvin U -> forall lb dp i raw now t to from d f text ending id t1,
  Forall call_sign to -> call_sign from -> from <> [68; 69] -> d = [] \/ dtg_form d -> form_ok f ->
  text_ok U text -> ended text ending -> fits f d text ending ->
  lb raw = header to from d ++ middle f ++ text ++ ending ->
  new_unique_message_id (i_messages i) t = Ok (id, t1) ->
  parse_radiogram U lb dp i raw now t =
    match (match d with [] => Some now | _ => dp d end) with
    | None => Err ErrDTG
    | Some w => Ok (mkMsg id to from w [] text [] [] (lb raw), t1)
    end.
Proof. exact c116_lemma. Qed.
Print Assumptions c116_forms.

(** The six radiograms of the help text and those of the comments meet the
    hypotheses. *)
Fixpoint has_ee (s : list rune) : bool :=
  match s with
  | a :: r => (a =? 61) && (match r with b :: _ => b =? 61 | [] => false end) || has_ee r
  | [] => false
  end.
Lemma has_ee_none : forall s, has_ee s = false -> forall a b, s <> a ++ 61 :: 61 :: b.
Proof.
  intros s H a. revert s H. induction a as [|c a IH]; intros s H b ->; cbn [app has_ee] in H.
  - discriminate.
  - apply orb_false_iff in H. destruct H as (_ & H). exact (IH _ H b eq_refl).
Qed.
Definition is_white (c : rune) : bool := (c =? 9) || (c =? 10) || (c =? 12) || (c =? 13) || (c =? 32).
Definition is_de (s : list rune) : bool :=
  match s with
  | a :: d :: e :: b :: _ => is_white a && ((d =? 68) || (d =? 100)) && ((e =? 69) || (e =? 101)) && is_white b
  | _ => false
  end.
Fixpoint has_de (s : list rune) : bool :=
  match s with
  | a :: r => is_de s || has_de r
  | [] => false
  end.
Lemma has_de_none : forall s, has_de s = false -> ~ de_inside s.
Proof.
  intros s H (a & s1 & d & e & s2 & b & E & W1 & D & Ee & W2). revert s H E.
  induction a as [|c a IH]; intros s H ->; cbn [app has_de] in H; apply orb_false_iff in H; destruct H as (H1 & H).
  - unfold is_de, is_white in H1. unfold white in W1, W2. cbn [In] in W1, W2. lia.
  - exact (IH _ H eq_refl).
Qed.

(** A radiogram of these parts, parsed at time 7, has exactly these parts. *)
Definition parsed_to (s : string) (to : list string) (from d text : string) : Prop :=
  exists id t1, ex_parse (ex_inst []) (str s) 7 ex_tape =
    Ok (mkMsg id (List.map str to) (str from) (match str d with [] => 7 | _ => 1000 end) [] (str text) [] [] (str s), t1).
Definition callb (s : string) : bool :=
  negb (len (str s) =? 0) && forallb (fun c => (65 <=? c) && (c <=? 90) || (48 <=? c) && (c <=? 57) || (c =? 47)) (str s).
Lemma callb_ok : forall s, callb s = true -> call_sign (str s).
Proof.
  intros s H. unfold callb in H. apply andb_true_iff in H. destruct H as (H1 & H2). split.
  - intros E. rewrite E in H1. discriminate.
  - apply Forall_forall. rewrite forallb_forall in H2. intros c C. apply H2 in C.
    unfold call_char, is_letter, digit. lia.
Qed.
Lemma form_case : forall s to from d f text en,
  forallb callb to = true -> callb from = true -> str from <> [68; 69] -> str d = [] \/ dtg_form (str d) -> form_ok f ->
  text_ok uni_id (str text) -> ended (str text) (str en) -> fits f (str d) (str text) (str en) ->
  ex_lb (str s) = str s ->
  str s = (header (List.map str to) (str from) (str d) ++ middle f ++ str text ++ str en)%list ->
  parsed_to s to from d text.
Proof.
  intros s to from d f text en H1 H2 H3 H4 H5 H6 H7 H8 L E. unfold parsed_to, ex_parse.
  assert (N : exists id t1, new_unique_message_id (i_messages (ex_inst [])) ex_tape = Ok (id, t1)).
  { do 2 eexists. vm_compute. reflexivity. }
  destruct N as (id & t1 & N). exists id, t1.
  rewrite (c116_forms uni_id uni_id_kelvin ex_lb ex_dp (ex_inst []) (str s) 7 ex_tape (List.map str to) (str from) (str d)
    f (str text) (str en) id t1).
  - rewrite L. destruct (str d); reflexivity.
  - apply Forall_forall. intros x X. apply in_map_iff in X. destruct X as (y & <- & Y). apply callb_ok.
    rewrite forallb_forall in H1. exact (H1 y Y).
  - apply callb_ok. exact H2.
  - exact H3.
  - exact H4.
  - exact H5.
  - exact H6.
  - exact H7.
  - exact H8.
  - rewrite L. exact E.
  - exact N.
Qed.
Ltac chars := repeat (first [apply Forall_nil | apply Forall_cons]); unfold call_char, is_letter, digit; lia.
Lemma dtg_short : dtg_form (str "012345"%string).
Proof.
  exists (str "012345"%string), [], [], []. split; [reflexivity|]. split; [reflexivity|].
  split; [vm_compute str; chars|]. auto.
Qed.
Lemma dtg_full : dtg_form (str "012345ZDEC22"%string).
Proof.
  exists (str "012345"%string), [90], (str "DEC"%string), (str "22"%string). split; [reflexivity|]. split; [reflexivity|].
  split; [vm_compute str; chars|]. split; [right; exists 90; split; [reflexivity|unfold is_letter; lia]|].
  split; [|right; split; [reflexivity|vm_compute str; chars]].
  right. split; [discriminate|]. vm_compute. tauto.
Qed.
Ltac text_ex :=
  split; [match goal with |- exists c r, ?x = _ /\ _ =>
            let v := eval vm_compute in (hd 0 x) in let w := eval vm_compute in (tl x) in exists v, w end;
          split; vm_compute; reflexivity|];
  split; [match goal with |- exists r c, ?x = _ /\ _ =>
            let v := eval vm_compute in (removelast x) in let w := eval vm_compute in (last x 0) in exists v, w end;
          split; [vm_compute; reflexivity|split; [vm_compute; reflexivity|lia]]
         |vm_compute; lia].
Ltac ended_ex := left; vm_compute; tauto.
Lemma off_last : forall e, sign_off e -> exists r c, e = (r ++ [c])%list /\ In c [75; 107; 8490; 82; 114; 93].
Proof.
  intros e [s k _ K|w k _ K|a r _|w a r _ (_ & K)].
  - exists [s], k. split; [reflexivity|]. unfold a_k in K. cbn [In] in *. tauto.
  - exists (61 :: w)%list, k. split; [reflexivity|]. unfold a_k in K. cbn [In] in *. tauto.
  - exists [91; a; r]%list, 93. split; [reflexivity|]. cbn [In]. tauto.
  - exists (61 :: w ++ [a])%list, r. split; [cbn [app]; rewrite <- app_assoc; reflexivity|]. cbn [In]. lia.
Qed.
Lemma not_ended : forall text l, last text 0 = l -> ~ In l [75; 107; 8490; 82; 114; 93] -> ended text [].
Proof.
  intros text l E N. right. split; [reflexivity|]. intros r e -> H. apply off_last in H. destruct H as (r' & c & -> & C).
  rewrite app_assoc, last_last in E. subst. exact (N C).
Qed.
(** A word that ends in K. *)
Lemma not_ended_k : forall t p l, ~ white p -> p <> 61 -> ~ In l [82; 114; 93] -> ended (t ++ [p; l]) [].
Proof.
  intros t p l W P L. right. split; [reflexivity|]. intros r e E H.
  change [p; l] with ([p] ++ [l])%list in E. rewrite app_assoc in E.
  destruct H as [s k S K|w k S K|a x _|w a x _ (_ & K)].
  - change [s; k] with ([s] ++ [k])%list in E. rewrite app_assoc in E. apply app_inj_tail in E. destruct E as (E & _).
    apply app_inj_tail in E. destruct E as (_ & ->). exact (W S).
  - rewrite app_comm_cons, app_assoc in E. apply app_inj_tail in E. destruct E as (E & _).
    destruct (list_eq_dec Z.eq_dec w []) as [->|NW]; [|destruct (exists_last NW) as (w' & y & ->)].
    + apply app_inj_tail in E. destruct E as (_ & E). exact (P E).
    + rewrite app_comm_cons, app_assoc in E. apply app_inj_tail in E. destruct E as (_ & ->).
      apply Forall_app in S. destruct S as (_ & S). exact (W (Forall_inv S)).
  - change [91; a; x; 93] with ([91; a; x] ++ [93])%list in E. rewrite app_assoc in E. apply app_inj_tail in E.
    destruct E as (_ & ->). apply L. cbn [In]. tauto.
  - change [a; x] with ([a] ++ [x])%list in E. rewrite app_assoc, app_comm_cons, app_assoc in E. apply app_inj_tail in E.
    destruct E as (_ & ->). apply L. cbn [In]. lia.
Qed.
(** Something like [AR]. *)
Lemma not_ended_ar : forall t c d e, c <> 91 -> ended (t ++ [c; d; e; 93]) [].
Proof.
  intros t c d e C. right. split; [reflexivity|]. intros r f E H. apply (f_equal (@rev rune)) in E.
  rewrite !rev_app_distr in E. cbn [rev app] in E.
  destruct H as [s k _ K|w k _ K|a x _|w a x _ (_ & K)]; cbn [rev] in E; try rewrite rev_app_distr in E; cbn [rev app] in E;
    unfold a_k in *; cbn [In] in *; injection E; intros; subst; lia.
Qed.

Example c116_help1 : parsed_to "TO1 TO2 TO3 DE FROM 012345 = Hello, this is the body of the message = K"
  ["TO1"; "TO2"; "TO3"]%string "FROM" "012345" "Hello, this is the body of the message".
Proof.
  apply form_case with (f := ShortForm [] []) (en := " = K"%string); try reflexivity; try discriminate.
  - right. exact dtg_short.
  - repeat split; try constructor; try discriminate; cbn; lia.
  - text_ex.
  - ended_ex.
  - unfold fits. apply has_ee_none. reflexivity.
Qed.
Example c116_help2 : parsed_to "DE FROM This is the shortest form." [] "FROM" "" "This is the shortest form.".
Proof.
  apply form_case with (f := NoForm) (en := ""%string); try reflexivity; try discriminate.
  - left. reflexivity.
  - text_ex.
  - apply not_ended with 46; [reflexivity|cbn; lia].
  - split; [vm_compute; lia|]. split; [apply has_de_none; reflexivity|]. intros _ x r E L D.
    destruct x as [|c x]; [discriminate|]. vm_compute in E. injection E as <- _. inversion D; subst. unfold digit in *. lia.
Qed.
Example c116_help3 : parsed_to "TO DE FROM 012345ZDEC22 COL 3 = ABCDE FGHIJ KLMNO = K" ["TO"%string] "FROM" "012345ZDEC22"
  "ABCDE FGHIJ KLMNO".
Proof.
  apply form_case with (f := ShortForm (str "COL"%string) (str "3"%string)) (en := " = K"%string); try reflexivity; try discriminate.
  - right. exact dtg_full.
  - split; [vm_compute str; chars|]. split; [cbn; lia|]. split; [discriminate|]. split; [vm_compute str; chars|cbn; lia].
  - text_ex.
  - ended_ex.
  - unfold fits. apply has_ee_none. reflexivity.
Qed.
Example c116_help4 : parsed_to "TO DE FROM 012345 == TO2 TO3 == COL 2 = Hello world K" ["TO"%string] "FROM" "012345" "Hello world".
Proof.
  apply form_case with (f := FullForm (str "TO2 TO3"%string) (str "COL "%string) (str "2"%string)) (en := " K"%string);
    try reflexivity; try discriminate.
  - right. exact dtg_short.
  - split; [split; [vm_compute str; chars|vm_compute str; do 2 eexists; split; [reflexivity|lia]]|]. split; [vm_compute str; chars|].
    split; [discriminate|]. split; [vm_compute str; chars|discriminate].
  - text_ex.
  - ended_ex.
Qed.
Example c116_help5 : parsed_to "TO DE FROM 012345 C = This is a broadcast message. +" ["TO"%string] "FROM" "012345"
  "This is a broadcast message.".
Proof.
  apply form_case with (f := ShortForm (str "C"%string) []) (en := " +"%string); try reflexivity; try discriminate.
  - right. exact dtg_short.
  - split; [vm_compute str; chars|]. split; [cbn; lia|]. split; [discriminate|]. split; [constructor|cbn; lia].
  - text_ex.
  - ended_ex.
  - unfold fits. apply has_ee_none. reflexivity.
Qed.
Example c116_help6 : parsed_to "DE FROM 012345 4 = ABCDE FGHIJ KLMNO QRSTU = K" [] "FROM" "012345" "ABCDE FGHIJ KLMNO QRSTU".
Proof.
  apply form_case with (f := ShortForm [] (str "4"%string)) (en := " = K"%string); try reflexivity; try discriminate.
  - right. exact dtg_short.
  - split; [constructor|]. split; [cbn; lia|]. split; [discriminate|]. split; [vm_compute str; chars|cbn; lia].
  - text_ex.
  - ended_ex.
  - unfold fits. apply has_ee_none. reflexivity.
Qed.
Example c116_semi : parsed_to "AA DE BB 012345 == VJ QJ 3 = ABCDE FGHIJ KLMNO [AR]" ["AA"%string] "BB" "012345"
  "ABCDE FGHIJ KLMNO".
Proof.
  apply form_case with (f := SemiForm (str "VJ QJ 3"%string)) (en := " [AR]"%string); try reflexivity; try discriminate.
  - right. exact dtg_short.
  - split; [vm_compute str; chars|vm_compute str; do 2 eexists; split; [reflexivity|lia]].
  - text_ex.
  - ended_ex.
  - unfold fits. apply has_ee_none. reflexivity.
Qed.

(** No sign of ending, but a text that ends much like one. *)
Example c116_like_k : parsed_to "AB DE ZY 012345 = TELL MARK" ["AB"%string] "ZY" "012345" "TELL MARK".
Proof.
  apply form_case with (f := ShortForm [] []) (en := ""%string); try reflexivity; try discriminate.
  - right. exact dtg_short.
  - repeat split; try constructor; try discriminate; cbn; lia.
  - text_ex.
  - apply (not_ended_k (str "TELL MA"%string) 82 75); unfold white; cbn [In]; lia.
  - unfold fits. apply has_ee_none. reflexivity.
Qed.
Example c116_like_ar : parsed_to "AB DE ZY 012345 = SEE {AR]" ["AB"%string] "ZY" "012345" "SEE {AR]".
Proof.
  apply form_case with (f := ShortForm [] []) (en := ""%string); try reflexivity; try discriminate.
  - right. exact dtg_short.
  - repeat split; try constructor; try discriminate; cbn; lia.
  - text_ex.
  - apply (not_ended_ar (str "SEE "%string) 123 65 82). lia.
  - unfold fits. apply has_ee_none. reflexivity.
Qed.

(** ** C117: the shortest form *)
Theorem c117_shortest : forall U, uni_kelvin U -> forall lb dp i raw now t to from text ending id t1,
  Forall call_sign to -> call_sign from -> from <> [68; 69] ->
  text_ok U text -> ended text ending ->
  ~ In 61 (text ++ ending) -> ~ de_inside (32 :: text ++ ending) ->
  (forall x r, text = x ++ r -> List.length x = 6%nat -> ~ Forall digit x) ->
  lb raw = header to from [] ++ [32] ++ text ++ ending ->
  new_unique_message_id (i_messages i) t = Ok (id, t1) ->
  parse_radiogram U lb dp i raw now t = Ok (mkMsg id to from now [] text [] [] (lb raw), t1).
Proof.
  intros U HK lb dp i raw now t to from text ending id t1 H1 H2 H3 H4 H5 H6 H7 H8 EL HI.
  apply (c116_lemma U HK lb dp i raw now t to from [] NoForm text ending id t1); auto.
  - exact I.
  - split; [exact H6|]. split; [exact H7|]. intros _. exact H8.
Qed.
Print Assumptions c117_shortest.
Example c117_case : parsed_to "AB DE ZY Meet Karl at 9 K" ["AB"%string] "ZY" "" "Meet Karl at 9".
Proof.
  apply form_case with (f := NoForm) (en := " K"%string); try reflexivity; try discriminate.
  - left. reflexivity.
  - text_ex.
  - ended_ex.
  - split; [vm_compute; lia|]. split; [apply has_de_none; reflexivity|]. intros _ x r E L D.
    destruct x as [|c x]; [discriminate|]. vm_compute in E. injection E as <- _. inversion D; subst. unfold digit in *. lia.
Qed.

(** ** C118: without those conditions a text can change sender and text *)
Theorem c118_sender_refuted : exists i raw now t m t1 to from text,
  Forall call_sign to /\ call_sign from /\ from <> [68; 69] /\ text_ok uni_id text /\ ~ In 61 text /\
  raw = (header to from [] ++ [32] ++ text)%list /\ ex_parse i raw now t = Ok (m, t1) /\
  mfrom m <> from /\ mplain m <> text.
Proof.
  exists (ex_inst []), (str "AB DE ZY MEET DE KARL AT NOON"%string), 7, ex_tape. do 2 eexists.
  exists [str "AB"%string], (str "ZY"%string), (str "MEET DE KARL AT NOON"%string).
  split; [constructor; [apply callb_ok; reflexivity|constructor]|]. split; [apply callb_ok; reflexivity|].
  split; [discriminate|]. split; [text_ex|]. split; [vm_compute; lia|].
  split; [vm_compute; reflexivity|]. split; [vm_compute; reflexivity|]. split; discriminate.
Qed.
Print Assumptions c118_sender_refuted.
Theorem c118_lost_refuted : exists i raw now t m t1 to from text,
  Forall call_sign to /\ call_sign from /\ from <> [68; 69] /\ text_ok uni_id text /\ letters text /\
  raw = (header to from [] ++ [32] ++ text ++ [32; 61; 32; 75])%list /\ ex_parse i raw now t = Ok (m, t1) /\
  mfrom m = from /\ mplain m = [75].
Proof.
  exists (ex_inst []), (str "DE VJ STOP = K"%string), 7, ex_tape. do 2 eexists.
  exists [], (str "VJ"%string), (str "STOP"%string).
  split; [constructor|]. split; [apply callb_ok; reflexivity|].
  split; [discriminate|]. split; [text_ex|]. split; [vm_compute str; unfold letters; chars|].
  split; [vm_compute; reflexivity|]. split; [vm_compute; reflexivity|]. split; reflexivity.
Qed.
Print Assumptions c118_lost_refuted.
Theorem c118_inner_refuted : exists i raw now t m t1 to from d f text,
  Forall call_sign to /\ call_sign from /\ from <> [68; 69] /\ dtg_form d /\ form_ok f /\ f <> NoForm /\ text_ok uni_id text /\
  raw = (header to from d ++ middle f ++ text)%list /\ ex_parse i raw now t = Ok (m, t1) /\
  mfrom m <> from /\ mplain m <> text.
Proof.
  exists (ex_inst []), (str "VQ DE OS 012345 4 = COME DE VJ == LA == COL = X"%string), 7, ex_tape. do 2 eexists.
  exists [str "VQ"%string], (str "OS"%string), (str "012345"%string), (ShortForm [] (str "4"%string)),
    (str "COME DE VJ == LA == COL = X"%string).
  split; [constructor; [apply callb_ok; reflexivity|constructor]|]. split; [apply callb_ok; reflexivity|].
  split; [discriminate|]. split; [exact dtg_short|].
  split; [split; [constructor|]; split; [cbn; lia|]; split; [discriminate|]; split; [vm_compute str; chars|cbn; lia]|].
  split; [discriminate|]. split; [text_ex|].
  split; [vm_compute; reflexivity|]. split; [vm_compute; reflexivity|]. split; discriminate.
Qed.
Print Assumptions c118_inner_refuted.
