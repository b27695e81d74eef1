(** Goroutines that do not disturb each other take different keys. *)
From Verif Require Import Base Model_Unicode Model_Diana Model_Codec Model_Crand Model_Functions Model_Types Model_Cipher
  Model_Concurrent Spec Spec_Concurrent Proofs_Functions Proofs_Keys Proofs_Cipher Proofs_Cipher2 Proofs_Concurrent.

Set Default Proof Using "Type".
Section Concurrent.
Context (U : Uni).

Lemma Forall2_length {A B} (R : A -> B -> Prop) l l' : Forall2 R l l' -> length l = length l'.
Proof. induction 1; cbn [length]; congruence. Qed.

Section Goroutine.
Context (gs : Z) (ks : list key) (rs : list (list rune)).

(** The key may be taken. *)
Definition takeable (j : nat) : Prop := exists k, nth_error ks j = Some k /\ eligible gs rs (set_used k false).

(** The encoding loop, keys being taken from anywhere: codec state, chunks,
    current chunk, keys taken; before and after. *)
Inductive traced : list rune -> codec_state -> list chunk -> chunk -> list nat ->
    codec_state -> list chunk -> chunk -> list nat -> Prop :=
| tr_nil st cs cur held : traced [] st cs cur held st cs cur held
| tr_char c text st cs cur held ck st1 o1 st' cs' cur' held' : nth_error ks (ch_key cur) = Some ck ->
    (len (krunes ck) - gs - ControlCharactersNeededToChangeKey <=? cs_charCounter st) = false ->
    encode_character U st c (Some (ch_text cur)) = Ok (st1, o1) ->
    traced text st1 cs (mkChunk (unoutput o1) (ch_key cur)) held st' cs' cur' held' ->
    traced (c :: text) st cs cur held st' cs' cur' held'
| tr_change c text st cs cur held ck j nk st0 o0 st1 o1 st' cs' cur' held' : nth_error ks (ch_key cur) = Some ck ->
    (len (krunes ck) - gs - ControlCharactersNeededToChangeKey <=? cs_charCounter st) = true ->
    nth_error ks j = Some nk -> eligible gs rs (set_used nk false) -> ~ In j held ->
    change_key st (kid nk) (Some (ch_text cur)) = Ok (st0, o0) ->
    encode_character U (cs_reset st0) c (Some []) = Ok (st1, o1) ->
    traced text st1 (cs ++ [mkChunk (unoutput o0) (ch_key cur)]) (mkChunk (unoutput o1) j) (held ++ [j]) st' cs' cur' held' ->
    traced (c :: text) st cs cur held st' cs' cur' held'.

Lemma traced_grows text st cs cur held st' cs' cur' held' : traced text st cs cur held st' cs' cur' held' ->
  exists rest, held' = held ++ rest /\ (NoDup held -> NoDup held') /\ (forall j, In j rest -> takeable j).
Proof.
  induction 1 as [st cs cur held|? ? ? ? ? ? ? ? ? ? ? ? ? A B C T IH|? ? ? ? ? held ? j nk ? ? ? ? ? ? ? ? A B N E NI C D T IH].
  - exists []. rewrite app_nil_r. split; [reflexivity|]. split; [tauto|intros ? []].
  - exact IH.
  - destruct IH as (rest & -> & ND & TK). exists (j :: rest). rewrite <- app_assoc. split; [reflexivity|]. split.
    + intros H. rewrite <- app_assoc in ND. apply ND. pose proof (Add_app j held []) as AD. rewrite app_nil_r in AD.
      apply (NoDup_Add AD). split; assumption.
    + intros x [<-|X]; [exists nk; tauto|apply TK, X].
Qed.

(** The keys taken, as a store of their own. *)
Definition copy_of (j : nat) (k : key) : Prop := exists k0, nth_error ks j = Some k0 /\ k = set_used k0 false.
Definition use (k : key) : key := set_used k true.
Definition like (js : list nat) (c c' : chunk) : Prop := ch_text c' = ch_text c /\ nth_error js (ch_key c') = Some (ch_key c).

Lemma copy_nth js A j n : Forall2 copy_of js A -> nth_error js n = Some j -> exists k0, nth_error ks j = Some k0 /\
  nth_error A n = Some (set_used k0 false).
Proof.
  intros F. revert n. induction F as [|x a js A (k0 & C1 & C2) F IH]; intros [|n] N; try discriminate.
  - injection N as <-. exists k0. subst. split; [exact C1|reflexivity].
  - apply IH, N.
Qed.

Lemma find_first A k B : eligible gs rs k -> find_key U gs rs (map use A ++ k :: B) = Some (length A).
Proof.
  intros E. unfold find_key. cut (forall n, find_key_loop U gs rs (map use A ++ k :: B) n = Some (n + length A)%nat); [intros H; apply (H 0%nat)|].
  induction A as [|a A IH]; intros n; cbn [map app].
  - rewrite find_key_loop_step. apply (eligibleb_spec U) in E. rewrite E. f_equal. cbn [length]. lia.
  - rewrite find_key_loop_step. destruct (eligibleb U gs rs (use a)) eqn:X.
    { apply eligibleb_spec in X. destruct X as (X & _). discriminate. }
    rewrite IH. f_equal. cbn [length]. lia.
Qed.
Lemma mark_mid A k B : mark (map use A ++ k :: B) (length A) true = map use (A ++ [k]) ++ B.
Proof.
  unfold mark. rewrite nth_error_app2 by (rewrite map_length; lia). rewrite map_length, Nat.sub_diag. cbn [nth_error].
  rewrite map_app, <- app_assoc. cbn [map app].
  induction A as [|a A IH]; cbn [map app length list_update]; [reflexivity|]. f_equal. exact IH.
Qed.

Lemma replay_chunks js A cs cs' : Forall2 copy_of js A -> Forall2 (like js) cs cs' ->
  forall out, encipher_chunks ks cs out = encipher_chunks (map use A) cs' out.
Proof.
  intros F. induction 1 as [|c c' cs cs' (T & N) _ IH]; intros out; cbn [encipher_chunks]; [reflexivity|].
  destruct (copy_nth _ _ _ _ F N) as (k0 & E1 & E2). rewrite E1, nth_error_map, E2, T. cbn [option_map].
  change (krunes (use (set_used k0 false))) with (krunes k0).
  destruct (len (krunes k0) <? len (ch_text c)); [reflexivity|]. destruct (encipher_runes _ _ _) as [o [[]|x| |]]; auto.
Qed.

Lemma replay text st cs cur held st' cs' cur' js : traced text st cs cur held st' cs' cur' js ->
  forall A B all, Forall2 copy_of held A -> all = A ++ B -> Forall2 copy_of js all ->
  forall cs1 cur1, Forall2 (like js) cs cs1 -> like js cur cur1 ->
  exists cs1' cur1', encode_loop U gs rs text (mkES (map use A ++ B) st cs1 cur1) = (mkES (map use all) st' cs1' cur1', Ok tt) /\
    Forall2 (like js) cs' cs1' /\ like js cur' cur1'.
Proof.
  induction 1 as [st cs cur held|c text st cs cur held ck st1 o1 st' cs' cur' held' CK LT EN T IH|
    c text st cs cur held ck j nk st0 o0 st1 o1 st' cs' cur' held' CK LT NK EL NI CH EN T IH];
    intros A B all FA -> FALL cs1 cur1 RC RU.
  - assert (B = []) as -> by (apply Forall2_length in FA; apply Forall2_length in FALL; rewrite app_length in FALL; destruct B; [reflexivity|cbn [length] in FALL; lia]).
    rewrite !app_nil_r. exists cs1, cur1. cbn [encode_loop]. tauto.
  - cbn [encode_loop]. unfold maybe_change_key. cbn [es_keys es_st es_chunks es_cur]. destruct RU as (RT & RN).
    destruct (copy_nth _ _ _ _ FALL RN) as (k0 & E1 & E2). rewrite CK in E1. injection E1 as <-.
    assert (exists k1, nth_error (map use A ++ B) (ch_key cur1) = Some k1 /\ krunes k1 = krunes ck) as (k1 & -> & ->).
    { destruct (Nat.lt_ge_cases (ch_key cur1) (length A)) as [LA|LA].
      - rewrite nth_error_app1 in E2 by exact LA. rewrite nth_error_app1 by (rewrite map_length; exact LA).
        rewrite nth_error_map, E2. eexists. split; reflexivity.
      - rewrite nth_error_app2 in E2 by exact LA. rewrite nth_error_app2 by (rewrite map_length; exact LA).
        rewrite map_length, E2. eexists. split; reflexivity. }
    rewrite LT. cbn [es_keys es_st es_chunks es_cur]. rewrite RT, EN.
    apply (IH A B (A ++ B) FA eq_refl FALL); [exact RC|]. split; [reflexivity|exact RN].
  - cbn [encode_loop]. unfold maybe_change_key. cbn [es_keys es_st es_chunks es_cur]. destruct RU as (RT & RN).
    destruct (copy_nth _ _ _ _ FALL RN) as (k0 & E1 & E2). rewrite CK in E1. injection E1 as <-.
    assert (exists k1, nth_error (map use A ++ B) (ch_key cur1) = Some k1 /\ krunes k1 = krunes ck) as (k1 & -> & ->).
    { destruct (Nat.lt_ge_cases (ch_key cur1) (length A)) as [LA|LA].
      - rewrite nth_error_app1 in E2 by exact LA. rewrite nth_error_app1 by (rewrite map_length; exact LA).
        rewrite nth_error_map, E2. eexists. split; reflexivity.
      - rewrite nth_error_app2 in E2 by exact LA. rewrite nth_error_app2 by (rewrite map_length; exact LA).
        rewrite map_length, E2. eexists. split; reflexivity. }
    rewrite LT. destruct (traced_grows _ _ _ _ _ _ _ _ _ T) as (rest & HJ & _).
    assert (exists B', B = set_used nk false :: B') as (B' & ->).
    { assert (nth_error held' (length held) = Some j) as NJ.
      { rewrite HJ, <- app_assoc, nth_error_app2, Nat.sub_diag by lia. reflexivity. }
      destruct (copy_nth _ _ _ _ FALL NJ) as (k2 & F1 & F2). rewrite NK in F1. injection F1 as <-.
      rewrite (Forall2_length _ _ _ FA), nth_error_app2, Nat.sub_diag in F2 by lia. destruct B as [|b B']; [discriminate|].
      injection F2 as ->. exists B'. reflexivity. }
    rewrite (find_first _ _ _ EL). rewrite nth_error_app2 by (rewrite map_length; lia). rewrite map_length, Nat.sub_diag. cbn [nth_error].
    change (kid (set_used nk false)) with (kid nk). rewrite RT, CH. cbn [es_keys es_st es_chunks es_cur ch_text ch_key]. rewrite EN, mark_mid.
    apply (IH (A ++ [set_used nk false]) B' (A ++ set_used nk false :: B')).
    + apply Forall2_app; [exact FA|]. constructor; [|constructor]. exists nk. tauto.
    + rewrite <- app_assoc. reflexivity.
    + exact FALL.
    + apply Forall2_app; [exact RC|]. constructor; [|constructor]. split; [reflexivity|exact RN].
    + split; [reflexivity|]. cbn [ch_key]. rewrite HJ, <- (Forall2_length _ _ _ FA), <- app_assoc, nth_error_app2, Nat.sub_diag by lia. reflexivity.
Qed.

Lemma message_copy js A js1 p c : Forall2 copy_of js A -> message gs A js1 p c ->
  message gs ks (map (fun n => nth n js 0%nat) js1) p c.
Proof.
  intros F.
  assert (forall n k, nth_error A n = Some k -> exists k0, nth_error ks (nth n js 0%nat) = Some k0 /\ kid k0 = kid k /\ krunes k0 = krunes k) as H.
  { intros n k N. assert (n < length js)%nat as LT by (rewrite (Forall2_length _ _ _ F); apply nth_error_Some; congruence).
    destruct (copy_nth js A (nth n js 0%nat) n F (nth_error_nth' _ _ LT)) as (k0 & E1 & E2). exists k0. split; [exact E1|].
    rewrite N in E2. injection E2 as ->. split; reflexivity. }
  induction 1 as [j k s p tl N LS LL R HT|j k s p j' k' js2 p' c' N LS LL N' R M IH].
  - destruct (H j k N) as (k0 & E1 & _ & E3). rewrite <- E3. cbn [map].
    eapply message_last; [exact E1|exact LS|rewrite E3; exact LL|exact R|exact HT].
  - destruct (H j k N) as (k0 & E1 & _ & E3). destruct (H j' k' N') as (k0' & E1' & E2' & _). rewrite <- E3. cbn [map] in *.
    eapply message_next; [exact E1|exact LS|rewrite E3; exact LL|exact E1'|rewrite E2'; exact R|exact IH].
Qed.

(** ** What a goroutine does with keys *)
Context (post : list nat -> outcome -> Prop).

(** It gives keys of [held] back and returns with an error. *)
Fixpoint block (held : list nat) (p : prog) : Prop :=
  match p with
  | Return (_, r, _) => r <> Ok tt
  | Store j false q => In j held /\ block held q
  | _ => False
  end.
(** It takes keys it has found at once, gives keys back all together, at the
    end, and returns as in [post]. *)
Fixpoint safe (held : list nat) (p : prog) : Prop :=
  match p with
  | Return o => post held o
  | Find rs' next => rs' = rs /\ safe held (next None) /\ forall j, takeable j -> ~ In j held ->
      match next (Some j) with
      | Store j' true q => j' = j /\ safe (held ++ [j]) q
      | _ => safe held (next (Some j))
      end
  | Store j used q => used = false /\ In j held /\ block held q
  | Check _ _ => False
  end.
Definition taking (held : list nat) (j : nat) (p : prog) : Prop :=
  match p with
  | Store j' true q => j' = j /\ safe (held ++ [j]) q
  | _ => safe held p
  end.
Lemma safe_taking held j p : safe held p -> taking held j p.
Proof. intros S. destruct p as [o|rs' next|j' [|] q|id next]; try exact S. destruct S as (S & _). discriminate. Qed.

Lemma encode_safe text : forall st cs cur held next, In (ch_key cur) held -> incl (map ch_key cs) held ->
  (forall st' cs' cur' r held', In (ch_key cur') held' -> incl (map ch_key cs') held' -> incl held held' ->
     (r = Ok tt -> traced text st cs cur held st' cs' cur' held') -> safe held' (next st' cs' cur' r)) ->
  safe held (encode_prog U gs ks rs text st cs cur next).
Proof.
  induction text as [|c text IH]; intros st cs cur held next IC IS NX; cbn [encode_prog].
  - apply NX; [exact IC|exact IS|apply incl_refl|]. intros _. apply tr_nil.
  - unfold change_prog. destruct (nth_error ks (ch_key cur)) as [ck|] eqn:CK.
    2:{ apply NX; [exact IC|exact IS|apply incl_refl|discriminate]. }
    destruct (len (krunes ck) - gs - ControlCharactersNeededToChangeKey <=? cs_charCounter st) eqn:LT.
    + cbn [safe]. split; [reflexivity|]. split; [apply NX; [exact IC|exact IS|apply incl_refl|discriminate]|].
      intros j TK NI. apply (fun p => p : taking held j _). pose proof TK as (nk & NK & EL). rewrite NK.
      destruct (change_key st (kid nk) (Some (ch_text cur))) as [[st0 o0]|e| |] eqn:CH;
        try (apply safe_taking, NX; [exact IC|exact IS|apply incl_refl|discriminate]).
      split; [reflexivity|]. cbn [ch_text].
      assert (In j (held ++ [j])) as IJ by (apply in_or_app; right; left; reflexivity).
      assert (incl (map ch_key (cs ++ [mkChunk (unoutput o0) (ch_key cur)])) (held ++ [j])) as IS2.
      { rewrite map_app. intros x X. apply in_app_or in X. apply in_or_app. left. destruct X as [X|[<-|[]]]; [apply IS, X|exact IC]. }
      assert (incl held (held ++ [j])) as IH2 by apply incl_appl, incl_refl.
      destruct (encode_character U (cs_reset st0) c (Some [])) as [[st1 o1]|e| |] eqn:EN;
        try (apply NX; [exact IJ|exact IS2|exact IH2|discriminate]).
      apply IH; [exact IJ|exact IS2|]. intros st' cs' cur' r held' A1 A2 A3 A4. apply NX; [exact A1|exact A2|eapply incl_tran; eassumption|].
      intros ->. eapply tr_change; try eassumption. apply A4. reflexivity.
    + destruct (encode_character U st c (Some (ch_text cur))) as [[st1 o1]|e| |] eqn:EN;
        try (apply NX; [exact IC|exact IS|apply incl_refl|discriminate]).
      apply IH; [exact IC|exact IS|]. intros st' cs' cur' r held' A1 A2 A3 A4. apply NX; [exact A1|exact A2|exact A3|].
      intros ->. eapply tr_char; try eassumption. apply A4. reflexivity.
Qed.

Lemma release_block held m r t js : r <> Ok tt -> incl js held -> block held (release_prog js (Return (m, r, t))).
Proof.
  intros R. induction js as [|j js IH]; intros I; cbn [release_prog block]; [exact R|].
  split; [apply I; left; reflexivity|apply IH; intros x X; apply I; right; exact X].
Qed.
Lemma release_safe held m r t js : js <> [] -> r <> Ok tt -> incl js held -> safe held (release_prog js (Return (m, r, t))).
Proof.
  intros N R I. destruct js as [|j js]; [congruence|]. cbn [release_prog safe]. split; [reflexivity|].
  split; [apply I; left; reflexivity|]. apply release_block; [exact R|]. intros x X. apply I. right. exact X.
Qed.
Lemma finish_keys st cs cur r c0 cs1 cur1 out r1 held : finish gs ks st cs cur r c0 = (cs1, cur1, out, r1) ->
  In (ch_key cur) held -> incl (map ch_key cs) held -> In (ch_key cur1) held /\ incl (map ch_key cs1) held /\ (r1 = Ok tt -> r = Ok tt).
Proof.
  clear post rs U. unfold finish. intros E IC IS. destruct r as [[]|x| |]; try (injection E as <- <- <- <-; split; [exact IC|split; [exact IS|tauto]]).
  destruct (pad_count gs _) as [n|x| |]; try (injection E as <- <- <- <-; split; [exact IC|split; [exact IS|tauto]]).
  destruct (pad st n _) as [[st1 o1]|x| |]; try (injection E as <- <- <- <-; split; [exact IC|split; [exact IS|tauto]]).
  destruct (encipher_chunks _ _ _) as [o r]. injection E as <- <- <- <-. split; [exact IC|]. split; [|tauto].
  rewrite map_app. intros x X. apply in_app_or in X. destruct X as [X|[<-|[]]]; [apply IS, X|exact IC].
Qed.
End Goroutine.

(** What a goroutine that returned without error has done: [held] are the keys
    it took. *)
Definition enciphered (i : inst) (m0 : msg) (held : list nat) (o : outcome) : Prop :=
  let '(m', r, _) := o in r = Ok tt -> exists js, incl js held /\ NoDup js /\
    message (i_groupsize i) (i_keys i) js (map canon (mplain m0)) (mcipher m') /\
    exists j k, hd_error js = Some j /\ nth_error (i_keys i) j = Some k /\ mkeyid m' = kid k.

Lemma copies gs ks rs js : (forall j, In j js -> takeable gs ks rs j) -> exists A, Forall2 (copy_of ks) js A.
Proof.
  induction js as [|j js IH]; intros T; [exists []; constructor|].
  destruct IH as (A & F); [intros x X; apply T; right; exact X|]. destruct (T j (or_introl eq_refl)) as (k & N & _).
  exists (set_used k false :: A). constructor; [exists k; tauto|exact F].
Qed.
Lemma copies_ok gs ks js A : store_ok gs ks -> NoDup js -> Forall2 (copy_of ks) js A -> store_ok gs A.
Proof.
  intros (ND & OK) NJ F. split.
  - induction F as [|j k js A (k0 & N & ->) F IH]; cbn [map]; [constructor|]. inversion NJ as [|? ? NI NJ']; subst.
    constructor; [|apply IH, NJ']. intros IN. apply in_map_iff in IN. destruct IN as (k1 & E & IN).
    apply NI. clear - ND N F E IN. change (kid (set_used k0 false)) with (kid k0) in E.
    induction F as [|j2 k2 js A (k3 & N3 & ->) F IH]; [destruct IN|]. destruct IN as [<-|IN]; [|right; apply IH, IN].
    left. change (kid (set_used k3 false)) with (kid k3) in E.
    apply (NoDup_nth_error (map kid ks)); [exact ND|rewrite map_length; apply nth_error_Some; congruence|].
    rewrite !nth_error_map, N, N3. cbn [option_map]. congruence.
  - intros k IN. clear NJ. induction F as [|j k1 js A (k0 & N & ->) F IH]; [destruct IN|]. destruct IN as [<-|IN]; [|apply IH, IN].
    apply (OK k0). eapply nth_error_In, N.
Qed.

Lemma enciphered_lemma i m0 t0 m t j0 k0 st cs cur js c0 t1 cs1 cur1 out : uni_ok U -> 0 < i_groupsize i ->
  store_ok (i_groupsize i) (i_keys i) -> mkeyid m0 = [] -> ensure_id i m0 t0 = Ok (m, t) ->
  (len (mplain m) =? 0) = false -> (0 <? len (mkeyid m)) = false -> (0 <? len (mcipher m)) = false ->
  nth_error (i_keys i) j0 = Some k0 -> eligible (i_groupsize i) (mrecipients m) (set_used k0 false) ->
  traced (i_groupsize i) (i_keys i) (mrecipients m) (mplain m) new_state [] (mkChunk [] j0) [j0] st cs cur js ->
  wipe_value (mcipher m) t = (c0, t1) ->
  finish (i_groupsize i) (i_keys i) st cs cur (Ok tt) c0 = (cs1, cur1, out, Ok tt) ->
  enciphered i m0 js (set_mcipher (set_mkeyid m (kid k0)) out, Ok tt, t1).
Proof.
  intros HU HG SO KN EI P1 P2 P3 N0 EL TR WV FI _. set (gs := i_groupsize i) in *. set (ks := i_keys i) in *.
  destruct (traced_grows _ _ _ _ _ _ _ _ _ _ _ _ TR) as (rest & HJ & ND & TK).
  assert (forall j, In j js -> takeable gs ks (mrecipients m) j) as TA.
  { rewrite HJ. intros j [<-|J]; [exists k0; tauto|apply TK, J]. }
  assert (NoDup js) as NJ by (apply ND; constructor; [intros []|constructor]).
  destruct (copies gs ks (mrecipients m) js TA) as (A & F). pose proof (copies_ok gs ks js A SO NJ F) as SA.
  assert (exists B, A = set_used k0 false :: B) as (B & EA).
  { rewrite HJ in F. cbn [app] in F. inversion F as [|? a ? B (k1 & C1 & C2) F']; subst. rewrite N0 in C1. injection C1 as <-. exists B. reflexivity. }
  assert (Forall2 (copy_of ks) [j0] [set_used k0 false]) as F1 by (constructor; [exists k0; tauto|constructor]).
  destruct (replay gs ks (mrecipients m) _ _ _ _ _ _ _ _ _ TR [set_used k0 false] B A F1 EA F [] (mkChunk [] 0))
    as (cs1' & cur1' & EN & RC & RT & RN); [constructor|split; [reflexivity|rewrite HJ; reflexivity]|].
  assert (exists i', encipher U (set_keys i A) m0 t0 = (i', set_mcipher (set_mkeyid m (kid k0)) out, Ok tt, t1)) as (i' & EC).
  { unfold encipher, encipher_full. change (ensure_id (set_keys i A) m0 t0) with (ensure_id i m0 t0). rewrite EI. cbv zeta.
    cbn [i_groupsize i_keys set_keys]. fold gs. unfold enrich_with_key. rewrite P1, P2, P3.
    assert (find_key U gs (mrecipients m) A = Some 0%nat) as FK by (rewrite EA; exact (find_first gs (mrecipients m) [] _ B EL)).
    rewrite FK. replace (nth_error A 0) with (Some (set_used k0 false)) by (rewrite EA; reflexivity). change (kid (set_used k0 false)) with (kid k0). cbn [mcipher set_mkeyid]. rewrite WV.
    assert (mark A 0 true = use (set_used k0 false) :: B) as MA by (rewrite EA; reflexivity).
    assert (get_key U (kid k0) (mark A 0 true) = Some 0%nat) as GK.
    { rewrite <- (get_key_static U A) by (apply same_but_used_sym, same_but_used_mark).
      change (kid k0) with (kid (set_used k0 false)). eapply get_key_found; [exact SA|rewrite EA; reflexivity]. }
    change (mkeyid (set_mkeyid m (kid k0))) with (kid k0). rewrite GK.
    change (mrecipients (set_mkeyid m (kid k0))) with (mrecipients m). change (mplain (set_mkeyid m (kid k0))) with (mplain m). cbn [map app] in EN. rewrite <- MA in EN.
    unfold encipher_body. rewrite EN. cbn [es_st es_chunks es_cur es_keys].
    unfold finish in FI.
    assert (total_len cs1' = total_len cs) as TL.
    { clear - RC. unfold total_len. induction RC as [|a b la lb (T & _) R IH]; cbn [fold_right]; [reflexivity|]. rewrite T, IH. reflexivity. }
    rewrite RT, TL. destruct (pad_count gs _) as [n|x| |]; try discriminate.
    destruct (pad st n _) as [[st1 o1]|x| |]; try discriminate.
    rewrite <- (replay_chunks ks js A (cs ++ [mkChunk (unoutput o1) (ch_key cur)]) _ F).
    2:{ apply Forall2_app; [exact RC|]. constructor; [|constructor]. split; [reflexivity|exact RN]. }
    destruct (encipher_chunks _ _ _) as [o r]. injection FI as <- <- -> ->. cbn [er_res er_keys er_cipher]. eexists. reflexivity. }
  destruct (c09_lemma U (set_keys i A) m0 t0 _ _ _ HU HG SA KN EC) as (js1 & M & (j & k & H1 & H2 & H3) & N1 & E1 & _).
  cbn [i_groupsize i_keys set_keys mcipher set_mcipher mkeyid set_mkeyid] in *.
  assert (forall n, In n js1 -> (n < length js)%nat) as LT.
  { intros n I. destruct (E1 n I) as (kn & X & _). rewrite (Forall2_length _ _ _ F). apply nth_error_Some. congruence. }
  exists (map (fun n => nth n js 0%nat) js1). split; [|split; [|split]].
  - intros x X. apply in_map_iff in X. destruct X as (n & <- & X). apply nth_In, LT, X.
  - clear - N1 LT NJ. induction js1 as [|n js1 IH]; cbn [map]; [constructor|]. inversion N1 as [|? ? NI N1']; subst. constructor.
    + intros X. apply in_map_iff in X. destruct X as (n' & E & X). apply NI.
      apply (NoDup_nth js 0%nat) in E; [subst; exact X|exact NJ|apply LT; right; exact X|apply LT; left; reflexivity].
    + apply IH; [exact N1'|intros x X; apply LT; right; exact X].
  - apply (message_copy gs ks js A js1 _ _ F M).
  - exists (nth j js 0%nat). assert (hd_error (map (fun n => nth n js 0%nat) js1) = Some (nth j js 0%nat)) as HH
      by (destruct js1; [discriminate|]; injection H1 as ->; reflexivity).
    assert (j < length js)%nat as LJ by (apply LT; destruct js1; [discriminate|]; injection H1 as ->; left; reflexivity).
    destruct (copy_nth ks js A _ _ F (nth_error_nth' js 0%nat LJ)) as (k1 & C1 & C2). rewrite H2 in C2. injection C2 as ->.
    exists k1. split; [exact HH|]. split; [exact C1|]. exact H3.
Qed.

Lemma ensure_same i m t m1 t1 : ensure_id i m t = Ok (m1, t1) -> mkeyid m1 = mkeyid m /\ mrecipients m1 = mrecipients m.
Proof.
  unfold ensure_id. destruct (len (mid m) =? 0); [|intros [=<- _]; tauto].
  destruct (new_unique_message_id _ _) as [[id t2]|e| |]; intros [=<- _]. tauto.
Qed.

Lemma encipher_safe i m0 t0 : uni_ok U -> 0 < i_groupsize i -> store_ok (i_groupsize i) (i_keys i) -> mkeyid m0 = [] ->
  safe (i_groupsize i) (i_keys i) (mrecipients m0) (enciphered i m0) []
    (encipher_prog U (i_groupsize i) (i_keys i) i m0 t0).
Proof.
  intros HU HG SO KN. unfold encipher_prog. destruct (ensure_id i m0 t0) as [[m t]|e| |] eqn:EI; try discriminate.
  destruct (ensure_same _ _ _ _ _ EI) as (K1 & R1). rewrite <- R1. set (gs := i_groupsize i) in *. set (ks := i_keys i) in *.
  unfold enrich_prog. destruct (len (mplain m) =? 0) eqn:P1; [discriminate|].
  assert ((0 <? len (mkeyid m)) = false) as P2 by (rewrite K1, KN; reflexivity). rewrite P2.
  destruct (0 <? len (mcipher m)) eqn:P3.
  { replace (negb (len (mkeyid m) =? gs)) with true; [discriminate|]. rewrite K1, KN. change (len []) with 0. lia. }
  cbn [safe]. split; [reflexivity|]. split; [discriminate|]. intros j0 (k0 & N0 & EL) _. rewrite N0. split; [reflexivity|]. cbn [app].
  cbn [mcipher set_mkeyid mkeyid mrecipients mplain].
  destruct (wipe_value (mcipher m) t) as [c0 t1] eqn:WV. rewrite (get_key_found U gs ks j0 k0 SO N0).
  apply encode_safe; [left; reflexivity|intros ? []|]. intros st cs cur r held IC IS IH TR.
  destruct (finish gs ks st cs cur r c0) as [[[cs1 cur1] out] r1] eqn:FI.
  destruct (finish_keys gs ks _ _ _ _ _ _ _ _ _ held FI IC IS) as (IC1 & IS1 & RR).
  assert (incl (released U ks (kid k0) cur1 cs1) held) as IR.
  { unfold released. rewrite (get_key_found U gs ks j0 k0 SO N0). cbn [app].
    intros x [<-|[<-|X]]; [apply IH; left; reflexivity|exact IC1|apply IS1, X]. }
  assert (released U ks (kid k0) cur1 cs1 <> []) as NR by (unfold released; destruct (get_key U (kid k0) ks); discriminate).
  destruct r1 as [[]|e| |]; [|destruct (wipe_value (kid k0) t1) as [kid' t2]; apply release_safe; [exact NR|discriminate|exact IR]..].
  cbn [safe]. rewrite (RR eq_refl) in *.
  eapply enciphered_lemma; try eassumption. apply TR. reflexivity.
Qed.
End Concurrent.
