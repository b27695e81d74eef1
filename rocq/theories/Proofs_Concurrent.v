(** Goroutines that encipher at the same time. *)
From Verif Require Import Base Model_Unicode Model_Diana Model_Codec Model_Crand Model_Functions Model_Types Model_Cipher
  Model_Concurrent Spec Spec_Concurrent Proofs_Functions Proofs_Keys Proofs_Cipher Proofs_Cipher2.

Set Default Proof Using "Type".
Section Concurrent.
Context (U : Uni).

(** ** A goroutine alone does what [encipher] does. *)
Fixpoint solo (gs : Z) (ks : list key) (p : prog) : list key * outcome :=
  match p with
  | Return o => (ks, o)
  | Find rs next => solo gs ks (next (find_key U gs rs ks))
  | Store j b next => solo gs (mark ks j b) next
  | Check id next => solo gs ks (next (check_given_key id ks))
  end.

Lemma sbu_nth a b j : same_but_used a b -> option_map (fun k => set_used k false) (nth_error a j) = option_map (fun k => set_used k false) (nth_error b j).
Proof. intros E. rewrite <- !nth_error_map. unfold same_but_used in E. rewrite E. reflexivity. Qed.
Lemma sbu_some a b j k : same_but_used a b -> nth_error a j = Some k ->
  exists k', nth_error b j = Some k' /\ kid k' = kid k /\ krunes k' = krunes k /\ kkeepers k' = kkeepers k.
Proof.
  intros E N. pose proof (sbu_nth a b j E) as X. rewrite N in X. destruct (nth_error b j) as [k'|]; [|discriminate].
  exists k'. split; [reflexivity|]. destruct k, k'. cbn in X. injection X as -> -> -> -> -> -> ->. tauto.
Qed.
Lemma sbu_none a b j : same_but_used a b -> nth_error a j = None -> nth_error b j = None.
Proof. intros E N. pose proof (sbu_nth a b j E) as X. rewrite N in X. destruct (nth_error b j); [discriminate|reflexivity]. Qed.

Lemma solo_change gs rs ks0 ks st chunks cur next : same_but_used ks0 ks ->
  exists e r, maybe_change_key U gs rs (mkES ks st chunks cur) = (e, r) /\ same_but_used ks0 (es_keys e) /\
  solo gs ks (change_prog gs ks0 rs st chunks cur next) =
  solo gs (es_keys e) (next (es_st e) (es_chunks e) (es_cur e) r).
Proof.
  intros SB. unfold change_prog, maybe_change_key. cbn [es_keys es_st es_chunks es_cur].
  destruct (nth_error ks0 (ch_key cur)) as [ck|] eqn:N.
  2:{ rewrite (sbu_none _ _ _ SB N). eexists _, _. split; [reflexivity|]. split; [exact SB|reflexivity]. }
  destruct (sbu_some _ _ _ _ SB N) as (ck' & -> & _ & -> & _).
  destruct (_ <=? cs_charCounter st); [|eexists _, _; split; [reflexivity|]; split; [exact SB|reflexivity]].
  cbn [solo]. destruct (find_key U gs rs ks) as [j|]; [|eexists _, _; split; [reflexivity|]; split; [exact SB|reflexivity]].
  destruct (nth_error ks0 j) as [nk|] eqn:M.
  2:{ rewrite (sbu_none _ _ _ SB M). eexists _, _. split; [reflexivity|]. split; [exact SB|reflexivity]. }
  destruct (sbu_some _ _ _ _ SB M) as (nk' & -> & -> & _).
  destruct (change_key st (kid nk) (Some (ch_text cur))) as [[st1 o1]|e| |];
    (eexists _, _; split; [reflexivity|]); (split; [|reflexivity]); try exact SB.
  cbn [es_keys]. eapply same_but_used_trans; [exact SB|]. apply same_but_used_sym, same_but_used_mark.
Qed.

Lemma solo_encode gs rs ks0 text : forall ks st chunks cur next, same_but_used ks0 ks ->
  exists e r, encode_loop U gs rs text (mkES ks st chunks cur) = (e, r) /\ same_but_used ks0 (es_keys e) /\
  solo gs ks (encode_prog U gs ks0 rs text st chunks cur next) =
  solo gs (es_keys e) (next (es_st e) (es_chunks e) (es_cur e) r).
Proof.
  induction text as [|c text IH]; intros ks st chunks cur next SB; cbn [encode_loop encode_prog].
  - eexists _, _. split; [reflexivity|]. split; [exact SB|reflexivity].
  - match goal with |- context [change_prog gs ks0 rs st chunks cur ?k] =>
      destruct (solo_change gs rs ks0 ks st chunks cur k SB) as (e & r & -> & SE & ->) end.
    destruct r as [[]|x| |]; try (eexists _, _; split; [reflexivity|]; split; [exact SE|reflexivity]).
    destruct (encode_character U (es_st e) c (Some (ch_text (es_cur e)))) as [[st1 o1]|x| |];
      try (eexists _, _; split; [reflexivity|]; split; [exact SE|reflexivity]).
    apply IH, SE.
Qed.

Lemma chunks_static ks0 ks cs : same_but_used ks0 ks -> forall out, encipher_chunks ks0 cs out = encipher_chunks ks cs out.
Proof.
  intros SB. induction cs as [|c cs IH]; intros out; cbn [encipher_chunks]; [reflexivity|].
  destruct (nth_error ks0 (ch_key c)) as [k|] eqn:N.
  - destruct (sbu_some _ _ _ _ SB N) as (k' & -> & _ & -> & _).
    destruct (len (krunes k) <? len (ch_text c)); [reflexivity|]. destruct (encipher_runes _ _ _) as [o [[]|x| |]]; auto.
  - rewrite (sbu_none _ _ _ SB N). reflexivity.
Qed.

Lemma get_key_static ks0 ks id : same_but_used ks0 ks -> get_key U id ks0 = get_key U id ks.
Proof.
  unfold get_key. generalize 0%nat. revert ks. induction ks0 as [|a ks0 IH]; intros [|b ks] n SB; try discriminate; [reflexivity|].
  cbn [get_key_loop]. destruct a, b. injection SB as -> -> -> -> -> -> -> TL. cbn [kid].
  destruct (runes_eqb _ _); [reflexivity|]. apply IH, TL.
Qed.

Lemma solo_release gs js p : forall ks, solo gs ks (release_prog js p) = solo gs (fold_left (fun a j => mark a j false) js ks) p.
Proof. induction js as [|j js IH]; intros ks; cbn [release_prog solo fold_left]; [reflexivity|apply IH]. Qed.

Lemma release_same ks0 ks keyId cur chunks : same_but_used ks0 ks ->
  fold_left (fun a j => mark a j false) (released U ks0 keyId cur chunks) ks = release_keys U keyId cur chunks ks.
Proof.
  intros SB. unfold released, release_keys, mark_key_used. rewrite fold_left_app. cbn [fold_left].
  rewrite (get_key_static ks0 ks keyId SB). unfold get_key.
  assert (forall cs a, fold_left (fun a j => mark a j false) (map ch_key cs) a = fold_left (fun a c => mark a (ch_key c) false) cs a) as M
    by (clear; induction cs as [|c cs IH]; intros a; [reflexivity|apply IH]).
  rewrite M. destruct (get_key_loop _ _ _); reflexivity.
Qed.

Lemma finish_body gs rs text ks0 ks k0 c0 e r : encode_loop U gs rs text (mkES ks new_state [] (mkChunk [] k0)) = (e, r) ->
  same_but_used ks0 (es_keys e) ->
  encipher_body U gs rs text ks k0 c0 =
    let '(cs, cur, out, r1) := finish gs ks0 (es_st e) (es_chunks e) (es_cur e) r c0 in mkER (es_keys e) cs cur out r1.
Proof.
  intros E SB. unfold encipher_body, finish. rewrite E. destruct r as [[]|x| |]; try reflexivity.
  destruct (pad_count gs _) as [n|x| |]; try reflexivity. destruct (pad (es_st e) n _) as [[st1 o1]|x| |]; try reflexivity.
  cbv zeta. rewrite (chunks_static ks0 (es_keys e) _ SB). destruct (encipher_chunks _ _ _) as [out r]. reflexivity.
Qed.

Lemma solo_lemma i m t :
  solo (i_groupsize i) (i_keys i) (encipher_prog U (i_groupsize i) (i_keys i) i m t) =
  let '(i', m', r, t') := encipher U i m t in (i_keys i', (m', r, t')).
Proof.
  unfold encipher, encipher_full, encipher_prog. destruct (ensure_id i m t) as [[m1 t1]|x| |]; try reflexivity.
  set (gs := i_groupsize i). set (ks0 := i_keys i).
  assert (forall ks m2 next r', same_but_used ks0 ks ->
    (forall m r, next m r = match r with
      | Ok _ =>
          let '(c0, t2) := wipe_value (mcipher m) t1 in
          match get_key U (mkeyid m) ks0 with
          | None => Return (set_mcipher m c0, Err ErrKeyNotFound, t2)
          | Some k0 =>
              encode_prog U gs ks0 (mrecipients m) (mplain m) new_state [] (mkChunk [] k0) (fun st chunks cur r =>
              let '(chunks1, cur1, out, r1) := finish gs ks0 st chunks cur r c0 in
              match r1 with
              | Ok _ => Return (set_mcipher m out, Ok tt, t2)
              | r1 =>
                  release_prog (released U ks0 (mkeyid m) cur1 chunks1)
                    (let '(kid', t2) := wipe_value (mkeyid m) t2 in
                     Return (set_mkeyid (set_mcipher m out) kid', r1, t2))
              end)
          end
      | r => Return (m, r, t1)
      end) ->
    solo gs ks (next m2 r') =
    let '(i', m', r, t') := fst (match r' with
      | Ok _ =>
          let '(c0, t2) := wipe_value (mcipher m2) t1 in
          match get_key U (mkeyid m2) ks with
          | None => (set_keys i ks, set_mcipher m2 c0, Err ErrKeyNotFound, t2, false)
          | Some k0 =>
              let b := encipher_body U gs (mrecipients m2) (mplain m2) ks k0 c0 in
              match er_res b with
              | Ok _ => (set_keys i (er_keys b), set_mcipher m2 (er_cipher b), Ok tt, t2, false)
              | r =>
                  let ks' := release_keys U (mkeyid m2) (er_cur b) (er_chunks b) (er_keys b) in
                  let '(kid', t2) := wipe_value (mkeyid m2) t2 in
                  (set_keys i ks', set_mkeyid (set_mcipher m2 (er_cipher b)) kid', r, t2, true)
              end
          end
      | r => (set_keys i ks, m2, r, t1, false)
      end) in (i_keys i', (m', r, t'))) as G.
  { intros ks m2 next r' SB NX. rewrite NX. destruct r' as [[]|x| |]; try reflexivity.
    destruct (wipe_value (mcipher m2) t1) as [c0 t2]. rewrite (get_key_static _ _ (mkeyid m2) SB).
    destruct (get_key U (mkeyid m2) ks) as [k0|]; [|reflexivity].
    match goal with |- context [encode_prog U gs ks0 _ _ _ _ _ ?k] =>
      destruct (solo_encode gs (mrecipients m2) ks0 (mplain m2) ks new_state [] (mkChunk [] k0) k SB) as (e & r & E & SE & ->) end.
    cbv zeta. rewrite (finish_body gs _ _ ks0 ks k0 c0 e r E SE).
    destruct (finish gs ks0 (es_st e) (es_chunks e) (es_cur e) r c0) as [[[cs cur] out] r1].
    cbn [er_res er_keys er_cur er_chunks er_cipher].
    destruct r1 as [[]|x| |]; try reflexivity; rewrite solo_release, (release_same _ _ _ _ _ SE);
      destruct (wipe_value (mkeyid m2) t2); reflexivity. }
  match goal with |- context [enrich_prog gs ks0 m1 ?k] => set (next := k); specialize (fun ks m2 r' SB => G ks m2 next r' SB (fun _ _ => eq_refl)) end.
  unfold enrich_prog, enrich_with_key.
  assert (same_but_used ks0 ks0) as SR by reflexivity.
  destruct (len (mplain m1) =? 0); [exact (G ks0 m1 _ SR)|].
  destruct (0 <? len (mkeyid m1)).
  { destruct (negb _); [exact (G ks0 m1 _ SR)|]. cbn [solo]. 
    rewrite (G ks0 m1 _ SR). destruct (check_given_key _ _) as [[]|x| |]; reflexivity. }
  destruct (0 <? len (mcipher m1)).
  { destruct (negb _); exact (G ks0 m1 _ SR). }
  cbn [solo]. destruct (find_key U gs (mrecipients m1) ks0) as [j|]; [|exact (G ks0 m1 _ SR)].
  destruct (nth_error ks0 j) as [k|]; [|exact (G ks0 m1 _ SR)].
  cbn [solo]. rewrite (G (mark ks0 j true) (set_mkeyid m1 (kid k)) _ (same_but_used_sym _ _ (same_but_used_mark _ _ _))).
  reflexivity.
Qed.
End Concurrent.
