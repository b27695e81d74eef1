(** Two stations at the command line: what one enciphers, the other reads. *)
From Coq Require Import Permutation.
From Verif Require Import Base Model_Unicode Model_Functions Model_Crand Model_Types Model_Cipher Model_Keys Model_Import
  Model_Messages Model_Station Model_Persist Model_Listing Model_Cli Model_Regex Model_Print Spec Spec_Persist Spec_Cli Spec_Listing
  Spec_CliImport Spec_EndToEnd Proofs_Functions Proofs_Keys Proofs_Encipher Proofs_Cipher Proofs_Cipher2 Proofs_KeyOps Proofs_Summary Proofs_Messages
  Proofs_MsgProps Proofs_Station Proofs_Persist Proofs_Listing Proofs_Cli Proofs_CliRun Proofs_CliCmd Proofs_CliOps Proofs_CliMsg
  Proofs_CliSel Proofs_CliTop Proofs_Print.

Lemma same_kid ks a b : NoDup (map kid ks) -> In a ks -> In b ks -> kid a = kid b -> a = b.
Proof.
  induction ks as [|k ks IH]; intros N A B E; [destruct A|]. cbn [map] in N. inversion N as [|? ? N1 N2]; subst.
  destruct A as [<-|A], B as [<-|B]; [reflexivity| | |exact (IH N2 A B E)]; exfalso; apply N1.
  - rewrite E. apply in_map. exact B.
  - rewrite <- E. apply in_map. exact A.
Qed.

Section Sent.
Context (U : Uni) (lb : list rune -> list rune) (dp : list rune -> option Z).
Hypothesis HU : uni_ok U.

(** A message of one's own is a parsed message, enciphered. *)
Lemma new_is_encipher i raw now t i' m t' : new_text_message U lb dp i [raw] now t = (i', Ok (m, t')) ->
  same_text (to_upper U) (mfrom m) (i_callsign i) -> 0 < i_groupsize i -> store_ok (i_groupsize i) (i_keys i) ->
  exists q t1 i2 t2, mcipher q = [] /\ mkeyid q = [] /\ encipher U i q t1 = (i2, m, Ok tt, t2) /\
    mplain m = mplain q /\ mrecipients m = mrecipients q /\ mfrom m = mfrom q /\ mdtg m = mdtg q.
Proof using HU.
  intros H S Hg Hs. unfold new_text_message in H. destruct (parse_radiogram U lb dp i raw now t) as [[q t1]|e| |] eqn:P; try discriminate.
  pose proof (parse_mid U lb dp _ _ _ _ _ _ P) as Pm.
  destruct (parse_ok U lb dp _ _ _ _ _ _ P) as (? & ? & ? & ? & _ & _ & _ & _ & _ & Pk & Pc & _ & Pr & _).
  destruct (is_my_call U i q) eqn:My.
  - destruct (encipher U i q t1) as [[[i2 m2] r2] t2] eqn:En. destruct r2 as [[]|e| |]; try discriminate.
    injection H as <- <- <-. exists q, t1, i2, t2.
    destruct (encipher_frame U i q t1 i2 m2 _ t2 Pm En) as (_ & (k & c & F)).
    split; [exact Pc|]. split; [exact Pk|]. split; [exact En|]. rewrite F. auto.
  - exfalso. cbv zeta in H. set (m1 := if len (mrecipients q) =? 0 then _ else _) in H.
    assert (mid m1 = mid q /\ mfrom m1 = mfrom q) as (M1 & M3)
      by (unfold m1; destruct (len (mrecipients q) =? 0); auto).
    destruct (try_decipher U i m1 false t1) as [[[i2 m2] r2] t2] eqn:T.
    destruct (try_more U i m1 false t1 i2 m2 r2 t2 ltac:(congruence) Hg Hs T) as (A & _ & B & ((_ & _ & C1 & _ & C2 & _) & _) & _).
    assert ((store_message i2 m2, Ok (m2, t2)) = (i', Ok (m, t'))) as R by (destruct A as [->|(e & ->)]; exact H).
    injection R as <- <- _. rewrite C1, M3 in S. apply (my_call_spec U) in S. congruence.
Qed.
End Sent.

Set Default Proof Using "Type".
Section Cmd.
Context (L : lib) (U : Uni) (lb : list rune -> list rune) (dp : list rune -> option Z)
  (ds : Z -> list rune) (dg : list rune -> list rune).
Notation msg_cmd := (cmd_messages L U lb dp ds dg).

(** What messages --new shows and stores is what NewTextMessage returns. *)
Lemma cli_msg_new_run r g o f h p key i : uni_ok U -> lib_ok L -> store_at L (r_env r 0) (mo_file o) f p key i -> station_ok i ->
  disk_ok (r_env r 2) -> mo_delete o = false -> mo_new o = true ->
  let x := msg_cmd r g o f h in
  (result x = Ok tt /\ exists raw i2 m t', r_radiogram r = Some raw /\
     new_text_message U lb dp i [raw] (r_now r) (r_tape r) = (i2, Ok (m, t')) /\ shown x = [m] /\
     stored L (files x) p key i2 /\ messages_only i i2 /\ i_messages i2 = i_messages i ++ [m] /\ same_other_files p f (files x)) \/
  (result x <> Ok tt /\
   ~ (key_given L (r_env r 0) g key /\ can_read (r_env r 0) /\ can_write (r_env r 2) /\
      exists raw y, r_radiogram r = Some raw /\ snd (new_text_message U lb dp i [raw] (r_now r) (r_tape r)) = Ok y)).
Proof.
  intros HU HL SA OK D2 OD ON. cbv zeta.
  assert (mo_list o || mo_new o || mo_delete o = true) as NI by (rewrite ON; destruct (mo_list o); reflexivity).
  destruct (msgs_open L U lb dp ds dg r g o f h p key i HL NI SA) as [(e & N & -> & NK)|(KG & CR & h1 & s1 & RD & I1 & ->)].
  { right. split; [exact N|]. tauto. }
  destruct SA as (PO & PP & LK & NZ & ST).
  unfold messages_delete. rewrite OD. cbn [negb]. rewrite andthen_go. unfold messages_new. rewrite ON. cbn [negb].
  destruct (r_radiogram r) as [raw|].
  2:{ right. split; [discriminate|]. intros (_ & _ & _ & raw & y & Q & _). discriminate. }
  rewrite I1. destruct (new_text_message U lb dp i [raw] (r_now r) (r_tape r)) as [i2 [[m t']|e| |]] eqn:EN.
  2,3,4: right; split; [discriminate|]; intros (_ & _ & _ & raw' & y & [=<-] & Q); rewrite EN in Q; discriminate.
  destruct (new_message_spec U lb dp HU _ _ _ _ _ _ _ OK EN) as (MO2 & OK2 & EM & _).
  destruct (save_ready L (r_env r 2) f h1 (set_inst s1 i2) p key PP RD D2) as [(NW2 & ->)|(_ & f2 & -> & S2 & O2)].
  - right. split; [discriminate|]. tauto.
  - left. cbn [show Go andthen app]. rewrite files_show, result_show, shown_show.
    destruct (msgs_list_end U ds dg r o f2 h1 (set_inst s1 i2) OK2) as (-> & -> & ->).
    split; [reflexivity|]. exists raw, i2, m, t'. auto 10.
Qed.

Lemma sent_and_read dtg wrap lbk r g o f h p key i m
    r2 g2 o2 f2 h2 p2 key2 i2 raw2 id t1 : uni_ok U -> uni_kelvin U -> lib_ok L ->
  store_at L (r_env r 0) (mo_file o) f p key i -> station_ok i -> disk_ok (r_env r 2) -> mo_delete o = false -> mo_new o = true ->
  let x := msg_cmd r g o f h in
  result x = Ok tt -> shown x = [m] -> same_text (to_upper U) (mfrom m) (i_callsign i) ->
  keeps_groups U wrap (i_groupsize i) -> sendable dp dtg (i_groupsize i) m ->
  traffic U dtg wrap lbk (i_groupsize i) m = Some (lb raw2) ->
  store_at L (r_env r2 0) (mo_file o2) f2 p2 key2 i2 -> station_ok i2 -> i_groupsize i2 = i_groupsize i ->
  mo_delete o2 = false -> mo_new o2 = true -> r_radiogram r2 = Some raw2 ->
  key_given L (r_env r2 0) g2 key2 -> can_read (r_env r2 0) -> can_write (r_env r2 2) ->
  ~ same_text (to_upper U) (mfrom m) (i_callsign i2) ->
  (forall k, In k (i_keys i) -> eligible (i_groupsize i) (mrecipients m) k -> holds (i_keys i2) k) ->
  new_unique_message_id (i_messages i2) (r_tape r2) = Ok (id, t1) -> (length (lb raw2) <= length t1)%nat ->
  let y := msg_cmd r2 g2 o2 f2 h2 in
  result y = Ok tt /\ exists m2 ks2, shown y = [m2] /\ same_other_files p2 f2 (files y) /\
    stored L (files y) p2 key2 (set_messages (set_keys i2 ks2) (i_messages i2 ++ [m2])) /\ more_used (i_keys i2) ks2 /\
    read_as (i_callsign i2) m m2.
Proof.
  intros HU HK HL SA OK D2 OD ON x RX SX MY HW (CR & CF & DE & HD & HD2 & LC) TR SA2 OK2 EG OD2 ON2 RG KG CR2 CW NM HH ID TP. cbv zeta.
  pose proof OK as (Hg & Hs & _). pose proof OK2 as (_ & Hs2 & _). rewrite EG in Hs2.
  destruct (cli_msg_new_run r g o f h p key i HU HL SA OK D2 OD ON) as [(_ & raw & i' & m' & t' & _ & EN & SX' & _)|(N & _)]; [|contradiction].
  fold x in SX'. assert (m' = m) as -> by congruence.
  destruct (new_is_encipher U lb dp HU _ _ _ _ _ _ _ EN MY Hg Hs) as (q & tq & iq & t2 & C0 & K0 & EQ & Q1 & Q2 & Q3 & Q4).
  assert (forall k, In k (i_keys i) -> eligible (i_groupsize i) (mrecipients q) k \/ kid k = mkeyid m -> holds (i_keys i2) k) as HH2.
  { intros k IK [E|E]; [apply HH; [exact IK|rewrite Q2; exact E]|].
    destruct (c09_lemma U i q tq iq m t2 HU Hg Hs K0 EQ) as (js & _ & (j & k' & J1 & J2 & J3) & _ & J4 & _).
    destruct js as [|j' js]; [discriminate|]. injection J1 as ->. destruct (J4 j (or_introl eq_refl)) as (k2 & N2 & EL).
    assert (k2 = k') as -> by congruence. rewrite J3 in E.
    assert (k = k') as ->. { apply (same_kid (i_keys i)); [apply Hs|exact IK|exact (nth_error_In _ _ J2)|exact E]. }
    apply HH; [exact IK|]. rewrite Q2. exact EL. }
  rewrite Q2 in CR, HH. rewrite Q3 in CF, DE, NM. rewrite Q4 in HD, HD2.
  destruct (c44_lemma U HK HU dtg wrap lb dp lbk i q tq iq m t2 i2 raw2 (r_now r2) (r_tape r2) id t1 Hg EG Hs Hs2 HH2
    (or_introl C0) EQ CR CF DE HD HD2 HW LC NM TR ID TP) as (ri' & m2 & t3 & N2 & F1 & F2 & F3 & F4 & F5 & F6).
  destruct (cli_msg_new_run r2 g2 o2 f2 h2 p2 key2 i2 HU HL SA2 OK2 ltac:(apply CW) OD2 ON2)
    as [(RY & raw' & i2' & m2' & t4 & RG' & EN2 & SY & ST & (MO & MU) & EM & SO)|(_ & NN)].
  2:{ exfalso. apply NN. split; [exact KG|]. split; [exact CR2|]. split; [exact CW|]. exists raw2, (m2, t3). rewrite N2. auto. }
  assert (raw' = raw2) as -> by congruence. rewrite N2 in EN2. injection EN2 as <- <- <-.
  split; [exact RY|]. exists m2, (i_keys ri'). split; [exact SY|]. split; [exact SO|]. rewrite <- EM, <- MO. split; [exact ST|]. split; [exact MU|].
  unfold read_as. rewrite Q1, Q2, Q3, Q4. auto 10.
Qed.

(** Letters have no other case: distinct IDs are distinct. *)
Lemma store_distinct gs ks : store_ok gs ks -> distinct_ids (to_upper U) ks.
Proof.
  clear. intros (N & S). unfold distinct_ids, distinct_texts. rewrite map_map.
  assert (map (fun k => map (to_upper U) (kid k)) ks = map kid ks) as ->; [|exact N].
  apply map_ext_in. intros k I. apply map_upper_letters. apply S, I.
Qed.
Lemma distinct_nodup ks : distinct_ids (to_upper U) ks -> NoDup (map kid ks).
Proof. clear. intros H. exact (NoDup_map_inv _ _ H). Qed.

Lemma handed_and_read dtg wrap lbk r g o f h p key i file q w r2 g2 o2 f2 h2 p2 key2 i2 file2 q2
    r3 g3 o3 f3 h3 m r4 g4 o4 f4 h4 raw id t1 : uni_ok U -> uni_kelvin U -> lib_ok L ->
  store_at L (r_env r 0) (ko_file o) f p key i -> station_ok i -> key = kdf L w default_salt ->
  ko_export o = Some file -> path_of L (r_env r 5) file q -> q <> p ->
  ko_delete o = false -> ko_new o <= 0 -> ko_import o = None -> disk_ok (r_env r 5) ->
  let x := cmd_keys L U dp ds r g o f h in
  result x = Ok tt -> (f q = None \/ ko_yes o = true) ->
  f2 q2 = files x q -> path_of L (r_env r2 3) file2 q2 -> plain_path q2 ->
  store_at L (r_env r2 0) (ko_file o2) f2 p2 key2 i2 -> station_ok i2 -> i_groupsize i2 = i_groupsize i ->
  ko_import o2 = Some file2 -> ko_delete o2 = false -> ko_new o2 <= 0 -> ko_export o2 = None ->
  key_given L (r_env r2 0) g2 key2 -> can_read (r_env r2 0) -> can_read (r_env r2 3) -> can_write (r_env r2 4) ->
  e_term (r_env r2 3) = true -> e_password (r_env r2 3) = Some w ->
  (forall k k0, In k (i_keys i) -> In k0 (i_keys i2) -> kid k0 <> kid k) ->
  let y := cmd_keys L U dp ds r2 g2 o2 f2 h2 in
  f3 p = files x p -> path_of L (r_env r3 0) (mo_file o3) p -> disk_ok (r_env r3 2) -> mo_delete o3 = false -> mo_new o3 = true ->
  let x2 := msg_cmd r3 g3 o3 f3 h3 in
  result x2 = Ok tt -> shown x2 = [m] -> same_text (to_upper U) (mfrom m) (i_callsign i) ->
  (forall k, In k (i_keys i) -> eligible (i_groupsize i) (mrecipients m) k ->
     key_selected U (r_now r) o k /\ key_selected U (r_now r2) o2 k) ->
  keeps_groups U wrap (i_groupsize i) -> sendable dp dtg (i_groupsize i) m ->
  traffic U dtg wrap lbk (i_groupsize i) m = Some (lb raw) ->
  f4 p2 = files y p2 -> path_of L (r_env r4 0) (mo_file o4) p2 -> mo_delete o4 = false -> mo_new o4 = true -> r_radiogram r4 = Some raw ->
  key_given L (r_env r4 0) g4 key2 -> can_read (r_env r4 0) -> can_write (r_env r4 2) ->
  ~ same_text (to_upper U) (mfrom m) (i_callsign i2) ->
  new_unique_message_id (i_messages i2) (r_tape r4) = Ok (id, t1) -> (length (lb raw) <= length t1)%nat ->
  let y2 := msg_cmd r4 g4 o4 f4 h4 in
  result y = Ok tt /\ result y2 = Ok tt /\ exists m2 ks2, shown y2 = [m2] /\ read_as (i_callsign i2) m m2 /\
    stored L (files y2) p2 key2 (set_messages (set_keys i2 ks2) (i_messages i2 ++ [m2])).
Proof.
  intros HU HK HL SA OK EK OE PO QP OD ON OI D x RX AG EF PO2 PP2 SB OK2 EG OI2 OD2 ON2 OE2 KG CR CR3 CW ET EW NC y
    F3 PO3 D3 OD3 ON3 x2 RX2 SX2 MY HS RF SD TR F4 PO4 OD4 ON4 RG4 KG4 CR4 CW4 NM ID TP y2.
  pose proof OK as (Hg & Hs & _). pose proof OK2 as (Hg2 & Hs2 & HM2).
  pose proof (store_distinct _ _ Hs) as DI. pose proof (store_distinct _ _ Hs2) as DI2.
  assert (forall k k0, In k (i_keys i) -> In k0 (i_keys i2) -> ~ same_text (to_upper U) (kid k0) (kid k)) as NC2.
  { intros k k0 I I0 S. apply (NC k k0 I I0). unfold same_text in S.
    rewrite !map_upper_letters in S; [exact S| |]; [apply Hs, I|apply Hs2, I0]. }
  destruct (cli_handover_lemma L U dp ds r g o f h p key i file q w r2 g2 o2 f2 h2 p2 key2 i2 file2 q2 HL SA EK OE PO OD ON OI D RX AG DI EF PO2 PP2
    SB OI2 OD2 ON2 OE2 KG CR CR3 CW ET EW DI2 NC2) as (RY & ks & ST & DK & _ & FROM & ALL). fold y in RY, ST.
  split; [exact RY|].
  pose proof (picked_filter _ _ (key_selected_spec U (r_now r) o) (i_keys i)) as PK.
  destruct (sel_export_lemma L U dp ds r g o f h p key i file q _ HL SA D OE PO OD ON OI PK) as (SO & _). fold x in SO.
  assert (store_at L (r_env r3 0) (mo_file o3) f3 p key i) as SA3.
  { destruct SA as (_ & A2 & A3 & A4 & (n & A5)). split; [exact PO3|]. split; [exact A2|]. split; [exact A3|]. split; [exact A4|].
    exists n. rewrite F3, (SO p) by congruence. exact A5. }
  assert (store_at L (r_env r4 0) (mo_file o4) f4 p2 key2 (set_keys i2 ks)) as SA4.
  { destruct SB as (_ & A2 & A3 & A4 & _). split; [exact PO4|]. split; [exact A2|]. split; [exact A3|]. split; [exact A4|].
    destruct ST as (n & ST). exists n. congruence. }
  assert (station_ok (set_keys i2 ks)) as OK4.
  { split; [exact Hg2|]. split; [|exact HM2]. split; [exact (distinct_nodup _ DK)|]. cbn [set_keys i_keys i_groupsize].
    intros k' I. destruct (FROM k' I) as [J|(k & (J & _) & E1 & E2 & _)]; [apply Hs2, J|].
    rewrite E1, E2, EG. apply Hs, J. }
  destruct (sent_and_read dtg wrap lbk r3 g3 o3 f3 h3 p key i m r4 g4 o4 f4 h4 p2 key2 (set_keys i2 ks) raw id t1 HU HK HL SA3 OK D3 OD3 ON3
    RX2 SX2 MY RF SD TR SA4 OK4 EG OD4 ON4 RG4 KG4 CR4 CW4 NM) as (RY2 & m2 & ks2 & S1 & _ & S2 & _ & S3).
  - intros k I E. destruct (ALL k) as (k' & I' & E1 & E2 & _).
    + destruct (HS k I E) as (K1 & K2). split; [exact I|]. split; [exact K1|]. split; [rewrite EG; apply Hs, I|exact K2].
    + exists k'. split; [exact I'|]. split; [exact E1|exact E2].
  - exact ID.
  - exact TP.
  - fold y2 in RY2, S1, S2. split; [exact RY2|]. exists m2, ks2. split; [exact S1|]. split; [exact S3|]. exact S2.
Qed.
End Cmd.
