(** Lemmas about the command line program: opening and saving the file. *)
From Verif Require Import Base Model_Unicode Model_Functions Model_Crand Model_Types Model_Cipher Model_Keys Model_Import
  Model_Messages Model_Station Model_Persist Model_Listing Model_Cli Spec Spec_Persist Spec_Cli Proofs_Station
  Proofs_Persist.

(** ** Hexadecimal *)
Lemma hex_char_of v : hex_char v = hex_digit_of v.
Proof. reflexivity. Qed.
Lemma hex_text_encode b x : hex_text b x <-> Forall byte b /\ map hex_lower x = hex_encode b.
Proof. reflexivity. Qed.
Lemma hex_lower_digit c v : 0 <= v <= 15 -> hex_lower c = hex_digit_of v -> hex_value c = Some v.
Proof.
  unfold hex_lower, hex_digit_of, hex_value. intros B.
  destruct (v <? 10) eqn:V; destruct ((65 <=? c) && (c <=? 90)) eqn:E; intros H.
  - lia.
  - replace ((48 <=? c) && (c <=? 57)) with true by lia. f_equal. lia.
  - replace ((48 <=? c) && (c <=? 57)) with false by lia. replace ((97 <=? c) && (c <=? 102)) with false by lia.
    replace ((65 <=? c) && (c <=? 70)) with true by lia. f_equal. lia.
  - replace ((48 <=? c) && (c <=? 57)) with false by lia. replace ((97 <=? c) && (c <=? 102)) with true by lia.
    f_equal. lia.
Qed.
Lemma hex_text_decode b : forall x, hex_text b x -> hex_decode x = Some b.
Proof.
  induction b as [|v b IH]; intros x (B & E); cbn [flat_map app] in E.
  - destruct x; [reflexivity|discriminate].
  - destruct x as [|a [|c x]]; cbn [map] in E; try discriminate. injection E as E1 E2 E3.
    inversion B as [|v' b' HV HB]; subst. unfold byte in HV. rewrite hex_char_of in E1, E2.
    pose proof (Z.div_mod v 16 ltac:(discriminate)) as DM. pose proof (Z.mod_pos_bound v 16 ltac:(reflexivity)).
    apply hex_lower_digit in E1; [|lia]. apply hex_lower_digit in E2; [|lia].
    cbn [hex_decode]. rewrite E1, E2, (IH x) by (split; assumption). f_equal. f_equal. lia.
Qed.
Lemma hex_decode_text b x : hex_decode x = Some b <-> hex_text b x.
Proof.
  split; [|apply hex_text_decode]. intros H. apply hex_decode_some in H. destruct H as (_ & _ & B & E).
  split; [exact B|]. symmetry. exact E.
Qed.
Lemma hex_text_fun a b x : hex_text a x -> hex_text b x -> a = b.
Proof. intros A B. apply hex_text_decode in A, B. congruence. Qed.

Section Run.
Context (L : lib) (U : Uni).

Lemma salt_given_fun g a b : salt_given g a -> salt_given g b -> a = b.
Proof.
  unfold salt_given. destruct (g_salt g); [|congruence]. intros (A & _) (B & _). exact (hex_text_fun _ _ _ A B).
Qed.
Lemma salt_given_len g a : salt_given g a -> 32 <= len a.
Proof. unfold salt_given. destruct (g_salt g); [tauto|]. intros ->. unfold len. cbn. lia. Qed.
Lemma key_given_fun e g a b : key_given L e g a -> key_given L e g b -> a = b.
Proof.
  intros (s & S & A) (s' & S' & B). rewrite (salt_given_fun _ _ _ S' S) in B.
  destruct (g_pfk g), (g_password g); [contradiction| | |].
  - destruct A as (A & _), B as (B & _). exact (hex_text_fun _ _ _ A B).
  - congruence.
  - destruct A as (_ & w & W & ->), B as (_ & w' & W' & ->). congruence.
Qed.
Lemma key_given_len e g a : lib_ok L -> key_given L e g a -> len a = 32.
Proof.
  intros (_ & _ & _ & K) (s & S & A). destruct (g_pfk g), (g_password g); [contradiction|tauto| |].
  - rewrite A. apply K.
  - destruct A as (_ & w & _ & ->). apply K.
Qed.

Lemma path_of_resolve e x p : x <> [] -> (resolve L e x = Some p <-> path_of L e x p).
Proof.
  intros N. pose (s := mkSt x None None false false false (mkInst 0 0 0 0 [] [] [])).
  change (path_of L e x p) with (file_name L e s p). change x with (st_path s) at 1. apply resolve_name.
  cbn [st_path s]. destruct x; [congruence|]. unfold len. cbn [length]. lia.
Qed.
Lemma path_of_fun e x p q : path_of L e x p -> path_of L e x q -> p = q.
Proof.
  pose (s := mkSt x None None false false false (mkInst 0 0 0 0 [] [] [])). exact (file_name_fun L e s p q).
Qed.
Lemma path_of_nonempty e x p : path_of L e x p -> x <> [].
Proof. intros [(r & d & -> & _)|(N & _)]; [discriminate|exact N]. Qed.
Lemma plain_path_of e p : plain_path p -> path_of L e p p.
Proof. intros (N & H). right. split; [exact N|]. split; [exact H|reflexivity]. Qed.
Lemma plain_resolve e p : plain_path p -> resolve L e p = Some p.
Proof. intros H. apply path_of_resolve; [exact (proj1 H)|apply plain_path_of, H]. Qed.

(** ** Saving *)
(** An instance whose file [p] has been read, with the file key [key]. *)
Definition ready (p key : list Z) (h : mem) (s : station) : Prop :=
  st_path s = p /\ st_over s = true /\ st_inter s = true /\ st_overkeys s = false /\
  len key = 32 /\ exists q, st_pfk s = Some q /\ (q < length h)%nat /\ cell h q = key.
Lemma ready_inst p key h s i : ready p key h s -> ready p key h (set_inst s i).
Proof. intros H. exact H. Qed.
Lemma ready_mem p key h h' s : ready p key h s ->
  (forall q, (q < length h)%nat -> (q < length h')%nat /\ cell h' q = cell h q) -> ready p key h' s.
Proof.
  intros (A & B & C & D & E & q & Q1 & Q2 & Q3) H. destruct (H q Q2) as (H1 & H2).
  split; [exact A|]. split; [exact B|]. split; [exact C|]. split; [exact D|]. split; [exact E|].
  exists q. split; [exact Q1|]. split; [exact H1|]. congruence.
Qed.

Lemma not_empty (p : list rune) : p <> [] -> (len p =? 0) = false.
Proof. destruct p; [congruence|]. intros _. unfold len. cbn [length]. lia. Qed.

Lemma save_ready e f h s p key : plain_path p -> ready p key h s -> e_fail e = None ->
  (~ can_write e /\ save_step L e f h s = End (Err ErrIO) f []) \/
  (can_write e /\ exists f', save_step L e f h s = Go f' h s /\ stored L f' p key (st_inst s) /\
     forall q, q <> p -> f' q = f q).
Proof.
  intros PP (P & O & I & _ & LK & q & Q1 & Q2 & Q3) FN. unfold save_step, save, can_write.
  rewrite P, (not_empty p (proj1 PP)), (plain_resolve e p PP). cbv zeta.
  assert (set_path s p = s) as ES by (destruct s; cbn in P; subst; reflexivity). rewrite ES.
  destruct (e_stat_err e); [left; split; [intros (X & _); discriminate|reflexivity]|].
  unfold obtain_key. rewrite Q1, O.
  destruct (e_open e).
  2:{ left. split; [intros (_ & X & _); discriminate|]. cbn [negb]. destruct (f p); reflexivity. }
  right. split; [tauto|]. cbn [negb]. unfold pfk_bytes. rewrite Q1, Q3. unfold array32.
  replace (len key <? 32) with false by lia.
  set (c := seal L (firstn 32 key) (e_nonce e) (encode L (st_inst s))).
  assert (fails_early e (pieces (e_cuts e) c) = false) as FE by (unfold fails_early; rewrite FN; reflexivity).
  rewrite FE. set (xs := Truncate p :: map (Append p) (written e (pieces (e_cuts e) c))).
  exists (apply_effects f xs). split; [destruct (f p); reflexivity|]. split.
  - exists (e_nonce e). unfold xs. rewrite effects_file. unfold written. rewrite FN, pieces_concat. reflexivity.
  - intros r N. apply effects_other with p; [|exact N].
    intros x [<-|H]; [reflexivity|]. apply in_map_iff in H. destruct H as (b & <- & _). reflexivity.
Qed.

(** ** Salt and file key *)
Definition ready_salt (salt : list Z) (h : mem) (s : station) : Prop :=
  exists q, st_salt s = Some q /\ (q < length h)%nat /\ cell h q = salt.
Definition same_else (s s' : station) : Prop :=
  st_path s' = st_path s /\ st_over s' = st_over s /\ st_inter s' = st_inter s /\
  st_overkeys s' = st_overkeys s /\ st_inst s' = st_inst s.

Lemma cell_app h l q : (q < length h)%nat -> (q < length (h ++ l))%nat /\ cell (h ++ l) q = cell h q.
Proof. intros H. split; [rewrite app_length; lia|]. unfold cell. apply app_nth1, H. Qed.
Lemma cell_last h b : (length h < length (h ++ [b]))%nat /\ cell (h ++ [b]) (length h) = b.
Proof. split; [rewrite app_length; cbn [length]; lia|apply cell_new]. Qed.

Lemma ssp_spec g f h s : st_pfk s = None -> ready_salt default_salt h s ->
  (exists r, r <> Ok tt /\ set_salt_and_pfk L g f h s = End r f [] /\ forall e key, ~ key_given L e g key) \/
  (exists h' s' salt, set_salt_and_pfk L g f h s = Go f h' s' /\ same_else s s' /\
     salt_given g salt /\ ready_salt salt h' s' /\
     match st_pfk s' with
     | None => g_pfk g = None /\ g_password g = None
     | Some c => (c < length h')%nat /\ ~ (g_pfk g = None /\ g_password g = None) /\
         forall e, key_given L e g (cell h' c)
     end).
Proof.
  intros NP RS. unfold set_salt_and_pfk.
  set (with_salt := match g_salt g with None => _ | Some _ => _ end).
  assert ((exists r, r <> Ok tt /\ with_salt = End r f [] /\ forall salt, ~ salt_given g salt) \/
    exists h' s' salt, with_salt = Go f h' s' /\ same_else s s' /\ salt_given g salt /\ ready_salt salt h' s' /\
      st_pfk s' = None) as W.
  { unfold with_salt, salt_given. destruct (g_salt g) as [x|].
    - unfold set_salt_from_string. destruct (hex_decode x) as [b|] eqn:E.
      + destruct (len b <? 32) eqn:B.
        * left. exists (Err ErrTooShortSalt). split; [discriminate|]. split; [reflexivity|]. intros salt (X & Y).
          apply hex_text_decode in X. assert (salt = b) by congruence. subst. lia.
        * right. exists (h ++ [b]), (set_salt s (Some (length h))), b. split; [reflexivity|].
          split; [unfold same_else; cbn; tauto|]. split; [split; [apply hex_decode_text, E|lia]|].
          split; [|exact NP]. exists (length h). split; [reflexivity|apply cell_last].
      + left. exists (Err ErrHex). split; [discriminate|]. split; [reflexivity|]. intros salt (X & _).
        apply hex_text_decode in X. congruence.
    - right. exists h, s, default_salt. split; [reflexivity|]. split; [unfold same_else; tauto|]. tauto. }
  destruct W as [(r & N & -> & F)|(h1 & s1 & salt & -> & SE & SG & RS1 & NP1)].
  { cbn [andthen End]. left. destruct (g_pfk g), (g_password g);
      try (exists r; split; [exact N|]; split; [reflexivity|]; intros e key (sl & X & _); exact (F _ X)).
    exists (Err ErrInvalidPFK). split; [discriminate|]. split; [reflexivity|]. intros e key (sl & X & _); exact (F _ X). }
  cbn [andthen Go]. destruct (g_pfk g) as [x|] eqn:EP, (g_password g) as [w|] eqn:EW.
  - left. exists (Err ErrInvalidPFK). split; [discriminate|]. split; [reflexivity|]. unfold key_given. rewrite EP, EW.
    intros e key (sl & _ & []).
  - unfold set_pfk_from_string. destruct (hex_decode x) as [b|] eqn:E.
    + destruct (len b =? 32) eqn:B; cbn [negb alloc].
      * right. exists (h1 ++ [b]), (set_pfk s1 (Some (length h1))), salt. split; [reflexivity|]. split; [exact SE|].
        split; [exact SG|]. split.
        { destruct RS1 as (q & Q1 & Q2 & Q3). exists q. split; [exact Q1|].
          destruct (cell_app h1 [b] q Q2) as (A1 & A2). split; [exact A1|]. congruence. }
        cbn [st_pfk set_pfk]. destruct (cell_last h1 b) as (A1 & A2). split; [exact A1|]. rewrite A2.
        split; [intros (X & _); discriminate|]. intros e.
        exists salt. rewrite EP, EW. split; [exact SG|]. split; [apply hex_decode_text, E|lia].
      * left. exists (Err ErrInvalidPFK). split; [discriminate|]. split; [reflexivity|].
        intros e key (sl & _ & X). rewrite EP, EW in X. destruct X as (X & Y). apply hex_text_decode in X.
        assert (key = b) by congruence. subst. lia.
    + left. exists (Err ErrHex). split; [discriminate|]. split; [reflexivity|].
      intros e key (sl & _ & X). rewrite EP, EW in X. destruct X as (X & Y). apply hex_text_decode in X. congruence.
  - unfold derive_pfk. destruct RS1 as (q & Q1 & Q2 & Q3). rewrite Q1, Q3.
    pose proof (salt_given_len _ _ SG). replace (len salt <? 32) with false by lia. cbn [alloc].
    right. exists (h1 ++ [kdf L w salt]), (set_pfk s1 (Some (length h1))), salt. split; [reflexivity|].
    split; [exact SE|]. split; [exact SG|]. split.
    { exists q. split; [exact Q1|]. destruct (cell_app h1 [kdf L w salt] q Q2) as (A1 & A2).
      split; [exact A1|]. congruence. }
    cbn [st_pfk set_pfk]. destruct (cell_last h1 (kdf L w salt)) as (A1 & A2). split; [exact A1|]. rewrite A2.
    split; [intros (_ & X); discriminate|]. intros e. exists salt. rewrite EP, EW. split; [exact SG|reflexivity].
  - right. exists h1, s1, salt. split; [reflexivity|]. split; [exact SE|]. split; [exact SG|].
    split; [exact RS1|]. rewrite NP1. split; reflexivity.
Qed.

(** ** Opening *)
(** The file with contents [c] opens with [key] and holds [i]. *)
Definition reads (key c : list Z) (i : inst) : Prop :=
  exists b, unseal L (firstn 32 key) c = Some b /\ decode L b = Some i.
Definition fresh_inst : inst := mkInst 5 350 110 30 [] [] [].

Lemma ready_path_of (x : list rune) : st_path (mkSt x None None false false false fresh_inst) = x.
Proof. reflexivity. Qed.

Lemma load_spec g e f h s salt : lib_ok L -> st_inter s = true -> st_overkeys s = false -> st_inst s = fresh_inst ->
  salt_given g salt -> ready_salt salt h s ->
  match st_pfk s with
  | None => g_pfk g = None /\ g_password g = None
  | Some c => (c < length h)%nat /\ ~ (g_pfk g = None /\ g_password g = None) /\ forall e, key_given L e g (cell h c)
  end ->
  (exists r, r <> Ok tt /\ load_step L e f h s = End r f [] /\
     forall p key c i, path_of L e (st_path s) p -> key_given L e g key -> f p = Some c -> reads key c i ->
       ~ can_read e) \/
  (can_read e /\ exists h' s' p key c i, load_step L e f h s = Go f h' s' /\ path_of L e (st_path s) p /\ key_given L e g key /\
     f p = Some c /\ reads key c i /\ ready p key h' s' /\ ready_salt salt h' s' /\
     st_inst s' = merge_inst new_arrays i fresh_inst).
Proof.
  intros HL SI SO FI SG RS PK. unfold load_step, load.
  destruct (len (st_path s) =? 0) eqn:E0.
  { left. exists (Err ErrNoPersistence). split; [discriminate|]. split; [reflexivity|]. intros p key c i P.
    apply path_of_nonempty in P. destruct (st_path s); [congruence|]. unfold len in E0. cbn [length] in E0. lia. }
  assert (st_path s <> []) as NE by (intros Q; rewrite Q in E0; discriminate).
  destruct (resolve L e (st_path s)) as [p|] eqn:ER.
  2:{ left. exists (Err ErrIO). split; [discriminate|]. split; [reflexivity|]. intros p key c i P.
      apply path_of_resolve in P; [congruence|exact NE]. }
  apply path_of_resolve in ER; [|exact NE]. cbv zeta.
  destruct (e_stat_err e) eqn:ES.
  { left. exists (Err ErrIO). split; [discriminate|]. split; [reflexivity|]. intros p' key c i _ _ _ _ (X & _). congruence. }
  destruct (f p) as [c|] eqn:EF.
  2:{ left. exists (Err ErrFileMissing). split; [discriminate|]. split; [reflexivity|]. intros p' key c i P _ F.
      rewrite (path_of_fun _ _ _ _ P ER) in F. congruence. }
  (* the key *)
  assert ((exists r, r <> Ok tt /\ (exists s2 h2, obtain_key L e h (set_path s p) = (r, s2, h2)) /\ forall key, ~ key_given L e g key) \/
    exists s2 h2 key q, obtain_key L e h (set_path s p) = (Ok tt, s2, h2) /\ key_given L e g key /\
      same_else (set_path s p) s2 /\ ready_salt salt h2 s2 /\ st_pfk s2 = Some q /\ (q < length h2)%nat /\ cell h2 q = key) as OB.
  { unfold obtain_key. cbn [st_pfk set_path st_inter]. destruct (st_pfk s) as [q|] eqn:EP.
    - right. destruct PK as (A & _ & B). exists (set_path s p), h, (cell h q), q. split; [reflexivity|].
      split; [apply B|]. split; [unfold same_else; tauto|]. split; [exact RS|]. split; [exact EP|]. tauto.
    - destruct PK as (A & B). rewrite SI. cbn [andb]. destruct (e_term e) eqn:ET.
      + destruct (e_password e) as [w|] eqn:EW.
        * right. unfold derive_pfk. cbn [st_salt set_path]. destruct RS as (q & Q1 & Q2 & Q3). rewrite Q1, Q3.
          pose proof (salt_given_len _ _ SG). replace (len salt <? 32) with false by lia. cbn [alloc].
          exists (set_pfk (set_path s p) (Some (length h))), (h ++ [kdf L w salt]), (kdf L w salt), (length h).
          split; [reflexivity|]. split.
          { exists salt. rewrite A, B. split; [exact SG|]. split; [exact ET|]. exists w. tauto. }
          split; [unfold same_else; cbn; tauto|]. split.
          { exists q. split; [exact Q1|]. destruct (cell_app h [kdf L w salt] q Q2) as (A1 & A2). split; [exact A1|congruence]. }
          split; [reflexivity|]. apply cell_last.
        * left. exists (Err ErrPasswordInput). split; [discriminate|]. split; [eauto|].
          intros key (sl & _ & X). rewrite A, B in X. destruct X as (_ & w & X & _). congruence.
      + left. exists (Err ErrNilPFK). split; [discriminate|]. split; [eauto|].
        intros key (sl & _ & X). rewrite A, B in X. destruct X as (X & _). congruence. }
  destruct OB as [(r & NR & (s2 & h2 & ->) & NK)|(s2 & h2 & key & q & -> & KG & SE & RS2 & Q1 & Q2 & Q3)].
  { left. exists r. split; [exact NR|]. split; [destruct r as [[]| | |]; [contradiction|reflexivity..]|].
    intros p' key c' i _ K. exfalso. exact (NK key K). }
  destruct (e_open e) eqn:EO; cbn [negb].
  2:{ left. exists (Err ErrIO). split; [discriminate|]. split; [reflexivity|]. intros p' key' c' i _ _ _ _ (_ & X). congruence. }
  unfold pfk_bytes. rewrite Q1, Q3. pose proof (key_given_len _ _ _ HL KG) as LK. unfold array32.
  replace (len key <? 32) with false by lia.
  destruct (unseal L (firstn 32 key) c) as [b|] eqn:EU.
  2:{ left. exists (Err ErrDecrypt). split; [discriminate|]. split; [reflexivity|]. intros p' key' c' i P K F (b & X & _).
      rewrite (path_of_fun _ _ _ _ P ER) in F. rewrite (key_given_fun _ _ _ _ K KG) in X. congruence. }
  destruct (decode L b) as [i|] eqn:ED.
  2:{ left. exists (Err ErrDecrypt). split; [discriminate|]. split; [reflexivity|]. intros p' key' c' i P K F (b' & X & Y).
      rewrite (path_of_fun _ _ _ _ P ER) in F. rewrite (key_given_fun _ _ _ _ K KG) in X. congruence. }
  right. split; [split; assumption|]. destruct SE as (S1 & S2 & S3 & S4 & S5). cbn [set_path st_path st_over st_inter st_overkeys st_inst] in *.
  do 2 eexists. exists p, key, c, i. split; [reflexivity|]. split; [exact ER|]. split; [exact KG|]. split; [exact EF|].
  split; [exists b; tauto|]. split.
  { unfold ready. cbn [set_over set_inst st_path st_over st_inter st_overkeys st_pfk].
    split; [exact S1|]. split; [reflexivity|]. split; [congruence|]. split; [congruence|].
    split; [exact LK|]. exists q. tauto. }
  split; [exact RS2|]. cbn [set_over set_inst st_inst]. rewrite S5, FI. reflexivity.
Qed.

Lemma new_plain h file b : new_station U h [WithPersistence file; WithInteractive b] =
  (mkSt file None (Some (length h)) false b false fresh_inst, h ++ [default_salt]).
Proof. reflexivity. Qed.
Lemma default_ready h s : st_salt s = Some (length h) -> ready_salt default_salt (h ++ [default_salt]) s.
Proof. intros H. exists (length h). split; [exact H|]. apply cell_last. Qed.

Lemma open_spec g e file f h : lib_ok L ->
  (exists r, r <> Ok tt /\ open_file L U g e file f h = End r f [] /\
     forall p key c i, path_of L e file p -> key_given L e g key -> f p = Some c -> reads key c i -> ~ can_read e) \/
  (can_read e /\ exists h' s' p key c i salt, open_file L U g e file f h = Go f h' s' /\ path_of L e file p /\ key_given L e g key /\
     f p = Some c /\ reads key c i /\ ready p key h' s' /\ salt_given g salt /\ ready_salt salt h' s' /\
     st_inst s' = merge_inst new_arrays i fresh_inst).
Proof.
  intros HL. unfold open_file. rewrite new_plain.
  set (s0 := mkSt file None (Some (length h)) false true false fresh_inst).
  destruct (ssp_spec g f (h ++ [default_salt]) s0 eq_refl (default_ready h s0 eq_refl))
    as [(r & N & -> & NK)|(h1 & s1 & salt & -> & (S1 & S2 & S3 & S4 & S5) & SG & RS & PK)].
  { left. exists r. split; [exact N|]. split; [reflexivity|]. intros p key c i _ K. exfalso. exact (NK _ _ K). }
  cbn [andthen Go]. cbn [s0 st_path st_over st_inter st_overkeys st_inst] in *.
  destruct (load_spec g e f h1 s1 salt HL S3 S4 S5 SG RS PK)
    as [(r & N & -> & NK)|(CR & h2 & s2 & p & key & c & i & -> & A1 & A2 & A3 & A4 & A5 & A6 & A7)]; rewrite S1 in *.
  - left. exists r. split; [exact N|]. split; [reflexivity|]. exact NK.
  - right. split; [exact CR|]. exists h2, s2, p, key, c, i, salt. split; [reflexivity|].
    split; [exact A1|]. split; [exact A2|]. split; [exact A3|]. split; [exact A4|]. split; [exact A5|].
    split; [exact SG|]. split; [exact A6|exact A7].
Qed.

Lemma stored_reads f p key i : lib_ok L -> stored L f p key i -> exists c, f p = Some c /\ reads key c i.
Proof.
  intros (D & S & _) (n & F). eexists. split; [exact F|]. exists (encode L i). split; [apply S|apply D].
Qed.
Lemma reads_stored f p key key2 i c i2 : lib_ok L -> stored L f p key i -> f p = Some c -> len key = 32 -> len key2 = 32 ->
  reads key2 c i2 -> key2 = key /\ i2 = i.
Proof.
  intros (D & S & W & _) (n & F) F2 L1 L2 (b & X & Y). assert (c = complete_file L key n i) by congruence. subst c.
  unfold complete_file in X.
  assert (firstn 32 key = key) as E1 by (apply firstn_all2; unfold len in L1; lia).
  assert (firstn 32 key2 = key2) as E2 by (apply firstn_all2; unfold len in L2; lia).
  rewrite E1, E2 in X. destruct (list_eq_dec Z.eq_dec key key2) as [E|E].
  - subst key2. split; [reflexivity|]. rewrite S in X. injection X as <-. rewrite D in Y. congruence.
  - rewrite (W key key2 n _ L1 L2 E) in X. discriminate.
Qed.
Lemma merge_fresh_inst i : no_zero_setting i -> merge_inst new_arrays i fresh_inst = i.
Proof. intros H. apply merge_fresh; [reflexivity|reflexivity|right; reflexivity|exact H]. Qed.

(** Opening a stored file: with its key the store is there, otherwise an error. *)
Lemma open_stored g e file f h p key i : lib_ok L -> no_zero_setting i -> path_of L e file p -> len key = 32 ->
  stored L f p key i ->
  (exists r, r <> Ok tt /\ open_file L U g e file f h = End r f [] /\ ~ (key_given L e g key /\ can_read e)) \/
  (key_given L e g key /\ can_read e /\ exists h' s' salt, open_file L U g e file f h = Go f h' s' /\ ready p key h' s' /\
     salt_given g salt /\ ready_salt salt h' s' /\ st_inst s' = i).
Proof.
  intros HL NZ PO LK ST.
  destruct (open_spec g e file f h HL) as [(r & N & O & NO)|(CR & h1 & s1 & p1 & key1 & c & i1 & salt & O & P1 & K1 & F1 & R1 & RD & SG & RS & I1)].
  - left. exists r. split; [exact N|]. split; [exact O|]. intros (K & C).
    destruct (stored_reads _ _ _ _ HL ST) as (c & F & R). exact (NO p key c i PO K F R C).
  - rewrite (path_of_fun _ _ _ _ P1 PO) in *. pose proof (key_given_len _ _ _ HL K1) as L1.
    destruct (reads_stored _ _ _ _ _ _ _ HL ST F1 LK L1 R1) as (-> & ->).
    right. split; [exact K1|]. split; [exact CR|]. exists h1, s1, salt. split; [exact O|]. split; [exact RD|].
    split; [exact SG|]. split; [exact RS|]. rewrite I1. apply merge_fresh_inst, NZ.
Qed.
End Run.
