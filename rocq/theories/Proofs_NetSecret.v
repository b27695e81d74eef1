(** Proofs: what is sent in a net tells nothing about the texts. *)
From Verif Require Import Base Spec Spec_Secrecy Model_Unicode Model_Diana Model_Crand Model_Functions Model_Types Model_Cipher Model_Keys Model_Import
  Model_Net Spec_Net Spec_NetSecret Proofs_Diana Proofs_Keys Proofs_Encipher Proofs_Secrecy Proofs_Secrecy2 Proofs_Net.
From Verif Require Proofs_Again.

(** ** Counting, for any way to send *)
Definition at_key (ks : list key) (c : chunk) : Prop := letters (ch_text c) /\
  exists k, nth_error ks (ch_key c) = Some k /\ (length (ch_text c) <= length (krunes k))%nat.
Lemma at_key_length ks ks2 c : refilled ks ks2 -> at_key ks c -> length (chunk_cipher ks2 c) = length (ch_text c).
Proof.
  intros K (L & k & N & LE). unfold chunk_cipher.
  destruct (R_nth ks ks2 (ch_key c) K) as [(X & _)|(k0 & k2 & X & -> & (_ & _ & E))]; [congruence|].
  apply diana_text_length. assert (k0 = k) by congruence. subst. lia.
Qed.
Lemma count_pieces gs ks css cs (out : list key -> list (list rune)) : store_ok gs ks -> NoDup (map ch_key (concat css)) ->
  (forall c, In c (concat css) -> at_key ks c) ->
  (forall ks2, refilled ks ks2 -> out ks2 = map (flat_map (chunk_cipher ks2)) css) ->
  Forall2 (fun ch c => letters c /\ length c = length (flat_map ch_text ch)) css cs ->
  exists l, NoDup l /\ (forall ks2, In ks2 l <-> refilled ks ks2 /\ out ks2 = cs) /\
    Z.of_nat (length l) = 26 ^ (key_letters ks - len (concat cs)) /\ len (concat cs) <= key_letters ks.
Proof.
  intros Hs N P D F2. destruct (cut_all css cs F2) as (ps & M & PO & Q).
  assert (NP : NoDup (map ch_key (map fst ps))) by (rewrite M; exact N).
  assert (PP : forall p, In p ps -> at_key ks (fst p)) by (intros p I; apply P; rewrite <- M; apply in_map; exact I).
  assert (PRE : pre_ok (begins ps) 0 ks).
  { intros x k X. cbn [plus]. destruct (begins_case ps x) as [->|(p & I & <- & ->)]; [split; [constructor|cbn; lia]|].
    split; [apply diana_text_letters|]. destruct (PP p I) as (_ & k' & Y & LE). assert (k' = k) as -> by congruence.
    rewrite Forall_forall in PO. destruct (PO p I) as (_ & LP). rewrite diana_text_length by lia. exact LE. }
  exists (stores (begins ps) 0 ks). split; [apply stores_nodup|]. split.
  - intros ks2. rewrite (stores_spec _ _ _ _ PRE). cbn [plus].
    split; intros (K & B);
      assert (LK : forall c, In c (concat css) -> length (chunk_cipher ks2 c) = length (ch_text c))
        by (intros c I; apply (at_key_length ks); auto);
      (split; [exact K|]); rewrite (D ks2 K) in *.
    + apply (Q _ LK). apply Forall_forall. intros p I. unfold fits, chunk_cipher.
      destruct (PP p I) as (LT & k & X & LE).
      destruct (R_nth ks ks2 (ch_key (fst p)) K) as [(Y & _)|(k0 & k2 & Y & Z & (_ & K2 & K3))]; [congruence|].
      assert (k0 = k) as -> by congruence. rewrite Z. assert (B' := B _ _ Z). rewrite (begins_in ps p NP I) in B'.
      rewrite Forall_forall in PO. destruct (PO p I) as (PL & LP). rewrite diana_text_length in B' by lia.
      apply diana_key; auto; lia.
    + apply (Q _ LK) in B. intros x k2 X.
      destruct (R_nth ks ks2 x K) as [(_ & Y)|(k & k3 & Y & Z & (_ & K2 & K3))]; [congruence|].
      assert (k3 = k2) as -> by congruence.
      destruct (begins_case ps x) as [->|(p & I & <- & ->)]; [reflexivity|].
      rewrite Forall_forall in B, PO. specialize (B p I). destruct (PO p I) as (PL & LP). unfold fits, chunk_cipher in B.
      rewrite X in B. destruct (PP p I) as (LT & k1 & Y1 & LE). assert (k1 = k) as -> by congruence.
      rewrite diana_text_length by lia. apply diana_key; auto; lia.
  - assert (G : given (begins ps) 0 (length ks) = length (concat cs)).
    { rewrite given_begins; [|exact NP| |exact PO].
      - transitivity (length (flat_map ch_text (concat css))).
        + rewrite <- M. clear - PO. induction PO as [|p ps (_ & H) PO IH]; [reflexivity|]. cbn [flat_map map].
          rewrite !app_length. lia.
        + clear - F2. induction F2 as [|ch c css cs (_ & E) F2 IH]; [reflexivity|]. cbn [concat].
          rewrite flat_map_app, !app_length. lia.
      - intros p I. destruct (PP p I) as (_ & k & X & _). apply nth_error_Some. congruence. }
    destruct (stores_length (begins ps) ks 0 PRE) as (S1 & S2). rewrite G in S1, S2. unfold len. auto.
Qed.

(** ** Keys with other letters *)
Section Fill.
Context (U : Uni) (HU : uni_ok U) (gs : Z) (ks : list key) (Sks : store_ok gs ks).

Definition known (k : key) : Prop := exists x, In x ks /\ kid x = kid k /\ krunes x = krunes k.

Lemma find_id l id x : store_ok gs l -> In x l -> kid x = id ->
  find (fun x => if list_eq_dec Z.eq_dec (kid x) id then true else false) l = Some x.
Proof.
  intros S I E. destruct (find (fun x => if list_eq_dec Z.eq_dec (kid x) id then true else false) l) as [y|] eqn:F.
  - apply find_some in F. destruct F as (F1 & F2). destruct (list_eq_dec Z.eq_dec (kid y) id); [|discriminate].
    f_equal. apply (store_same gs l); [exact S|exact F1|exact I|congruence].
  - pose proof (find_none _ _ F x I) as Q. cbv beta in Q. destruct (list_eq_dec Z.eq_dec (kid x) id); [discriminate|contradiction].
Qed.

Section One.
Context (ks2 : list key) (RF : refilled ks ks2).
Let F := with_letters ks2.

Lemma S2 : store_ok gs ks2.
Proof. exact (refilled_store gs ks ks2 Sks RF). Qed.
Lemma known2 k : known k -> exists x y p, nth_error ks p = Some x /\ nth_error ks2 p = Some y /\ other_letters x y /\
  kid x = kid k /\ krunes x = krunes k /\ kid y = kid k /\ F k = with_runes k (krunes y).
Proof.
  intros (x & I & A & B). apply In_nth_error in I. destruct I as (p & I).
  destruct (R_nth ks ks2 p RF) as [(X & _)|(x0 & y & X & Y & O)]; [congruence|]. assert (x0 = x) as -> by congruence.
  destruct (ol_fields x y O) as (Q & _). exists x, y, p. split; [exact X|]. split; [exact Y|]. split; [exact O|]. split; [exact A|]. split; [exact B|].
  split; [congruence|]. unfold F, with_letters. rewrite (find_id ks2 (kid k) y S2 (nth_error_In _ _ Y)); [reflexivity|congruence].
Qed.
Lemma F_other k : known k -> other_letters k (F k).
Proof.
  intros K. destruct (known2 k K) as (x & y & p & _ & _ & (_ & O1 & O2) & _ & B & _ & ->). unfold with_runes. cbn [krunes].
  split; [reflexivity|]. cbn [krunes]. split; [exact O1|]. congruence.
Qed.
Lemma F_id k : kid (F k) = kid k.
Proof. unfold F, with_letters. destruct (find _ ks2); reflexivity. Qed.
Lemma F_used k : kused (F k) = kused k.
Proof. unfold F, with_letters. destruct (find _ ks2); reflexivity. Qed.
Lemma F_set k b : F (set_used k b) = set_used (F k) b.
Proof. unfold F, with_letters. cbn [set_used kid]. destruct (find _ ks2); reflexivity. Qed.
Lemma F_import own from k : F (import_key U own from k) = import_key U own from (F k).
Proof. unfold F, with_letters, import_key. cbn [set_keepers kid]. destruct (find _ ks2); reflexivity. Qed.
Lemma F_refilled l : (forall k, In k l -> known k) -> refilled l (map F l).
Proof.
  intros H. unfold refilled. induction l as [|k l IH]; [constructor|]. cbn [map]. constructor; [apply F_other, H; left; reflexivity|].
  apply IH. intros x I. apply H. right. exact I.
Qed.

Lemma F_filter f l : blind f -> (forall k, In k l -> known k) -> filter f (map F l) = map F (filter f l).
Proof.
  intros B H. induction l as [|k l IH]; [reflexivity|]. cbn [map filter]. rewrite (B k (F k) (F_other k (H k (or_introl eq_refl)))).
  rewrite IH by (intros x I; apply H; right; exact I). destruct (f k); reflexivity.
Qed.
Lemma F_index id l : forall n, index_of (fun k => equal_runes_fold U (Some (kid k)) (Some id)) (map F l) n =
  index_of (fun k => equal_runes_fold U (Some (kid k)) (Some id)) l n.
Proof. induction l as [|k l IH]; intros n; [reflexivity|]. cbn [map index_of]. rewrite F_id, IH. reflexivity. Qed.
Lemma F_update l : forall j k, list_update (map F l) j (F k) = map F (list_update l j k).
Proof. induction l as [|x l IH]; intros [|j] k; cbn [map list_update]; [reflexivity..|]. rewrite IH. reflexivity. Qed.
Lemma F_swap l j : swap_remove (map F l) j = map F (swap_remove l j).
Proof.
  unfold swap_remove. rewrite map_length, nth_error_map. destruct (nth_error l (length l - 1)) as [z|]; [|reflexivity].
  cbn [option_map]. rewrite F_update, firstn_map. reflexivity.
Qed.
Lemma F_delete1 l id : delete_key1 U (map F l) id = (map F (fst (delete_key1 U l id)), snd (delete_key1 U l id)).
Proof. unfold delete_key1. rewrite F_index. destruct (index_of _ l 0); [rewrite F_swap|]; reflexivity. Qed.
Lemma F_delete ids : forall l, delete_key U (map F l) ids = (map F (fst (delete_key U l ids)), snd (delete_key U l ids)).
Proof.
  induction ids as [|id ids IH]; intros l; [reflexivity|]. cbn [delete_key]. rewrite F_delete1.
  destruct (delete_key1 U l id) as [l1 n1]. cbn [fst snd]. rewrite IH. destruct (delete_key U l1 ids). reflexivity.
Qed.
Lemma F_contains id l : contains_key_id U (map F l) id = contains_key_id U l id.
Proof. unfold contains_key_id. induction l as [|k l IH]; [reflexivity|]. cbn [map existsb]. rewrite F_id, IH. reflexivity. Qed.
Lemma F_import_loop g own from ow ask f inc : blind f -> (forall k, In k inc -> known k) -> forall ans l c,
  import_loop U g own from ow ask f (map F inc) ans (map F l) c =
  let '(l', c', e) := import_loop U g own from ow ask f inc ans l c in (map F l', c', e).
Proof.
  intros B. induction inc as [|k inc IH]; intros H ans l c; [reflexivity|]. cbn [map import_loop].
  assert (H' : forall x, In x inc -> known x) by (intros x I; apply H; right; exact I). specialize (IH H').
  rewrite F_id, (B k (F k) (F_other k (H k (or_introl eq_refl)))), F_contains, F_delete. cbn [fst].
  rewrite <- !F_import. change [F (import_key U own from k)] with (map F [import_key U own from k]). rewrite <- !map_app.
  destruct (negb (len (kid k) =? g)); [apply IH|]. destruct (negb (f k)); [apply IH|].
  destruct (contains_key_id U l (kid k)); [|apply IH]. destruct (negb ow && ask).
  - destruct ans as [|[[|]|] ans]; [reflexivity| | |reflexivity]; apply IH.
  - destruct (negb ow); apply IH.
Qed.
Lemma F_newly a : forall b, newly_used (map F a) (map F b) = newly_used a b.
Proof. induction a as [|k a IH]; intros [|k' b]; [reflexivity..|]. cbn [map newly_used]. rewrite !F_used, F_id, IH. reflexivity. Qed.

Definition marking (l : list (list rune)) (k : key) : key :=
  if in_dec (list_eq_dec Z.eq_dec) (kid k) l then set_used k true else k.
Lemma F_marking l ks1 : map (marking l) (map F ks1) = map F (map (marking l) ks1).
Proof.
  rewrite !map_map. apply map_ext. intros k. unfold marking. rewrite F_id.
  destruct (in_dec (list_eq_dec Z.eq_dec) (kid k) l); [rewrite F_set|]; reflexivity.
Qed.
End One.
Lemma marking_map l a b : (forall x, nth_error b x =
    option_map (fun k => if in_dec (list_eq_dec Z.eq_dec) (kid k) l then set_used k true else k) (nth_error a x)) -> b = map (marking l) a.
Proof. intros H. apply nth_error_ext. intros x. rewrite nth_error_map. apply H. Qed.

(** ** A message that is read *)
Definition can_read (i : inst) (e : entry) (m : msg) (t : tape) : bool :=
  match mid m with
  | _ :: _ => true
  | [] => match new_unique_message_id (i_messages i) t with Ok _ => true | _ => false end
  end && forallb (fun id => if in_dec (list_eq_dec Z.eq_dec) id (ids i) then true else false) (en_keys e).
Lemma read_cases n b j i e m t : base gs n -> nth_error (nt_stations n) b = Some i -> nth_error (nt_air n) j = Some e ->
  exists i' m' r t', decipher U i (received m e) t = (i', m', r, t') /\
    if can_read i e m t then r = Ok tt /\ i' = set_keys i (map (marking (en_keys e)) (i_keys i)) else r <> Ok tt /\ i' = i.
Proof.
  intros B N A. pose proof (nth_error_In _ _ A) as IA.
  destruct (decipher U i (received m e) t) as [[[i' m'] r] t'] eqn:D. exists i', m', r, t'. split; [reflexivity|].
  assert (FAIL : r <> Ok tt -> i' = i) by exact (dec_fails U i (received m e) t i' m' r t' D).
  assert (Q : (match mid m with
  | _ :: _ => true
  | [] => match new_unique_message_id (i_messages i) t with Ok _ => true | _ => false end
  end = true /\ exists m1 t1, mid m1 <> [] /\ mkeyid m1 = en_keyid e /\ mcipher m1 = en_cipher e /\ mplain m1 = [] /\ decipher U i m1 t1 = (i', m', r, t')) \/
  (match mid m with
  | _ :: _ => true
  | [] => match new_unique_message_id (i_messages i) t with Ok _ => true | _ => false end
  end = false /\ r = Panic)).
  { destruct (mid m) as [|c s] eqn:M.
    - rewrite (Proofs_Again.noid_decipher U i (received m e) t M) in D.
      destruct (new_unique_message_id (i_messages i) t) as [[id t1]|x| |] eqn:E; [left|right; split; congruence..].
      split; [reflexivity|]. exists (set_mid (received m e) id), t1. split; [exact (Proofs_Again.new_id_has _ _ _ _ _ E)|]. auto.
    - left. split; [reflexivity|]. exists (received m e), t. split; [cbn [received set_mplain set_mcipher set_mkeyid mid]; rewrite M; discriminate|]. auto. }
  unfold can_read. destruct Q as [(-> & m1 & t1 & M0 & M1 & M2 & M3 & E)|(-> & ->)].
  2:{ cbn [andb]. split; [discriminate|]. apply FAIL. discriminate. }
  cbn [andb]. assert (L : (length (mplain m1) <= length t1)%nat) by (rewrite M3; cbn [length]; lia).
  destruct (forallb _ (en_keys e)) eqn:FB.
  - assert (H : forall id, In id (en_keys e) -> In id (ids i)).
    { intros id I. rewrite forallb_forall in FB. specialize (FB id I). destruct (in_dec (list_eq_dec Z.eq_dec) id (ids i)); [assumption|discriminate]. }
    destruct (entry_held U gs n e b i m1 t1 B IA N M1 M2 M0 L H) as (i2 & t2 & E2 & S & G). assert (i2 = i' /\ r = Ok tt) as (-> & ->) by (split; congruence).
    split; [reflexivity|]. rewrite S. f_equal. exact (marking_map _ _ _ G).
  - assert (NO : r <> Ok tt); [|split; [exact NO|exact (FAIL NO)]]. intros ->.
    assert (X : forallb (fun id => if in_dec (list_eq_dec Z.eq_dec) id (ids i) then true else false) (en_keys e) = true); [|congruence].
    apply forallb_forall. intros id I. pose proof (entry_lacking U gs n e b i m1 t1 i' m' t' B IA N M1 M2 M0 L E id I) as J.
    destruct (in_dec (list_eq_dec Z.eq_dec) id (ids i)); [reflexivity|contradiction].
Qed.

(** ** Chunks of a message, by the key of the net *)
Definition moves (i : inst) (c c' : chunk) : Prop := exists k x, nth_error (i_keys i) (ch_key c) = Some k /\ nth_error ks (ch_key c') = Some x /\
  kid x = kid k /\ krunes x = krunes k /\ ch_text c' = ch_text c.
Lemma moves_all i cs : (forall k, In k (i_keys i) -> known k) -> (forall c, In c cs -> part_ok (i_keys i) c) -> exists cs', Forall2 (moves i) cs cs'.
Proof.
  intros H. induction cs as [|c cs IH]; intros P; [exists []; constructor|].
  destruct IH as (cs' & F2); [intros x I; apply P; right; exact I|]. destruct (P c (or_introl eq_refl)) as (_ & k & N & _).
  destruct (H k (nth_error_In _ _ N)) as (x & I & E1 & E2). apply In_nth_error in I. destruct I as (p & I).
  exists (mkChunk (ch_text c) p :: cs'). constructor; [|exact F2]. exists k, x. auto 6.
Qed.
Lemma moves_cipher i cs cs' : Forall2 (moves i) cs cs' -> flat_map (chunk_cipher (i_keys i)) cs = flat_map (chunk_cipher ks) cs'.
Proof.
  induction 1 as [|c c' cs cs' (k & x & A & B & C & D & E) F2 IH]; [reflexivity|]. cbn [flat_map]. rewrite IH. f_equal.
  unfold chunk_cipher. rewrite A, B, D, E. reflexivity.
Qed.
Lemma moves_cipher2 ks2 i cs cs' : refilled ks ks2 -> Forall2 (moves i) cs cs' ->
  flat_map (chunk_cipher (map (with_letters ks2) (i_keys i))) cs = flat_map (chunk_cipher ks2) cs'.
Proof.
  intros RF. induction 1 as [|c c' cs cs' (k & x & A & B & C & D & E) F2 IH]; [reflexivity|]. cbn [flat_map]. rewrite IH. f_equal.
  unfold chunk_cipher. rewrite nth_error_map, A, E. cbn [option_map].
  assert (K : known k) by (exists x; split; [exact (nth_error_In _ _ B)|auto]).
  destruct (known2 ks2 RF k K) as (x' & y & p & P1 & P2 & P3 & P4 & P5 & P6 & ->).
  assert (p = ch_key c') as -> by (apply (store_ok_index gs ks p (ch_key c') x' x Sks P1 B); congruence).
  rewrite P2. reflexivity.
Qed.
Lemma moves_nodup i cs cs' : store_ok gs (i_keys i) -> Forall2 (moves i) cs cs' -> NoDup (map ch_key cs) -> NoDup (map ch_key cs').
Proof.
  intros S. induction 1 as [|c c' cs cs' (k & x & A & B & C & D & E) F2 IH]; intros N; [constructor|].
  cbn [map] in N |- *. inversion N as [|? ? N1 N2]; subst. constructor; [|apply IH, N2].
  intros I. apply N1. clear - S F2 A B C I Sks. induction F2 as [|d d' cs cs' (k1 & x1 & A1 & B1 & C1 & D1 & E1) F2 IH]; [destruct I|].
  cbn [map] in I |- *. destruct I as [I|I]; [left|right; apply IH, I]. assert (x1 = x) as -> by congruence.
  apply (store_ok_index gs (i_keys i) _ _ k1 k S A1 A). congruence.
Qed.
Lemma moves_at i cs cs' : Forall2 (moves i) cs cs' -> (forall c, In c cs -> part_ok (i_keys i) c) ->
  forall c', In c' cs' -> at_key ks c' /\ exists c k x, In c cs /\ nth_error (i_keys i) (ch_key c) = Some k /\ nth_error ks (ch_key c') = Some x /\ kid x = kid k.
Proof.
  induction 1 as [|c c' cs cs' (k & x & A & B & C & D & E) F2 IH]; intros P d' I; [destruct I|]. destruct I as [<-|I].
  - destruct (P c (or_introl eq_refl)) as (L & k0 & N & _ & LE). split.
    + split; [rewrite E; exact L|]. exists x. split; [exact B|]. rewrite E, D. assert (k0 = k) as -> by congruence. exact LE.
    + exists c, k, x. split; [left; reflexivity|]. auto.
  - destruct (IH (fun y J => P y (or_intror J)) d' I) as (Q1 & c0 & k0 & x0 & Q2 & Q3). split; [exact Q1|]. exists c0, k0, x0. split; [right; exact Q2|exact Q3].
Qed.

(** ** The net and the net with other letters *)
Definition pair_ok (p : entry * list chunk) : Prop :=
  en_cipher (fst p) = flat_map (chunk_cipher ks) (snd p) /\ NoDup (map ch_key (snd p)) /\
  forall c, In c (snd p) -> at_key ks c /\ exists k, nth_error ks (ch_key c) = Some k /\ In (kid k) (en_keys (fst p)).
Definition resend (ks2 : list key) (p : entry * list chunk) : entry :=
  mkEntry (en_text (fst p)) (en_keyid (fst p)) (flat_map (chunk_cipher ks2) (snd p)) (en_keys (fst p)).
Definition inv (n : net) (h : list (entry * list chunk)) : Prop :=
  base gs n /\ caught n /\ (forall k, key_somewhere n k -> known k) /\ nt_air n = map fst h /\ (forall p, In p h -> pair_ok p).
Definition sim (ks2 : list key) (h : list (entry * list chunk)) (n n2 : net) : Prop :=
  base gs n2 /\ nt_stations n2 = map (with_keys ks2) (nt_stations n) /\ nt_files n2 = map (with_keys ks2) (nt_files n) /\
  (forall b, nt_heard n2 b = nt_heard n b) /\ nt_air n2 = map (resend ks2) h.

Lemma update_map {A B} (f : A -> B) l : forall a x, map f (list_update l a x) = list_update (map f l) a (f x).
Proof. induction l as [|y l IH]; intros [|a] x; cbn [map list_update]; [reflexivity..|]. rewrite IH. reflexivity. Qed.

Lemma plain_new n o : plain_op o -> new_ids U n o.
Proof. destruct o; cbn [plain_op new_ids]; auto. Qed.

Lemma known_derived n k' : (forall k, key_somewhere n k -> known k) -> (exists k, key_somewhere n k /\ kid k = kid k' /\ krunes k = krunes k') -> known k'.
Proof. intros H (k & A & B & C). destruct (H k A) as (x & X1 & X2 & X3). exists x. split; [exact X1|]. split; congruence. Qed.

Lemma known_step n o : base gs n -> plain_op o -> (forall k, key_somewhere n k -> known k) -> forall k, key_somewhere (nt_step U n o) k -> known k.
Proof.
  intros B P H. pose proof B as (Hg & ST & FI & AG & EN).
  assert (SET : forall a i i' js, nth_error (nt_stations n) a = Some i ->
    (forall k', In k' (i_keys i') -> exists k, key_somewhere n k /\ kid k = kid k' /\ krunes k = krunes k') ->
    forall k, key_somewhere (hear (set_station n a i') a js) k -> known k).
  { intros a i i' js N Q k K. destruct (key_set n a i i' k N K) as [J|J]; [|exact (H k J)]. exact (known_derived n k H (Q k J)). }
  assert (SELF : forall a i js, nth_error (nt_stations n) a = Some i -> forall k, key_somewhere (hear (set_station n a i) a js) k -> known k).
  { intros a i js N. apply (SET a i i js N). apply (same_but_used_derived n a i _ N), same_but_used_refl. }
  destruct o as [a c now ex kp t|a give|f b take ow ask ans|a l|a m t|b j m t]; cbn [nt_step plain_op] in P |- *.
  - destruct P.
  - destruct (nth_error (nt_stations n) a) as [i|] eqn:N; [|exact H].
    intros k [(y & Y)|(y & I & J)]; [apply H; left; exists y; exact Y|].
    cbn [new_file nt_files] in I. apply in_app_iff in I. destruct I as [I|[<-|[]]]; [apply H; right; exists y; auto|].
    cbn [export_keys i_keys] in J. apply filter_In in J. apply H, (at_some n a). exists i. split; [exact N|apply J].
  - destruct (nth_error (nt_files n) f) as [x|] eqn:NF; [|exact H]. destruct (nth_error (nt_stations n) b) as [i|] eqn:N; [|exact H].
    destruct (import_keys U i ow ask take x ans) as [[i' c] e] eqn:E.
    destruct (imported U gs n b i x ow ask take ans i' c e B N (nth_error_In _ _ NF) E) as (A1 & A2 & A3). exact (SET b i i' _ N A3).
  - destruct (nth_error (nt_stations n) a) as [i|] eqn:N; [|exact H]. destruct (ST a i N) as (_ & _ & S).
    destruct (deleted_keys U gs (i_keys i) l S) as (_ & I). apply (SET a i _ (nt_heard n a) N).
    intros k J. exists k. split; [apply (at_some n a); exists i; split; [exact N|apply I, J]|auto].
  - destruct (nth_error (nt_stations n) a) as [i|] eqn:N; [|exact H]. destruct (ST a i N) as (G & _ & S).
    destruct (encipher U i (set_mcipher m []) t) as [[[i' m'] r] t'] eqn:E.
    assert (FAIL : r <> Ok tt -> forall k, key_somewhere (set_station n a i') k -> known k).
    { intros Q. assert (i' = i) as -> by (apply (Proofs_Encipher.encipher_fail U HU i (set_mcipher m []) t i' m' r t'); [lia|rewrite G; exact S|exact E|exact Q]).
      exact (SELF a i (nt_heard n a) N). }
    destruct r as [[]|e| |]; try (apply FAIL; discriminate).
    destruct (sent_ok U HU gs n a i m t i' m' t' B N E) as (A1 & A2 & _).
    exact (SET a i i' _ N (same_but_used_derived n a i _ N A2)).
  - destruct (nth_error (nt_stations n) b) as [i|] eqn:N; [|exact H]. destruct (nth_error (nt_air n) j) as [e|] eqn:NA; [|exact H].
    change (set_mplain (set_mcipher (set_mkeyid m (en_keyid e)) (en_cipher e)) []) with (received m e).
    destruct (decipher U i (received m e) t) as [[[i' m'] r] t'] eqn:E.
    assert (FAIL : r <> Ok tt -> forall k, key_somewhere (set_station n b i') k -> known k).
    { intros Q. assert (i' = i) as -> by exact (dec_fails U _ _ _ _ _ _ _ E Q). exact (SELF b i (nt_heard n b) N). }
    destruct r as [[]|er| |]; try (apply FAIL; discriminate).
    destruct (read_ok U gs n b j i e m t i' m' t' B N NA E) as (A1 & A2). pose proof (read_same _ _ _ A2) as A3.
    exact (SET b i i' _ N (same_but_used_derived n b i _ N A3)).
Qed.

Lemma sim_nth ks2 h n n2 a : sim ks2 h n n2 -> nth_error (nt_stations n2) a = option_map (with_keys ks2) (nth_error (nt_stations n) a).
Proof. intros (_ & E & _). rewrite E. apply nth_error_map. Qed.
Lemma with_set ks2 i l : with_keys ks2 (set_keys i l) = set_keys (with_keys ks2 i) (map (with_letters ks2) l).
Proof. reflexivity. Qed.
Lemma other_eq k k2 f : other_letters k k2 -> other_letters k f -> krunes k2 = krunes f -> k2 = f.
Proof. intros (A & _) (B & _) E. rewrite A, B, E. reflexivity. Qed.

Lemma sent_same i m t i' m' ks2 : i_groupsize i = gs -> 0 < gs -> store_ok gs (i_keys i) -> (forall k, In k (i_keys i) -> known k) -> mkeyid m = [] ->
  refilled ks ks2 -> forall cs i2 t2,
  marked_used (map ch_key cs) (i_keys i) (i_keys i') ->
  encipher U (set_keys i (map (with_letters ks2) (i_keys i))) m t = (i2, set_mcipher m' (flat_map (chunk_cipher (map (with_letters ks2) (i_keys i))) cs), Ok tt, t2) ->
  R (i_keys i') (i_keys i2) -> same_but_used (i_keys i2) (map (with_letters ks2) (i_keys i)) -> i_keys i2 = map (with_letters ks2) (i_keys i').
Proof.
  intros G Hg S H K RF cs i2 t2 MU E RR SB. apply nth_error_ext. intros x. rewrite nth_error_map.
  destruct (R_nth (i_keys i') (i_keys i2) x RR) as [(-> & ->)|(k' & k2 & X1 & X2 & O)]; [reflexivity|]. rewrite X1, X2. cbn [option_map]. f_equal.
  destruct (same_but_used_nth _ _ x k2 SB X2) as (f & Y1 & Y2). rewrite nth_error_map in Y1.
  rewrite MU in X1. destruct (nth_error (i_keys i) x) as [k|] eqn:X; [|discriminate]. cbn [option_map] in X1, Y1.
  assert (KN : known k) by (apply H; exact (nth_error_In _ _ X)).
  assert (k' = k \/ k' = set_used k true) as Q by (destruct (existsb (Nat.eqb x) (map ch_key cs)); [right|left]; congruence).
  assert (KN' : known k') by (destruct KN as (y & ?); exists y; destruct Q as [->| ->]; assumption).
  apply (other_eq k' k2 _ O (F_other ks2 RF k' KN')).
  apply set_used_fields in Y2. destruct Y2 as (_ & Y2 & _). assert (f = with_letters ks2 k) as -> by congruence.
  assert (krunes (with_letters ks2 k') = krunes (with_letters ks2 k)) as -> by (destruct Q as [->| ->]; [|rewrite F_set]; reflexivity). congruence.
Qed.

Lemma step_sim n h o : inv n h -> plain_op o -> reads_first n o -> exists h', inv (nt_step U n o) h' /\
  forall ks2 n2, refilled ks ks2 -> sim ks2 h n n2 -> sim ks2 h' (nt_step U n o) (nt_step U n2 o).
Proof.
  intros (B & C & KN & AIR & PO) P RD. pose proof B as (Hg & ST & FI & AG & EN).
  pose proof (base_step U HU gs n o B (plain_new n o P)) as B'. pose proof (caught_step U HU gs n o B C (plain_new n o P) RD) as C'.
  pose proof (known_step n o B P KN) as KN'.
  assert (B2 : forall ks2 n2, sim ks2 h n n2 -> base gs (nt_step U n2 o)) by (intros ks2 n2 (Q & _); exact (base_step U HU gs n2 o Q (plain_new n2 o P))).
  assert (KS : forall a i k, nth_error (nt_stations n) a = Some i -> In k (i_keys i) -> known k) by (intros a i k N I; apply KN, (at_some n a); exists i; auto).
  assert (SAME : nt_step U n o = n -> (forall ks2 n2, refilled ks ks2 -> sim ks2 h n n2 -> nt_step U n2 o = n2) -> exists h', inv (nt_step U n o) h' /\
    forall ks2 n2, refilled ks ks2 -> sim ks2 h n n2 -> sim ks2 h' (nt_step U n o) (nt_step U n2 o)).
  { intros Q1 Q2. exists h. split; [rewrite Q1; split; [exact B|]; split; [exact C|]; auto|]. intros ks2 n2 RF S. rewrite Q1, (Q2 ks2 n2 RF S). exact S. }
  (* an operation that changes one station, and no message is sent *)
  assert (SET : forall a i i' js, nth_error (nt_stations n) a = Some i -> nt_step U n o = hear (set_station n a i') a js ->
    (forall ks2 n2, refilled ks ks2 -> sim ks2 h n n2 -> exists js2, js2 = js /\ nt_step U n2 o = hear (set_station n2 a (with_keys ks2 i')) a js2) ->
    exists h', inv (nt_step U n o) h' /\ forall ks2 n2, refilled ks ks2 -> sim ks2 h n n2 -> sim ks2 h' (nt_step U n o) (nt_step U n2 o)).
  { intros a i i' js N Q1 Q2. exists h. split.
    - split; [exact B'|]. split; [exact C'|]. split; [exact KN'|]. rewrite Q1. auto.
    - intros ks2 n2 RF S. split; [exact (B2 ks2 n2 S)|]. destruct (Q2 ks2 n2 RF S) as (js2 & -> & ->). rewrite Q1. destruct S as (_ & S1 & S2' & S3 & S4).
      cbn [hear set_station nt_stations nt_files nt_air nt_heard]. split; [rewrite update_map, S1; reflexivity|]. split; [exact S2'|].
      split; [|exact S4]. intros b. destruct (Nat.eqb b a); [reflexivity|apply S3]. }
  (* the same without a change of what was heard *)
  assert (SET0 : forall a i i', nth_error (nt_stations n) a = Some i -> nt_step U n o = set_station n a i' ->
    (forall ks2 n2, refilled ks ks2 -> sim ks2 h n n2 -> nt_step U n2 o = set_station n2 a (with_keys ks2 i')) ->
    exists h', inv (nt_step U n o) h' /\ forall ks2 n2, refilled ks ks2 -> sim ks2 h n n2 -> sim ks2 h' (nt_step U n o) (nt_step U n2 o)).
  { intros a i i' N Q1 Q2. exists h. split.
    - split; [exact B'|]. split; [exact C'|]. split; [exact KN'|]. rewrite Q1. auto.
    - intros ks2 n2 RF S. split; [exact (B2 ks2 n2 S)|]. rewrite (Q2 ks2 n2 RF S), Q1. destruct S as (_ & S1 & S2' & S3 & S4).
      cbn [set_station nt_stations nt_files nt_air nt_heard]. split; [rewrite update_map, S1; reflexivity|]. auto. }
  destruct o as [a c now ex kp t|a give|f b take ow ask ans|a l|a m t|b j m t]; cbn [plain_op reads_first] in P, RD.
  - destruct P.
  - destruct (nth_error (nt_stations n) a) as [i|] eqn:N.
    2:{ apply SAME; [cbn [nt_step]; rewrite N; reflexivity|]. intros ks2 n2 RF S. cbn [nt_step]. rewrite (sim_nth ks2 h n n2 a S), N. reflexivity. }
    exists h. split.
    + split; [exact B'|]. split; [exact C'|]. split; [exact KN'|]. cbn [nt_step]. rewrite N. auto.
    + intros ks2 n2 RF S. split; [exact (B2 ks2 n2 S)|]. cbn [nt_step]. rewrite (sim_nth ks2 h n n2 a S), N. cbn [option_map].
      destruct S as (_ & S1 & S2' & S3 & S4). cbn [new_file nt_stations nt_files nt_air nt_heard]. split; [exact S1|]. split; [|auto].
      rewrite map_app, S2'. cbn [map]. f_equal. f_equal. unfold export_keys, with_keys, set_keys. cbn [i_groupsize i_keylength i_columns i_keycolumns i_keys i_messages i_callsign].
      f_equal. apply (F_filter ks2 RF give (i_keys i) P). intros k I. exact (KS a i k N I).
  - destruct (nth_error (nt_files n) f) as [x|] eqn:NF.
    2:{ apply SAME; [cbn [nt_step]; rewrite NF; reflexivity|]. intros ks2 n2 RF (_ & _ & S & _). cbn [nt_step]. rewrite S, nth_error_map, NF. reflexivity. }
    destruct (nth_error (nt_stations n) b) as [i|] eqn:N.
    2:{ apply SAME; [cbn [nt_step]; rewrite NF, N; reflexivity|]. intros ks2 n2 RF S. cbn [nt_step]. rewrite (sim_nth ks2 h n n2 b S), N. destruct (nth_error (nt_files n2) f); reflexivity. }
    destruct (import_keys U i ow ask take x ans) as [[i' c] e] eqn:E.
    apply (SET b i i' [] N); [cbn [nt_step]; rewrite NF, N, E; reflexivity|].
    intros ks2 n2 RF S. exists []. split; [reflexivity|]. cbn [nt_step]. rewrite (sim_nth ks2 h n n2 b S), N. destruct S as (_ & _ & S & _). rewrite S, nth_error_map, NF.
    cbn [option_map]. unfold import_keys in E |- *. cbn [with_keys set_keys i_groupsize i_callsign i_keys].
    rewrite (F_import_loop ks2 RF (i_groupsize i) (i_callsign i) (i_callsign x) ow ask take (i_keys x) P).
    2:{ intros k I. apply KN. right. exists x. split; [exact (nth_error_In _ _ NF)|exact I]. }
    destruct (import_loop U (i_groupsize i) (i_callsign i) (i_callsign x) ow ask take (i_keys x) ans (i_keys i) 0) as [[l' c'] e'].
    assert (i' = set_keys i l') as -> by congruence. reflexivity.
  - destruct (nth_error (nt_stations n) a) as [i|] eqn:N.
    2:{ apply SAME; [cbn [nt_step]; rewrite N; reflexivity|]. intros ks2 n2 RF S. cbn [nt_step]. rewrite (sim_nth ks2 h n n2 a S), N. reflexivity. }
    apply (SET0 a i (set_keys i (fst (delete_key U (i_keys i) l))) N); [cbn [nt_step]; rewrite N; reflexivity|].
    intros ks2 n2 RF S. cbn [nt_step]. rewrite (sim_nth ks2 h n n2 a S), N. cbn [option_map]. cbn [with_keys set_keys i_keys]. rewrite F_delete. reflexivity.
  - destruct (nth_error (nt_stations n) a) as [i|] eqn:N.
    2:{ apply SAME; [cbn [nt_step]; rewrite N; reflexivity|]. intros ks2 n2 RF S. cbn [nt_step]. rewrite (sim_nth ks2 h n n2 a S), N. reflexivity. }
    destruct (ST a i N) as (G & _ & S). destruct RD as (R0 & RD).
    assert (Gi : 0 < i_groupsize i) by lia. assert (Si : store_ok (i_groupsize i) (i_keys i)) by (rewrite G; exact S).
    destruct (encipher U i (set_mcipher m []) t) as [[[i' m'] r] t'] eqn:E.
    assert (FAIL : r <> Ok tt -> exists h', inv (nt_step U n (NSend a m t)) h' /\
      forall ks2 n2, refilled ks ks2 -> sim ks2 h n n2 -> sim ks2 h' (nt_step U n (NSend a m t)) (nt_step U n2 (NSend a m t))).
    { intros Q. assert (i' = i) as -> by exact (Proofs_Encipher.encipher_fail U HU i (set_mcipher m []) t i' m' r t' Gi Si E Q).
      apply (SET0 a i i N).
      - cbn [nt_step]. rewrite N, E. destruct r as [[]| | |]; [elim Q; reflexivity|reflexivity..].
      - intros ks2 n2 RF SI. cbn [nt_step]. rewrite (sim_nth ks2 h n n2 a SI), N. cbn [option_map].
        destruct (encipher U (with_keys ks2 i) (set_mcipher m []) t) as [[[i2 m2] r2] t2] eqn:E2.
        assert (RI : refilled (i_keys i) (i_keys (with_keys ks2 i))) by (apply (F_refilled ks2 RF); intros k I; exact (KS a i k N I)).
        pose proof (refilled_store gs _ _ S RI) as SW.
        assert (Q2 : r2 <> Ok tt).
        { intros ->. destruct (encipher_letters U HU (with_keys ks2 i) (set_mcipher m []) t i2 m2 t2) as (cs & _ & _ & _ & _ & Z); [exact Gi| |exact R0|exact E2|].
          - cbn [with_keys set_keys i_groupsize]. rewrite G. exact SW.
          - destruct (Z (i_keys i) (refilled_sym gs _ _ S RI)) as (i3 & t3 & E3 & _).
            replace (set_keys (with_keys ks2 i) (i_keys i)) with i in E3 by (destruct i; reflexivity). rewrite E in E3. apply Q. congruence. }
        assert (i2 = with_keys ks2 i) as ->.
        { apply (Proofs_Encipher.encipher_fail U HU (with_keys ks2 i) (set_mcipher m []) t i2 m2 r2 t2); [exact Gi| |exact E2|exact Q2].
          cbn [with_keys set_keys i_groupsize]. rewrite G. exact SW. }
        destruct r2 as [[]| | |]; [elim Q2; reflexivity|reflexivity..]. }
    destruct r as [[]|e| |]; try (apply FAIL; discriminate). clear FAIL.
    destruct (encipher_letters U HU i (set_mcipher m []) t i' m' t' Gi Si R0 E) as (cs & N1 & N2 & N3 & N4 & N5).
    destruct (moves_all i cs (fun k I => KS a i k N I) N2) as (cs' & MV).
    set (e := mkEntry (mplain m) (mkeyid m') (mcipher m') (mkeyid m' :: newly_used (i_keys i) (i_keys i'))).
    exists (h ++ [(e, cs')]). split.
    + split; [exact B'|]. split; [exact C'|]. split; [exact KN'|]. cbn [nt_step]. rewrite N, E. split.
      * cbn [on_air hear set_station nt_air]. fold e. rewrite map_app, <- AIR. reflexivity.
      * intros p I. apply in_app_iff in I. destruct I as [I|[<-|[]]]; [exact (PO p I)|]. split; [|split].
        -- cbn [fst snd]. unfold e. cbn [en_cipher]. rewrite N3. exact (moves_cipher i cs cs' MV).
        -- exact (moves_nodup i cs cs' S MV N1).
        -- intros c I. destruct (moves_at i cs cs' MV N2 c I) as (Q1 & c0 & k & x & Q2 & Q3 & Q4 & Q5). split; [exact Q1|]. exists x. split; [exact Q4|].
           unfold e. cbn [fst en_keys]. right. rewrite Q5. apply (marked_ids (map ch_key cs) (i_keys i) (i_keys i') N4).
           ++ intros y J. apply in_map_iff in J. destruct J as (d & <- & J). destruct (N2 d J) as (_ & kd & D1 & D2 & _). exists kd. auto.
           ++ exists (ch_key c0), k. split; [apply in_map, Q2|auto].
    + intros ks2 n2 RF SI. split; [exact (B2 ks2 n2 SI)|]. cbn [nt_step]. rewrite (sim_nth ks2 h n n2 a SI), N, E. cbn [option_map].
      assert (RI : refilled (i_keys i) (map (with_letters ks2) (i_keys i))) by (apply (F_refilled ks2 RF); intros k I; exact (KS a i k N I)).
      destruct (N5 _ RI) as (i2 & t2 & E2 & X1 & X2).
      pose proof (sent_same i (set_mcipher m []) t i' m' ks2 G Hg S (fun k I => KS a i k N I) R0 RF cs i2 t2 N4 E2 X1 X2) as KE.
      change (encipher U (with_keys ks2 i) (set_mcipher m []) t) with (encipher U (set_keys i (map (with_letters ks2) (i_keys i))) (set_mcipher m []) t).
      assert (NW : nth_error (nt_stations n2) a = Some (with_keys ks2 i)) by (rewrite (sim_nth ks2 h n n2 a SI), N; reflexivity).
      destruct (sent_ok U HU gs n2 a (with_keys ks2 i) m t i2 _ t2 (proj1 SI) NW E2) as (I2 & _).
      destruct (sent_ok U HU gs n a i m t i' m' t' B N E) as (I1 & _).
      assert (IW : i2 = with_keys ks2 i') by (rewrite I2, KE, I1; reflexivity).
      rewrite E2. destruct SI as (_ & S1 & S2' & S3 & S4). cbn [on_air hear set_station nt_stations nt_files nt_air nt_heard].
      split; [rewrite update_map, S1, IW; reflexivity|]. split; [exact S2'|]. split.
      * intros b. rewrite S4, AIR, !map_length. destruct (Nat.eqb b a); [rewrite S3; reflexivity|apply S3].
      * rewrite map_app, S4. f_equal. cbn [map]. f_equal. unfold resend, e. cbn [fst snd en_text en_keyid en_keys set_mcipher mkeyid mcipher].
        rewrite (moves_cipher2 ks2 i cs cs' RF MV), IW. cbn [with_keys set_keys i_keys]. rewrite F_newly. reflexivity.
  - destruct (nth_error (nt_stations n) b) as [i|] eqn:N.
    2:{ apply SAME; [cbn [nt_step]; rewrite N; reflexivity|]. intros ks2 n2 RF S. cbn [nt_step]. rewrite (sim_nth ks2 h n n2 b S), N. reflexivity. }
    destruct (nth_error (nt_air n) j) as [e|] eqn:NA.
    2:{ apply SAME; [cbn [nt_step]; rewrite N, NA; reflexivity|]. intros ks2 n2 RF S. cbn [nt_step]. rewrite (sim_nth ks2 h n n2 b S), N. cbn [option_map].
        rewrite AIR, nth_error_map in NA. destruct S as (_ & _ & _ & _ & S). rewrite S, nth_error_map. destruct (nth_error h j); [discriminate|reflexivity]. }
    pose proof NA as NH. rewrite AIR, nth_error_map in NH. destruct (nth_error h j) as [p|] eqn:NP; [|discriminate]. cbn [option_map] in NH.
    assert (e = fst p) as -> by congruence. clear NH.
    destruct (read_cases n b j i (fst p) m t B N NA) as (i' & m' & r & t' & E & Q).
    assert (TW : forall ks2 n2, refilled ks ks2 -> sim ks2 h n n2 ->
      nth_error (nt_stations n2) b = Some (with_keys ks2 i) /\ nth_error (nt_air n2) j = Some (resend ks2 p) /\
      exists i2 m2 r2 t2, decipher U (with_keys ks2 i) (received m (resend ks2 p)) t = (i2, m2, r2, t2) /\
        if can_read i (fst p) m t then r2 = Ok tt /\ i2 = set_keys (with_keys ks2 i) (map (marking (en_keys (fst p))) (map (with_letters ks2) (i_keys i))) else r2 <> Ok tt /\ i2 = with_keys ks2 i).
    { intros ks2 n2 RF S. assert (NW : nth_error (nt_stations n2) b = Some (with_keys ks2 i)) by (rewrite (sim_nth ks2 h n n2 b S), N; reflexivity).
      assert (NB : nth_error (nt_air n2) j = Some (resend ks2 p)) by (destruct S as (_ & _ & _ & _ & S); rewrite S, nth_error_map, NP; reflexivity).
      split; [exact NW|]. split; [exact NB|].
      destruct (read_cases n2 b j (with_keys ks2 i) (resend ks2 p) m t (proj1 S) NW NB) as (i2 & m2 & r2 & t2 & E2 & Q2).
      exists i2, m2, r2, t2. split; [exact E2|].
      replace (can_read (with_keys ks2 i) (resend ks2 p) m t) with (can_read i (fst p) m t) in Q2; [exact Q2|].
      assert (IE : ids (with_keys ks2 i) = ids i).
      { unfold ids. cbn [with_keys set_keys i_keys]. rewrite map_map. apply map_ext. intros k. apply F_id. }
      unfold can_read. rewrite IE. reflexivity. }
    destruct (can_read i (fst p) m t).
    + destruct Q as (-> & ->). apply (SET b i (set_keys i (map (marking (en_keys (fst p))) (i_keys i))) (j :: nt_heard n b) N).
      * cbn [nt_step]. rewrite N, NA. change (set_mplain (set_mcipher (set_mkeyid m (en_keyid (fst p))) (en_cipher (fst p))) []) with (received m (fst p)). rewrite E. reflexivity.
      * intros ks2 n2 RF S. exists (j :: nt_heard n2 b). split; [destruct S as (_ & _ & _ & S & _); rewrite S; reflexivity|].
        destruct (TW ks2 n2 RF S) as (W1 & W2 & i2 & m2 & r2 & t2 & W3 & -> & ->). cbn [nt_step]. rewrite W1, W2.
        change (set_mplain (set_mcipher (set_mkeyid m (en_keyid (resend ks2 p))) (en_cipher (resend ks2 p))) []) with (received m (resend ks2 p)).
        rewrite W3, with_set, F_marking. reflexivity.
    + destruct Q as (Q & ->). apply (SET0 b i i N).
      * cbn [nt_step]. rewrite N, NA. change (set_mplain (set_mcipher (set_mkeyid m (en_keyid (fst p))) (en_cipher (fst p))) []) with (received m (fst p)). rewrite E.
        destruct r as [[]| | |]; [elim Q; reflexivity|reflexivity..].
      * intros ks2 n2 RF S. destruct (TW ks2 n2 RF S) as (W1 & W2 & i2 & m2 & r2 & t2 & W3 & W4 & ->). cbn [nt_step]. rewrite W1, W2.
        change (set_mplain (set_mcipher (set_mkeyid m (en_keyid (resend ks2 p))) (en_cipher (resend ks2 p))) []) with (received m (resend ks2 p)).
        rewrite W3. destruct r2 as [[]| | |]; [elim W4; reflexivity|reflexivity..].
Qed.

Lemma run_sim os : forall n h, inv n h -> Forall plain_op os -> all_along U reads_first n os -> exists h', inv (nt_run U n os) h' /\
  forall ks2 n2, refilled ks ks2 -> sim ks2 h n n2 -> sim ks2 h' (nt_run U n os) (nt_run U n2 os).
Proof.
  induction os as [|o os IH]; intros n h V P A; [exists h; auto|]. cbn [nt_run]. inversion P as [|? ? P1 P2]; subst. destruct A as (A1 & A2).
  destruct (step_sim n h o V P1 A1) as (h1 & V1 & S1). destruct (IH (nt_step U n o) h1 V1 P2 A2) as (h2 & V2 & S2').
  exists h2. split; [exact V2|]. intros ks2 n2 RF S. apply S2'; [exact RF|]. apply S1; assumption.
Qed.

Lemma start_inv n : net_start gs n -> (forall k, key_somewhere n k -> known k) -> inv n [].
Proof.
  intros S K. split; [exact (base_start gs n S)|]. split; [exact (caught_start gs n S)|]. split; [exact K|].
  destruct S as (_ & _ & _ & _ & S & _). split; [exact S|]. intros p [].
Qed.
Lemma filled_some ks2 n k2 : key_somewhere (filled ks2 n) k2 -> exists k, key_somewhere n k /\ k2 = with_letters ks2 k.
Proof.
  intros [(a & i & N & I)|(f & N & I)].
  - cbn [filled nt_stations] in N. rewrite nth_error_map in N. destruct (nth_error (nt_stations n) a) as [i0|] eqn:E; [|discriminate]. cbn [option_map] in N.
    assert (i = with_keys ks2 i0) as -> by congruence. cbn [with_keys set_keys i_keys] in I. apply in_map_iff in I. destruct I as (k & <- & I).
    exists k. split; [left; exists a, i0; auto|reflexivity].
  - cbn [filled nt_files] in N. apply in_map_iff in N. destruct N as (f0 & <- & N). cbn [with_keys set_keys i_keys] in I. apply in_map_iff in I. destruct I as (k & <- & I).
    exists k. split; [right; exists f0; auto|reflexivity].
Qed.
Lemma filled_start ks2 n : refilled ks ks2 -> net_start gs n -> (forall k, key_somewhere n k -> known k) -> net_start gs (filled ks2 n).
Proof.
  intros RF (Hg & ST & FI & AG & A & H) K.
  assert (RW : forall i, (forall k, In k (i_keys i) -> key_somewhere n k) -> store_ok gs (i_keys i) -> store_ok gs (i_keys (with_keys ks2 i))).
  { intros i Q S. apply (refilled_store gs (i_keys i) _ S). apply (F_refilled ks2 RF). intros k I. apply K, Q, I. }
  split; [exact Hg|]. split; [|split; [|split; [|split; [exact A|exact H]]]].
  - intros a i N. cbn [filled nt_stations] in N. rewrite nth_error_map in N. destruct (nth_error (nt_stations n) a) as [i0|] eqn:E; [|discriminate]. cbn [option_map] in N.
    assert (i = with_keys ks2 i0) as -> by congruence. destruct (ST a i0 E) as (S1 & S2' & S3). split; [exact S1|]. split; [exact S2'|].
    apply RW; [|exact S3]. intros k I. apply (at_some n a). exists i0. auto.
  - intros f I. cbn [filled nt_files] in I. apply in_map_iff in I. destruct I as (f0 & <- & I). apply RW; [|exact (FI f0 I)]. intros k J. right. exists f0. auto.
  - intros k1 k2 I1 I2 E. apply filled_some in I1, I2. destruct I1 as (x1 & I1 & ->), I2 as (x2 & I2 & ->). rewrite !F_id in E.
    destruct (known2 ks2 RF x1 (K x1 I1)) as (z1 & y1 & p1 & _ & Y1 & _ & _ & _ & Q1 & ->), (known2 ks2 RF x2 (K x2 I2)) as (z2 & y2 & p2 & _ & Y2 & _ & _ & _ & Q2 & ->).
    cbn [with_runes krunes]. f_equal. apply (store_same gs ks2); [exact (S2 ks2 RF)|exact (nth_error_In _ _ Y1)|exact (nth_error_In _ _ Y2)|congruence].
Qed.
Lemma start_sim ks2 n : refilled ks ks2 -> net_start gs n -> (forall k, key_somewhere n k -> known k) -> sim ks2 [] n (filled ks2 n).
Proof.
  intros RF S K. split; [exact (base_start gs _ (filled_start ks2 n RF S K))|]. split; [reflexivity|]. split; [reflexivity|]. split; [reflexivity|].
  destruct S as (_ & _ & _ & _ & S & _). exact S.
Qed.

Lemma pieces_apart h : (forall p, In p h -> pair_ok p) ->
  (forall j1 j2 e1 e2 id, nth_error (map fst h) j1 = Some e1 -> nth_error (map fst h) j2 = Some e2 -> In id (en_keys e1) -> In id (en_keys e2) -> j1 = j2) ->
  NoDup (map ch_key (concat (map snd h))).
Proof.
  induction h as [|p h IH]; intros P A; [constructor|]. cbn [map concat]. rewrite map_app.
  assert (NH : NoDup (map ch_key (concat (map snd h)))).
  { apply IH; [intros q I; apply P; right; exact I|]. intros j1 j2 e1 e2 id Q1 Q2 I1 I2. specialize (A (S j1) (S j2) e1 e2 id Q1 Q2 I1 I2). lia. }
  destruct (P p (or_introl eq_refl)) as (_ & NP & PP).
  assert (DJ : forall x, In x (map ch_key (snd p)) -> ~ In x (map ch_key (concat (map snd h)))).
  { intros x I J. apply in_map_iff in I, J. destruct I as (c & C1 & C2), J as (d & D1 & D2).
    apply in_concat in D2. destruct D2 as (l & L1 & L2). apply in_map_iff in L1. destruct L1 as (q & <- & Q).
    destruct (PP c C2) as (_ & k & K1 & K2). destruct (P q (or_intror Q)) as (_ & _ & PQ). destruct (PQ d L2) as (_ & k' & K3 & K4).
    assert (k' = k) as -> by congruence. apply In_nth_error in Q. destruct Q as (y & Q).
    specialize (A 0%nat (S y) (fst p) (fst q) (kid k) eq_refl). cbn [map nth_error] in A. rewrite nth_error_map, Q in A. specialize (A eq_refl K2 K4). discriminate. }
  clear - NH NP DJ. induction (map ch_key (snd p)) as [|x l IH]; [exact NH|]. cbn [app]. inversion NP as [|? ? N1 N2]; subst. constructor.
  - intros I. apply in_app_iff in I. destruct I as [I|I]; [contradiction|]. exact (DJ x (or_introl eq_refl) I).
  - apply IH; [exact N2|]. intros y I. apply DJ. right. exact I.
Qed.
End Fill.

Lemma net_secret U gs n os ks : uni_ok U -> net_start gs n -> keys_of_net gs n ks -> Forall plain_op os -> all_along U reads_first n os ->
  (forall ks2, refilled ks ks2 -> Forall2 same_sending (nt_air (nt_run U n os)) (nt_air (nt_run U (filled ks2 n) os))) /\
  forall cs, Forall2 (fun e c => letters c /\ length c = length (en_cipher e)) (nt_air (nt_run U n os)) cs ->
  exists l, NoDup l /\ (forall ks2, In ks2 l <-> refilled ks ks2 /\ map en_cipher (nt_air (nt_run U (filled ks2 n) os)) = cs) /\
    Z.of_nat (length l) = 26 ^ (key_letters ks - len (concat cs)) /\ len (concat cs) <= key_letters ks.
Proof.
  intros HU S (SK & K) P A. destruct (run_sim U HU gs ks SK os n [] (start_inv gs ks n S K) P A) as (h & (_ & C & _ & AIR & PO) & SIM).
  assert (LN : forall ks2 p, refilled ks ks2 -> In p h -> length (flat_map (chunk_cipher ks2) (snd p)) = length (flat_map ch_text (snd p))).
  { intros ks2 p RF I. destruct (PO p I) as (_ & _ & Q). clear - RF Q. induction (snd p) as [|c l IH]; [reflexivity|]. cbn [flat_map]. rewrite !app_length.
    rewrite (at_key_length ks ks2 c RF (proj1 (Q c (or_introl eq_refl)))), IH; [reflexivity|]. intros d D. apply Q. right. exact D. }
  assert (LE : forall p, In p h -> length (en_cipher (fst p)) = length (flat_map ch_text (snd p))).
  { intros p I. destruct (PO p I) as (-> & _). exact (LN ks p (refilled_refl gs ks SK) I). }
  assert (OUT : forall ks2, refilled ks ks2 -> nt_air (nt_run U (filled ks2 n) os) = map (resend ks2) h).
  { intros ks2 RF. destruct (SIM ks2 (filled ks2 n) RF (start_sim gs ks SK ks2 n RF S K)) as (_ & _ & _ & _ & Q). exact Q. }
  split.
  - intros ks2 RF. rewrite (OUT ks2 RF), AIR. clear - LN LE RF. induction h as [|p h IH]; [constructor|]. cbn [map]. constructor.
    + split; [reflexivity|]. split; [reflexivity|]. split; [reflexivity|]. cbn [resend en_cipher]. rewrite (LN ks2 p RF (or_introl eq_refl)). symmetry. apply LE. left. reflexivity.
    + apply IH; intros; [apply LN|apply LE]; auto; right; assumption.
  - intros cs F2. apply (count_pieces gs ks (map snd h) cs); [exact SK| | | |].
    + apply (pieces_apart ks h PO). rewrite <- AIR. exact (proj2 (proj2 C)).
    + intros c I. apply in_concat in I. destruct I as (l & L1 & L2). apply in_map_iff in L1. destruct L1 as (p & <- & I).
      destruct (PO p I) as (_ & _ & Q). apply Q, L2.
    + intros ks2 RF. rewrite (OUT ks2 RF), !map_map. reflexivity.
    + rewrite AIR in F2. clear - F2 LE. revert cs F2. induction h as [|p h IH]; intros cs F2; inversion F2 as [|? c ? cs' (Q1 & Q2) Q3]; subst; [constructor|].
      cbn [map]. constructor; [split; [exact Q1|]; rewrite Q2; apply LE; left; reflexivity|]. apply IH; [intros q I; apply LE; right; exact I|exact Q3].
Qed.

Lemma net_indistinct U gs n ks os os' : uni_ok U -> net_start gs n -> keys_of_net gs n ks ->
  Forall plain_op os -> all_along U reads_first n os -> Forall plain_op os' -> all_along U reads_first n os' ->
  map (fun e => length (en_cipher e)) (nt_air (nt_run U n os)) = map (fun e => length (en_cipher e)) (nt_air (nt_run U n os')) ->
  forall cs, Forall2 (fun e c => letters c /\ length c = length (en_cipher e)) (nt_air (nt_run U n os)) cs ->
  exists l l', NoDup l /\ NoDup l' /\ length l = length l' /\ (0 < length l)%nat /\
    (forall ks2, In ks2 l <-> refilled ks ks2 /\ map en_cipher (nt_air (nt_run U (filled ks2 n) os)) = cs) /\
    (forall ks2, In ks2 l' <-> refilled ks ks2 /\ map en_cipher (nt_air (nt_run U (filled ks2 n) os')) = cs).
Proof.
  intros HU S K P1 A1 P2 A2 E cs F2. destruct (net_secret U gs n os ks HU S K P1 A1) as (_ & Q1), (net_secret U gs n os' ks HU S K P2 A2) as (_ & Q2).
  assert (F2' : Forall2 (fun e c => letters c /\ length c = length (en_cipher e)) (nt_air (nt_run U n os')) cs).
  { clear - E F2. revert E. generalize (nt_air (nt_run U n os')) as h'. induction F2 as [|e c h cs (X & Y) F2 IH]; intros [|e' h'] E; try discriminate; [constructor|].
    cbn [map] in E. assert (length (en_cipher e) = length (en_cipher e') /\ map (fun e => length (en_cipher e)) h = map (fun e => length (en_cipher e)) h') as (E1 & E2) by (split; congruence).
    constructor; [split; [exact X|congruence]|exact (IH h' E2)]. }
  destruct (Q1 cs F2) as (l & N1 & S1 & L1 & B1), (Q2 cs F2') as (l' & N2 & S2 & L2 & _).
  exists l, l'. split; [exact N1|]. split; [exact N2|]. split; [lia|]. split; [|auto].
  assert (0 < 26 ^ (key_letters ks - len (concat cs))) by (apply Z.pow_pos_nonneg; lia). lia.
Qed.
