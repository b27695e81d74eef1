(** Lemmas about hexadecimal strings and the setters of PFK and salt. *)
From Verif Require Import Base Model_Unicode Model_Functions Model_Crand Model_Types Model_Station Model_Persist Spec_Persist.

Lemma hex_value_some c v : hex_value c = Some v ->
  hex_digit c /\ 0 <= v <= 15 /\ hex_digit_of v = hex_lower c.
Proof.
  unfold hex_value, hex_digit, hex_digit_of, hex_lower. intros H.
  destruct ((48 <=? c) && (c <=? 57)) eqn:A.
  { injection H as <-. replace (c - 48 <? 10) with true by lia.
    replace ((65 <=? c) && (c <=? 90)) with false by lia. lia. }
  destruct ((97 <=? c) && (c <=? 102)) eqn:B.
  { injection H as <-. replace (c - 87 <? 10) with false by lia.
    replace ((65 <=? c) && (c <=? 90)) with false by lia. lia. }
  destruct ((65 <=? c) && (c <=? 70)) eqn:C; [|discriminate].
  injection H as <-. replace (c - 55 <? 10) with false by lia.
  replace ((65 <=? c) && (c <=? 90)) with true by lia. lia.
Qed.
Lemma hex_value_digit c : hex_digit c -> exists v, hex_value c = Some v.
Proof.
  unfold hex_digit, hex_value. intros H.
  destruct ((48 <=? c) && (c <=? 57)) eqn:A; [eauto|].
  destruct ((97 <=? c) && (c <=? 102)) eqn:B; [eauto|].
  destruct ((65 <=? c) && (c <=? 70)) eqn:C; [eauto|]. lia.
Qed.

Lemma pair_ind {A} (P : list A -> Prop) : P [] -> (forall a, P [a]) ->
  (forall a b s, P s -> P (a :: b :: s)) -> forall s, P s.
Proof.
  intros H0 H1 H2. assert (forall s, P s /\ forall a, P (a :: s)) as H.
  { induction s as [|x s (IH & IHc)]; split; auto. }
  intros s. apply H.
Qed.

Lemma hex_decode_some s : forall b, hex_decode s = Some b ->
  Forall hex_digit s /\ len s = 2 * len b /\ Forall byte b /\ hex_encode b = map hex_lower s.
Proof.
  induction s as [|a|x y s IH] using pair_ind; intros b H.
  - injection H as <-. repeat split; auto.
  - discriminate.
  - cbn [hex_decode] in H. destruct (hex_value x) as [v|] eqn:V; [|discriminate].
    destruct (hex_value y) as [w|] eqn:W; [|discriminate].
    destruct (hex_decode s) as [r|] eqn:R; [|discriminate].
    assert (b = 16 * v + w :: r) as -> by congruence. clear H.
    destruct (IH r eq_refl) as (D & E & B & N).
    destruct (hex_value_some _ _ V) as (D1 & R1 & N1). destruct (hex_value_some _ _ W) as (D2 & R2 & N2).
    split; [auto|]. split; [unfold len in *; cbn [length]; lia|].
    split; [constructor; [change (byte (16 * v + w)); unfold byte; lia|exact B]|].
    unfold hex_encode in *. cbn [flat_map map app]. rewrite N.
    replace ((16 * v + w) / 16) with v by (apply Z.div_unique with w; lia).
    replace ((16 * v + w) mod 16) with w by (apply Z.mod_unique with v; lia).
    rewrite N1, N2. reflexivity.
Qed.
Lemma hex_decode_ok s : Forall hex_digit s -> Z.Even (len s) -> exists b, hex_decode s = Some b.
Proof.
  induction s as [|a|x y s IH] using pair_ind; intros D (k & E).
  - exists []. reflexivity.
  - unfold len in E. cbn [length] in E. lia.
  - inversion_clear D as [|? ? D1 D']. inversion_clear D' as [|? ? D2 D3].
    destruct (hex_value_digit _ D1) as (v & V). destruct (hex_value_digit _ D2) as (w & W).
    destruct IH as (r & R); [exact D3| |].
    { exists (k - 1). unfold len in *. cbn [length] in E. lia. }
    exists (16 * v + w :: r). cbn [hex_decode]. rewrite V, W, R. reflexivity.
Qed.
Lemma hex_digit_dec c : {hex_digit c} + {~ hex_digit c}.
Proof.
  unfold hex_digit. destruct (Z_le_dec 48 c), (Z_le_dec c 57), (Z_le_dec 97 c), (Z_le_dec c 102),
    (Z_le_dec 65 c), (Z_le_dec c 70); ((left; lia) || (right; lia)).
Qed.

Lemma cell_new h b : cell (h ++ [b]) (length h) = b.
Proof. unfold cell. rewrite app_nth2, Nat.sub_diag by lia. reflexivity. Qed.
Lemma cell_old h b p : (p < length h)%nat -> cell (h ++ [b]) p = cell h p.
Proof. intros H. unfold cell. apply app_nth1. exact H. Qed.

Lemma set_pfk_ok h s x : Forall hex_digit x -> len x = 64 ->
  exists s' h', set_pfk_from_string h s x = (Ok tt, s', h') /\
    get_pfk_string h' s' = map hex_lower x /\
    s' = set_pfk s (st_pfk s') /\ exists b, h' = h ++ [b].
Proof.
  intros D E. destruct (hex_decode_ok x D) as (b & B). { exists 32. exact E. }
  destruct (hex_decode_some _ _ B) as (_ & E2 & _ & N).
  unfold set_pfk_from_string. rewrite B. replace (negb (len b =? 32)) with false by lia.
  unfold alloc. eexists _, _. split; [reflexivity|].
  split. { unfold get_pfk_string. cbn [st_pfk set_pfk]. rewrite cell_new. exact N. }
  split; [reflexivity|eauto].
Qed.
Lemma set_pfk_fail h s x : ~ (Forall hex_digit x /\ len x = 64) ->
  exists err, set_pfk_from_string h s x = (Err err, s, h).
Proof.
  intros H. unfold set_pfk_from_string. destruct (hex_decode x) as [b|] eqn:B; [|eauto].
  destruct (hex_decode_some _ _ B) as (D & E & _). destruct (len b =? 32) eqn:F; [|eexists; reflexivity].
  exfalso. apply H. split; [exact D|lia].
Qed.
Lemma set_salt_ok h s x : Forall hex_digit x -> 64 <= len x -> Z.Even (len x) ->
  exists s' h', set_salt_from_string h s x = (Ok tt, s', h') /\
    get_salt_string h' s' = map hex_lower x /\
    s' = set_salt s (st_salt s') /\ exists b, h' = h ++ [b].
Proof.
  intros D G E. destruct (hex_decode_ok x D E) as (b & B).
  destruct (hex_decode_some _ _ B) as (_ & E2 & _ & N).
  unfold set_salt_from_string. rewrite B. replace (len b <? 32) with false by lia.
  unfold alloc. eexists _, _. split; [reflexivity|].
  split. { unfold get_salt_string. cbn [st_salt set_salt]. rewrite cell_new. exact N. }
  split; [reflexivity|eauto].
Qed.
Lemma set_salt_fail h s x : ~ (Forall hex_digit x /\ 64 <= len x /\ Z.Even (len x)) ->
  exists err, set_salt_from_string h s x = (Err err, s, h).
Proof.
  intros H. unfold set_salt_from_string. destruct (hex_decode x) as [b|] eqn:B; [|eauto].
  destruct (hex_decode_some _ _ B) as (D & E & _). destruct (len b <? 32) eqn:F; [eexists; reflexivity|].
  exfalso. apply H. split; [exact D|]. split; [lia|exists (len b); lia].
Qed.

Lemma hex_encode_digits b : Forall byte b ->
  Forall hex_digit (hex_encode b) /\ len (hex_encode b) = 2 * len b /\
  map hex_lower (hex_encode b) = hex_encode b.
Proof.
  intros H. induction H as [|x b X F IH]; [split; [constructor|split; reflexivity]|]. destruct IH as (D & E & M).
  unfold hex_encode in *. cbn [flat_map app map]. unfold byte in X.
  assert (0 <= x / 16 <= 15) as H by (split; [apply Z.div_pos; lia|apply Z.lt_succ_r, Z.div_lt_upper_bound; lia]).
  assert (0 <= x mod 16 <= 15) as H0 by (pose proof (Z.mod_pos_bound x 16); lia).
  assert (forall v, 0 <= v <= 15 -> hex_digit (hex_digit_of v) /\ hex_lower (hex_digit_of v) = hex_digit_of v) as K.
  { intros v V. unfold hex_digit_of, hex_digit, hex_lower. destruct (v <? 10) eqn:L; (split; [lia|]).
    - replace ((65 <=? v + 48) && (v + 48 <=? 90)) with false by lia. reflexivity.
    - replace ((65 <=? v + 87) && (v + 87 <=? 90)) with false by lia. reflexivity. }
  destruct (K _ H) as (K1 & K2), (K _ H0) as (K3 & K4).
  split; [auto|]. split; [unfold len in *; cbn [length]; lia|]. rewrite K2, K4, M. reflexivity.
Qed.
Lemma generated_lemma t x t' : generate_pfk t = Ok (x, t') \/ generate_salt t = Ok (x, t') ->
  Forall hex_digit x /\ len x = 64 /\ map hex_lower x = x.
Proof.
  unfold generate_pfk, generate_salt, read_bytes. intros H.
  destruct (Nat.leb 32 (length t)) eqn:G; [|destruct H; discriminate].
  assert (x = hex_encode (map (fun w => w mod 256) (firstn 32 t))) as -> by (destruct H as [[=]|[=]]; auto).
  destruct (hex_encode_digits (map (fun w => w mod 256) (firstn 32 t))) as (D & E & M).
  { apply Forall_forall. intros y Y. apply in_map_iff in Y. destruct Y as (w & <- & _).
    unfold byte. pose proof (Z.mod_pos_bound w 256). lia. }
  split; [exact D|]. split; [|exact M]. rewrite E. unfold len. rewrite map_length, firstn_length.
  apply Nat.leb_le in G. lia.
Qed.
