(** C141: which queries find which key, exactly. *)
From Verif Require Import Base Spec Spec_Lookup Spec_Body Model_Unicode Model_Crand Model_Functions Model_Types Model_Cipher Model_Print
  Model_Body Proofs_Body Proofs_Lookup Examples Props_Cipher.

(** A query finds a key if and only if it is the key's ID as [written] allows. *)
Theorem c141_found : forall U, uni_ok U -> u_isspace U 65533 = false -> forall gs ks q j, store_ok gs ks ->
  (get_key U q ks = Some j <-> exists k, nth_error ks j = Some k /\ written U (kid k) q).
Proof. exact found_lemma. Qed.
Print Assumptions c141_found.
(** Marking by ID changes the keys a query finds, and no others. *)
Theorem c141_mark : forall U, uni_ok U -> u_isspace U 65533 = false -> forall gs ks q b, store_ok gs ks ->
  forall ks' r, mark_key_used U q b ks = (ks', r) ->
  (r = Ok tt <-> exists k, In k ks /\ written U (kid k) q) /\
  forall j, (exists k, nth_error ks j = Some k /\ written U (kid k) q /\ nth_error ks' j = Some (set_used k b)) \/
    (nth_error ks' j = nth_error ks j /\ forall k, nth_error ks j = Some k -> ~ written U (kid k) q).
Proof. exact mark_lemma. Qed.
Print Assumptions c141_mark.
(** An empty query, or one with a character that stands for no letter, finds nothing. *)
Theorem c141_nothing : forall U, uni_ok U -> u_isspace U 65533 = false -> forall gs ks q, store_ok gs ks -> 0 < gs ->
  Forall (blank U) q \/ (exists c, In c q /\ ~ blank U c /\ forall u, is_letter u -> ~ stands_for c u) ->
  get_key U q ks = None.
Proof. exact nothing_lemma. Qed.
Print Assumptions c141_nothing.

(** BRAVO is found, with spaces and in small letters, not with a digit in it;
    a shift-out character in front, which is not white space, spoils it. *)
Example c141_nontrivial : store_ok 5 ex_keys /\ written uni_id idB [160; 98; 82; 97; 86; 111; 9] /\
  get_key uni_id [160; 98; 82; 97; 86; 111; 9] ex_keys = Some 1%nat /\
  get_key uni_id [14; 98; 82; 97; 86; 111] ex_keys = None /\ get_key uni_id [98; 82; 97; 86; 48] ex_keys = None.
Proof.
  split; [exact ex_store|].
  assert (W : written uni_id idB [160; 98; 82; 97; 86; 111; 9]).
  { exists [160], [98; 82; 97; 86; 111], [9]. split; [reflexivity|].
    split; [constructor; [left; cbn; tauto|constructor]|]. split; [constructor; [left; cbn; tauto|constructor]|].
    unfold idB. repeat (constructor; [unfold stands_for; lia|]). constructor. }
  split; [exact W|]. split.
  - apply (proj2 (c141_found uni_id ltac:(intros r H _ _; exact H) eq_refl 5 ex_keys [160; 98; 82; 97; 86; 111; 9] 1%nat ex_store)).
    eexists. split; [reflexivity|exact W].
  - split; apply (c141_nothing uni_id ltac:(intros r H _ _; exact H) eq_refl 5 ex_keys _ ex_store ltac:(lia)); right.
    + exists 14. split; [left; reflexivity|]. split.
      * unfold blank, white. cbn [In]. lia.
      * intros u Hu. unfold is_letter in Hu. unfold stands_for. lia.
    + exists 48. split; [do 4 right; left; reflexivity|]. split.
      * unfold blank, white. cbn [In]. lia.
      * intros u Hu. unfold is_letter in Hu. unfold stands_for. lia.
Qed.
(** Dotless i and long s stand for I and S. *)
Example c141_stands : stands_for 305 73 /\ stands_for 383 83 /\ ~ stands_for 305 74 /\ to_upper uni_id 305 = 73 /\ to_upper uni_id 383 = 83.
Proof. unfold stands_for. repeat split; try reflexivity; lia. Qed.
Example c141_mark_nontrivial : exists ks' k, mark_key_used uni_id (32 :: idA) true ex_keys = (ks', Ok tt) /\
  nth_error ks' 0 = Some k /\ kused k = true /\ nth_error ks' 1 = nth_error ex_keys 1.
Proof.
  destruct (mark_key_used uni_id (32 :: idA) true ex_keys) as [ks' r] eqn:E.
  destruct (c141_mark uni_id ltac:(intros x H _ _; exact H) eq_refl 5 ex_keys (32 :: idA) true ex_store ks' r E) as (M & N).
  assert (WA : written uni_id idA (32 :: idA)).
  { exists [32], idA, []. split; [reflexivity|]. split; [constructor; [left; cbn; tauto|constructor]|]. split; [constructor|].
    unfold idA. repeat (constructor; [left; reflexivity|]). constructor. }
  assert (G0 : get_key uni_id (32 :: idA) ex_keys = Some 0%nat) by (vm_compute; reflexivity).
  assert (r = Ok tt) as ->.
  { apply M. exists (ex_key idA 3 40 [callVQ]). split; [left; reflexivity|exact WA]. }
  destruct (N 0%nat) as [(k & K1 & K2 & K3)|(_ & K)].
  - exists ks', (set_used k true). split; [reflexivity|]. split; [exact K3|]. split; [reflexivity|].
    destruct (N 1%nat) as [(k2 & Q1 & Q2 & _)|(Q & _)]; [|exact Q]. exfalso.
    assert (get_key uni_id (32 :: idA) ex_keys = Some 1%nat); [|congruence].
    apply (c141_found uni_id ltac:(intros x H _ _; exact H) eq_refl 5 ex_keys _ 1%nat ex_store). exists k2. split; assumption.
  - exfalso. exact (K (ex_key idA 3 40 [callVQ]) eq_refl WA).
Qed.

(** C138, the text: every character is shown as itself. *)
Theorem c138_text : forall U dtg wrap unbreak lb head gs m, 0 < gs -> mcipher m = [] -> wrap [] = [] ->
  exists text, Forall2 shown_as (mplain m) text /\
    message_string U dtg wrap unbreak lb head gs m = head m ++ part lb TEXT (wrap (unbreak text)).
Proof. exact text_lemma. Qed.
Print Assumptions c138_text.
(** A lone surrogate is shown as U+FFFD, other characters as they are. *)
Example c138_text_nontrivial : Forall2 shown_as [72; 55296; 214] [72; 65533; 214].
Proof.
  constructor; [left; unfold character; lia|]. constructor; [right; unfold character; lia|].
  constructor; [left; unfold character; lia|constructor].
Qed.
