(** C163: reading a message after keys were deleted. *)
From Verif Require Import Base Spec Model_Unicode Model_Crand Model_Functions Model_Types Model_Cipher Model_Keys
  Proofs_Deleted Examples Props_Cipher.

(** A message that can be read needs certain keys, those that reading marks used
    and no others. Whatever keys are deleted: if none of these is among them
    the message is read as before, and marks the same keys used; if one is, the
    message is refused and nothing in the store changes. *)
Theorem c163_deleted : forall U i m t i' m1 t1, 0 < i_groupsize i -> store_ok (i_groupsize i) (i_keys i) ->
  letters (mkeyid m) -> mid m <> [] -> (length (mplain m) <= length t)%nat -> decipher U i m t = (i', m1, Ok tt, t1) ->
  exists needed, In (mkeyid m) needed /\ incl needed (map kid (i_keys i)) /\
    (forall x, nth_error (i_keys i') x =
      option_map (fun k => if in_dec (list_eq_dec Z.eq_dec) (kid k) needed then set_used k true else k) (nth_error (i_keys i) x)) /\
    forall ids ks' n, delete_key U (i_keys i) ids = (ks', n) ->
      ((forall a b, In a needed -> In b ids -> ~ same_text (to_upper U) a b) ->
         exists ks1, decipher U (set_keys i ks') m t = (set_keys i ks1, m1, Ok tt, t1) /\
         forall x, nth_error ks1 x =
           option_map (fun k => if in_dec (list_eq_dec Z.eq_dec) (kid k) needed then set_used k true else k) (nth_error ks' x)) /\
      ((exists a b, In a needed /\ In b ids /\ same_text (to_upper U) a b) ->
         exists m' e t2, decipher U (set_keys i ks') m t = (set_keys i ks', m', Err e, t2)).
Proof. exact deleted_keys. Qed.
Print Assumptions c163_deleted.

(** Fifty letters need ALPHA and BRAVO. Without CHARL they are read, without
    BRAVO, here given in small letters, they are not. *)
Definition dl_sent : msg := snd (fst (fst (encipher uni_id (ex_inst ex_keys) (ex_msg (repeat 65 50) []) []))).
Definition dl_got : msg := ex_received (mkeyid dl_sent) (mcipher dl_sent).
Definition dl_bravo : list rune := [98; 114; 97; 118; 111].
Example c163_applied : exists m1, mplain m1 = repeat 65 50 /\
  (exists ks' n ks1 t1, delete_key uni_id ex_keys [idC; idD] = (ks', n) /\ n = 2 /\
     decipher uni_id (ex_inst ks') dl_got [] = (ex_inst ks1, m1, Ok tt, t1) /\ nth_error ks1 1 = Some (set_used (ex_key idB 5 40 [callVQ]) true)) /\
  (exists ks' n m' e t2, delete_key uni_id ex_keys [dl_bravo] = (ks', n) /\ n = 1 /\
     decipher uni_id (ex_inst ks') dl_got [] = (ex_inst ks', m', Err e, t2)).
Proof.
  assert (Q : exists i' m1 t1, decipher uni_id (ex_inst ex_keys) dl_got [] = (i', m1, Ok tt, t1) /\ mplain m1 = repeat 65 50 /\
    map kused (i_keys i') = [true; true; false; false]).
  { do 3 eexists. split; [vm_compute; reflexivity|]. split; vm_compute; reflexivity. }
  destruct Q as (i' & m1 & t1 & D & P & F). exists m1. split; [exact P|].
  destruct (c163_deleted uni_id (ex_inst ex_keys) dl_got [] i' m1 t1 eq_refl ex_store) as (needed & _ & I & M & K).
  - vm_compute. repeat constructor; discriminate.
  - discriminate.
  - apply le_n.
  - exact D.
  - cbn [ex_inst i_keys] in I, M, K.
    assert (G : forall x k, nth_error ex_keys x = Some k -> kused k = false ->
      (In (kid k) needed <-> nth_error (map kused (i_keys i')) x = Some true)).
    { intros x k X V. pose proof (M x) as Y. rewrite X in Y. cbn [option_map] in Y. rewrite (map_nth_error kused _ _ Y).
      destruct (in_dec (list_eq_dec Z.eq_dec) (kid k) needed) as [J|J]; [split; [intros _; reflexivity|intros _; exact J]|].
      rewrite V. split; [intros Z; contradiction|discriminate]. }
    rewrite F in G.
    assert (G1 : In idB needed) by (apply (G 1%nat _ eq_refl eq_refl); reflexivity).
    assert (G2 : ~ In idC needed) by (intros Z; apply (G 2%nat _ eq_refl eq_refl) in Z; discriminate Z).
    assert (G3 : ~ In idD needed) by (intros Z; apply (G 3%nat _ eq_refl eq_refl) in Z; discriminate Z).
    split.
    + destruct (K [idC; idD] [ex_key idA 3 40 [callVQ]; ex_key idB 5 40 [callVQ]] 2) as (A & _); [vm_compute; reflexivity|].
      destruct A as (ks1 & A1 & A2).
      { intros a b Ia Ib S. pose proof (I a Ia) as J. destruct Ib as [<-|[<-|[]]]; destruct J as [<-|[<-|[<-|[<-|[]]]]];
          try (vm_compute in S; discriminate S); contradiction. }
      do 2 eexists. exists ks1, t1. split; [vm_compute; reflexivity|]. split; [reflexivity|]. split; [exact A1|].
      pose proof (A2 1%nat) as B1. rewrite B1. cbn [nth_error option_map].
      destruct (in_dec _ _ needed) as [_|W]; [reflexivity|elim W; exact G1].
    + destruct (K [dl_bravo] [ex_key idA 3 40 [callVQ]; ex_key idD 2 40 []; ex_key idC 11 40 [callVQ]] 1) as (_ & B); [vm_compute; reflexivity|].
      destruct B as (m' & e & t2 & B). { exists idB, dl_bravo. split; [exact G1|]. split; [left; reflexivity|vm_compute; reflexivity]. }
      do 2 eexists. exists m', e, t2. split; [vm_compute; reflexivity|]. split; [reflexivity|]. exact B.
Qed.
