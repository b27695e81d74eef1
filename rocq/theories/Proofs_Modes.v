(** Lemmas behind C137. *)
From Verif Require Import Base Spec_Modes Model_Types Model_Station Model_Persist Model_Cli Model_Output Model_Modes Spec_Output Proofs_Output.

Lemma perms_keep : forall umask perm xs w q b, w q = Some b -> perms_after umask perm w xs q = Some b.
Proof.
  intros umask perm xs. induction xs as [|x xs IH]; intros w q b H; [exact H|]. apply (IH (open_perms umask perm w x)).
  destruct x as [p|p c]; [|exact H]. cbn [open_perms]. destruct (list_eq_dec Z.eq_dec q p) as [->|]; [rewrite H; reflexivity|exact H].
Qed.
Lemma perms_new : forall umask perm xs w q, w q = None ->
  perms_after umask perm w xs q = None \/ perms_after umask perm w xs q = Some (Z.land perm (Z.lnot umask)).
Proof.
  intros umask perm xs. induction xs as [|x xs IH]; intros w q H; [left; exact H|]. unfold perms_after. cbn [fold_left].
  change (fold_left (open_perms umask perm) xs (open_perms umask perm w x)) with (perms_after umask perm (open_perms umask perm w x) xs).
  destruct x as [p|p c]; [|apply IH; exact H]. destruct (list_eq_dec Z.eq_dec q p) as [->|N].
  - right. apply perms_keep. cbn [open_perms]. destruct (list_eq_dec Z.eq_dec p p); [|congruence]. rewrite H. reflexivity.
  - apply IH. cbn [open_perms]. destruct (list_eq_dec Z.eq_dec q p); [congruence|exact H].
Qed.
Lemma perms_private : forall umask xs w, private_files umask w (perms_after umask 384 w xs).
Proof.
  intros umask xs w q. destruct (w q) as [b|] eqn:E; [apply perms_keep; exact E|].
  destruct (perms_new umask 384 xs w q E) as [H|H]; [left; exact H|]. right. exists (Z.land 384 (Z.lnot umask)). split; [exact H|].
  split; [|split].
  - intros n N. rewrite Z.land_spec. replace (Z.testbit 384 n) with false; [reflexivity|].
    assert (C : n = 0 \/ n = 1 \/ n = 2 \/ n = 3 \/ n = 4 \/ n = 5) by lia.
    destruct C as [->|[->|[->|[->|[->| ->]]]]]; reflexivity.
  - rewrite Z.land_spec, Z.lnot_spec by lia. reflexivity.
  - rewrite Z.land_spec, Z.lnot_spec by lia. reflexivity.
Qed.
Lemma known_open : forall umask perm p f w, known f w -> known (apply_effect f (Truncate p)) (open_perms umask perm w (Truncate p)).
Proof.
  intros umask perm p f w H q. cbn [open_perms]. unfold apply_effect. cbn [target].
  destruct (list_eq_dec Z.eq_dec q p); [split; discriminate|apply H].
Qed.
Lemma known_append : forall umask perm p b f w, known f w -> f p <> None -> known (apply_effect f (Append p b)) (open_perms umask perm w (Append p b)).
Proof.
  intros umask perm p b f w H N q. cbn [open_perms]. unfold apply_effect. cbn [target].
  destruct (list_eq_dec Z.eq_dec q p) as [->|]; [|apply H]. split; intros E; [apply H in E; contradiction|discriminate E].
Qed.
Lemma known_appends : forall umask perm p bs f w, known f w -> f p <> None ->
  known (apply_effects f (map (Append p) bs)) (perms_after umask perm w (map (Append p) bs)).
Proof.
  intros umask perm p bs. induction bs as [|b bs IH]; intros f w H N; [exact H|].
  apply (IH (apply_effect f (Append p b)) (open_perms umask perm w (Append p b))); [apply known_append; assumption|].
  unfold apply_effect. cbn [target]. destruct (list_eq_dec Z.eq_dec p p); [discriminate|congruence].
Qed.
Lemma known_file : forall umask perm p bs f w, known f w ->
  known (apply_effects f (Truncate p :: map (Append p) bs)) (perms_after umask perm w (Truncate p :: map (Append p) bs)).
Proof.
  intros umask perm p bs f w H. apply (known_appends umask perm p bs (apply_effect f (Truncate p)) (open_perms umask perm w (Truncate p))).
  - apply known_open. exact H.
  - unfold apply_effect. cbn [target]. destruct (list_eq_dec Z.eq_dec p p); [discriminate|congruence].
Qed.

Section S.
Context (L : lib) (utf8 : list rune -> list Z) (pdf : list (list rune) -> list Z).
Lemma save_shape : forall e f h s r s' h' xs, save L e f h s = (r, s', h', xs) ->
  xs = [] \/ exists p bs, xs = Truncate p :: map (Append p) bs.
Proof.
  intros e f h s r s' h' xs. unfold save. destruct (len (st_path s) =? 0); [left; congruence|].
  destruct (resolve L e (st_path s)) as [p|]; [|left; congruence]. cbv zeta. destruct (e_stat_err e); [left; congruence|].
  assert (G : forall x, (match obtain_key L e h (set_path s p) with
      | (Ok _, s2, h2) =>
          if negb (e_open e) then (Err ErrIO, s2, h2, [])
          else match array32 (pfk_bytes h2 s2) with
          | None => (Panic, s2, h2, [Truncate p])
          | Some key =>
              let ps := pieces (e_cuts e) (seal L key (e_nonce e) (encode L (st_inst s2))) in
              (if fails_early e ps then Err ErrIO else Ok tt, s2, h2,
               Truncate p :: map (Append p) (written e ps))
          end
      | (Err x, s2, h2) => (Err x, s2, h2, [])
      | (Panic, s2, h2) => (Panic, s2, h2, [])
      | (Diverge, s2, h2) => (Diverge, s2, h2, [])
      end) = x -> snd x = [] \/ exists p bs, snd x = Truncate p :: map (Append p) bs).
  { intros x <-. destruct (obtain_key L e h (set_path s p)) as [[[u|y| |] s2] h2]; try (left; reflexivity).
    destruct (negb (e_open e)); [left; reflexivity|]. destruct (array32 (pfk_bytes h2 s2)) as [key|].
    - right. exists p. eexists. reflexivity.
    - right. exists p, []. reflexivity. }
  destruct (f p) as [c|].
  - destruct (st_over (set_path s p)); [intros E; apply (G (r, s', h', xs)); exact E|].
    destruct (st_inter (set_path s p) && e_term e); [|left; congruence].
    destruct (e_confirm e) as [[|]|]; [intros E; apply (G (r, s', h', xs)); exact E|left; congruence|left; congruence].
  - intros E. apply (G (r, s', h', xs)). exact E.
Qed.
Lemma output_shape : forall e o text pages r xs, output_items utf8 pdf e o text pages = (r, xs) ->
  xs = [] \/ exists p bs, xs = Truncate p :: map (Append p) bs.
Proof.
  intros e o text pages r xs. unfold output_items.
  assert (W : forall p b, write_file e p b = (r, xs) -> xs = [] \/ exists p bs, xs = Truncate p :: map (Append p) bs).
  { intros p b. unfold write_file. destruct (negb (o_open e)); [left; congruence|]. destruct (o_fail e) as [n|]; intros E; right.
    - exists p, [firstn n b]. cbn [map]. congruence.
    - exists p, [b]. cbn [map]. congruence. }
  destruct (len (oo_file o) =? 0); [left; congruence|]. destruct (is_word _ _).
  - destruct (len pages =? 0); [left; congruence|]. apply W.
  - destruct (is_word _ _); [|left; congruence]. destruct (len text =? 0); [left; congruence|]. apply W.
Qed.
Lemma save_private : forall e f h s r s' h' xs umask w, save L e f h s = (r, s', h', xs) -> known f w ->
  private_files umask w (perms_after umask save_perm w xs) /\ known (apply_effects f xs) (perms_after umask save_perm w xs).
Proof.
  intros e f h s r s' h' xs umask w E K. split; [apply perms_private|].
  destruct (save_shape _ _ _ _ _ _ _ _ E) as [->|(p & bs & ->)]; [exact K|apply known_file; exact K].
Qed.
Lemma wanted_type : forall o, text_wanted o -> is_word (output_type o) [w_pdf; w_PDF] = false.
Proof. intros o H. exact (proj1 (kind_pdf o false H)). Qed.
Lemma text_private : forall e o text pages r xs f umask w, output_items utf8 pdf e o text pages = (r, xs) ->
  text_wanted o -> known f w ->
  private_files umask w (perms_after umask (output_perm o) w xs) /\ known (apply_effects f xs) (perms_after umask (output_perm o) w xs).
Proof.
  intros e o text pages r xs f umask w E H K. unfold output_perm. rewrite (wanted_type o H). split; [apply perms_private|].
  destruct (output_shape _ _ _ _ _ _ E) as [->|(p & bs & ->)]; [exact K|apply known_file; exact K].
Qed.
Lemma output_keeps : forall e o text pages r xs f umask w, output_items utf8 pdf e o text pages = (r, xs) -> known f w ->
  (forall q b, w q = Some b -> perms_after umask (output_perm o) w xs q = Some b) /\
  known (apply_effects f xs) (perms_after umask (output_perm o) w xs).
Proof.
  intros e o text pages r xs f umask w E K. split; [intros; apply perms_keep; assumption|].
  destruct (output_shape _ _ _ _ _ _ E) as [->|(p & bs & ->)]; [exact K|apply known_file; exact K].
Qed.
End S.
