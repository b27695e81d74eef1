(** Proof about the order of keys after deleting. *)
From Verif Require Import Base Spec Model_Unicode Model_Crand Model_Functions Model_Types Model_Cipher Model_Keys Proofs_Keys Proofs_KeyOps.

Lemma place_lemma : forall U ks id ks' n, delete_key U ks [id] = (ks', n) ->
  (n = 0 /\ ks' = ks /\ forall k, In k ks -> ~ same_text (to_upper U) (kid k) id) \/
  (n = 1 /\ exists a k b, ks = a ++ k :: b /\ same_text (to_upper U) (kid k) id /\
     (forall k', In k' a -> ~ same_text (to_upper U) (kid k') id) /\
     ((b = [] /\ ks' = a) \/ exists b' z, b = b' ++ [z] /\ ks' = a ++ z :: b')).
Proof.
  intros U ks id ks' n H. cbn [delete_key] in H. unfold delete_key1 in H.
  pose proof (index_of_spec _ (fun k => equal_runes_fold U (Some (kid k)) (Some id)) ks 0) as S.
  destruct (index_of _ ks 0) as [j|].
  - right. injection H as <- <-. split; [reflexivity|]. destruct S as (a & k & b & -> & E & F & G). cbn in E. subst j.
    exists a, k, b. split; [reflexivity|]. split; [apply fold_same; exact F|]. split.
    { intros k' I. rewrite Forall_forall in G. apply fold_diff. exact (G k' I). }
    unfold swap_remove. destruct (exists_last (l := k :: b) ltac:(discriminate)) as (c & z & C). rewrite C.
    assert (L : (length (a ++ c ++ [z]) - 1 = length (a ++ c))%nat) by (rewrite !app_length; cbn [length]; lia).
    rewrite L. replace (nth_error (a ++ c ++ [z]) (length (a ++ c))) with (Some z).
    2:{ symmetry. rewrite app_assoc, nth_error_app2, Nat.sub_diag by lia. reflexivity. }
    assert (UP : forall l, list_update (a ++ l) (length a) z = a ++ list_update l 0 z).
    { clear. induction a as [|x a IH]; intros l; [reflexivity|]. cbn [app length list_update]. rewrite IH. reflexivity. }
    rewrite UP. destruct c as [|x c].
    + left. injection C as -> ->. split; [reflexivity|]. cbn [app list_update]. rewrite app_nil_r, firstn_app, firstn_all, Nat.sub_diag. cbn [firstn]. apply app_nil_r.
    + right. cbn [app] in C. injection C as <- ->. exists c, z. split; [reflexivity|]. cbn [app list_update].
      replace (a ++ z :: c ++ [z]) with ((a ++ z :: c) ++ [z]) by (rewrite <- app_assoc; reflexivity).
      replace (length (a ++ k :: c)) with (length (a ++ z :: c)) by (rewrite !app_length; reflexivity).
      rewrite firstn_app, firstn_all, Nat.sub_diag. cbn [firstn]. apply app_nil_r.
  - left. injection H as <- <-. split; [reflexivity|]. split; [reflexivity|]. intros k I. rewrite Forall_forall in S. apply (fold_diff U). exact (S k I).
Qed.
