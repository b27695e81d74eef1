(** Property C111: keepers and recipients over a history of additions and
    removals. *)
From Verif Require Import Base Spec Model_Unicode Model_Functions Model_Types Model_Keys Model_Messages Spec_Recipients
  Proofs_KeyOps Proofs_KeyProps Proofs_Recipients Examples.

(** ** C111: after any history of calls, exactly those call-signs are in the list
    that were added last, or were there and never concerned. *)
Theorem c111_keepers : forall U l ops, distinct_texts (to_upper U) l ->
  let l' := fold_left (fun l (o : bool * list rune) => if fst o then add_keeper U l [snd o] else remove_keeper U l [snd o]) ops l in
  distinct_texts (to_upper U) l' /\
  forall x, listed_call (to_upper U) l' x <->
    last_added (to_upper U) ops x \/ untouched (to_upper U) ops x /\ listed_call (to_upper U) l x.
Proof. exact edits. Qed.
Print Assumptions c111_keepers.
Theorem c111_recipients : forall U l ops, distinct_texts (to_upper U) l ->
  let l' := fold_left (fun l (o : bool * list rune) => if fst o then add_recipient U l [snd o] else remove_recipient U l [snd o]) ops l in
  distinct_texts (to_upper U) l' /\
  forall x, listed_call (to_upper U) l' x <->
    last_added (to_upper U) ops x \/ untouched (to_upper U) ops x /\ listed_call (to_upper U) l x.
Proof. exact edits. Qed.
Print Assumptions c111_recipients.
(** Several call-signs in one call are as many calls. *)
Theorem c111_one_by_one : forall U l xs,
  add_recipient U l xs = fold_left (fun l x => add_recipient U l [x]) xs l /\
  remove_recipient U l xs = fold_left (fun l x => remove_recipient U l [x]) xs l /\
  add_keeper U l xs = fold_left (fun l x => add_keeper U l [x]) xs l /\
  remove_keeper U l xs = fold_left (fun l x => remove_keeper U l [x]) xs l.
Proof. repeat split; reflexivity. Qed.
Print Assumptions c111_one_by_one.
(** And the list is asked in the same way. *)
Theorem c111_contains : forall U l args, contains_recipient U l args = true <->
  match args with
  | [] => l = []
  | _ => forall x, In x args -> listed_call (to_upper U) l x
  end.
Proof. exact c22_contains_lemma. Qed.
Print Assumptions c111_contains.
(** A list made by the caller with a repeated call-sign keeps one of them. *)
Theorem c111_repeated_refuted : exists l x, listed_call (to_upper uni_id) (remove_recipient uni_id l [x]) x.
Proof. exists [callVQ; callVQ], callVQ, callVQ. split; [vm_compute; left; reflexivity | reflexivity]. Qed.
Print Assumptions c111_repeated_refuted.

Definition er_ops : list (bool * list rune) :=
  [(true, callOS); (false, [118; 113]); (true, [111; 115]); (false, callOS); (true, [66]); (true, callOS)].
Example c111_case : let l' := fold_left (fun l (o : bool * list rune) => if fst o then add_recipient uni_id l [snd o] else remove_recipient uni_id l [snd o])
    er_ops [callVQ; [65]] in
  l' = [[65]; [66]; callOS] /\ distinct_texts (to_upper uni_id) [callVQ; [65]] /\
  listed_call (to_upper uni_id) l' [111; 83] /\ ~ listed_call (to_upper uni_id) l' callVQ.
Proof.
  assert (D : distinct_texts (to_upper uni_id) [callVQ; [65]]).
  { unfold distinct_texts. vm_compute. repeat constructor; cbn; intuition discriminate. }
  destruct (c111_recipients uni_id [callVQ; [65]] er_ops D) as (_ & M).
  split; [vm_compute; reflexivity|]. split; [exact D|]. split.
  - apply M. left. exists (firstn 5 er_ops), callOS, []. split; [reflexivity|]. split; [vm_compute; reflexivity|]. intros p [].
  - intros (y & I & S1). vm_compute in I. destruct I as [<- | [<- | [<- | []]]]; vm_compute in S1; discriminate.
Qed.
