(** Lemmas on histories of AddKeeper/RemoveKeeper and AddRecipient/RemoveRecipient. *)
From Verif Require Import Base Spec Model_Unicode Model_Functions Model_Types Model_Keys Model_Messages Spec_Recipients
  Proofs_Keys Proofs_KeyOps Proofs_KeyProps Examples.

Section Calls.
Context (U : Uni).
Let up := to_upper U.

(** One call with one call-sign. *)
Definition edit_keepers (l : list (list rune)) (o : bool * list rune) : list (list rune) :=
  if fst o then add_keeper U l [snd o] else remove_keeper U l [snd o].
Definition edit_recipients (l : list (list rune)) (o : bool * list rune) : list (list rune) :=
  if fst o then add_recipient U l [snd o] else remove_recipient U l [snd o].

Lemma same_dec a b : {same_text up a b} + {~ same_text up a b}.
Proof. unfold same_text. apply list_eq_dec. apply Z.eq_dec. Qed.

Lemma edit_one l o x : distinct_texts up l ->
  distinct_texts up (edit_keepers l o) /\
  (same_text up (snd o) x -> (listed_call up (edit_keepers l o) x <-> fst o = true)) /\
  (~ same_text up (snd o) x -> (listed_call up (edit_keepers l o) x <-> listed_call up l x)).
Proof.
  intros D. destruct o as [[|] c]; unfold edit_keepers; cbn [fst snd].
  - destruct (c22_add_lemma U l [c]) as ((new & E & I) & A & N & _). split; [apply N; exact D|]. split.
    + intros S1. split; [reflexivity|]. intros _. destruct (A c (or_introl eq_refl)) as (y & Iy & Sy).
      exists y. split; [exact Iy|]. unfold up, same_text in *. congruence.
    + intros S1. rewrite E. split; intros (y & Iy & Sy).
      * apply in_app_iff in Iy. destruct Iy as [Iy | Iy]; [exists y; auto|].
        apply I in Iy. destruct Iy as [<- | []]. contradiction.
      * exists y. split; [apply in_app_iff; auto | exact Sy].
  - destruct (c22_remove_lemma U l [c] D) as (D' & M). split; [exact D'|]. split.
    + intros S1. split; [|discriminate]. intros (y & Iy & Sy). apply M in Iy. destruct Iy as (_ & N).
      exfalso. apply (N c (or_introl eq_refl)). unfold up, same_text in *. congruence.
    + intros S1. split; intros (y & Iy & Sy).
      * apply M in Iy. exists y. tauto.
      * exists y. split; [|exact Sy]. apply M. split; [exact Iy|]. intros z [<- | []] C. apply S1.
        unfold up, same_text in *. congruence.
Qed.

Lemma edits l ops : distinct_texts up l ->
  distinct_texts up (fold_left edit_keepers ops l) /\
  forall x, listed_call up (fold_left edit_keepers ops l) x <->
    last_added up ops x \/ untouched up ops x /\ listed_call up l x.
Proof.
  intros D. induction ops as [|o ops IH] using rev_ind.
  - split; [exact D|]. intros x. cbn [fold_left]. split.
    + intros H. right. split; [intros p []|exact H].
    + intros [(b & o & a & E & _) | (_ & H)]; [|exact H]. destruct b; discriminate.
  - destruct IH as (D1 & IH). rewrite fold_left_app. cbn [fold_left].
    set (l1 := fold_left edit_keepers ops l) in *. split; [apply (edit_one l1 o [] D1)|].
    intros x. destruct (edit_one l1 o x D1) as (_ & Y & N). destruct (same_dec (snd o) x) as [S1 | S1].
    + rewrite (Y S1). split.
      * intros T. left. exists ops, (snd o), []. destruct o as [b c]; cbn [fst snd] in *. subst b.
        split; [reflexivity|]. split; [exact S1|]. intros p [].
      * intros [(b & c & a & E & Sc & Na) | (Un & _)].
        -- destruct a as [|p a] using rev_ind.
           ++ apply app_inj_tail in E. destruct E as (_ & ->). reflexivity.
           ++ exfalso. rewrite app_comm_cons, app_assoc in E. apply app_inj_tail in E. destruct E as (_ & ->).
              apply (Na p); [apply in_app_iff; right; left; reflexivity | exact S1].
        -- exfalso. apply (Un o); [apply in_app_iff; right; left; reflexivity | exact S1].
    + rewrite (N S1), IH. split.
      * intros [(b & c & a & E & Sc & Na) | (Un & H)].
        -- left. exists b, c, (a ++ [o]). rewrite E, <- app_assoc. split; [reflexivity|]. split; [exact Sc|].
           intros p I. apply in_app_iff in I. destruct I as [I | [<- | []]]; [apply Na; exact I | exact S1].
        -- right. split; [|exact H]. intros p I. apply in_app_iff in I.
           destruct I as [I | [<- | []]]; [apply Un; exact I | exact S1].
      * intros [(b & c & a & E & Sc & Na) | (Un & H)].
        -- destruct a as [|p a] using rev_ind.
           ++ apply app_inj_tail in E. destruct E as (_ & ->). cbn [snd] in S1. contradiction.
           ++ left. rewrite app_comm_cons, app_assoc in E. apply app_inj_tail in E. destruct E as (-> & ->).
              exists b, c, a. split; [reflexivity|]. split; [exact Sc|]. intros q I. apply Na, in_app_iff. left; exact I.
        -- right. split; [|exact H]. intros q I. apply Un, in_app_iff. left; exact I.
Qed.

Lemma edits_same l ops : fold_left edit_recipients ops l = fold_left edit_keepers ops l.
Proof. reflexivity. Qed.
End Calls.
