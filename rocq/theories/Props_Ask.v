(** Properties of the dialogues for passwords and of pfk --generate. *)
From Verif Require Import Base Model_Unicode Model_Functions Model_Crand Model_Types Model_Station Model_Persist
  Model_Listing Model_Cli Model_Ask Spec Spec_Persist Spec_Cli Spec_Ask Proofs_Ask Examples Examples_Persist
  Examples_Cli.
From Coq Require Import Ascii String.

(** ** C99: a new password is typed in twice. *)
(** A password comes out of the dialogue exactly if it was accepted and repeated
    after failed attempts only, and nothing more has been read then. *)
Theorem c99_confirmed : forall strong l w rest,
  ask_and_confirm strong l = (Ok w, rest) <-> chosen (fun w => strong w = true) l w rest.
Proof. exact confirm_lemma. Qed.
Print Assumptions c99_confirmed.

(** Otherwise the dialogue ends with the error of the terminal. *)
Theorem c99_otherwise : forall strong l, (exists w rest, chosen (fun w => strong w = true) l w rest) \/
  exists rest, ask_and_confirm strong l = (Err ErrPasswordInput, rest) /\ interrupted l rest.
Proof. exact confirm_otherwise. Qed.
Print Assumptions c99_otherwise.

(** The older dialogue, which wants a minimum length. *)
Theorem c99_old_confirmed : forall m l w rest,
  old_ask_and_confirm m l = (Ok w, rest) <-> chosen (fun w => m <= len w) l w rest.
Proof. exact old_lemma. Qed.
Print Assumptions c99_old_confirmed.

Theorem c99_old_otherwise : forall m l, (exists w rest, chosen (fun w => m <= len w) l w rest) \/
  exists rest, old_ask_and_confirm m l = (Err ErrPasswordInput, rest) /\ interrupted l rest.
Proof. exact old_otherwise. Qed.
Print Assumptions c99_old_otherwise.

Definition ax_strong (w : list Z) : bool := 3 <=? len w.
Definition ax_lines : typed :=
  [Some (str "pw"%string); Some (str "secret"%string); Some (str "secrte"%string);
   Some (str "other"%string); Some (str "other"%string); Some (str "more"%string)].
Example c99_refused_mistyped_confirmed :
  ask_and_confirm ax_strong ax_lines = (Ok (str "other"%string), [Some (str "more"%string)]) /\
  old_ask_and_confirm 3 ax_lines = (Ok (str "other"%string), [Some (str "more"%string)]) /\
  ask_and_confirm ax_strong [Some (str "other"%string); None] = (Err ErrPasswordInput, []).
Proof. split; [|split]; vm_compute; reflexivity. Qed.

(** ** C100: the key pfk --generate prints is the key of the password. *)
(** Given back with --pfk, the printed key is the key that --password and the salt
    in force stand for; the password is one the check of strength accepts. *)
Theorem c100_same_key : forall L U strong l t g newsalt x, lib_ok L -> kdf_bytes L ->
  (forall w, In (Some w) l -> Forall byte w) -> (forall w, g_password g = Some w -> Forall byte w) ->
  cmd_gen_pfk L U strong l t g newsalt false = Ok x ->
  exists w, strong w = true /\
    (g_password g = Some w \/ g_password g = None /\ exists rest, chosen (fun w => strong w = true) l w rest) /\
    forall e s salt, salt_given (mkG s None None) salt ->
    forall key, key_given L e (mkG s (Some x) None) key <-> key_given L e (mkG (salt_option g newsalt) None (Some w)) key.
Proof. exact gen_password. Qed.
Print Assumptions c100_same_key.

(** --random: 32 random bytes of which none is used twice. *)
Theorem c100_random : forall L U strong l t g newsalt x, cmd_gen_pfk L U strong l t g newsalt true = Ok x ->
  exists words rest, t = words ++ rest /\ List.length words = 32%nat /\
    forall e s salt, salt_given (mkG s None None) salt ->
    forall key, key_given L e (mkG s (Some x) None) key <-> key = map (fun w => w mod 256) words.
Proof. exact gen_random. Qed.
Print Assumptions c100_random.

(** GeneratePFK and GenerateSalt (C40, C100): 32 random bytes, in hexadecimal;
    no draw is used again. *)
Theorem c40_generated_fresh : forall t x t', generate_pfk t = Ok (x, t') \/ generate_salt t = Ok (x, t') ->
  exists draws, t = draws ++ t' /\ List.length draws = 32%nat /\ hex_text (map (fun w => w mod 256) draws) x.
Proof. exact generated_fresh. Qed.
Print Assumptions c40_generated_fresh.
Example c40_generated_case : exists x, generate_salt (repeat 300 40) = Ok (x, repeat 300 8) /\ len x = 64.
Proof. eexists. split; vm_compute; reflexivity. Qed.

(** A weak password is refused. *)
Theorem c100_weak : forall L U strong l t g newsalt w, g_password g = Some w -> strong w = false ->
  exists e, cmd_gen_pfk L U strong l t g newsalt false = Err e.
Proof. exact gen_weak. Qed.
Print Assumptions c100_weak.

(** With salts in order and an accepted password, a key is printed. *)
Theorem c100_prints : forall L U strong l t g newsalt w rest, g_pfk g = None ->
  (exists a, salt_given g a) -> (exists a, salt_given (mkG (salt_option g newsalt) None None) a) ->
  (g_password g = Some w /\ strong w = true \/ g_password g = None /\ chosen (fun w => strong w = true) l w rest) ->
  exists x, cmd_gen_pfk L U strong l t g newsalt false = Ok x.
Proof. exact gen_prints. Qed.
Print Assumptions c100_prints.

Example c100_case : kdf_bytes ex_lib /\
  (exists x, cmd_gen_pfk ex_lib uni_id ax_strong ax_lines [] (mkG None None None) (Some w_default) false = Ok x /\
     len x = 64) /\
  (exists x, cmd_gen_pfk ex_lib uni_id ax_strong [] ex_tape (mkG None None None) None true = Ok x /\ len x = 64) /\
  cmd_gen_pfk ex_lib uni_id ax_strong [] [] (mkG None None (Some (str "pw"%string))) None false = Err ErrWeakPassword.
Proof.
  split.
  { intros w salt W B. cbn [kdf ex_lib]. eapply proj1. apply Forall_app. rewrite firstn_skipn. apply Forall_app. split; [exact W|]. apply Forall_app. split; [exact B|].
    apply Forall_forall. intros x I. apply repeat_spec in I. subst x. unfold byte. lia. }
  split; [eexists; split; vm_compute; reflexivity|].
  split; [eexists; split; vm_compute; reflexivity|].
  vm_compute. reflexivity.
Qed.
