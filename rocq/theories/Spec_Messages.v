(** Histories of messages. *)
From Verif Require Import Base Spec Model_Unicode Model_Types Model_Messages.

(** States reached from an instance without messages by creating and deleting
    messages, any other change of the instance that leaves the messages alone
    in between. *)
Inductive messages_reached (U : Uni) (lb : list rune -> list rune) (dp : list rune -> option Z) : inst -> Prop :=
| reached_new : forall i, i_messages i = [] -> messages_reached U lb dp i
| reached_other : forall i i', messages_reached U lb dp i -> i_messages i' = i_messages i ->
    messages_reached U lb dp i'
| reached_create : forall i args now t, messages_reached U lb dp i ->
    messages_reached U lb dp (fst (new_text_message U lb dp i args now t))
| reached_delete : forall i ids, messages_reached U lb dp i ->
    messages_reached U lb dp (set_messages i (fst (delete_message (i_messages i) ids)))
| reached_delete_string : forall i ids, messages_reached U lb dp i ->
    messages_reached U lb dp (set_messages i (fst (delete_message_by_string U (i_messages i) ids)))
| reached_delete_summary : forall i lines, messages_reached U lb dp i ->
    messages_reached U lb dp (set_messages i (fst (delete_messages_by_summary U (i_messages i) lines))).
