(** * The messages of builder errors (C59)

    [error_display e]: what [to_string] gives for the error [e]. *)

From Coq Require Import String List.
From Verif Require Import Base Json Serde Types DsBuilder Ser Display SpecMember DisplayFacts.
Import ListNotations.
Set Implicit Arguments.
Local Open Scope string_scope.

(** Two errors with the same message are the same error, whatever the names in them. *)
Theorem C59_messages_apart :
  forall e e' m, error_display e = Some m -> error_display e' = Some m -> e = e'.
Proof. exact messages_apart. Qed.
Print Assumptions C59_messages_apart.

(** Every error has a message. *)
Theorem C59_has_message : forall e, e <> EPanic -> exists m, error_display e = Some m.
Proof. exact has_message. Qed.
Print Assumptions C59_has_message.

(** The name an error is about is quoted in its message. *)
Theorem C59_name_quoted :
  forall e n,
    e = DuplicatedSecurityDefinition n \/ e = UndefinedSecurity n \/ e = MissingSchemaDefinition n
    \/ e = InvalidLanguageTag n \/ (exists t, e = DuplicatedAffordance t n) ->
    exists pre post, error_display e = Some (pre ++ quote ++ n ++ quote ++ post).
Proof. exact name_quoted. Qed.
Print Assumptions C59_name_quoted.

(** An operation is called by its name in Thing Descriptions, the place of the form by its class. *)
Theorem C59_operation_named :
  forall c o s p, In (s, o) td_operations ->
    In (p, c) [("Thing", CtxThing); ("PropertyAffordance", CtxProperty); ("ActionAffordance", CtxAction); ("EventAffordance", CtxEvent)] ->
    error_display (InvalidOpInForm c o) = Some ("Invalid Form operation " ++ s ++ " in " ++ p ++ " context").
Proof. exact op_message. Qed.
Print Assumptions C59_operation_named.

(** So is the kind of an affordance. *)
Theorem C59_kind_named :
  forall t n p, In (p, t) [("property", AProperty); ("action", AAction); ("event", AEvent)] ->
    error_display (DuplicatedAffordance t n)
    = Some ("Two affordances of type " ++ p ++ " use the name " ++ quote ++ n ++ quote).
Proof. exact kind_message. Qed.
Print Assumptions C59_kind_named.

Example C59_used :
  error_display (InvalidOpInForm CtxAction ReadProperty)
  = Some "Invalid Form operation readproperty in ActionAffordance context"
  /\ error_display (DuplicatedAffordance AEvent "x") = Some "Two affordances of type event use the name ""x"""
  /\ error_display (UndefinedSecurity "x") <> error_display (MissingSchemaDefinition "x")
  /\ In ("readproperty", ReadProperty) td_operations.
Proof. split; [reflexivity|]. split; [reflexivity|]. split; [discriminate|]. left. reflexivity. Qed.
