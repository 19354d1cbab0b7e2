(** * What reading does not notice *)

From Coq Require Import String Bool List.
From Verif Require Import Base Json Serde Types DsBuilder SpecThing.
Import ListNotations.
Set Implicit Arguments.
Local Open Scope string_scope.
Local Open Scope list_scope.

(** The complaints of [build] that may be justified for a Thing that was read: all but repeated names,
    bounds that are not numbers and strings that are no language tags at all. *)
Definition unnoticed (E : env) (e : error) : Prop :=
  match e with
  | DuplicatedSecurityDefinition _ | DuplicatedAffordance _ _ | NanMinMax | EPanic => False
  | InvalidOpInForm c o => ~ In o (ops_of c)
  | InvalidLanguageTag s => tag_ok E s = true /\ tag_parse E s = None
  | MissingOpInForm | UndefinedSecurity _ | InvalidMinMax | InvalidMultipleOf | MissingSchemaDefinition _
  | InvalidUriVariables | SizesWithRelNotIcon => True
  end.
