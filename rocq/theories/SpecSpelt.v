(** * Defaults that are written, and defaults that are not (C74) *)

From Coq Require Import String Bool ZArith List.
From Verif Require Import Base Json Types SpecMember SpecThing.
Import ListNotations.
Set Implicit Arguments.
Local Open Scope string_scope.
Local Open Scope list_scope.

(** Written whatever it is. *)
Definition always_flag (es : entries) (k : string) (b : bool) : Prop := forall v, In (k, v) es <-> v = JBool b.

(** Written only if it is true. *)
Definition only_true (es : entries) (k : string) (b : bool) : Prop := forall v, In (k, v) es <-> b = true /\ v = JBool true.

(** A string, or [null] if there is none. *)
Definition string_or_null (o : option string) : json := match o with Some s => JStr s | None => JNull end.

(** The operations of a form: nothing by default, [null] for an empty list, otherwise a list of names, even of one. *)
Inductive ops_written : form_ops -> option json -> Prop :=
| ow_default : ops_written OpDefault None
| ow_empty : ops_written (OpCustom []) (Some JNull)
| ow_names o l names : Forall2 (fun n o => In (n, o) td_operations) names (o :: l) ->
    ops_written (OpCustom (o :: l)) (Some (JArr (map JStr names))).
