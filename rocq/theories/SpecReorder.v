(** * Calls that may be exchanged (C62) *)

From Coq Require Import String Bool List.
From Verif Require Import Base MinMax Json Serde Types DsBuilder Builder Spec SpecCalls SpecThing.
Import ListNotations.
Set Implicit Arguments.
Local Open Scope list_scope.

Section Reorder.
  Variable E : env.
  Variable X : exts.

  (** Two calls of the thing builder whose order is not recorded: they set different
      members; or declare two affordances of a kind; or schema definitions or
      variables under different names; or security schemes not both of which are
      required. *)
  Definition exchangeable (o1 o2 : top E X) : Prop :=
    match o1, o2 with
    | TProperty _ _ _ _, TProperty _ _ _ _ | TAction _ _ _ _, TAction _ _ _ _ | TEvent _ _ _ _, TEvent _ _ _ _ => True
    | TSchema n _, TSchema m _ | TUri n _, TUri m _ => n <> m
    | TSecurity p, TSecurity q => some_call is_required p = false \/ some_call is_required q = false
    | _, _ => target o1 <> target o2 /\ target o1 <> VStatus /\ target o2 <> VStatus
    end.

  (** [reordered p p']: [p'] comes from [p] by exchanging such neighbours, any
      number of times. *)
  Inductive reordered : list (top E X) -> list (top E X) -> Prop :=
  | re_refl p : reordered p p
  | re_swap p o1 o2 q p' : exchangeable o1 o2 -> reordered (p ++ o2 :: o1 :: q) p' -> reordered (p ++ o1 :: o2 :: q) p'.

  (** The declaration of a property, an action or an event. *)
  Definition declares_affordance (o : top E X) : Prop :=
    match o with TProperty _ _ _ _ | TAction _ _ _ _ | TEvent _ _ _ _ => True | _ => False end.
End Reorder.
