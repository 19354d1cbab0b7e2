(** * The numbers given in builder calls *)

From Coq Require Import String Bool ZArith List.
From Verif Require Import Base MinMax Json Serde Types DsBuilder Builder Spec SpecCalls SpecThing SpecArgs.
Import ListNotations.
Set Implicit Arguments.
Local Open Scope string_scope.
Local Open Scope list_scope.

Section Given.
  Variable E : env.
  Variable X : exts.
  Notation dsop := (dsop (pty (x_ds X)) (pty (x_as X)) (pty (x_os X))).

  (** The schema variables declared by calls on an affordance *)
  Definition variable_calls (p : list (ia_op X)) (q : list dsop) : Prop := exists n, In (IUri n q) p.

  (** [schema_calls p q]: among the calls [p] a schema is described by the calls [q]. *)
  Inductive schema_calls (p : list (top E X)) (q : list dsop) : Prop :=
  | sc_uri n : In (TUri n q) p -> schema_calls p q
  | sc_schema n : In (TSchema n q) p -> schema_calls p q
  | sc_property n xi xp c : In (TProperty n xi xp c) p ->
      q = picks (@p_ds X) c \/ variable_calls (picks (@p_ia X) c) q -> schema_calls p q
  | sc_action n xi xa c : In (TAction n xi xa c) p ->
      In (AInput q) c \/ In (AOutput q) c \/ variable_calls (picks (@a_ia X) c) q -> schema_calls p q
  | sc_event n xi xe c : In (TEvent n xi xe c) p ->
      In (ESubscription q) c \/ In (EData q) c \/ In (EDataResponse q) c \/ In (ECancellation q) c
      \/ variable_calls (picks (@e_ia X) c) q -> schema_calls p q.

  (** The number in a call of a number schema *)
  Definition number_of (o : dsop) : option f64 :=
    match o with
    | DNumMin m => Some (min_val m)
    | DNumMax m => Some (max_val m)
    | DNumMult x => Some x
    | _ => None
    end.

  (** The number [v] is an argument somewhere in [p]. *)
  Definition number_given (p : list (top E X)) (v : f64) : Prop :=
    exists q o, schema_calls p q /\ calls q o /\ number_of o = Some v.
End Given.

(** A call made only when its argument is there *)
Definition ocall A B (f : A -> B) (o : option A) : list B := match o with Some a => [f a] | None => [] end.
