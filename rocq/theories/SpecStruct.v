(** * What the two chains of schema builders have in common

    A small specification for C54: when the human readable fields [i] of a property affordance
    and its partial schema [r] together are the schema [d]; which calls a property affordance
    does not offer. *)

From Coq Require Import String Bool ZArith List.
From Verif Require Import Base Types DsBuilder SchemaStructs.
Import ListNotations.
Set Implicit Arguments.

Section Spec.
  Variables DS AS OS : Type.
  Notation ds := (ds DS AS OS).
  Notation dsop := (dsop DS AS OS).

  (** Member by member. *)
  Record is_schema (i : info) (r : partial_ds DS AS OS) (d : ds) : Prop := {
    is_info : ds_info d = i;
    is_const : m_const (ds_misc d) = r_const r;
    is_default : m_default (ds_misc d) = r_default r;
    is_unit : m_unit (ds_misc d) = r_unit r;
    is_enum : m_enum (ds_misc d) = r_enum r;
    is_ro : m_ro (ds_misc d) = r_ro r;
    is_wo : m_wo (ds_misc d) = r_wo r;
    is_format : m_format (ds_misc d) = r_format r;
    is_one_of : ds_one_of d = r_one_of r;
    is_sub : ds_sub d = r_sub r;
    is_other : ds_other d = r_other r;
  }.

  (** The calls that say something about the text of a string. *)
  Definition about_text (o : dsop) : Prop :=
    (exists n, o = DMinLength n) \/ (exists n, o = DMaxLength n) \/ (exists s, o = DPattern s)
    \/ (exists s, o = DEncoding s) \/ (exists s, o = DMedia s).

  (** A schema that says nothing about the text of a string. *)
  Definition no_text (d : ds) : Prop :=
    match ds_sub d with
    | Some (SString t) =>
        s_min t = None /\ s_max t = None /\ s_pattern t = None /\ s_encoding t = None /\ s_media t = None
    | _ => True
    end.
End Spec.
