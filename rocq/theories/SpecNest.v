(** * How deep a Thing is *)

From Coq Require Import String List.
From Verif Require Import Base MinMax Json Serde Types Spec SpecThing SpecSerde SpecJsonText.
Import ListNotations.
Set Implicit Arguments.

Section Schemas.
  Variables DS AS OS : Type.
  Notation ds := (ds DS AS OS).

  (** The schema [c] stands directly in [d]. *)
  Inductive inside (c : ds) : ds -> Prop :=
  | ins_one_of d l : ds_one_of d = Some l -> In c l -> inside c d
  | ins_item d mn mx o : ds_sub d = Some (SArray (Some (BElem c)) mn mx o) -> inside c d
  | ins_items d l mn mx o : ds_sub d = Some (SArray (Some (BVec l)) mn mx o) -> In c l -> inside c d
  | ins_prop d ps k r o : ds_sub d = Some (SObject (Some ps) r o) -> In (k, c) ps -> inside c d.

  (** [levels n d]: [n] schemas inside one another, [d] the outermost. *)
  Inductive levels : nat -> ds -> Prop :=
  | lv_one d : levels 1 d
  | lv_more n c d : inside c d -> levels n c -> levels (S n) d.
End Schemas.

Section Things.
  Variable E : env.
  Variable X : exts.

  (** The JSON values a Thing may contain that are not of its own making. *)
  Inductive value_in (t : thing E X) (j : json) : Prop :=
  | vi_context : t_context t = j -> value_in t j
  | vi_const d e : schema_in (thing_body t) d -> sub_ds e d -> m_const (ds_misc e) = Some j -> value_in t j
  | vi_default d e : schema_in (thing_body t) d -> sub_ds e d -> m_default (ds_misc e) = Some j -> value_in t j
  | vi_enum d e l : schema_in (thing_body t) d -> sub_ds e d -> m_enum (ds_misc e) = Some l -> In j l -> value_in t j
  | vi_scheme n s scheme es k : In (n, s) (t_secdefs t) -> ss_subtype s = Unknown scheme (JObj es) -> In (k, j) es ->
      value_in t j.
End Things.

(** The members an extension writes have at most [k] arrays and objects inside one another. *)
Definition writes_shallow (p : piece) (k : nat) : Prop :=
  forall mk a n j, json_writer mk -> In (n, j) (p_ser p mk a) -> ~ nested (S k) j.

Record exts_shallow (X : exts) (k : nat) : Prop := {
  sh_t : writes_shallow (x_t X) k; sh_ia : writes_shallow (x_ia X) k; sh_pa : writes_shallow (x_pa X) k;
  sh_aa : writes_shallow (x_aa X) k; sh_ea : writes_shallow (x_ea X) k; sh_f : writes_shallow (x_f X) k;
  sh_er : writes_shallow (x_er X) k; sh_ds : writes_shallow (x_ds X) k; sh_os : writes_shallow (x_os X) k;
  sh_as : writes_shallow (x_as X) k;
}.
