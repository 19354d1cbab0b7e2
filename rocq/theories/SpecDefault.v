(** * Vocabulary of the properties about default values *)

From Coq Require Import String Bool ZArith List.
From Verif Require Import Base MinMax Json Serde Types SpecSerde SpecDoc SpecMember Defaults.
Import ListNotations.
Set Implicit Arguments.
Local Open Scope string_scope.
Local Open Scope list_scope.

(** The least document of each kind: the mandatory members, all empty
    ([least_mandatory] in DefaultFacts.v). *)
Definition least (d : doc_kind) : entries :=
  match d with
  | DThing => [("title", JStr ""); ("security", JArr []); ("securityDefinitions", JObj [])]
  | DProperty | DAction | DEvent => [("forms", JArr [])]
  | DForm | DLink => [("href", JStr "")]
  | DVersion => [("instance", JStr "")]
  | DExpResp => [("contentType", JStr "")]
  | _ => []
  end.

(** Members that are written even if they have their default value. *)
Definition flags (d : doc_kind) : entries :=
  match d with
  | DSchema | DProperty => [("readOnly", JBool false); ("writeOnly", JBool false)]
  | DAction => [("safe", JBool false); ("idempotent", JBool false)]
  | _ => []
  end.

(** An extension whose default value [z] is what it reads when none of its own members is
    there (the least documents only have the members below) and which writes nothing then. *)
Definition default_of (p : piece) (z : pty p) : Prop :=
  (forall es, incl (map fst es) ["forms"; "type"] -> p_de p es = Some z)
  /\ forall mk, p_ser p mk z = [].

(** All extension points but that of expected responses. *)
Definition exts_default (X : exts) (Z : xdefaults X) : Prop :=
  default_of (x_t X) (z_t Z) /\ default_of (x_ia X) (z_ia Z) /\ default_of (x_pa X) (z_pa Z)
  /\ default_of (x_aa X) (z_aa Z) /\ default_of (x_ea X) (z_ea Z) /\ default_of (x_f X) (z_f Z)
  /\ default_of (x_ds X) (z_ds Z) /\ default_of (x_os X) (z_os Z) /\ default_of (x_as X) (z_as Z).

(** [t] with another context and title *)
Definition entitled E X (c : json) (title : string) (t : thing E X) : thing E X :=
  {| t_context := c; t_id := t_id t; t_attype := t_attype t; t_title := title; t_titles := t_titles t;
     t_description := t_description t; t_descriptions := t_descriptions t; t_version := t_version t;
     t_created := t_created t; t_modified := t_modified t; t_support := t_support t; t_base := t_base t;
     t_properties := t_properties t; t_actions := t_actions t; t_events := t_events t; t_links := t_links t;
     t_forms := t_forms t; t_security := t_security t; t_secdefs := t_secdefs t; t_uri := t_uri t;
     t_profile := t_profile t; t_schemas := t_schemas t; t_other := t_other t |}.
