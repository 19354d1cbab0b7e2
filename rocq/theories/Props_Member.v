(** * Single members (C37, C38, C39, C47) *)

From Coq Require Import String Bool ZArith List.
From Verif Require Import Base MinMax Json Serde Types HList Ser De Protocol Samples SpecSerde SpecExt SpecDoc
  SpecMember ExtFacts ProtocolFacts SerdeSamples DocSamples MemberFacts NameFacts WrittenFacts Witnesses ShapeFacts MemberMore.
Import ListNotations.
Set Implicit Arguments.
Local Open Scope string_scope.
Local Open Scope list_scope.

(** ** C37

    The [.._defaults] (SpecMember.v) list, for each member, what holds if it is absent. *)
Theorem C37_thing :
  forall E X es (t : thing E X), d_thing E X (JObj es) = Some t -> thing_defaults es t.
Proof. exact thing_dflt. Qed.
Print Assumptions C37_thing.

Theorem C37_property :
  forall E X es (p : property X), d_property E X (JObj es) = Some p -> property_defaults es p.
Proof. exact property_dflt. Qed.
Print Assumptions C37_property.

Theorem C37_action :
  forall E X es (a : action X), d_action E X (JObj es) = Some a -> action_defaults es a.
Proof. exact action_dflt. Qed.
Print Assumptions C37_action.

Theorem C37_event :
  forall E X es (e : event X), d_event E X (JObj es) = Some e -> event_defaults es e.
Proof. exact event_dflt. Qed.
Print Assumptions C37_event.

Theorem C37_form :
  forall X es (f : form X), d_form X (JObj es) = Some f -> form_defaults es f.
Proof. exact form_dflt. Qed.
Print Assumptions C37_form.

Theorem C37_schema :
  forall E X es (d : dsx X), d_ds E X (JObj es) = Some d ->
  schema_defaults es d /\ forall s, ds_sub d = Some s -> subtype_defaults es s.
Proof.
  exact (fun E X es d H => conj (ds_dflt E es H) (fun s Hs => ds_sub_dflt E es H Hs)).
Qed.
Print Assumptions C37_schema.

Theorem C37_security :
  forall E es s, d_security E (JObj es) = Some s -> security_defaults es s.
Proof. exact security_dflt. Qed.
Print Assumptions C37_security.

Theorem C37_link :
  forall E es l, d_link E (JObj es) = Some l -> link_defaults es l.
Proof. exact link_dflt. Qed.
Print Assumptions C37_link.

Theorem C37_add_resp :
  forall es r, d_add_resp (JObj es) = Some r -> add_resp_defaults es r.
Proof. exact add_resp_dflt. Qed.
Print Assumptions C37_add_resp.

Theorem C37_version :
  forall es v, d_version (JObj es) = Some v -> none_without es "model" (v_model v).
Proof. exact version_dflt. Qed.
Print Assumptions C37_version.

Example C37_used :
  d_security sample_env (JObj [("scheme", JStr "bearer"); ("name", JStr "token")])
  = Some {| ss_attype := None; ss_description := None; ss_descriptions := None; ss_proxy := None;
            ss_subtype := Known (KBearer {| be_auth := None; be_name := Some "token"; be_alg := "ES256";
                                            be_format := "jwt"; be_loc := LHeader |}) |}
  /\ absent "alg" [("scheme", JStr "bearer"); ("name", JStr "token")].
Proof. exact bearer_sample. Qed.

(** ** C38

    [lacks d j]: in the document [j], at any depth, some object lacks a mandatory member. *)
Theorem C38_thing : forall E X j, lacks DThing j -> d_thing E X j = None.
Proof. exact thing_lacks. Qed.
Print Assumptions C38_thing.

Theorem C38_property : forall E X j, lacks DProperty j -> d_property E X j = None.
Proof. exact property_lacks. Qed.
Print Assumptions C38_property.

Theorem C38_action : forall E X j, lacks DAction j -> d_action E X j = None.
Proof. exact action_lacks. Qed.
Print Assumptions C38_action.

Theorem C38_event : forall E X j, lacks DEvent j -> d_event E X j = None.
Proof. exact event_lacks. Qed.
Print Assumptions C38_event.

Theorem C38_form : forall X j, lacks DForm j -> d_form X j = None.
Proof. exact (form_lacks sample_env). Qed.
Print Assumptions C38_form.

Theorem C38_link : forall E j, lacks DLink j -> d_link E j = None.
Proof. exact (fun E => link_lacks E http_exts). Qed.
Print Assumptions C38_link.

Theorem C38_version : forall j, lacks DVersion j -> d_version j = None.
Proof. exact (version_lacks sample_env http_exts). Qed.
Print Assumptions C38_version.

Theorem C38_exp_resp : forall X j, lacks DExpResp j -> d_exp_resp X j = None.
Proof. exact (exp_resp_lacks sample_env). Qed.
Print Assumptions C38_exp_resp.

Example C38_used :
  lacks DThing door_no_href /\ is_some (d_thing sample_env http_exts door) = true.
Proof. exact (conj door_lacks door_reads). Qed.

(** ** C39

    Members that every schema may have: rejected. *)
Theorem C39_own_partial : forall E X es, malformed es -> d_ds E X (JObj es) = None.
Proof. exact malformed_fails. Qed.
Print Assumptions C39_own_partial.

(** Type and members of the type: what is read, if anything, has no type at all. *)
Theorem C39_typed_partial :
  forall E X es (d : dsx X), ill_typed es -> d_ds E X (JObj es) = Some d -> ds_sub d = None.
Proof. exact ill_typed_loses. Qed.
Print Assumptions C39_typed_partial.

Example C39_used : malformed [("type", JStr "number"); ("readOnly", JStr "yes")] /\ ill_typed bad_multiple.
Proof. exact (conj malformed_sample bad_multiple_ill). Qed.

(** The property as stated fails: a wrong [multipleOf] or [type] is accepted and all constraints
    are lost; a wrong [maximum] is accepted and dropped. *)
Theorem C39_refuted :
  (exists es, ill_typed es /\ In ("multipleOf", JStr "x") es
     /\ option_map (@ds_sub _ _ _) (d_ds sample_env http_exts (JObj es)) = Some None)
  /\ (exists es, ill_typed es /\ In ("type", JStr "whole") es
     /\ option_map (@ds_sub _ _ _) (d_ds sample_env http_exts (JObj es)) = Some None)
  /\ option_map (@ds_sub _ _ _)
       (d_ds sample_env http_exts (JObj [("type", JStr "integer"); ("maximum", JStr "x")]))
     = Some (Some (SInteger {| z_max := None; z_min := None; z_mult := None |})).
Proof. exact ill_typed_refuted. Qed.
Print Assumptions C39_refuted.

(** ** C47

    The [.._named] (SpecMember.v) pair each field with the name of the TD specification.
    Missing: the bounds of arrays and the response schema of events, see [C47_refuted].
    Reading: *)
Theorem C47_read_thing_partial :
  forall E X es (t : thing E X), d_thing E X (JObj es) = Some t -> thing_named es t.
Proof. exact thing_names. Qed.
Print Assumptions C47_read_thing_partial.

Theorem C47_read_property_partial :
  forall E X es (p : property X), d_property E X (JObj es) = Some p -> property_named es p.
Proof. exact property_names. Qed.
Print Assumptions C47_read_property_partial.

Theorem C47_read_action :
  forall E X es (a : action X), d_action E X (JObj es) = Some a -> action_named es a.
Proof. exact action_names. Qed.
Print Assumptions C47_read_action.

Theorem C47_read_event_partial :
  forall E X es (e : event X), d_event E X (JObj es) = Some e -> event_named es e.
Proof. exact event_names. Qed.
Print Assumptions C47_read_event_partial.

Theorem C47_read_form :
  forall X es (f : form X), d_form X (JObj es) = Some f -> form_named es f.
Proof. exact form_names. Qed.
Print Assumptions C47_read_form.

Theorem C47_read_schema_partial :
  forall E X es (d : dsx X), d_ds E X (JObj es) = Some d -> schema_named es d.
Proof. exact ds_names_ok. Qed.
Print Assumptions C47_read_schema_partial.

Theorem C47_read_security :
  forall E es s, d_security E (JObj es) = Some s -> security_named es s.
Proof. exact security_names. Qed.
Print Assumptions C47_read_security.

Theorem C47_read_others :
  (forall E es l, d_link E (JObj es) = Some l -> link_named es l)
  /\ (forall es r, d_add_resp (JObj es) = Some r -> add_resp_named es r)
  /\ (forall es v, d_version (JObj es) = Some v -> version_named es v)
  /\ (forall X es r, d_exp_resp X (JObj es) = Some r -> has_str es "contentType" (er_ctype r)).
Proof. exact (conj link_names (conj add_resp_names (conj version_names exp_resp_names))). Qed.
Print Assumptions C47_read_others.

(** Writing: *)
Theorem C47_write_thing_partial :
  forall E X K (V : xvalues X) (t : thing E X) es, exts_round_trip K V -> names_apart K ->
  thing_ok V own_name t -> s_thing mk_value t = Some (JObj es) -> thing_named es t.
Proof. exact thing_written_names. Qed.
Print Assumptions C47_write_thing_partial.

Theorem C47_write_property_partial :
  forall E X K (V : xvalues X) p es, exts_round_trip K V -> names_apart K ->
  property_ok E V p -> s_property mk_value p = JObj es -> property_named es p.
Proof. exact property_written_names. Qed.
Print Assumptions C47_write_property_partial.

Theorem C47_write_action_partial :
  forall E X K (V : xvalues X) mk, json_writer mk -> exts_round_trip K V -> names_apart K ->
  forall a es, action_ok E V a -> s_action mk a = JObj es -> action_named es a.
Proof. exact action_written_names. Qed.
Print Assumptions C47_write_action_partial.

Theorem C47_write_event_partial :
  forall E X K (V : xvalues X) mk, json_writer mk -> exts_round_trip K V -> names_apart K ->
  forall e es, event_ok E V e -> s_event mk e = JObj es -> event_named es e.
Proof. exact event_written_names. Qed.
Print Assumptions C47_write_event_partial.

Theorem C47_write_form_partial :
  forall X K (V : xvalues X) mk, json_writer mk -> exts_round_trip K V -> names_apart K ->
  forall f es, form_ok V f -> s_form mk f = JObj es -> form_named es f.
Proof. exact form_written_names. Qed.
Print Assumptions C47_write_form_partial.

Theorem C47_write_schema_partial :
  forall E X K (V : xvalues X) mk, json_writer mk -> exts_round_trip K V -> names_apart K ->
  forall d es, schema_ok E V d -> s_ds mk d = JObj es -> schema_named es d.
Proof. exact ds_written_names. Qed.
Print Assumptions C47_write_schema_partial.

Theorem C47_write_security_partial :
  forall E mk, json_writer mk -> forall s es, security_ok E own_name s ->
  s_security mk s = Some (JObj es) -> security_named es s.
Proof. exact security_written_names. Qed.
Print Assumptions C47_write_security_partial.

Theorem C47_write_link :
  forall E mk, json_writer mk -> forall l es, link_ok E l -> s_link mk l = JObj es -> link_named es l.
Proof. exact link_written_names. Qed.
Print Assumptions C47_write_link.

Theorem C47_write_add_resp :
  forall mk, json_writer mk -> forall r es, s_add_resp mk r = JObj es -> add_resp_named es r.
Proof. exact add_resp_written_names. Qed.
Print Assumptions C47_write_add_resp.

Theorem C47_write_version :
  forall mk, json_writer mk -> forall v es, s_version mk v = JObj es -> version_named es v.
Proof. exact version_written_names. Qed.
Print Assumptions C47_write_version.

Example C47_used :
  exts_round_trip http_names http_values /\ names_apart http_names
  /\ thing_ok http_values own_name the_lamp
  /\ is_some (d_thing sample_env http_exts door) = true.
Proof. exact (conj http_exts_round_trip (conj http_names_apart (conj lamp_ok door_reads))). Qed.

(** [minItems] and [maxItems] are called [min_items] and [max_items]; [dataResponse] is
    called [data_response]. *)
Theorem C47_refuted :
  (
     s_ds mk_text (w_schema no_info None (Some (SArray None (Some 1%Z) (Some 2%Z) tt)))
     = JObj [("readOnly", JBool false); ("writeOnly", JBool false); ("type", JStr "array");
             ("min_items", JInt 1); ("max_items", JInt 2)])
  /\ option_map (@ds_sub _ _ _)
       (d_ds sample_env http_exts (JObj [("type", JStr "array"); ("minItems", JInt 1); ("maxItems", JInt 2)]))
     = Some (Some (SArray None None None tt))
  /\ option_map (@ea_data_response _)
       (d_event sample_env http_exts
          (JObj [("forms", JArr []); ("dataResponse", JObj [("type", JStr "null")])])) = Some None.
Proof. exact array_names. Qed.
Print Assumptions C47_refuted.
