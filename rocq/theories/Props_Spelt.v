(** * Defaults that are written, and defaults that are not (C74)

    [always_flag es k b]: the members of [es] called [k] are [b]; [only_true es k b]: there is one only if [b] is true.
    [mk] is one of the two ways to write, extensions survive being written ([exts_round_trip]) and use names of their own. *)

From Coq Require Import String Bool ZArith List.
From Verif Require Import Base Json Serde Types Ser De Protocol Samples SpecSerde SpecExt SpecMember SpecSpelt SpeltFacts SpecThing.
Import ListNotations.
Set Implicit Arguments.
Local Open Scope string_scope.
Local Open Scope list_scope.

(** [readOnly] and [writeOnly] of a schema are always written, *)
Theorem C74_schema :
  forall E X K (V : xvalues X) mk, json_writer mk -> exts_round_trip K V -> names_apart K ->
  forall d es, schema_ok E V d -> s_ds mk d = JObj es ->
  always_flag es "readOnly" (m_ro (ds_misc d)) /\ always_flag es "writeOnly" (m_wo (ds_misc d)).
Proof. exact schema_spelt. Qed.
Print Assumptions C74_schema.

(** also for a property; *)
Theorem C74_property :
  forall E X K (V : xvalues X) mk, json_writer mk -> exts_round_trip K V -> names_apart K ->
  forall p es, property_ok E V p -> s_property mk p = JObj es ->
  always_flag es "readOnly" (m_ro (ds_misc (pa_ds p))) /\ always_flag es "writeOnly" (m_wo (ds_misc (pa_ds p))).
Proof. exact property_spelt. Qed.
Print Assumptions C74_property.

(** [safe] and [idempotent] of an action too, but [synchronous] only if it is given. *)
Theorem C74_action :
  forall E X K (V : xvalues X) mk, json_writer mk -> exts_round_trip K V -> names_apart K ->
  forall a es, action_ok E V a -> s_action mk a = JObj es ->
  always_flag es "safe" (aa_safe a) /\ always_flag es "idempotent" (aa_idempotent a)
  /\ written_as es "synchronous" JBool (aa_synchronous a).
Proof. exact action_spelt. Qed.
Print Assumptions C74_action.

(** The forms of an affordance are always written, as a list. *)
Theorem C74_forms :
  forall E X K (V : xvalues X) mk, json_writer mk -> exts_round_trip K V -> names_apart K ->
  (forall p es, property_ok E V p -> s_property mk p = JObj es -> forall v, In ("forms", v) es <-> v = JArr (map (s_form mk) (ia_forms (pa_ia p))))
  /\ (forall a es, action_ok E V a -> s_action mk a = JObj es -> forall v, In ("forms", v) es <-> v = JArr (map (s_form mk) (ia_forms (aa_ia a))))
  /\ (forall e es, event_ok E V e -> s_event mk e = JObj es -> forall v, In ("forms", v) es <-> v = JArr (map (s_form mk) (ia_forms (ea_ia e)))).
Proof. exact forms_spelt. Qed.
Print Assumptions C74_forms.

(** The operations of a form are a list even if there is only one ([ops_written] in SpecSpelt.v). *)
Theorem C74_form :
  forall X K (V : xvalues X) mk, json_writer mk -> exts_round_trip K V -> names_apart K ->
  forall f es, v_f V (f_other f) -> s_form mk f = JObj es -> forall v, In ("op", v) es <-> ops_written (f_op f) (Some v).
Proof. exact form_spelt. Qed.
Print Assumptions C74_form.

(** [success] is written only if it is true. *)
Theorem C74_response :
  forall mk, json_writer mk -> forall r es, s_add_resp mk r = JObj es -> only_true es "success" (ar_success r).
Proof. exact response_spelt. Qed.
Print Assumptions C74_response.

(** A missing [model] is written as [null]. *)
Theorem C74_version :
  forall mk, json_writer mk -> forall v es, s_version mk v = JObj es -> forall j, In ("model", j) es <-> j = string_or_null (v_model v).
Proof. exact version_spelt. Qed.
Print Assumptions C74_version.

(** MQTT: [mqv:retain] only if it is true, [mqv:filter] only if it is not empty; *)
Theorem C74_mqtt :
  forall mk f,
  only_true (p_ser mqtt_form_piece mk f) "mqv:retain" (mf_retain f)
  /\ forall v, In ("mqv:filter", v) (p_ser mqtt_form_piece mk f) <-> mf_filter f <> [] /\ v = one_or_many JStr (mf_filter f).
Proof. exact mqtt_spelt. Qed.
Print Assumptions C74_mqtt.

(** HTTP: [htv:headers] only if it is not empty. *)
Theorem C74_http :
  forall mk r v,
  In ("htv:headers", v) (p_ser http_response_piece mk r) <-> hr_headers r <> [] /\ v = JArr (map (s_http_header mk) (hr_headers r)).
Proof. exact http_spelt. Qed.
Print Assumptions C74_http.

Example C74_used :
  exts_round_trip http_names http_values /\ names_apart http_names /\ json_writer mk_text /\ action_ok sample_env http_values blink
  /\ s_action mk_text blink
     = JObj [("forms", JArr [JObj [("op", JArr [JStr "invokeaction"]); ("href", JStr "/blink")]]); ("safe", JBool false); ("idempotent", JBool false)]
  /\ s_add_resp mk_text {| ar_success := false; ar_ctype := None; ar_schema := Some "error" |} = JObj [("schema", JStr "error")]
  /\ s_version mk_text {| v_instance := "1.0.0"; v_model := None |} = JObj [("instance", JStr "1.0.0"); ("model", JNull)].
Proof. exact blink_spelt. Qed.
