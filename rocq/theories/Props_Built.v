(** * Exchanging what was built (C45), security and forms of what was built (C46) *)

From Coq Require Import String Bool ZArith List.
From Verif Require Import Base MinMax Json Serde Types DsBuilder Builder HList Ser De Protocol Samples Spec SpecCalls
  SpecThing SpecSerde SpecExt SpecDoc SpecMember SpecTyped SpecArgs SampleFacts ExtTypedFacts ExchangeMore BuiltFacts
  BuiltSamples.
Import ListNotations.
Set Implicit Arguments.
Local Open Scope string_scope.
Local Open Scope list_scope.

(** Hypotheses: [ord] lists each hash map exactly; [tags_read]: a tag the builder accepted is
    accepted by the parser; [dates_written]: what RFC 3339 parses, it can write;
    [exts_sound K T V]: see Props_Exchange.v. *)

(** ** C45 *)

(** What is built from arguments of the right types has the invariants of the types. *)
Theorem C45_typed :
  forall E X ord, order_ok ord -> forall title x p (t : thing E X),
  thing_program ord title x p = Some (Ok t) ->
  forall T : xvalues X, tags_read E -> args_typed T x p -> thing_typed T t.
Proof. exact built_typed. Qed.
Print Assumptions C45_typed.

(** As a value: missing are the arguments excluded by [args_ok], see [C45_refuted]. *)
Theorem C45_partial :
  forall E X ord, order_ok ord -> forall title x p (t : thing E X),
  thing_program ord title x p = Some (Ok t) ->
  forall K (T V : xvalues X), exts_sound K T V -> tags_read E -> args_ok V x p ->
  exists j, s_thing mk_value t = Some j /\ d_thing E X j = Some t.
Proof. exact built_value. Qed.
Print Assumptions C45_partial.

Theorem C45_exact :
  forall E X ord, order_ok ord -> forall title x p (t : thing E X),
  thing_program ord title x p = Some (Ok t) ->
  forall K (T V : xvalues X), exts_sound K T V -> tags_read E -> dates_written E -> args_typed T x p ->
  ((exists j, s_thing mk_value t = Some j /\ d_thing E X j = Some t) <-> thing_ok V distinct t).
Proof. exact built_exact. Qed.
Print Assumptions C45_exact.

(** As text: exactly when no property is given a title, description or type. *)
Theorem C45_text_partial :
  forall E X ord, order_ok ord -> forall title x p (t : thing E X),
  thing_program ord title x p = Some (Ok t) ->
  forall K (T V : xvalues X), exts_sound K T V -> tags_read E -> args_ok V x p ->
  ((exists j, s_thing mk_text t = Some j /\ d_thing E X j = Some t) <-> ~ titles_property p).
Proof. exact built_text. Qed.
Print Assumptions C45_text_partial.

(** ... and otherwise the text cannot be parsed at all. *)
Theorem C45_titled_refuted :
  forall E X ord, order_ok ord -> forall title x p (t : thing E X),
  thing_program ord title x p = Some (Ok t) ->
  forall j, titles_property p -> s_thing mk_text t = Some j -> d_thing E X j = None.
Proof. exact built_unreadable. Qed.
Print Assumptions C45_titled_refuted.

Example C45_used :
  run id_order lamp = Some (Ok the_lamp) /\ args_typed http_typed tt lamp /\ args_ok http_values tt lamp
  /\ run id_order sensor = Some (Ok the_sensor) /\ args_ok http_values tt sensor /\ ~ titles_property sensor
  /\ titles_property lamp
  /\ order_ok id_order /\ tags_read sample_env /\ dates_written sample_env.
Proof. exact built_used. Qed.

(** Fails for a constant [null], an infinite bound, a custom scheme named [nosec], a date that
    cannot be written, an HTTP response without headers; as text, for the lamp. *)
Theorem C45_refuted :
  lost mk_value null_constant /\ lost mk_value infinite_bound /\ lost mk_value posing_scheme
  /\ lost mk_value strange_date /\ lost mk_value no_headers /\ lost mk_text lamp.
Proof. exact built_lost. Qed.
Print Assumptions C45_refuted.

(** ** C46 *)

(** There is a security entry exactly if some scheme was declared as required. *)
Theorem C46_security_partial :
  forall E X ord, order_ok ord -> forall title x p (t : thing E X),
  thing_program ord title x p = Some (Ok t) ->
  (t_security t <> [] <-> exists q, In (TSecurity q) p /\ In SRequired q).
Proof. exact built_secured. Qed.
Print Assumptions C46_security_partial.

(** All affordances have a form exactly if each was given one. *)
Theorem C46_forms_partial :
  forall E X ord, order_ok ord -> forall title x p (t : thing E X),
  thing_program ord title x p = Some (Ok t) ->
  ((forall i, affordance t i -> ia_forms i <> [])
   <-> (forall q, affordance_calls p q -> exists y c, In (IForm y c) q)).
Proof. exact built_formed. Qed.
Print Assumptions C46_forms_partial.

Example C46_used :
  run id_order sensor = Some (Ok the_sensor)
  /\ (exists q, In (TSecurity q) sensor /\ In SRequired q)
  /\ (forall q, affordance_calls sensor q -> exists y c, In (IForm y c) q)
  /\ (exists q, affordance_calls sensor q).
Proof. exact (conj (proj1 sensor_built) sensor_formed). Qed.

(** Fails: no security and no forms. *)
Theorem C46_refuted :
  run id_order bare = Some (Ok the_bare) /\ t_security the_bare = []
  /\ (forall i, affordance the_bare i -> ia_forms i = [])
  /\ exists ps qs es, t_properties the_bare = Some ps /\ t_actions the_bare = Some qs /\ t_events the_bare = Some es
       /\ length ps = 1 /\ length qs = 1 /\ length es = 1.
Proof. exact bare_built. Qed.
Print Assumptions C46_refuted.
