(** * Texts of built Things (C70)

    [float_given p y], [value_given p v]: [y] and [v] are arguments of the calls [p];
    [closures n q]: [n] lists of calls inside one another; [faithful F y]: the float [y] is
    written as a JSON number that is read as [y]. *)

From Coq Require Import ZArith List.
From Verif Require Import Base MinMax Json Serde Types DsBuilder Builder HList Ser De Protocol Samples SampleFacts BuiltSamples
  Spec SpecCalls SpecSerde SpecExt SpecDoc SpecMember SpecTyped SpecArgs SpecGiven SpecNum SpecEqual SpecRead JsonText SpecJsonText TextSamples
  BuiltFacts SpecNest SpecBuiltText ThingFloatFacts BuiltTextFacts BuiltTextSamples SpecThing.
Import ListNotations.
Set Implicit Arguments.

(** The floats written for a Thing are those of its number schemas and of its values. *)
Theorem C70_floats :
  forall E X mk (t : thing E X) j y, json_writer mk -> exts_no_float X ->
  s_thing mk t = Some j -> float_in y j ->
  (exists d e n, schema_in (thing_body t) d /\ sub_ds e d /\ ds_sub e = Some (SNumber n) /\ number_in n y)
  \/ (exists v, value_in t v /\ float_in y v).
Proof. exact thing_floats. Qed.
Print Assumptions C70_floats.

(** Those of a built Thing were given in the calls. *)
Theorem C70_given :
  forall E X ord, order_ok ord -> forall mk title x p (t : thing E X) j y,
  thing_program ord title x p = Some (Ok t) -> json_writer mk -> exts_no_float X ->
  s_thing mk t = Some j -> float_in y j -> float_given p y.
Proof. exact built_floats. Qed.
Print Assumptions C70_given.

(** Its document is not much deeper than the calls and the values given. *)
Theorem C70_depth :
  forall E X ord, order_ok ord -> forall mk L k title x p (t : thing E X) j,
  thing_program ord title x p = Some (Ok t) -> json_writer mk ->
  exts_shallow X k -> 1 <= L -> 2 <= k ->
  (forall q, schema_calls p q -> ~ closures (S L) q) ->
  (forall v, value_given p v -> ~ nested (S k) v) ->
  s_thing mk t = Some j -> ~ nested (5 + 2 * L + k) j.
Proof. exact built_not_nested. Qed.
Print Assumptions C70_depth.

(** Built, written as text and read back: all that is asked is asked of the arguments. *)
Theorem C70_text :
  forall E X ord, order_ok ord -> forall F K (T V : xvalues X), exts_sound K T V ->
  forall k title x p (t : thing E X),
  thing_program ord title x p = Some (Ok t) ->
  tags_read E -> args_typed T x p -> args_ok V x p -> ~ titles_property p ->
  exts_shallow X k -> k <= 3 -> exts_no_float X ->
  (forall q, schema_calls p q -> ~ closures 61 q) ->
  (forall v, value_given p v -> ~ nested 4 v) ->
  (forall y, float_given p y -> f64_finite y = true -> faithful F y) ->
  exists j, s_thing mk_text t = Some j /\ obind (from_text F (to_text F j)) (d_thing E X) = Some t.
Proof. exact built_from_text. Qed.
Print Assumptions C70_text.

Theorem C70_bindings :
  exts_no_float http_exts /\ exts_no_float coap_exts /\ exts_no_float mqtt_exts
  /\ forall X X', exts_no_float X -> exts_no_float X' -> exts_no_float (cons_exts X X').
Proof. exact (conj http_no_float (conj coap_no_float (conj mqtt_no_float cons_no_float))). Qed.
Print Assumptions C70_bindings.

Example C70_used :
  run id_order door_angles = Some (Ok the_angles) /\ tags_read sample_env /\ args_typed http_typed tt door_angles
  /\ args_ok http_values tt door_angles /\ ~ titles_property door_angles
  /\ exts_shallow http_exts 2 /\ exts_no_float http_exts
  /\ (forall q, schema_calls door_angles q -> ~ closures 61 q)
  /\ (exists q, schema_calls door_angles q /\ closures 2 q)
  /\ (forall v, value_given door_angles v -> ~ nested 4 v)
  /\ value_given door_angles (JArr [JFloat (SpecFloat.S754_zero false)])
  /\ (forall y, float_given door_angles y -> f64_finite y = true -> faithful few_floats y)
  /\ number_given door_angles (f64_of_Z 90%Z)
  /\ exists j, s_thing mk_text the_angles = Some j /\ float_in (f64_of_Z 90%Z) j.
Proof. exact built_text_used. Qed.
