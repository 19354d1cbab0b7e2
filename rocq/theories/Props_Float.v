(** * Floats in texts (C71)

    The properties about texts ask that floats are written and read exactly ([faithful]).  [exact_floats] is a way of
    writing and reading for which this is so; [f64_ok]: the value is one of the type [f64].  [text_value s neg n q]: the
    JSON number [s], with a minus sign if [neg], stands for [q]. *)

From Coq Require Import String Ascii ZArith QArith List.
From Coq Require Import Floats.SpecFloat.
From Verif Require Import Base MinMax Json Serde Types DsBuilder Builder HList Ser De Protocol Samples SampleFacts BuiltSamples Spec SpecCalls
  SpecSerde SpecExt SpecDoc SpecMember SpecTyped SpecArgs SpecGiven SpecNum BuiltFacts JsonText SpecJsonText
  SpecNest SpecBuiltText BuiltTextSamples ExactFloats SpecFloatText ExactFloatFacts ExactBuiltFacts SpecThing.
Import ListNotations.
Set Implicit Arguments.
Local Open Scope string_scope.

(** What is written stands for the float. *)
Theorem C71_written :
  forall x, f64_finite x = true ->
  float_text (fl_write exact_floats x)
  /\ exists n q, text_value (fl_write exact_floats x) (minus x) n q /\ is_number x q.
Proof. exact exact_written. Qed.
Print Assumptions C71_written.

(** Whatever number stands for a float is read as that float. *)
Theorem C71_read :
  forall s neg n q y, text_value s neg n q -> f64_ok y = true -> is_number y q ->
  (forall b, y = S754_zero b -> b = neg) -> fl_read exact_floats s = Some y.
Proof. exact exact_read. Qed.
Print Assumptions C71_read.

Theorem C71_faithful :
  forall x, f64_ok x = true -> f64_finite x = true -> faithful exact_floats x.
Proof. exact exact_faithful. Qed.
Print Assumptions C71_faithful.

(** So all documents of at most 127 levels, and all built Things as in C70, come back from their texts. *)
Theorem C71_document :
  forall j, document j -> (forall x, float_in x j -> f64_ok x = true) -> ~ nested 128 j ->
  from_text exact_floats (to_text exact_floats j) = Some j.
Proof. exact exact_document. Qed.
Print Assumptions C71_document.

Theorem C71_built :
  forall E X ord, order_ok ord -> forall K (T V : xvalues X), exts_sound K T V ->
  forall k title x p (t : thing E X), thing_program ord title x p = Some (Ok t) ->
  tags_read E -> args_typed T x p -> args_ok V x p -> ~ titles_property p ->
  exts_shallow X k -> (k <= 3)%nat -> exts_no_float X ->
  (forall q, schema_calls p q -> ~ closures 61 q) -> (forall v, value_given p v -> ~ nested 4 v) ->
  (forall y, float_given p y -> f64_ok y = true) ->
  exists j, s_thing mk_text t = Some j /\ obind (from_text exact_floats (to_text exact_floats j)) (d_thing E X) = Some t.
Proof. exact exact_built. Qed.
Print Assumptions C71_built.

(** See [C70_used] for the other hypotheses of [C71_built]. *)
Example C71_used :
  f64_ok tenth = true /\ f64_finite tenth = true /\ f64_ok tiniest = true /\ f64_finite tiniest = true
  /\ fl_read exact_floats (list_ascii_of_string "0.1") = Some tenth
  /\ fl_read exact_floats (list_ascii_of_string "-4.9E-324") = Some tiniest
  /\ fl_read exact_floats (list_ascii_of_string "1e400") = None
  /\ fl_write exact_floats (S754_finite true 5629499534213120 (-51))
     = list_ascii_of_string "-2500000000000000000000000000000000000000000000000000e-51"
  /\ (exists q, text_value (list_ascii_of_string "2.50") false 250 q /\ is_number (S754_finite false 5629499534213120 (-51)) q)
  /\ (forall y, float_given door_angles y -> f64_ok y = true).
Proof. exact exact_used. Qed.
