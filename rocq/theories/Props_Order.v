(** * The order of hash maps does not matter (C72)

    [rearranged t t']: [t'] is [t] with the entries of its hash maps, at any depth, in other orders.  [shuffled j j']: [j'] is
    [j] with members moved, but not past members that a reader could confuse with them. *)

From Coq Require Import String Bool ZArith List.
From Verif Require Import Base MinMax Json Serde Types DsBuilder Builder HList Ser De Protocol Samples SampleFacts Spec SpecSerde SpecExt SpecDoc
  SpecMember SpecTyped ExtTypedFacts SpecText SpecShuffle JsonText SpecJsonText SpecCalls SpecArgs SpecGiven BuiltFacts SpecNum SpecNest SpecBuiltText
  SpecArrange ArrangeFacts ArrangeTextFacts ArrangeBuiltFacts ArrangeSameFacts SpecThing.
Import ListNotations.
Set Implicit Arguments.
Local Open Scope string_scope.

(** Every iteration order gives a rearrangement. *)
Theorem C72_order : forall ord, order_ok ord -> forall E X (t : thing E X), rearranged t (arrange ord t).
Proof. exact thing_arranged. Qed.
Print Assumptions C72_order.

(** In any order the Thing is written, or in none; only the order of members differs. *)
Theorem C72_written :
  forall E X (T : xvalues X) (t t' : thing E X), rearranged t t' -> thing_typed T t ->
  (s_thing mk_text t = None /\ s_thing mk_text t' = None)
  \/ exists j j', s_thing mk_text t = Some j /\ s_thing mk_text t' = Some j' /\ shuffled j j'.
Proof. exact arranged_written. Qed.
Print Assumptions C72_written.

(** The same Thing, or none, is read from it, *)
Theorem C72_read :
  forall E X (T : xvalues X) (t t' : thing E X), exts_shuffle_free X -> rearranged t t' -> thing_typed T t ->
  obind (s_thing mk_text t') (d_thing E X) = obind (s_thing mk_text t) (d_thing E X).
Proof. exact arranged_read. Qed.
Print Assumptions C72_read.

(** also through the characters of the text. *)
Theorem C72_text :
  forall E X (T : xvalues X) F K (V : xvalues X) (t t' : thing E X) j,
  exts_sound K T V -> exts_shuffle_free X -> rearranged t t' -> thing_typed T t ->
  s_thing mk_text t = Some j -> (forall x, float_in x j -> faithful F x) ->
  exists j', s_thing mk_text t' = Some j'
  /\ obind (from_text F (to_text F j')) (d_thing E X) = obind (from_text F (to_text F j)) (d_thing E X).
Proof. exact arranged_text. Qed.
Print Assumptions C72_text.

(** Built, written in any order and read back, under the hypotheses of [C70_text] (see [C70_used]). *)
Theorem C72_built :
  forall E X ord, order_ok ord -> forall F K (T V : xvalues X), exts_sound K T V ->
  forall k title x p (t t' : thing E X), thing_program ord title x p = Some (Ok t) -> rearranged t t' ->
  tags_read E -> args_typed T x p -> args_ok V x p -> ~ titles_property p ->
  exts_shallow X k -> k <= 3 -> exts_no_float X -> exts_shuffle_free X ->
  (forall q, schema_calls p q -> ~ closures 61 q) -> (forall v, value_given p v -> ~ nested 4 v) ->
  (forall y, float_given p y -> f64_finite y = true -> faithful F y) ->
  exists j, s_thing mk_text t' = Some j /\ obind (from_text F (to_text F j)) (d_thing E X) = Some t.
Proof. exact arranged_built. Qed.
Print Assumptions C72_built.

(** The [Value] is the same. *)
Theorem C72_value :
  forall E X (T : xvalues X) (t t' : thing E X), exts_write_alike X -> rearranged t t' -> thing_typed T t ->
  s_thing mk_value t' = s_thing mk_value t.
Proof. exact arranged_value. Qed.
Print Assumptions C72_value.

(** Keeping maps sorted, as the model does, loses nothing: Things with the same entries are the same term. *)
Theorem C72_same :
  forall E X (T : xvalues X) (t t' : thing E X), rearranged t t' -> thing_typed T t -> thing_typed T t' -> t' = t.
Proof. exact thing_same. Qed.
Print Assumptions C72_same.

(** Backwards, the text of the lamp is another one. *)
Example C72_used :
  exts_shuffle_free http_exts /\ exts_write_alike http_exts /\ exts_sound http_names http_typed http_values
  /\ order_ok rev_order /\ rearranged the_lamp (arrange rev_order the_lamp) /\ thing_typed http_typed the_lamp
  /\ s_thing mk_text the_lamp <> None /\ s_thing mk_text (arrange rev_order the_lamp) <> s_thing mk_text the_lamp.
Proof. exact lamp_arranged. Qed.
