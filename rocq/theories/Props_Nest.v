(** * How deep a Thing may be to be read from its text (C69) *)

From Coq Require Import String List.
From Verif Require Import Base MinMax Json Serde Types DsBuilder Builder HList Ser De Protocol Samples SpecSerde SpecExt SpecDoc SpecMember
  SpecTyped JsonText SpecJsonText SpecNest NestFacts DocSamples ExchangeMore ExactFacts ExtTypedFacts TextSamples NestSamples SpecThing.
Import ListNotations.
Set Implicit Arguments.

(** [levels n d]: [n] schemas inside one another, from [d] on.  [value_in t v]: [v] is the context, a constant, a default,
    a member of an enumeration or of the data of a security scheme the crate does not know.  [exts_shallow X k]: the
    members that extensions write have at most [k] arrays and objects inside one another. *)

(** With at most [L] levels of schemas and [k] levels in values, at most [4 + 2 L + k] in the document. *)
Theorem C69_bound :
  forall E X mk L k (t : thing E X) j, json_writer mk -> exts_shallow X k -> 1 <= L -> 1 <= k ->
  (forall d, schema_in (thing_body t) d -> ~ levels (S L) d) -> (forall v, value_in t v -> ~ nested (S k) v) ->
  s_thing mk t = Some j -> ~ nested (5 + 2 * L + k) j.
Proof. exact thing_not_nested. Qed.
Print Assumptions C69_bound.

(** There are Things that reach it. *)
Theorem C69_sharp :
  forall L k, 1 <= L -> 1 <= k ->
  exists (t : thing sample_env http_exts) j,
    (forall d, schema_in (thing_body t) d -> ~ levels (S L) d) /\ (forall v, value_in t v -> ~ nested (S k) v)
    /\ s_thing mk_text t = Some j /\ nested (4 + 2 * L + k) j.
Proof. exact nesting_sharp. Qed.
Print Assumptions C69_sharp.

(** So Things with at most 60 levels of schemas, and at most three in values, are read from their texts. *)
Theorem C69_sixty :
  forall F E X K (T V : xvalues X), exts_sound K T V ->
  (forall s d, date_parse E s = Some d -> date_ok E d) ->
  forall k (t : thing E X) j, exts_shallow X k -> k <= 3 -> thing_typed T t -> thing_ok V distinct t -> untitled t ->
  (forall d, schema_in (thing_body t) d -> ~ levels 61 d) -> (forall v, value_in t v -> ~ nested 4 v) ->
  s_thing mk_text t = Some j -> (forall x, float_in x j -> faithful F x) ->
  obind (from_text F (to_text F j)) (d_thing E X) = Some t.
Proof. exact sixty_read. Qed.
Print Assumptions C69_sixty.

(** A level of schemas is at least a level of the text. *)
Theorem C69_least :
  forall E X n (t : thing E X) j d, s_thing mk_text t = Some j -> schema_in (thing_body t) d -> levels n d -> nested (n + 2) j.
Proof. exact thing_nested. Qed.
Print Assumptions C69_least.

(** No Thing with 126 levels of schemas is read from its text. *)
Theorem C69_refused :
  forall F E X K (T V : xvalues X), exts_sound K T V ->
  forall (t : thing E X) j d, thing_typed T t -> schema_in (thing_body t) d -> levels 126 d ->
  s_thing mk_text t = Some j -> (forall x, float_in x j -> faithful F x) -> from_text F (to_text F j) = None.
Proof. exact many_refused. Qed.
Print Assumptions C69_refused.

(** The extensions of the crate, alone and together, write at most two levels. *)
Theorem C69_bindings :
  exts_shallow http_exts 2 /\ exts_shallow coap_exts 1 /\ exts_shallow mqtt_exts 1
  /\ forall X X' k, exts_shallow X k -> exts_shallow X' k -> exts_shallow (cons_exts X X') k.
Proof. exact (conj http_shallow (conj coap_shallow (conj mqtt_shallow cons_shallow))). Qed.
Print Assumptions C69_bindings.

Example C69_used :
  exts_sound http_names http_typed http_values
  /\ exts_shallow http_exts 2 /\ thing_typed http_typed the_door /\ thing_ok http_values distinct the_door /\ untitled the_door
  /\ (forall d, schema_in (thing_body the_door) d -> ~ levels 61 d) /\ (forall v, value_in the_door v -> ~ nested 4 v)
  /\ s_thing mk_text the_door = Some door_json /\ (forall x, float_in x door_json -> faithful few_floats x)
  /\ thing_typed http_typed (deep_thing 125) /\ schema_in (thing_body (deep_thing 125)) (deep_ds 125) /\ levels 126 (deep_ds 125)
  /\ s_thing mk_text (deep_thing 125) = Some (deep_doc 125) /\ (forall F x, float_in x (deep_doc 125) -> faithful F x).
Proof. exact nesting_used. Qed.
