(** * Exchanging Things: what survives, as value and as text (C29, C30, C32, C34, C44) *)

From Coq Require Import String Bool ZArith List.
From Verif Require Import Base MinMax Json Serde Types HList Ser De Protocol Samples SpecSerde SpecExt SpecDoc
  SpecMember SpecTyped ExtTypedFacts StableFacts KnownFacts ExactFacts SerdeSamples DocSamples Witnesses SerdeMore
  ExchangeMore.
Import ListNotations.
Set Implicit Arguments.
Local Open Scope string_scope.
Local Open Scope list_scope.

(** Hypotheses of this file: [exts_sound K T V]: extensions that read and write, with names
    [K], values [T] of which those in [V] round trip; met by the three bindings of the
    crate ([C29_sound]).  [thing_typed T]: what the Rust types guarantee.  Dates: what RFC 3339
    parses, it can write. *)

Theorem C29_sound :
  exts_sound http_names http_typed http_values
  /\ exts_sound coap_names coap_typed coap_values
  /\ exts_sound mqtt_names mqtt_typed mqtt_values
  /\ forall X X' K K' (T V : xvalues X) (T' V' : xvalues X'),
       exts_sound K T V -> exts_sound K' T' V' -> xdisjoint K K' -> names_apart (both_names K K') ->
       exts_sound (both_names K K') (both_values T T') (both_values V V').
Proof. exact (conj http_sound (conj coap_sound (conj mqtt_sound both_sound))). Qed.
Print Assumptions C29_sound.

(** ** C29, C30, C32: exactly which values come back

    [distinct]: a custom scheme does not look like a known one. *)
Theorem C29_thing_exact :
  forall E X K (T V : xvalues X), exts_sound K T V ->
  (forall s d, date_parse E s = Some d -> date_ok E d) ->
  forall t : thing E X, thing_typed T t ->
  ((exists j, s_thing mk_value t = Some j /\ d_thing E X j = Some t) <-> thing_ok V distinct t).
Proof. exact thing_value_exact. Qed.
Print Assumptions C29_thing_exact.

Theorem C29_property_exact :
  forall E X K (T V : xvalues X), exts_sound K T V ->
  forall p, property_typed E T p ->
  (d_property E X (s_property mk_value p) = Some p <-> property_ok E V p).
Proof. exact property_exact. Qed.
Print Assumptions C29_property_exact.

Theorem C29_action_exact :
  forall E X K (T V : xvalues X), exts_sound K T V ->
  forall mk a, json_writer mk -> action_typed E T a ->
  (d_action E X (s_action mk a) = Some a <-> action_ok E V a).
Proof. exact action_exact. Qed.
Print Assumptions C29_action_exact.

Theorem C29_event_exact :
  forall E X K (T V : xvalues X), exts_sound K T V ->
  forall mk e, json_writer mk -> event_typed E T e ->
  (d_event E X (s_event mk e) = Some e <-> event_ok E V e).
Proof. exact event_exact. Qed.
Print Assumptions C29_event_exact.

Theorem C29_form_exact :
  forall X K (T V : xvalues X), exts_sound K T V ->
  forall mk f, json_writer mk -> form_typed T f ->
  (d_form X (s_form mk f) = Some f <-> form_ok V f).
Proof. exact form_exact. Qed.
Print Assumptions C29_form_exact.

Theorem C30_exact :
  forall E X K (T V : xvalues X), exts_sound K T V ->
  forall mk d, json_writer mk -> schema_typed E T d ->
  (d_ds E X (s_ds mk d) = Some d <-> schema_ok E V d).
Proof. exact schema_exact. Qed.
Print Assumptions C30_exact.

Theorem C32_exact :
  forall E s, security_typed E s ->
  ((exists j, s_security mk_value s = Some j /\ d_security E j = Some s) <-> security_ok E distinct s).
Proof. exact security_exact. Qed.
Print Assumptions C32_exact.

Example C29_exact_used :
  (forall s d, date_parse sample_env s = Some d -> date_ok sample_env d)
  /\ thing_typed http_typed the_lamp /\ thing_typed http_typed two_titles /\ thing_typed http_typed the_door
  /\ schema_typed sample_env http_typed deep_schema
  /\ security_typed sample_env custom_scheme /\ security_typed sample_env digest_like
  /\ security_ok sample_env distinct digest_like.
Proof. exact exact_used. Qed.

(** ** C34 *)

(** As text: exactly when it survives as a value and no property has a title, description or
    type. *)
Theorem C34_text_partial :
  forall E X K (T V : xvalues X), exts_sound K T V ->
  (forall s d, date_parse E s = Some d -> date_ok E d) ->
  forall t : thing E X, thing_typed T t ->
  ((exists j, s_thing mk_text t = Some j /\ no_repeats j /\ d_thing E X j = Some t)
   <-> thing_ok V distinct t /\ untitled t).
Proof. exact thing_text_exact. Qed.
Print Assumptions C34_text_partial.

(** As a value, no member is repeated. *)
Theorem C34_value :
  forall E X K (T V : xvalues X), exts_sound K T V ->
  forall (t : thing E X) j, thing_typed T t -> s_thing mk_value t = Some j -> no_repeats j.
Proof. exact value_no_repeat. Qed.
Print Assumptions C34_value.

Example C34_used :
  thing_typed http_typed the_door /\ thing_ok http_values distinct the_door /\ untitled the_door.
Proof. exact (conj door_typed (conj door_ok door_untitled)). Qed.

(** Fails: if a property has the same kind of member, say a title, as affordance and as
    schema, as it has when it was built or read, the text cannot be parsed. *)
Theorem C34_titled_refuted :
  forall E X (t : thing E X) ps k p j, t_properties t = Some ps -> In (k, p) ps ->
  share (ia_info (pa_ia p)) (ds_info (pa_ds p)) -> s_thing mk_text t = Some j -> d_thing E X j = None.
Proof. exact thing_unreadable. Qed.
Print Assumptions C34_titled_refuted.

Theorem C34_refuted :
  thing_typed http_typed one_title /\ thing_ok http_values own_name one_title
  /\ is_some (s_thing mk_text one_title) = true /\ back_text one_title = None.
Proof. exact one_title_text. Qed.
Print Assumptions C34_refuted.

(** ** C44 *)

Theorem C44_schema :
  forall E X K (T V : xvalues X), exts_sound K T V ->
  forall mk j d, json_writer mk -> document j -> d_ds E X j = Some d -> d_ds E X (s_ds mk d) = Some d.
Proof. exact schema_again. Qed.
Print Assumptions C44_schema.

(** What survives one round survives all. *)
Theorem C44_second_round :
  forall E X K (T V : xvalues X), exts_sound K T V ->
  (forall s d, date_parse E s = Some d -> date_ok E d) ->
  forall (t t' : thing E X) j, thing_typed T t -> s_thing mk_value t = Some j -> d_thing E X j = Some t' ->
  exists j', s_thing mk_value t' = Some j' /\ d_thing E X j' = Some t'.
Proof. exact second_round. Qed.
Print Assumptions C44_second_round.

(** From a document without repeated members. *)
Theorem C44_thing_partial :
  forall E X K (T V : xvalues X), exts_sound K T V ->
  (forall s d, date_parse E s = Some d -> date_ok E d) ->
  forall j (t : thing E X), clean j -> d_thing E X j = Some t -> forms_survive V t ->
  exists j', s_thing mk_value t = Some j' /\ d_thing E X j' = Some t.
Proof. exact thing_again. Qed.
Print Assumptions C44_thing_partial.

Theorem C44_text_partial :
  forall E X K (T V : xvalues X), exts_sound K T V ->
  (forall s d, date_parse E s = Some d -> date_ok E d) ->
  forall j (t : thing E X), clean j -> d_thing E X j = Some t -> forms_survive V t -> untitled t ->
  exists j', s_thing mk_text t = Some j' /\ d_thing E X j' = Some t.
Proof. exact thing_again_text. Qed.
Print Assumptions C44_text_partial.

Example C44_used :
  clean door /\ d_thing sample_env http_exts door = Some the_door /\ forms_survive http_values the_door
  /\ untitled the_door /\ thing_typed http_typed the_lamp.
Proof. exact (conj door_clean (conj door_is (conj door_survives (conj door_untitled lamp_typed)))). Qed.

(** Fails for [op: []], [htv:headers: []], for repeated members in a security scheme, and, as
    text, for properties with a title. *)
Theorem C44_refuted :
  (clean empty_ops /\ unstable mk_value empty_ops)
  /\ (clean empty_headers /\ unstable mk_value empty_headers)
  /\ (document named_twice /\ unstable mk_value named_twice)
  /\ (clean titled_doc /\ unstable mk_text titled_doc).
Proof.
  exact (conj empty_ops_unstable (conj empty_headers_unstable (conj named_twice_unstable titled_unstable))).
Qed.
Print Assumptions C44_refuted.
