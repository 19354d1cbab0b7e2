(** * Documents in the shape of Thing Descriptions (C55, C56) *)

From Coq Require Import String Bool ZArith List.
From Coq Require Import Floats.SpecFloat.
From Verif Require Import Base MinMax Json Serde Types DsBuilder Builder HList Ser De Protocol Samples Spec SpecThing SpecCalls
  SpecSerde SpecExt SpecDoc SpecMember SpecTyped SpecArgs SpecShape ExtFacts ExtTypedFacts DocSamples ExchangeMore BuiltSamples
  ConformFacts ReadsFacts BindingFacts ShapeSamples BindingSamples.
Import ListNotations.
Set Implicit Arguments.
Local Open Scope string_scope.
Local Open Scope list_scope.

(** [conforms] (SpecShape.v): required members are present and all members of the specification
    have values of the right kind, at every depth. *)

(** ** C55

    What is written for a Thing has the shape of a Thing Description exactly if the Thing has no gaps:
    no empty list of operations, no version without a model, no infinite number.  Custom schemes
    must not borrow names of the specification, see [C55_refuted]. *)
Theorem C55_shape_partial :
  forall E X K (T V : xvalues X), exts_sound K T V ->
  forall mk (t : thing E X) j, json_writer mk -> thing_typed T t -> schemes_own t -> dates_readable t ->
  s_thing mk t = Some j -> (conforms E (Object PThing) j <-> no_gaps t).
Proof. exact thing_shape. Qed.
Print Assumptions C55_shape_partial.

(** So does a Thing that survives being written and read, unless its version has no model. *)
Theorem C55_survives_partial :
  forall E X K (T V : xvalues X), exts_sound K T V ->
  forall mk (t : thing E X) j, json_writer mk -> thing_typed T t -> schemes_own t ->
  thing_ok V distinct t -> (forall v, t_version t = Some v -> v_model v <> None) ->
  s_thing mk t = Some j -> conforms E (Object PThing) j.
Proof. exact survivor_shape. Qed.
Print Assumptions C55_survives_partial.

Example C55_used :
  run id_order sensor = Some (Ok the_sensor)
  /\ thing_typed http_typed the_sensor /\ schemes_own the_sensor /\ dates_readable the_sensor /\ no_gaps the_sensor
  /\ thing_ok http_values distinct the_sensor /\ exts_sound http_names http_typed http_values.
Proof.
  exact (conj (proj1 sensor_built) (conj sensor_typed (conj sensor_own (conj sensor_dates
    (conj sensor_no_gaps (conj sensor_ok http_sound)))))).
Qed.

(** Fails for the lamp, whose version has no model; a form read with an empty list of operations; an
    infinite bound; a custom scheme named [oauth2]. *)
Theorem C55_refuted :
  (run id_order lamp = Some (Ok the_lamp) /\ misshapen the_lamp)
  /\ (d_thing sample_env http_exts empty_ops = Some no_ops /\ misshapen no_ops)
  /\ (run id_order infinite_bound = Some (Ok unbounded) /\ misshapen unbounded)
  /\ (run id_order posing_oauth2 = Some (Ok the_posing) /\ misshapen the_posing).
Proof. exact (conj (conj (proj1 built_used) lamp_misshapen) (conj ops_misshapen (conj bound_misshapen oauth2_misshapen))). Qed.
Print Assumptions C55_refuted.

(** ** C56

    Conversely every document of that shape is read, if no member is repeated and those that belong to
    extensions are as the extensions expect: [Q] says what members must look like, [R] which ones
    expected responses must have. *)
Theorem C56_read_with_partial :
  forall E X Q R, exts_readable X Q -> reads_with Q R (x_er X) -> ~ In "contentType" R ->
  forall j, no_repeats j -> always Q j -> answers R j -> conforms E (Object PThing) j -> exists t, d_thing E X j = Some t.
Proof. exact conforming_read_with. Qed.
Print Assumptions C56_read_with_partial.

(** What the bindings of the crate expect ([http_member], [coap_member], [mqtt_member] in SpecShape.v),
    alone and combined. *)
Theorem C56_bindings :
  (exts_readable http_exts http_member /\ reads_with http_member ["htv:headers"] (x_er http_exts))
  /\ (exts_readable coap_exts coap_member /\ reads_with coap_member [] (x_er coap_exts))
  /\ (exts_readable mqtt_exts mqtt_member /\ reads_with mqtt_member [] (x_er mqtt_exts))
  /\ (forall Q, exts_readable (nil_exts nil_piece) Q /\ reads_with Q [] (x_er (nil_exts nil_piece)))
  /\ forall X X' Q Q', exts_readable X Q -> exts_readable X' Q' ->
       exts_readable (cons_exts X X') (fun k v => Q k v /\ Q' k v)
       /\ forall R R', reads_with Q R (x_er X) -> reads_with Q' R' (x_er X') -> (forall k, In k R' -> ~ In k (p_take (x_er X))) ->
            reads_with (fun k v => Q k v /\ Q' k v) (R ++ R') (x_er (cons_exts X X')).
Proof. exact bindings_read. Qed.
Print Assumptions C56_bindings.

Example C56_bindings_used :
  conforms sample_env (Object PThing) valve /\ no_repeats valve /\ always any_member valve /\ answers ["htv:headers"] valve
  /\ exts_readable all_exts any_member /\ reads_with any_member ["htv:headers"] (x_er all_exts).
Proof. exact valve_fine. Qed.

(** In particular if no member belongs to an extension and the extensions are happy with objects that
    have none of their members. *)
Theorem C56_read_partial :
  forall E X K, exts_optional X K -> reads_without (x_er X) (k_er K) ->
  forall j, no_repeats j -> never (all_names K) j -> conforms E (Object PThing) j -> exists t, d_thing E X j = Some t.
Proof. exact conforming_read. Qed.
Print Assumptions C56_read_partial.

(** With extensions that do require members in responses: documents without responses. *)
Theorem C56_no_responses_partial :
  forall E X K, exts_optional X K ->
  forall j, no_repeats j -> never ("response" :: all_names K) j -> conforms E (Object PThing) j ->
  exists t, d_thing E X j = Some t.
Proof. exact conforming_read_part. Qed.
Print Assumptions C56_no_responses_partial.

(** A schema is read with the type it states if the numbers are in range. *)
Theorem C56_schema :
  forall E X Q, exts_readable X Q ->
  forall es, no_repeats (JObj es) -> always Q (JObj es) -> conforms E (Object PSchema) (JObj es) ->
  exists d, d_ds E X (JObj es) = Some d
    /\ (in_range es -> forall n, In ("type", JStr n) es -> exists s, ds_sub d = Some s /\ type_name s = n).
Proof. exact conforming_schema_with. Qed.
Print Assumptions C56_schema.

(** The bindings of the crate; that of HTTP requires headers in responses. *)
Theorem C56_crate :
  exts_optional http_exts http_names
  /\ (exts_optional coap_exts coap_names /\ reads_without (x_er coap_exts) (k_er coap_names))
  /\ (exts_optional mqtt_exts mqtt_names /\ reads_without (x_er mqtt_exts) (k_er mqtt_names))
  /\ forall X X' K K', exts_optional X K -> exts_optional X' K' ->
       exts_optional (cons_exts X X') (both_names K K')
       /\ (reads_without (x_er X) (k_er K) -> reads_without (x_er X') (k_er K') ->
           reads_without (x_er (cons_exts X X')) (k_er (both_names K K'))).
Proof. exact crate_optional. Qed.
Print Assumptions C56_crate.

Example C56_used :
  (conforms sample_env (Object PThing) door /\ no_repeats door
   /\ never ("response" :: all_names http_names) door /\ never (all_names coap_names) door)
  /\ (conforms sample_env (Object PSchema) (JObj typed_schema) /\ no_repeats (JObj typed_schema)
      /\ always http_member (JObj typed_schema) /\ in_range typed_schema
      /\ In ("type", JStr "array") typed_schema).
Proof. exact (conj (conj (door_conforms _) (conj door_no_repeats door_plain)) typed_schema_read). Qed.

(** Fails with the HTTP binding for a response without headers, and for methods, block sizes and qualities
    of service the bindings do not know.  A [multipleOf] that is no integer loses the type. *)
Theorem C56_refuted :
  (conforms sample_env (Object PThing) answered /\ no_repeats answered /\ never (all_names http_names) answered
   /\ d_thing sample_env http_exts answered = None)
  /\ (misread http_exts [("htv:methodName", JStr "OPTIONS")]
      /\ misread coap_exts [("cov:blockwise", JObj [("cov:block1Size", JInt 48)])]
      /\ misread mqtt_exts [("mqv:qos", JStr "quality:3")])
  /\ conforms sample_env (Object PSchema) (JObj [("type", JStr "integer"); ("multipleOf", JFloat (S754_finite false 1 (-1)))])
  /\ option_map (@ds_sub _ _ _) (d_ds sample_env http_exts
        (JObj [("type", JStr "integer"); ("multipleOf", JFloat (S754_finite false 1 (-1)))])) = Some None.
Proof. exact (conj answered_unread (conj bindings_strict fraction_loses)). Qed.
Print Assumptions C56_refuted.
