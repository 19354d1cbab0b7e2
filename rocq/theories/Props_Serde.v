(** * Writing and reading back (C29, C30, C31, C32, C43, C49) *)

From Coq Require Import String Bool ZArith List.
From Verif Require Import Base MinMax Json Serde Types HList Ser De Protocol Samples SpecSerde SpecExt SpecDoc
  SpecMember SerdeFacts RoundTrip RoundTripDs RoundTripTd RoundTripThing ExtFacts SerdeSamples DocSamples
  RespellFacts NameFacts WrittenFacts Witnesses SerdeMore.
Import ListNotations.
Set Implicit Arguments.
Local Open Scope string_scope.
Local Open Scope list_scope.

(** ** C29

    [thing_ok V own_name]: the invariants of the Rust types, and: the extension values
    are such that round trip ([V]); constants and defaults are not [null]; numbers are
    finite; no list of operations is empty; a property has the same titles, descriptions and
    types as affordance and as schema; custom security schemes have a name of their own, an
    object as data and no clash with the members of a scheme; dates can be written.
    Each of these is needed, see [C29_refuted] and [C30_refuted], [C31_refuted],
    [C32_refuted]. *)
Theorem C29_thing_partial :
  forall E X K (V : xvalues X), exts_round_trip K V -> names_apart K ->
  forall t : thing E X, thing_ok V own_name t ->
  exists j, s_thing mk_value t = Some j /\ d_thing E X j = Some t.
Proof. exact thing_value_rt. Qed.
Print Assumptions C29_thing_partial.

(** As text: for Things whose properties have no title, description or type (see C34). *)
Theorem C29_text_partial :
  forall E X K (V : xvalues X), exts_round_trip K V -> names_apart K ->
  forall t : thing E X, thing_ok V own_name t ->
  (forall ps k p, t_properties t = Some ps -> In (k, p) ps -> ds_info (pa_ds p) = no_info) ->
  exists j, s_thing mk_text t = Some j /\ d_thing E X j = Some t.
Proof. exact thing_text_rt. Qed.
Print Assumptions C29_text_partial.

Theorem C29_property_partial :
  forall E X K (V : xvalues X), exts_round_trip K V -> names_apart K ->
  forall p, property_ok E V p -> d_property E X (s_property mk_value p) = Some p.
Proof. exact property_value_rt. Qed.
Print Assumptions C29_property_partial.

Theorem C29_action_partial :
  forall E X K (V : xvalues X) mk, json_writer mk -> exts_round_trip K V -> names_apart K ->
  forall a, action_ok E V a -> d_action E X (s_action mk a) = Some a.
Proof. exact action_rt. Qed.
Print Assumptions C29_action_partial.

Theorem C29_event_partial :
  forall E X K (V : xvalues X) mk, json_writer mk -> exts_round_trip K V -> names_apart K ->
  forall e, event_ok E V e -> d_event E X (s_event mk e) = Some e.
Proof. exact event_rt. Qed.
Print Assumptions C29_event_partial.

Theorem C29_form_partial :
  forall X K (V : xvalues X) mk, json_writer mk -> exts_round_trip K V -> names_apart K ->
  forall f, form_ok V f -> d_form X (s_form mk f) = Some f.
Proof. exact form_rt. Qed.
Print Assumptions C29_form_partial.

(** Links, version information and additional responses round trip without restriction. *)
Theorem C29_link :
  forall E mk, json_writer mk -> forall l, link_ok E l -> d_link E (s_link mk l) = Some l.
Proof. exact link_rt. Qed.
Print Assumptions C29_link.

Theorem C29_version :
  forall mk, json_writer mk -> forall v, d_version (s_version mk v) = Some v /\ s_version mk v <> JNull.
Proof. exact version_rt. Qed.
Print Assumptions C29_version.

Theorem C29_add_resp :
  forall mk, json_writer mk ->
  forall r, d_add_resp (s_add_resp mk r) = Some r /\ s_add_resp mk r <> JNull.
Proof. exact add_resp_rt. Qed.
Print Assumptions C29_add_resp.

(** The extensions of the crate, and any two extensions with different names together,
    meet the hypotheses. *)
Theorem C29_bindings :
  (exts_round_trip http_names http_values /\ names_apart http_names)
  /\ (exts_round_trip coap_names coap_values /\ names_apart coap_names)
  /\ (exts_round_trip mqtt_names mqtt_values /\ names_apart mqtt_names)
  /\ forall X X' K K' (V : xvalues X) (V' : xvalues X'),
       exts_round_trip K V -> exts_round_trip K' V' -> xdisjoint K K' ->
       exts_round_trip (both_names K K') (both_values V V').
Proof. exact bindings_round_trip. Qed.
Print Assumptions C29_bindings.

(** A Thing with all kinds of affordances, nested schemas, security, links, forms. *)
Example C29_used :
  exts_round_trip http_names http_values /\ names_apart http_names
  /\ thing_ok http_values own_name the_lamp.
Proof. exact (conj http_exts_round_trip (conj http_names_apart lamp_ok)). Qed.

(** The property as stated fails: an empty list of operations, a property with two
    titles, a custom scheme named like a known one; a date that cannot be written. *)
Theorem C29_refuted :
  back no_ops <> Some no_ops /\ back two_titles <> Some two_titles /\ back impostor <> Some impostor
  /\ s_thing mk_value undated = None.
Proof. exact (conj no_ops_back (conj two_titles_back (conj impostor_back eq_refl))). Qed.
Print Assumptions C29_refuted.

(** ** C30: at any depth *)
Theorem C30_schema_partial :
  forall E X K (V : xvalues X) mk, json_writer mk -> exts_round_trip K V -> names_apart K ->
  forall d, schema_ok E V d -> d_ds E X (s_ds mk d) = Some d /\ s_ds mk d <> JNull.
Proof. exact ds_rt. Qed.
Print Assumptions C30_schema_partial.

Example C30_used :
  schema_ok sample_env http_values deep_schema /\ depth_at_least 3 deep_schema.
Proof. exact (conj deep_schema_ok deep_schema_deep). Qed.

Theorem C30_refuted :
  d_ds sample_env http_exts (s_ds mk_value null_const) <> Some null_const
  /\ d_ds sample_env http_exts (s_ds mk_value unbounded) <> Some unbounded.
Proof. exact (conj null_const_back unbounded_back). Qed.
Print Assumptions C30_refuted.

(** ** C31 *)
Theorem C31_ops_partial :
  forall o, o <> OpCustom [] -> d_ops (s_ops o) = Some o.
Proof. exact d_ops_rt. Qed.
Print Assumptions C31_ops_partial.

(** In a form: written under [op], left out exactly for the default, and read back. *)
Theorem C31_form_partial :
  forall X K (V : xvalues X) mk, json_writer mk -> exts_round_trip K V -> names_apart K ->
  forall f es, v_f V (f_other f) -> all_some (fun r => v_er V (er_other r)) (f_response f) ->
  s_form mk f = JObj es ->
  (absent "op" es <-> f_op f = OpDefault)
  /\ (f_op f <> OpCustom [] -> option_map (@f_op X) (d_form X (JObj es)) = Some (f_op f)).
Proof. exact form_op_rt. Qed.
Print Assumptions C31_form_partial.

Example C31_used :
  exists es, s_form mk_text (w_form (OpCustom [ReadProperty; WriteProperty])) = JObj es
    /\ In ("op", JArr [JStr "readproperty"; JStr "writeproperty"]) es
    /\ http_response_ok {| hr_headers := [{| hh_name := Some "a"; hh_value := None |}]; hr_status := None |}.
Proof. exact form_op_sample. Qed.

(** An empty list comes back as the default. *)
Theorem C31_refuted : exists o o', d_ops (s_ops o) = Some o' /\ o' <> o.
Proof. exact (ex_intro _ (OpCustom []) (ex_intro _ OpDefault (conj eq_refl default_not_custom))). Qed.
Print Assumptions C31_refuted.

(** ** C32 *)
Theorem C32_security_partial :
  forall E mk, json_writer mk -> forall s, security_ok E own_name s ->
  exists j, s_security mk s = Some j /\ d_security E j = Some s.
Proof. exact security_own_rt. Qed.
Print Assumptions C32_security_partial.

(** All known schemes, without restriction on their contents. *)
Theorem C32_known :
  forall E mk, json_writer mk -> forall s k, ss_subtype s = Known k -> all_some (tags_ok E) (ss_descriptions s) ->
  exists j, s_security mk s = Some j /\ d_security E j = Some s.
Proof. exact security_known_rt. Qed.
Print Assumptions C32_known.

Example C32_used :
  security_ok sample_env own_name custom_scheme
  /\ s_security mk_text custom_scheme
     = Some (JObj [("proxy", JStr "http://p"); ("scheme", JStr "acme"); ("keys", JArr [JInt 1; JInt 2]);
                   ("realm", JStr "home")]).
Proof. exact (conj custom_scheme_ok eq_refl). Qed.

(** Fails for custom schemes with data that is not an object, uses the members of a scheme, or
    with a name that is taken. *)
Theorem C32_refuted :
  s_security mk_value scalar_scheme = None
  /\ (~ exists j, s_security mk_value null_scheme = Some j /\ d_security sample_env j = Some null_scheme)
  /\ (~ exists j, s_security mk_value clashing_scheme = Some j
        /\ d_security sample_env j = Some clashing_scheme)
  /\ (~ exists j, s_security mk_value false_nosec = Some j /\ d_security sample_env j = Some false_nosec).
Proof. exact security_refuted. Qed.
Print Assumptions C32_refuted.

(** ** C43

    [td_operations]: the names given in the TD specification. *)
Theorem C43_names :
  forall s o,
    (In (s, o) td_operations <-> s_op o = JStr s)
    /\ (In (s, o) td_operations <-> d_op (JStr s) = Some o)
    /\ (In (s, o) td_operations <-> op_display o = s).
Proof. exact op_table. Qed.
Print Assumptions C43_names.

Theorem C43_one_to_one :
  NoDup (map fst td_operations) /\ NoDup (map snd td_operations) /\ forall o, In o (map snd td_operations).
Proof. exact op_table_one_to_one. Qed.
Print Assumptions C43_one_to_one.

Example C43_used : In ("observeallproperties", ObserveAllProperties) td_operations /\ length td_operations = 18.
Proof. exact observe_all. Qed.

(** ** C49

    Reading: [respelt d j j']: somewhere in [j] a bare one-or-many value was put in
    brackets. *)
Theorem C49_thing :
  forall E X K, exts_read_only X K -> names_apart K ->
  forall j j', respelt DThing j j' -> d_thing E X j = d_thing E X j'.
Proof. exact thing_respelt. Qed.
Print Assumptions C49_thing.

Theorem C49_property :
  forall E X K, exts_read_only X K -> names_apart K ->
  forall j j', respelt DProperty j j' -> d_property E X j = d_property E X j'.
Proof. exact property_respelt. Qed.
Print Assumptions C49_property.

Theorem C49_action :
  forall E X K, exts_read_only X K -> names_apart K ->
  forall j j', respelt DAction j j' -> d_action E X j = d_action E X j'.
Proof. exact action_respelt. Qed.
Print Assumptions C49_action.

Theorem C49_event :
  forall E X K, exts_read_only X K -> names_apart K ->
  forall j j', respelt DEvent j j' -> d_event E X j = d_event E X j'.
Proof. exact event_respelt. Qed.
Print Assumptions C49_event.

Theorem C49_form :
  forall X K, exts_read_only X K -> names_apart K ->
  forall j j', respelt DForm j j' -> d_form X j = d_form X j'.
Proof. exact form_respelt. Qed.
Print Assumptions C49_form.

Theorem C49_link :
  forall E j j', respelt DLink j j' -> d_link E j = d_link E j'.
Proof. exact link_respelt. Qed.
Print Assumptions C49_link.

Theorem C49_schema :
  forall E X K, exts_read_only X K -> names_apart K ->
  forall j j', respelt DSchema j j' -> d_ds E X j = d_ds E X j'.
Proof. exact schema_respelt. Qed.
Print Assumptions C49_schema.

(** A known security scheme (an unknown one keeps the members it does not know as they are). *)
Theorem C49_security :
  forall E k v es1 es2 s kn, In k ["@type"; "oneOf"; "allOf"; "scopes"] -> bare v -> ss_subtype s = Known kn ->
  (d_security E (JObj (es1 ++ (k, v) :: es2)) = Some s
   <-> d_security E (JObj (es1 ++ (k, JArr [v]) :: es2)) = Some s).
Proof. exact security_respelt. Qed.
Print Assumptions C49_security.

(** Writing, all members but [op]. *)
Theorem C49_write_form :
  forall X K (V : xvalues X) mk, json_writer mk -> exts_round_trip K V -> names_apart K ->
  forall f es, v_f V (f_other f) -> s_form mk f = JObj es ->
  written_as es "security" (one_or_many JStr) (f_security f)
  /\ written_as es "scopes" (one_or_many JStr) (f_scopes f)
  /\ written_as es "additionalResponses" (one_or_many (s_add_resp mk)) (f_additional f).
Proof. exact form_one_or_many. Qed.
Print Assumptions C49_write_form.

Theorem C49_write_link :
  forall mk, json_writer mk -> forall l es, s_link mk l = JObj es ->
  written_as es "hreflang" (one_or_many JStr) (l_hreflang l).
Proof. exact link_written. Qed.
Print Assumptions C49_write_link.

Theorem C49_write_schema :
  forall E X K (V : xvalues X) mk, json_writer mk -> exts_round_trip K V -> names_apart K ->
  forall d es, schema_ok E V d -> s_ds mk d = JObj es ->
  written_as es "@type" (one_or_many JStr) (i_attype (ds_info d)).
Proof. exact ds_written. Qed.
Print Assumptions C49_write_schema.

Theorem C49_write_affordances :
  forall E X K (V : xvalues X) mk, json_writer mk -> exts_round_trip K V -> names_apart K ->
  (forall p es, property_ok E V p -> s_property mk p = JObj es ->
     written_as es "@type" (one_or_many JStr) (i_attype (ia_info (pa_ia p))))
  /\ (forall a es, action_ok E V a -> s_action mk a = JObj es ->
     written_as es "@type" (one_or_many JStr) (i_attype (ia_info (aa_ia a))))
  /\ (forall e es, event_ok E V e -> s_event mk e = JObj es ->
     written_as es "@type" (one_or_many JStr) (i_attype (ia_info (ea_ia e)))).
Proof. exact affordances_one_or_many. Qed.
Print Assumptions C49_write_affordances.

Theorem C49_write_thing :
  forall E X K (V : xvalues X) mk, json_writer mk -> exts_round_trip K V -> names_apart K ->
  forall (t : thing E X) es, v_t V (t_other t) -> s_thing mk t = Some (JObj es) ->
  written_as es "@type" (one_or_many JStr) (t_attype t)
  /\ written_as es "profile" (one_or_many JStr) (t_profile t)
  /\ written_as es "security" (one_or_many JStr) (Some (t_security t)).
Proof. exact thing_written. Qed.
Print Assumptions C49_write_thing.

Theorem C49_write_security :
  forall mk, json_writer mk -> forall s es, s_security mk s = Some (JObj es) ->
  (forall scheme data, ss_subtype s = Unknown scheme (JObj data) -> absent "@type" data) ->
  written_as es "@type" (one_or_many JStr) (ss_attype s)
  /\ (forall o, ss_subtype s = Known (KOAuth2 o) -> written_as es "scopes" (one_or_many JStr) (oa_scopes o))
  /\ (forall l, ss_subtype s = Known (KCombo (COneOf l)) -> written_as es "oneOf" (one_or_many JStr) (Some l))
  /\ (forall l, ss_subtype s = Known (KCombo (CAllOf l)) -> written_as es "allOf" (one_or_many JStr) (Some l)).
Proof. exact security_written. Qed.
Print Assumptions C49_write_security.

(** ... which is a bare value exactly for lists of length one. *)
Theorem C49_bare :
  forall A (f : A -> json) l, (forall a, bare (f a)) -> (bare (one_or_many f l) <-> length l = 1).
Proof. exact one_or_many_bare. Qed.
Print Assumptions C49_bare.

Example C49_used :
  respelt DThing door door_respelt /\ door_respelt <> door
  /\ is_some (d_thing sample_env http_exts door) = true
  /\ (exists es, s_thing mk_text the_lamp = Some (JObj es)
        /\ In ("@type", JStr "saref:LightSwitch") es
        /\ In ("security", JArr [JStr "basic_sc"; JStr "combo"]) es).
Proof. exact door_respelt_used. Qed.

(** A single operation is written in brackets. *)
Theorem C49_refuted :
  exists o : form_op, s_ops (OpCustom [o]) = JArr [s_op o] /\ bare (s_op o).
Proof. exact (ex_intro _ ReadProperty (conj eq_refl (conj str_not_null str_not_arr))). Qed.
Print Assumptions C49_refuted.
