(** * Default values (C53) *)

From Coq Require Import String Bool ZArith List.
From Verif Require Import Base MinMax Json Serde Types DsBuilder Builder HList Protocol Ser De Samples SpecSerde SpecDoc SpecMember
  Defaults SpecDefault DefaultFacts.
Import ListNotations.
Set Implicit Arguments.
Local Open Scope string_scope.
Local Open Scope list_scope.

(** Hypothesis [exts_default Z]: the extensions read their default values where they have no
    members, and write nothing then. [least d]: the mandatory members, all empty. *)

(** The default values are those read from the least documents. *)
Theorem C53_read :
  forall E X (Z : xdefaults X), exts_default Z ->
  d_property E X (JObj (least DProperty)) = Some (property_default Z)
  /\ d_action E X (JObj (least DAction)) = Some (action_default Z)
  /\ d_event E X (JObj (least DEvent)) = Some (event_default Z)
  /\ d_form X (JObj (least DForm)) = Some (form_default Z)
  /\ d_link E (JObj (least DLink)) = Some link_default
  /\ d_version (JObj (least DVersion)) = Some version_default
  /\ d_add_resp (JObj []) = Some add_resp_default.
Proof.
  exact (fun E X Z H =>
    conj (property_default_read E H) (conj (action_default_read E H) (conj (event_default_read E H)
    (conj (form_default_read H) (conj (proj1 (plain_default_read E))
    (conj (proj1 (proj2 (plain_default_read E))) (proj1 (proj2 (proj2 (plain_default_read E)))))))))).
Qed.
Print Assumptions C53_read.

(** Data schemas, with and without a type. *)
Theorem C53_schema :
  forall E X (Z : xdefaults X), exts_default Z ->
  d_ds E X (JObj []) = Some (ds_default Z)
  /\ forall (n : string) (s : dsubx X),
      In (n, s) [("array", array_default Z); ("boolean", SBoolean); ("number", SNumber number_default);
                 ("integer", SInteger integer_default); ("object", object_default Z);
                 ("string", SString string_default); ("null", dsub_default)] ->
      d_ds E X (JObj [("type", JStr n)]) = Some (mkDs no_info misc_default None (Some s) (z_ds Z)).
Proof. exact sub_default_read. Qed.
Print Assumptions C53_schema.

(** Security schemes. *)
Theorem C53_security :
  forall E, d_security E (JObj [("scheme", JStr "nosec")]) = Some security_default
  /\ forall n fs k,
      In (n, fs, k)
        [("nosec", [], known_default); ("auto", [], KAuto); ("basic", [], KBasic basic_default);
         ("digest", [("qop", JStr "auth")], KDigest qop_default digest_default);
         ("bearer", [], KBearer bearer_default); ("psk", [], KPsk psk_default);
         ("oauth2", [("flow", JStr "")], KOAuth2 oauth2_default); ("apikey", [], KApiKey apikey_default)] ->
      option_map ss_subtype (d_security E (JObj (("scheme", JStr n) :: fs))) = Some (Known k).
Proof. exact (fun E => proj2 (proj2 (proj2 (plain_default_read E)))). Qed.
Print Assumptions C53_security.

Theorem C53_oauth2_new :
  forall E flow,
  option_map ss_subtype (d_security E (JObj [("scheme", JStr "oauth2"); ("flow", JStr flow)]))
  = Some (Known (KOAuth2 (oauth2_new flow))).
Proof. exact oauth2_new_read. Qed.
Print Assumptions C53_oauth2_new.

(** A version made from a string is the one whose document has only the instance. *)
Theorem C53_version :
  forall instance,
  d_version (JObj [("instance", JStr instance)]) = Some (version_from instance)
  /\ s_version mk_text (version_from instance) = JObj [("instance", JStr instance); ("model", JNull)].
Proof. exact version_from_read. Qed.
Print Assumptions C53_version.

(** Expected responses, for extensions of responses that read their default. *)
Theorem C53_response_partial :
  forall X (Z : xdefaults X), default_of (x_er X) (z_er Z) ->
  d_exp_resp X (JObj (least DExpResp)) = Some (exp_resp_default (z_er Z)).
Proof. exact exp_resp_default_read. Qed.
Print Assumptions C53_response_partial.

(** [Thing::default()] has [null] for context: it is read from the least document that says so. *)
Theorem C53_thing_partial :
  forall E X (Z : xdefaults X), exts_default Z ->
  d_thing E X (JObj (("@context", JNull) :: least DThing)) = Some (thing_default E Z).
Proof. exact thing_default_read. Qed.
Print Assumptions C53_thing_partial.

(** The least Thing that is read, and the one built by no calls, differ from it in the context (and title). *)
Theorem C53_least_thing :
  forall E X (Z : xdefaults X), exts_default Z ->
  d_thing E X (JObj (least DThing)) = Some (entitled (JStr TD_CONTEXT_11) "" (thing_default E Z)).
Proof. exact thing_least_read. Qed.
Print Assumptions C53_least_thing.

Theorem C53_built :
  forall E X (Z : xdefaults X) ord title, order_ok ord ->
  thing_program ord title (z_t Z) [] = Some (Ok (entitled (JStr TD_CONTEXT_11) title (thing_default E Z))).
Proof. exact build_nothing. Qed.
Print Assumptions C53_built.

(** Default values are written as the least documents plus some flags. *)
Theorem C53_written :
  forall X (Z : xdefaults X), exts_default Z ->
  (forall mk, s_ds mk (ds_default Z) = mk (least DSchema ++ flags DSchema))
  /\ (forall mk, s_form mk (form_default Z) = mk (least DForm ++ flags DForm))
  /\ (forall mk, s_property mk (property_default Z) = mk (least DProperty ++ flags DProperty))
  /\ (forall mk, s_action mk (action_default Z) = mk (least DAction ++ flags DAction))
  /\ (forall mk, s_event mk (event_default Z) = mk (least DEvent ++ flags DEvent)).
Proof. exact default_written. Qed.
Print Assumptions C53_written.

Theorem C53_thing_written :
  forall E X (Z : xdefaults X), exts_default Z ->
  s_thing mk_text (thing_default E Z) = Some (JObj (("@context", JNull) :: least DThing)).
Proof. exact thing_default_written. Qed.
Print Assumptions C53_thing_written.

(** The least documents have exactly the mandatory members. *)
Theorem C53_least : forall d, map fst (least d) = mandatory d.
Proof. exact least_mandatory. Qed.
Print Assumptions C53_least.

(** The extensions of the crate, and any combination of them. *)
Theorem C53_extensions :
  exts_default http_defaults
  /\ (exts_default coap_defaults /\ default_of (x_er coap_exts) (z_er coap_defaults))
  /\ (exts_default mqtt_defaults /\ default_of (x_er mqtt_exts) (z_er mqtt_defaults))
  /\ (forall t z, default_of t z -> exts_default (nil_defaults t z))
  /\ forall X X' (Z : xdefaults X) (Z' : xdefaults X'),
       exts_default Z -> exts_default Z' -> exts_default (cons_defaults Z Z').
Proof.
  exact (conj http_default (conj coap_default (conj mqtt_default (conj nil_exts_default cons_exts_default)))).
Qed.
Print Assumptions C53_extensions.

Example C53_used :
  exts_default (cons_defaults http_defaults (cons_defaults coap_defaults mqtt_defaults))
  /\ d_form (cons_exts http_exts (cons_exts coap_exts mqtt_exts)) (JObj (least DForm))
     = Some (form_default (cons_defaults http_defaults (cons_defaults coap_defaults mqtt_defaults))).
Proof.
  exact (conj (cons_exts_default http_default (cons_exts_default (proj1 coap_default) (proj1 mqtt_default)))
              (form_default_read (cons_exts_default http_default
                                    (cons_exts_default (proj1 coap_default) (proj1 mqtt_default))))).
Qed.

(** Fails: [Thing::default()] is not what is read from the least document, *)
Theorem C53_context_refuted :
  d_thing sample_env http_exts (JObj (least DThing)) <> Some (thing_default sample_env http_defaults).
Proof. exact context_differs. Qed.
Print Assumptions C53_context_refuted.

(** the default response of the HTTP binding cannot be read back, *)
Theorem C53_http_response_refuted :
  s_exp_resp http_exts mk_text (exp_resp_default (z_er http_defaults)) = JObj (least DExpResp)
  /\ d_exp_resp http_exts (JObj (least DExpResp)) = None.
Proof. exact http_response_unread. Qed.
Print Assumptions C53_http_response_refuted.

(** and the default custom security scheme is not what is read from it. *)
Theorem C53_unknown_refuted :
  forall E mk, exists es, subtype_es mk unknown_default = Some es
  /\ option_map ss_subtype (d_security E (JObj es)) <> Some unknown_default.
Proof. exact unknown_differs. Qed.
Print Assumptions C53_unknown_refuted.
