(** * Serialization of the Thing Description types (src/thing.rs)

    [serde::Serialize] as derived.  A struct with a flattened member is written as a
    map, one without as a struct; both give an object.  [mk] assembles objects
    ([Serde.v]).  The functions ending in [_es] return the members a value
    contributes to the enclosing object. *)

From Coq Require Import String Bool ZArith List.
From Verif Require Import Base MinMax Json Serde Types.
Import ListNotations.
Set Implicit Arguments.
Local Open Scope string_scope.
Local Open Scope list_scope.

Section Ser.
  Variable E : env.
  Variable X : exts.
  Variable mk : entries -> json.

  (** src/thing.rs 30, [MultiLanguage] *)
  Definition s_multilang (m : multilang) : json := s_map mk JStr m.

  (** src/thing.rs 299-314, 675-690 *)
  Definition info_es (i : info) : entries :=
    ofld "@type" (s_oom JStr) (i_attype i)
    ++ ofld "title" JStr (i_title i)
    ++ ofld "titles" s_multilang (i_titles i)
    ++ ofld "description" JStr (i_description i)
    ++ ofld "descriptions" s_multilang (i_descriptions i).

  (** ** Data schemas *)

  (** src/thing.rs 842-851, [Maximum], externally tagged, flattened *)
  Definition max_es {A} (f : A -> json) (o : option (maximum A)) : entries :=
    match o with
    | Some (MaxIncl a) => fld "maximum" (f a)
    | Some (MaxExcl a) => fld "exclusiveMaximum" (f a)
    | None => []
    end.

  (** src/thing.rs 854-863, [Minimum] *)
  Definition min_es {A} (f : A -> json) (o : option (minimum A)) : entries :=
    match o with
    | Some (MinIncl a) => fld "minimum" (f a)
    | Some (MinExcl a) => fld "exclusiveMinimum" (f a)
    | None => []
    end.

  (** src/thing.rs 996-1010 *)
  Definition number_es (n : number_schema) : entries :=
    max_es s_f64 (n_max n) ++ min_es s_f64 (n_min n) ++ ofld "multipleOf" s_f64 (n_mult n).

  (** src/thing.rs 1013-1028 *)
  Definition integer_es (n : integer_schema) : entries :=
    max_es JInt (z_max n) ++ min_es JInt (z_min n) ++ ofld "multipleOf" JInt (z_mult n).

  (** src/thing.rs 1079-1104 *)
  Definition string_es (s : string_schema) : entries :=
    ofld "minLength" JInt (s_min s) ++ ofld "maxLength" JInt (s_max s)
    ++ ofld "pattern" JStr (s_pattern s) ++ ofld "contentEncoding" JStr (s_encoding s)
    ++ ofld "contentMediaType" JStr (s_media s).

  (** src/thing.rs 690-696, [const], [default], [unit] *)
  Definition misc1_es (m : dmisc) : entries :=
    ofld "const" (ser_value mk) (m_const m) ++ ofld "default" (ser_value mk) (m_default m)
    ++ ofld "unit" JStr (m_unit m).

  (** src/thing.rs 705-718, [enum], [readOnly], [writeOnly], [format] *)
  Definition misc2_es (m : dmisc) : entries :=
    ofld "enum" (s_list (ser_value mk)) (m_enum m)
    ++ fld "readOnly" (JBool (m_ro m)) ++ fld "writeOnly" (JBool (m_wo m))
    ++ ofld "format" JStr (m_format m).

  (** src/thing.rs 670-727 [DataSchema], 736-759 [DataSchemaSubtype], 779-810
      [ArraySchema], 812-817 [BoxedElemOrVec] (untagged), 1031-1043 [ObjectSchema].
      The subtype is internally tagged: its tag comes first. *)
  Fixpoint ds_es (d : dsx X) : entries :=
    match d with
    | mkDs i m one_of sub o =>
        info_es i ++ misc1_es m
        ++ ofld "oneOf" (fun l => JArr (map (fun d => mk (ds_es d)) l)) one_of
        ++ misc2_es m
        ++ match sub with Some s => sub_es s | None => [] end
        ++ p_ser (x_ds X) mk o
    end
  (** src/thing.rs 736-759, 779-810, 1031-1043 *)
  with sub_es (s : dsubx X) : entries :=
    match s with
    | SArray items mn mx o =>
        fld "type" (JStr "array")
        ++ ofld "items" boxed_js items ++ ofld "min_items" JInt mn ++ ofld "max_items" JInt mx
        ++ p_ser (x_as X) mk o
    | SBoolean => fld "type" (JStr "boolean")
    | SNumber n => fld "type" (JStr "number") ++ number_es n
    | SInteger n => fld "type" (JStr "integer") ++ integer_es n
    | SObject ps r o =>
        fld "type" (JStr "object")
        ++ ofld "properties" (fun ps => mk (map (fun kv => (fst kv, mk (ds_es (snd kv)))) ps)) ps
        ++ ofld "required" (s_list JStr) r
        ++ p_ser (x_os X) mk o
    | SString s => fld "type" (JStr "string") ++ string_es s
    | SNull => fld "type" (JStr "null")
    end
  (** src/thing.rs 812-817 *)
  with boxed_js (b : boxed (pty (x_ds X)) (pty (x_as X)) (pty (x_os X))) : json :=
    match b with
    | BElem d => mk (ds_es d)
    | BVec l => JArr (map (fun d => mk (ds_es d)) l)
    end.

  (** src/thing.rs 670-727, as an object *)
  Definition s_ds (d : dsx X) : json := mk (ds_es d).

  (** [DataSchemaMap], src/thing.rs 31-38 *)
  Definition s_dsmap : amap (dsx X) -> json := s_map mk s_ds.

  (** ** Security *)

  (** src/thing.rs 1234-1257 *)
  Definition location_name (l : location) : string :=
    match l with
    | LHeader => "header" | LQuery => "query" | LBody => "body" | LCookie => "cookie" | LUri => "uri"
    end.

  (** src/thing.rs 1293-1302 *)
  Definition qop_name (q : qop) : string := match q with QAuth => "auth" | QAuthInt => "auth-int" end.

  (** src/thing.rs 1234-1257, derived [Serialize] *)
  Definition s_loc (l : location) : json := JStr (location_name l).
  (** src/thing.rs 1293-1302, derived [Serialize] *)
  Definition s_qop (q : qop) : json := JStr (qop_name q).

  (** src/thing.rs 1213-1231, 1305-1323 *)
  Definition loc_name_es (b : loc_name) : entries :=
    fld "in" (s_loc (ln_loc b)) ++ ofld "name" JStr (ln_name b).

  (** src/thing.rs 1133-1168, internally tagged; the inner types are 1199-1210, 1213-1231,
      1268-1290, 1305-1369, 1372-1411 *)
  Definition known_es (k : known_sec) : entries :=
    match k with
    | KNoSec => fld "scheme" (JStr "nosec")
    | KAuto => fld "scheme" (JStr "auto")
    | KCombo (COneOf l) => fld "scheme" (JStr "combo") ++ fld "oneOf" (s_oom JStr l)
    | KCombo (CAllOf l) => fld "scheme" (JStr "combo") ++ fld "allOf" (s_oom JStr l)
    | KBasic b => fld "scheme" (JStr "basic") ++ loc_name_es b
    | KDigest q b => fld "scheme" (JStr "digest") ++ fld "qop" (s_qop q) ++ loc_name_es b
    | KBearer b =>
        fld "scheme" (JStr "bearer")
        ++ ofld "authorization" JStr (be_auth b) ++ fld "alg" (JStr (be_alg b))
        ++ fld "format" (JStr (be_format b)) ++ fld "in" (s_loc (be_loc b))
        ++ ofld "name" JStr (be_name b)
    | KPsk i => fld "scheme" (JStr "psk") ++ ofld "identity" JStr i
    | KOAuth2 o =>
        fld "scheme" (JStr "oauth2")
        ++ ofld "authorization" JStr (oa_auth o) ++ ofld "token" JStr (oa_token o)
        ++ ofld "refresh" JStr (oa_refresh o) ++ ofld "scopes" (s_oom JStr) (oa_scopes o)
        ++ fld "flow" (JStr (oa_flow o))
    | KApiKey b => fld "scheme" (JStr "apikey") ++ loc_name_es b
    end.

  (** src/thing.rs 1171-1190.  Flattening a [Value] that is neither an object nor null
      is a serialization error ("can only flatten structs and maps"). *)
  Definition subtype_es (s : sec_subtype) : option entries :=
    match s with
    | Known k => Some (known_es k)
    | Unknown scheme data =>
        let? es := match data with
                   | JObj es => Some (map (fun kv => (fst kv, ser_value mk (snd kv))) es)
                   | JNull => Some []
                   | _ => None
                   end in
        Some (fld "scheme" (JStr scheme) ++ es)
    end.

  (** src/thing.rs 1107-1130 *)
  Definition security_es (s : security_scheme) : option entries :=
    let? sub := subtype_es (ss_subtype s) in
    Some (ofld "@type" (s_oom JStr) (ss_attype s)
          ++ ofld "description" JStr (ss_description s)
          ++ ofld "descriptions" s_multilang (ss_descriptions s)
          ++ ofld "proxy" JStr (ss_proxy s)
          ++ sub).

  (** src/thing.rs 1107-1130, as an object *)
  Definition s_security (s : security_scheme) : option json := option_map mk (security_es s).

  (** ** Links and forms *)

  (** src/thing.rs 1428-1459 *)
  Definition link_es (l : link) : entries :=
    fld "href" (JStr (l_href l)) ++ ofld "type" JStr (l_type l) ++ ofld "rel" JStr (l_rel l)
    ++ ofld "anchor" JStr (l_anchor l) ++ ofld "sizes" JStr (l_sizes l)
    ++ ofld "hreflang" (s_oom JStr) (l_hreflang l).

  (** src/thing.rs 1428-1459, as an object *)
  Definition s_link (l : link) : json := mk (link_es l).

  (** src/thing.rs 1550-1615, [rename_all = "lowercase"] *)
  Definition op_name (o : form_op) : string :=
    match o with
    | ReadProperty => "readproperty" | WriteProperty => "writeproperty"
    | ObserveProperty => "observeproperty" | UnobserveProperty => "unobserveproperty"
    | InvokeAction => "invokeaction" | QueryAction => "queryaction" | CancelAction => "cancelaction"
    | SubscribeEvent => "subscribeevent" | UnsubscribeEvent => "unsubscribeevent"
    | ReadAllProperties => "readallproperties" | WriteAllProperties => "writeallproperties"
    | ReadMultipleProperties => "readmultipleproperties"
    | WriteMultipleProperties => "writemultipleproperties"
    | ObserveAllProperties => "observeallproperties"
    | UnobserveAllProperties => "unobserveallproperties"
    | SubscribeAllEvents => "subscribeallevents" | UnsubscribeAllEvents => "unsubscribeallevents"
    | QueryAllActions => "queryallactions"
    end.

  (** src/thing.rs 1617-1642, [Display for FormOperation] *)
  Definition op_display (o : form_op) : string :=
    match o with
    | ReadProperty => "readproperty" | WriteProperty => "writeproperty"
    | ObserveProperty => "observeproperty" | UnobserveProperty => "unobserveproperty"
    | InvokeAction => "invokeaction" | QueryAction => "queryaction" | CancelAction => "cancelaction"
    | SubscribeEvent => "subscribeevent" | UnsubscribeEvent => "unsubscribeevent"
    | ReadAllProperties => "readallproperties" | WriteAllProperties => "writeallproperties"
    | ReadMultipleProperties => "readmultipleproperties"
    | WriteMultipleProperties => "writemultipleproperties"
    | ObserveAllProperties => "observeallproperties"
    | UnobserveAllProperties => "unobserveallproperties"
    | SubscribeAllEvents => "subscribeallevents" | UnsubscribeAllEvents => "unsubscribeallevents"
    | QueryAllActions => "queryallactions"
    end.

  (** src/thing.rs 1550, derived [Serialize] *)
  Definition s_op (o : form_op) : json := JStr (op_name o).

  (** src/thing.rs 1668-1679, [Serialize for DefaultedFormOperations] *)
  Definition s_ops (o : form_ops) : json :=
    match o with
    | OpDefault => JNull
    | OpCustom [] => JNull
    | OpCustom l => s_list s_op l
    end.

  (** src/thing.rs 1467-1469: skipped if default *)
  Definition op_es (o : form_ops) : entries :=
    match o with OpDefault => [] | OpCustom _ => fld "op" (s_ops o) end.

  (** src/thing.rs 1710-1729 *)
  Definition add_resp_es (r : add_resp) : entries :=
    (if ar_success r then fld "success" (JBool true) else [])
    ++ ofld "contentType" JStr (ar_ctype r) ++ ofld "schema" JStr (ar_schema r).

  (** src/thing.rs 1710-1729, as an object *)
  Definition s_add_resp (r : add_resp) : json := mk (add_resp_es r).

  (** src/thing.rs 1695-1707 *)
  Definition exp_resp_es (r : exp_resp (pty (x_er X))) : entries :=
    fld "contentType" (JStr (er_ctype r)) ++ p_ser (x_er X) mk (er_other r).

  (** src/thing.rs 1695-1707, as an object *)
  Definition s_exp_resp (r : exp_resp (pty (x_er X))) : json := mk (exp_resp_es r).

  (** src/thing.rs 1462-1526 *)
  Definition form_es (f : form X) : entries :=
    op_es (f_op f)
    ++ fld "href" (JStr (f_href f))
    ++ ofld "contentType" JStr (f_ctype f)
    ++ ofld "contentCoding" JStr (f_ccoding f)
    ++ ofld "subprotocol" JStr (f_subprotocol f)
    ++ ofld "security" (s_oom JStr) (f_security f)
    ++ ofld "scopes" (s_oom JStr) (f_scopes f)
    ++ ofld "response" s_exp_resp (f_response f)
    ++ ofld "additionalResponses" (s_oom s_add_resp) (f_additional f)
    ++ p_ser (x_f X) mk (f_other f).

  (** src/thing.rs 1462-1526, as an object *)
  Definition s_form (f : form X) : json := mk (form_es f).

  (** ** Affordances *)

  (** src/thing.rs 294-330 *)
  Definition interaction_es (i : interaction X) : entries :=
    info_es (ia_info i)
    ++ fld "forms" (s_list s_form (ia_forms i))
    ++ ofld "uriVariables" s_dsmap (ia_uri i)
    ++ p_ser (x_ia X) mk (ia_other i).

  (** src/thing.rs 394-416 *)
  Definition property_es (p : property X) : entries :=
    interaction_es (pa_ia p) ++ ds_es (pa_ds p)
    ++ ofld "observable" JBool (pa_observable p)
    ++ p_ser (x_pa X) mk (pa_other p).

  (** src/thing.rs 394-416, as an object *)
  Definition s_property (p : property X) : json := mk (property_es p).

  (** src/thing.rs 468-506 *)
  Definition action_es (a : action X) : entries :=
    interaction_es (aa_ia a)
    ++ ofld "input" s_ds (aa_input a) ++ ofld "output" s_ds (aa_output a)
    ++ fld "safe" (JBool (aa_safe a)) ++ fld "idempotent" (JBool (aa_idempotent a))
    ++ ofld "synchronous" JBool (aa_synchronous a)
    ++ p_ser (x_aa X) mk (aa_other a).

  (** src/thing.rs 468-506, as an object *)
  Definition s_action (a : action X) : json := mk (action_es a).

  (** src/thing.rs 567-589 *)
  Definition event_es (e : event X) : entries :=
    interaction_es (ea_ia e)
    ++ ofld "subscription" s_ds (ea_subscription e) ++ ofld "data" s_ds (ea_data e)
    ++ ofld "data_response" s_ds (ea_data_response e)
    ++ ofld "cancellation" s_ds (ea_cancellation e)
    ++ p_ser (x_ea X) mk (ea_other e).

  (** src/thing.rs 567-589, as an object *)
  Definition s_event (e : event X) : json := mk (event_es e).

  (** ** Thing *)

  (** src/thing.rs 646-654: no [skip_serializing_none] *)
  Definition version_es (v : version_info) : entries :=
    fld "instance" (JStr (v_instance v))
    ++ fld "model" (match v_model v with Some s => JStr s | None => JNull end).

  (** src/thing.rs 646-654, as an object *)
  Definition s_version (v : version_info) : json := mk (version_es v).

  (** [time::serde::rfc3339::option], src/thing.rs 88-96 *)
  Definition date_es (k : string) (o : option (date E)) : option entries :=
    match o with
    | None => Some []
    | Some d => option_map (fun s => fld k (JStr s)) (date_fmt E d)
    end.

  (** src/thing.rs 142 *)
  Definition s_secdefs (m : amap security_scheme) : option json :=
    option_map mk
      (omap_all (fun kv => option_map (fun j => (fst kv, j)) (s_security (snd kv))) m).

  (** src/thing.rs 51-167 *)
  Definition thing_es (t : thing E X) : option entries :=
    let? created := date_es "created" (t_created t) in
    let? modified := date_es "modified" (t_modified t) in
    let? secdefs := s_secdefs (t_secdefs t) in
    Some (fld "@context" (ser_value mk (t_context t))
          ++ ofld "id" JStr (t_id t)
          ++ ofld "@type" (s_oom JStr) (t_attype t)
          ++ fld "title" (JStr (t_title t))
          ++ ofld "titles" s_multilang (t_titles t)
          ++ ofld "description" JStr (t_description t)
          ++ ofld "descriptions" s_multilang (t_descriptions t)
          ++ ofld "version" s_version (t_version t)
          ++ created ++ modified
          ++ ofld "support" JStr (t_support t)
          ++ ofld "base" JStr (t_base t)
          ++ ofld "properties" (s_map mk s_property) (t_properties t)
          ++ ofld "actions" (s_map mk s_action) (t_actions t)
          ++ ofld "events" (s_map mk s_event) (t_events t)
          ++ ofld "links" (s_list s_link) (t_links t)
          ++ ofld "forms" (s_list s_form) (t_forms t)
          ++ fld "security" (s_oom JStr (t_security t))
          ++ fld "securityDefinitions" secdefs
          ++ ofld "uriVariables" s_dsmap (t_uri t)
          ++ ofld "profile" (s_oom JStr) (t_profile t)
          ++ ofld "schemaDefinitions" s_dsmap (t_schemas t)
          ++ p_ser (x_t X) mk (t_other t)).

  (** src/thing.rs 51-167, as an object *)
  Definition s_thing (t : thing E X) : option json := option_map mk (thing_es t).
End Ser.
