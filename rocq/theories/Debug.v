(** * Debug output and copies of Things

    [Debug] is written by hand for the types that mention [ExtendableThing], and derived for the
    others; so is [Clone] for forms.  What is printed is modelled as a tree.  Simplification: the
    layout of trees as text, the rendering of [serde_json::Value], numbers and strings (all of them
    external) are left out, and the entries of a [HashMap] are in the order of their names. *)

From Coq Require Import String Bool ZArith List.
From Verif Require Import Base MinMax Json Serde Types HList Protocol.
Import ListNotations.
Set Implicit Arguments.
Local Open Scope string_scope.
Local Open Scope list_scope.

(** What [std::fmt::Formatter] is told by src/thing.rs 169-205 and derived implementations *)
Inductive dbg :=
| GStr (s : string)
| GInt (n : Z)
| GFloat (x : f64)
| GBool (b : bool)
| GJson (j : json)
| GStruct (name : string) (fields : list (string * dbg))
| GVariant (name : string) (args : list dbg)
| GList (l : list dbg)
| GMap (l : list (string * dbg)).

(** [Option], [Vec], [HashMap] (std), e.g. src/thing.rs 411, 707, 30 *)
Definition g_opt {A} (f : A -> dbg) (o : option A) : dbg :=
  match o with Some a => GVariant "Some" [f a] | None => GVariant "None" [] end.
(** [Vec], e.g. src/thing.rs 707 *)
Definition g_list {A} (f : A -> dbg) (l : list A) : dbg := GList (map f l).
(** [HashMap], e.g. src/thing.rs 31-38 *)
Definition g_map {A} (f : A -> dbg) (m : amap A) : dbg := GMap (map (fun kv => (fst kv, f (snd kv))) m).

(** [Option<String>], e.g. src/thing.rs 1438 *)
Definition g_ostr : option string -> dbg := g_opt GStr.
(** [Option<Vec<String>>], e.g. src/thing.rs 69 *)
Definition g_strs : option (list string) -> dbg := g_opt (g_list GStr).
(** [Option<MultiLanguage>], src/thing.rs 30 *)
Definition g_lang : option multilang -> dbg := g_opt (g_map GStr).
(** [Option<u32>] and the like, e.g. src/thing.rs 802 *)
Definition g_oint : option Z -> dbg := g_opt GInt.

(** The members shared by src/thing.rs 341-345 (by hand) and 675-690 (derived) *)
Definition g_info (i : info) : list (string * dbg) :=
  [("attype", g_strs (i_attype i)); ("title", g_ostr (i_title i)); ("titles", g_lang (i_titles i));
   ("description", g_ostr (i_description i)); ("descriptions", g_lang (i_descriptions i))].

(** derived, src/thing.rs 842, 854 *)
Definition g_maximum {A} (f : A -> dbg) (m : maximum A) : dbg :=
  match m with MaxIncl a => GVariant "Inclusive" [f a] | MaxExcl a => GVariant "Exclusive" [f a] end.
(** derived, src/thing.rs 854 *)
Definition g_minimum {A} (f : A -> dbg) (m : minimum A) : dbg :=
  match m with MinIncl a => GVariant "Inclusive" [f a] | MinExcl a => GVariant "Exclusive" [f a] end.

(** derived, src/thing.rs 997 *)
Definition g_number (n : number_schema) : dbg :=
  GStruct "NumberSchema"
    [("maximum", g_opt (g_maximum GFloat) (n_max n)); ("minimum", g_opt (g_minimum GFloat) (n_min n));
     ("multiple_of", g_opt GFloat (n_mult n))].

(** derived, src/thing.rs 1014 *)
Definition g_integer (n : integer_schema) : dbg :=
  GStruct "IntegerSchema"
    [("maximum", g_opt (g_maximum GInt) (z_max n)); ("minimum", g_opt (g_minimum GInt) (z_min n));
     ("multiple_of", g_oint (z_mult n))].

(** derived, src/thing.rs 1080 *)
Definition g_string (s : string_schema) : dbg :=
  GStruct "StringSchema"
    [("min_length", g_oint (s_min s)); ("max_length", g_oint (s_max s)); ("pattern", g_ostr (s_pattern s));
     ("content_encoding", g_ostr (s_encoding s)); ("content_media_type", g_ostr (s_media s))].

(** ** Security, derived: src/thing.rs 1109, 1133, 1171, 1182, 1200, 1214, 1234, 1269, 1293, 1306, 1327,
    1373, 1385 *)

Definition g_location (l : location) : dbg :=
  GVariant (match l with LHeader => "Header" | LQuery => "Query" | LBody => "Body" | LCookie => "Cookie"
                       | LUri => "Uri" end) [].

(** derived, src/thing.rs 1293-1302 *)
Definition g_qop (q : qop) : dbg := GVariant (match q with QAuth => "Auth" | QAuthInt => "AuthInt" end) [].

(** derived, src/thing.rs 1214, 1269, 1306 *)
Definition g_loc_name (b : loc_name) : list (string * dbg) :=
  [("location", g_location (ln_loc b)); ("name", g_ostr (ln_name b))].

(** derived, src/thing.rs 1133 *)
Definition g_known (k : known_sec) : dbg :=
  match k with
  | KNoSec => GVariant "NoSec" []
  | KAuto => GVariant "Auto" []
  | KCombo (COneOf l) => GVariant "Combo" [GVariant "OneOf" [g_list GStr l]]
  | KCombo (CAllOf l) => GVariant "Combo" [GVariant "AllOf" [g_list GStr l]]
  | KBasic b => GVariant "Basic" [GStruct "BasicSecurityScheme" (g_loc_name b)]
  | KDigest q b => GVariant "Digest" [GStruct "DigestSecurityScheme" (("qop", g_qop q) :: g_loc_name b)]
  | KBearer b =>
      GVariant "Bearer"
        [GStruct "BearerSecurityScheme"
           [("authorization", g_ostr (be_auth b)); ("alg", GStr (be_alg b)); ("format", GStr (be_format b));
            ("location", g_location (be_loc b)); ("name", g_ostr (be_name b))]]
  | KPsk i => GVariant "Psk" [GStruct "PskSecurityScheme" [("identity", g_ostr i)]]
  | KOAuth2 o =>
      GVariant "OAuth2"
        [GStruct "OAuth2SecurityScheme"
           [("authorization", g_ostr (oa_auth o)); ("token", g_ostr (oa_token o));
            ("refresh", g_ostr (oa_refresh o)); ("scopes", g_strs (oa_scopes o)); ("flow", GStr (oa_flow o))]]
  | KApiKey b => GVariant "ApiKey" [GStruct "ApiKeySecurityScheme" (g_loc_name b)]
  end.

(** derived, src/thing.rs 1182 *)
Definition g_subtype (s : sec_subtype) : dbg :=
  match s with
  | Known k => GVariant "Known" [g_known k]
  | Unknown n d =>
      GVariant "Unknown" [GStruct "UnknownSecuritySchemeSubtype" [("scheme", GStr n); ("data", GJson d)]]
  end.

(** derived, src/thing.rs 1109 *)
Definition g_security (s : security_scheme) : dbg :=
  GStruct "SecurityScheme"
    [("attype", g_strs (ss_attype s)); ("description", g_ostr (ss_description s));
     ("descriptions", g_lang (ss_descriptions s)); ("proxy", g_ostr (ss_proxy s));
     ("subtype", g_subtype (ss_subtype s))].

(** ** Links, forms *)

(** derived, src/thing.rs 1430 *)
Definition g_link (l : link) : dbg :=
  GStruct "Link"
    [("href", GStr (l_href l)); ("ty", g_ostr (l_type l)); ("rel", g_ostr (l_rel l));
     ("anchor", g_ostr (l_anchor l)); ("sizes", g_ostr (l_sizes l)); ("hreflang", g_strs (l_hreflang l))].

(** derived, src/thing.rs 1551 *)
Definition g_form_op (o : form_op) : dbg :=
  GVariant
    (match o with
     | ReadProperty => "ReadProperty" | WriteProperty => "WriteProperty"
     | ObserveProperty => "ObserveProperty" | UnobserveProperty => "UnobserveProperty"
     | InvokeAction => "InvokeAction" | QueryAction => "QueryAction" | CancelAction => "CancelAction"
     | SubscribeEvent => "SubscribeEvent" | UnsubscribeEvent => "UnsubscribeEvent"
     | ReadAllProperties => "ReadAllProperties" | WriteAllProperties => "WriteAllProperties"
     | ReadMultipleProperties => "ReadMultipleProperties"
     | WriteMultipleProperties => "WriteMultipleProperties"
     | ObserveAllProperties => "ObserveAllProperties" | UnobserveAllProperties => "UnobserveAllProperties"
     | SubscribeAllEvents => "SubscribeAllEvents" | UnsubscribeAllEvents => "UnsubscribeAllEvents"
     | QueryAllActions => "QueryAllActions"
     end) [].

(** derived, src/thing.rs 1650 *)
Definition g_form_ops (o : form_ops) : dbg :=
  match o with
  | OpDefault => GVariant "Default" []
  | OpCustom l => GVariant "Custom" [g_list g_form_op l]
  end.

(** derived, src/thing.rs 1711 *)
Definition g_add_resp (r : add_resp) : dbg :=
  GStruct "AdditionalExpectedResponse"
    [("success", GBool (ar_success r)); ("content_type", g_ostr (ar_ctype r)); ("schema", g_ostr (ar_schema r))].

(** derived, src/thing.rs 647 *)
Definition g_version (v : version_info) : dbg :=
  GStruct "VersionInfo" [("instance", GStr (v_instance v)); ("model", g_ostr (v_model v))].

(** [Debug] of the types that are not defined in src/thing.rs: dates and extensions *)
Record dbgs (E : env) (X : exts) := {
  g_date : date E -> dbg;
  g_t : pty (x_t X) -> dbg; g_ia : pty (x_ia X) -> dbg; g_pa : pty (x_pa X) -> dbg;
  g_aa : pty (x_aa X) -> dbg; g_ea : pty (x_ea X) -> dbg; g_f : pty (x_f X) -> dbg;
  g_er : pty (x_er X) -> dbg; g_ds : pty (x_ds X) -> dbg; g_os : pty (x_os X) -> dbg;
  g_as : pty (x_as X) -> dbg;
}.

Section Debug.
  Variable E : env.
  Variable X : exts.
  Variable G : dbgs E X.

  (** derived, src/thing.rs 672, 736, 781, 812, 1032 *)
  Fixpoint g_schema (d : dsx X) : dbg :=
    match d with
    | mkDs i m l s o =>
        GStruct "DataSchema"
          (g_info i
           ++ [("constant", g_opt GJson (m_const m)); ("default", g_opt GJson (m_default m));
               ("unit", g_ostr (m_unit m)); ("one_of", g_opt (g_list g_schema) l);
               ("enumeration", g_opt (g_list GJson) (m_enum m)); ("read_only", GBool (m_ro m));
               ("write_only", GBool (m_wo m)); ("format", g_ostr (m_format m));
               ("subtype", g_opt g_sub s); ("other", g_ds G o)])
    end
  (** derived, src/thing.rs 736, 781, 1032 *)
  with g_sub (s : dsubx X) : dbg :=
    match s with
    | SArray i mn mx o =>
        GVariant "Array"
          [GStruct "ArraySchema"
             [("items", g_opt g_boxed i); ("min_items", g_oint mn); ("max_items", g_oint mx);
              ("other", g_as G o)]]
    | SBoolean => GVariant "Boolean" []
    | SNumber n => GVariant "Number" [g_number n]
    | SInteger n => GVariant "Integer" [g_integer n]
    | SObject p r o =>
        GVariant "Object"
          [GStruct "ObjectSchema"
             [("properties", g_opt (g_map g_schema) p); ("required", g_strs r); ("other", g_os G o)]]
    | SString n => GVariant "String" [g_string n]
    | SNull => GVariant "Null" []
    end
  (** derived, src/thing.rs 812 *)
  with g_boxed (b : boxed (pty (x_ds X)) (pty (x_as X)) (pty (x_os X))) : dbg :=
    match b with
    | BElem d => GVariant "Elem" [g_schema d]
    | BVec l => GVariant "Vec" [g_list g_schema l]
    end.

  (** derived, src/thing.rs 1695 *)
  Definition g_exp_resp (r : exp_resp (pty (x_er X))) : dbg :=
    GStruct "ExpectedResponse" [("content_type", GStr (er_ctype r)); ("other", g_er G (er_other r))].

  (** derived, src/thing.rs 1464 *)
  Definition g_form (f : form X) : dbg :=
    GStruct "Form"
      [("op", g_form_ops (f_op f)); ("href", GStr (f_href f)); ("content_type", g_ostr (f_ctype f));
       ("content_coding", g_ostr (f_ccoding f)); ("subprotocol", g_ostr (f_subprotocol f));
       ("security", g_strs (f_security f)); ("scopes", g_strs (f_scopes f));
       ("response", g_opt g_exp_resp (f_response f));
       ("additional_responses", g_opt (g_list g_add_resp) (f_additional f)); ("other", g_f G (f_other f))].

  (** src/thing.rs 332-351 *)
  Definition g_interaction (i : interaction X) : dbg :=
    GStruct "InteractionAffordance"
      (g_info (ia_info i)
       ++ [("forms", g_list g_form (ia_forms i)); ("uri_variables", g_opt (g_map g_schema) (ia_uri i));
           ("other", g_ia G (ia_other i))]).

  (** src/thing.rs 418-433 *)
  Definition g_property (p : property X) : dbg :=
    GStruct "PropertyAffordance"
      [("interaction", g_interaction (pa_ia p)); ("data_schema", g_schema (pa_ds p));
       ("observable", g_opt GBool (pa_observable p)); ("other", g_pa G (pa_other p))].

  (** src/thing.rs 508-526 *)
  Definition g_action (a : action X) : dbg :=
    GStruct "ActionAffordance"
      [("interaction", g_interaction (aa_ia a)); ("input", g_opt g_schema (aa_input a));
       ("output", g_opt g_schema (aa_output a)); ("safe", GBool (aa_safe a));
       ("idempotent", GBool (aa_idempotent a)); ("synchronous", g_opt GBool (aa_synchronous a));
       ("other", g_aa G (aa_other a))].

  (** src/thing.rs 591-608 *)
  Definition g_event (e : event X) : dbg :=
    GStruct "EventAffordance"
      [("interaction", g_interaction (ea_ia e)); ("subscription", g_opt g_schema (ea_subscription e));
       ("data", g_opt g_schema (ea_data e)); ("data_response", g_opt g_schema (ea_data_response e));
       ("cancellation", g_opt g_schema (ea_cancellation e)); ("other", g_ea G (ea_other e))].

  (** src/thing.rs 169-205 *)
  Definition g_thing (t : thing E X) : dbg :=
    GStruct "Thing"
      [("context", GJson (t_context t));
       ("id", g_ostr (t_id t));
       ("attype", g_strs (t_attype t));
       ("title", GStr (t_title t));
       ("titles", g_lang (t_titles t));
       ("description", g_ostr (t_description t));
       ("descriptions", g_lang (t_descriptions t));
       ("version", g_opt g_version (t_version t));
       ("created", g_opt (g_date G) (t_created t));
       ("modified", g_opt (g_date G) (t_modified t));
       ("support", g_ostr (t_support t));
       ("base", g_ostr (t_base t));
       ("properties", g_opt (g_map g_property) (t_properties t));
       ("actions", g_opt (g_map g_action) (t_actions t));
       ("events", g_opt (g_map g_event) (t_events t));
       ("links", g_opt (g_list g_link) (t_links t));
       ("forms", g_opt (g_list g_form) (t_forms t));
       ("security", g_list GStr (t_security t));
       ("security_definitions", g_map g_security (t_secdefs t));
       ("uri_variables", g_opt (g_map g_schema) (t_uri t));
       ("profile", g_strs (t_profile t));
       ("schema_definitions", g_opt (g_map g_schema) (t_schemas t));
       ("other", g_t G (t_other t))].
End Debug.

(** ** The bindings *)

(** [(): Debug], and [Nil] (src/hlist.rs 8) *)
Definition g_unit (a : unit) : dbg := GVariant "()" [].

(** derived, src/protocol/http.rs 8, 21, 32, 44, 51 *)
Definition g_http_method (m : http_method) : dbg :=
  GVariant (match m with HGet => "Get" | HPut => "Put" | HPost => "Post" | HDelete => "Delete"
                       | HPatch => "Patch" end) [].
(** derived, src/protocol/http.rs 21 *)
Definition g_http_header (h : http_header) : dbg :=
  GStruct "MessageHeader" [("field_name", g_ostr (hh_name h)); ("field_value", g_ostr (hh_value h))].
(** derived, src/protocol/http.rs 32 *)
Definition g_http_response (r : http_response) : dbg :=
  GStruct "Response"
    [("headers", g_list g_http_header (hr_headers r)); ("status_code_value", g_oint (hr_status r))].
(** derived, src/protocol/http.rs 44 *)
Definition g_http_form (f : http_form) : dbg :=
  GStruct "Form" [("method_name", g_opt g_http_method (hf_method f))].

(** derived, src/protocol/coap.rs 9, 23, 44, 55, 74, 81 *)
Definition g_coap_method (m : coap_method) : dbg :=
  GVariant (match m with CGet => "Get" | CPut => "Put" | CPost => "Post" | CDelete => "Delete"
                       | CPatch => "Patch" | CFetch => "Fetch" | CIpatch => "Ipatch" end) [].
(** derived, src/protocol/coap.rs 23 *)
Definition g_block (b : block_size) : dbg :=
  GVariant (match b with B16 => "Size16" | B32 => "Size32" | B64 => "Size64" | B128 => "Size128"
                       | B256 => "Size256" | B512 => "Size512" | B1024 => "Size1024" end) [].
(** derived, src/protocol/coap.rs 44 *)
Definition g_blockwise (b : blockwise) : dbg :=
  GStruct "BlockWiseTransferParameters"
    [("block2_size", g_opt g_block (bw_2 b)); ("block1_size", g_opt g_block (bw_1 b))].
(** derived, src/protocol/coap.rs 55 *)
Definition g_coap_form (f : coap_form) : dbg :=
  GStruct "Form"
    [("method", g_opt g_coap_method (cf_method f)); ("blockwise", g_opt g_blockwise (cf_block f));
     ("qblockwise", g_opt g_blockwise (cf_qblock f)); ("hop_limit", g_oint (cf_hop f));
     ("accept", g_oint (cf_accept f)); ("content_format", g_oint (cf_format f))].
(** derived, src/protocol/coap.rs 74 *)
Definition g_coap_response (r : coap_response) : dbg :=
  GStruct "ExpectedResponse" [("content_format", g_oint (cr_format r))].

(** derived, src/protocol/mqtt.rs 8, 19, 32, 52 *)
Definition g_mqtt_packet (p : mqtt_packet) : dbg :=
  GVariant (match p with MPublish => "Publish" | MSubscribe => "Subscribe"
                       | MUnsubscribe => "Unsubscribe" end) [].
(** derived, src/protocol/mqtt.rs 19 *)
Definition g_mqtt_qos (q : mqtt_qos) : dbg :=
  GVariant (match q with AtMostOnce => "AtMostOnce" | AtLeastOnce => "AtLeastOnce"
                       | ExactlyOnce => "ExactlyOnce" end) [].
(** derived, src/protocol/mqtt.rs 32 *)
Definition g_mqtt_form (f : mqtt_form) : dbg :=
  GStruct "Form"
    [("retain", GBool (mf_retain f)); ("control_packet", g_opt g_mqtt_packet (mf_packet f));
     ("qos", g_opt g_mqtt_qos (mf_qos f)); ("topic", g_ostr (mf_topic f)); ("filter", g_list GStr (mf_filter f))].

(** The extension points of src/protocol/http.rs 54-64 *)
Definition http_dbgs E (g : date E -> dbg) : dbgs E http_exts :=
  @Build_dbgs E http_exts g g_unit g_unit g_unit g_unit g_unit g_http_form g_http_response g_unit g_unit g_unit.
(** The extension points of src/protocol/coap.rs 84-94 *)
Definition coap_dbgs E (g : date E -> dbg) : dbgs E coap_exts :=
  @Build_dbgs E coap_exts g g_unit g_unit g_unit g_unit g_unit g_coap_form g_coap_response g_unit g_unit g_unit.
(** The extension points of src/protocol/mqtt.rs 55-65 *)
Definition mqtt_dbgs E (g : date E -> dbg) : dbgs E mqtt_exts :=
  @Build_dbgs E mqtt_exts g g_unit g_unit g_unit g_unit g_unit g_mqtt_form g_unit g_unit g_unit g_unit.

(** derived, src/hlist.rs 12 *)
Definition g_cons {A B} (f : A -> dbg) (g : B -> dbg) (x : A * B) : dbg :=
  GStruct "Cons" [("head", f (fst x)); ("tail", g (snd x))].

(** derived, src/hlist.rs 12 *)
Definition cons_dbgs E X X' (G : dbgs E X) (G' : dbgs E X') : dbgs E (cons_exts X X') :=
  @Build_dbgs E (cons_exts X X') (g_date G) (g_cons (g_t G) (g_t G')) (g_cons (g_ia G) (g_ia G'))
    (g_cons (g_pa G) (g_pa G')) (g_cons (g_aa G) (g_aa G')) (g_cons (g_ea G) (g_ea G'))
    (g_cons (g_f G) (g_f G')) (g_cons (g_er G) (g_er G')) (g_cons (g_ds G) (g_ds G'))
    (g_cons (g_os G) (g_os G')) (g_cons (g_as G) (g_as G')).

(** ** Copies *)

Section Clone.
  Variable X : exts.
  (** [Clone] of the extensions *)
  Variable c_er : pty (x_er X) -> pty (x_er X).
  Variable c_f : pty (x_f X) -> pty (x_f X).

  (** derived, src/thing.rs 1695; strings are copied as they are *)
  Definition clone_exp_resp (r : exp_resp (pty (x_er X))) : exp_resp (pty (x_er X)) :=
    {| er_ctype := er_ctype r; er_other := c_er (er_other r) |}.

  (** src/thing.rs 1528-1548.  Simplification: the copies of strings, lists, operations and additional
      responses (all derived) are not spelled out. *)
  Definition clone_form (f : form X) : form X :=
    {| f_op := f_op f; f_href := f_href f; f_ctype := f_ctype f; f_ccoding := f_ccoding f;
       f_subprotocol := f_subprotocol f; f_security := f_security f; f_scopes := f_scopes f;
       f_response := option_map clone_exp_resp (f_response f); f_additional := f_additional f;
       f_other := c_f (f_other f) |}.
End Clone.
