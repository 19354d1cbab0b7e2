(** * Vocabulary of the properties about single members *)

From Coq Require Import String Bool ZArith List.
From Verif Require Import Base MinMax Json Serde Types SpecSerde SpecDoc.
Import ListNotations.
Set Implicit Arguments.
Local Open Scope string_scope.
Local Open Scope list_scope.

(** The object has no member of this name. *)
Definition absent (k : string) (es : entries) : Prop := ~ In k (map fst es).

(** ** Mandatory members (TD 1.1, section 5.3) *)
Definition mandatory (d : doc_kind) : list string :=
  match d with
  | DThing => ["title"; "security"; "securityDefinitions"]
  | DProperty | DAction | DEvent => ["forms"]
  | DForm | DLink => ["href"]
  | DVersion => ["instance"]
  | DExpResp => ["contentType"]
  | _ => []
  end.

(** [lacks d j]: somewhere in [j], read as [d], a mandatory member is missing. *)
Inductive lacks : doc_kind -> json -> Prop :=
| lk_here d k es : In k (mandatory d) -> absent k es -> lacks d (JObj es)
| lk_member d k v es : is_struct d = true -> In (k, v) es -> lacks (member_kind d k) v -> lacks d (JObj es)
| lk_map d k v es : In (k, v) es -> lacks d v -> lacks (DMap d) (JObj es)
| lk_list d v l : In v l -> lacks d v -> lacks (DList d) (JArr l).

(** ** One or many *)

(** A value that is neither an array nor [null]. *)
Definition bare (v : json) : Prop := v <> JNull /\ forall l, v <> JArr l.

(** How a list is written under [OneOrMany]. *)
Definition one_or_many {A} (f : A -> json) (l : list A) : json :=
  match l with [a] => f a | _ => JArr (map f l) end.

(** Under this name the object has exactly the field, written with [f]. *)
Definition written_as {A} (es : entries) (k : string) (f : A -> json) (o : option A) : Prop :=
  forall v, In (k, v) es <-> exists a, o = Some a /\ v = f a.

(** The members documented as "one or many". *)
Definition one_or_many_members (d : doc_kind) : list string :=
  match d with
  | DThing => ["@type"; "security"; "profile"]
  | DProperty | DAction | DEvent | DSchema => ["@type"]
  | DForm => ["op"; "security"; "scopes"; "additionalResponses"]
  | DLink => ["hreflang"]
  | _ => []
  end.

(** [respelt d j j']: somewhere in [j], read as [d], a bare one-or-many value [v] has been
    put in brackets. *)
Inductive respelt : doc_kind -> json -> json -> Prop :=
| rs_here d k v es1 es2 : In k (one_or_many_members d) -> bare v ->
    respelt d (JObj (es1 ++ (k, v) :: es2)) (JObj (es1 ++ (k, JArr [v]) :: es2))
| rs_member d k v v' es1 es2 : is_struct d = true -> respelt (member_kind d k) v v' ->
    respelt d (JObj (es1 ++ (k, v) :: es2)) (JObj (es1 ++ (k, v') :: es2))
| rs_map d k v v' es1 es2 : respelt d v v' ->
    respelt (DMap d) (JObj (es1 ++ (k, v) :: es2)) (JObj (es1 ++ (k, v') :: es2))
| rs_list d v v' l1 l2 : respelt d v v' -> respelt (DList d) (JArr (l1 ++ v :: l2)) (JArr (l1 ++ v' :: l2))
| rs_one d v v' : respelt d v v' -> respelt (DOneOrMany d) v v'
| rs_many d v v' l1 l2 : respelt d v v' ->
    respelt (DOneOrMany d) (JArr (l1 ++ v :: l2)) (JArr (l1 ++ v' :: l2)).

(** ** Defaults (TD 1.1, section 5.4): what a value read from the object [es] says about the
    members [es] does not have. *)

Definition none_without (es : entries) (k : string) {A} (o : option A) : Prop :=
  absent k es -> o = None.

Definition false_without (es : entries) (k : string) (b : bool) : Prop := absent k es -> b = false.

Definition info_defaults (es : entries) (i : info) : Prop :=
  none_without es "@type" (i_attype i)
  /\ none_without es "title" (i_title i) /\ none_without es "titles" (i_titles i)
  /\ none_without es "description" (i_description i)
  /\ none_without es "descriptions" (i_descriptions i).

Definition schema_defaults {X} (es : entries) (d : dsx X) : Prop :=
  info_defaults es (ds_info d)
  /\ none_without es "const" (m_const (ds_misc d))
  /\ none_without es "default" (m_default (ds_misc d))
  /\ none_without es "unit" (m_unit (ds_misc d))
  /\ none_without es "enum" (m_enum (ds_misc d))
  /\ none_without es "format" (m_format (ds_misc d))
  /\ none_without es "oneOf" (ds_one_of d)
  /\ false_without es "readOnly" (m_ro (ds_misc d))
  /\ false_without es "writeOnly" (m_wo (ds_misc d))
  /\ none_without es "type" (ds_sub d).

(** The members of the typed schemas *)
Definition bounds_without {A} (es : entries) (mx : option (maximum A)) (mn : option (minimum A))
  {B} (mult : option B) : Prop :=
  (absent "maximum" es -> absent "exclusiveMaximum" es -> mx = None)
  /\ (absent "minimum" es -> absent "exclusiveMinimum" es -> mn = None)
  /\ none_without es "multipleOf" mult.

Definition subtype_defaults {X} (es : entries) (s : dsubx X) : Prop :=
  match s with
  | SArray items mn mx _ =>
      none_without es "items" items /\ none_without es "min_items" mn /\ none_without es "max_items" mx
  | SNumber n => bounds_without es (n_max n) (n_min n) (n_mult n)
  | SInteger n => bounds_without es (z_max n) (z_min n) (z_mult n)
  | SObject ps r _ => none_without es "properties" ps /\ none_without es "required" r
  | SString s =>
      none_without es "minLength" (s_min s) /\ none_without es "maxLength" (s_max s)
      /\ none_without es "pattern" (s_pattern s) /\ none_without es "contentEncoding" (s_encoding s)
      /\ none_without es "contentMediaType" (s_media s)
  | SBoolean | SNull => True
  end.

Definition place_defaults (es : entries) (l : location) (b : loc_name) : Prop :=
  (absent "in" es -> ln_loc b = l) /\ none_without es "name" (ln_name b).

Definition known_defaults (es : entries) (k : known_sec) : Prop :=
  match k with
  | KBasic b | KDigest _ b => place_defaults es LHeader b
  | KApiKey b => place_defaults es LQuery b
  | KBearer b =>
      none_without es "authorization" (be_auth b) /\ none_without es "name" (be_name b)
      /\ (absent "alg" es -> be_alg b = "ES256") /\ (absent "format" es -> be_format b = "jwt")
      /\ (absent "in" es -> be_loc b = LHeader)
  | KPsk i => none_without es "identity" i
  | KOAuth2 o =>
      none_without es "authorization" (oa_auth o) /\ none_without es "token" (oa_token o)
      /\ none_without es "refresh" (oa_refresh o) /\ none_without es "scopes" (oa_scopes o)
  | KNoSec | KAuto | KCombo _ => True
  end.

Definition security_defaults (es : entries) (s : security_scheme) : Prop :=
  none_without es "@type" (ss_attype s) /\ none_without es "description" (ss_description s)
  /\ none_without es "descriptions" (ss_descriptions s) /\ none_without es "proxy" (ss_proxy s)
  /\ forall k, ss_subtype s = Known k -> known_defaults es k.

Definition link_defaults (es : entries) (l : link) : Prop :=
  none_without es "type" (l_type l) /\ none_without es "rel" (l_rel l)
  /\ none_without es "anchor" (l_anchor l) /\ none_without es "sizes" (l_sizes l)
  /\ none_without es "hreflang" (l_hreflang l).

Definition add_resp_defaults (es : entries) (r : add_resp) : Prop :=
  false_without es "success" (ar_success r)
  /\ none_without es "contentType" (ar_ctype r) /\ none_without es "schema" (ar_schema r).

Definition form_defaults {X} (es : entries) (f : form X) : Prop :=
  (absent "op" es -> f_op f = OpDefault)
  /\ none_without es "contentType" (f_ctype f) /\ none_without es "contentCoding" (f_ccoding f)
  /\ none_without es "subprotocol" (f_subprotocol f) /\ none_without es "security" (f_security f)
  /\ none_without es "scopes" (f_scopes f) /\ none_without es "response" (f_response f)
  /\ none_without es "additionalResponses" (f_additional f).

Definition interaction_defaults {X} (es : entries) (i : interaction X) : Prop :=
  info_defaults es (ia_info i) /\ none_without es "uriVariables" (ia_uri i).

Definition property_defaults {X} (es : entries) (p : property X) : Prop :=
  interaction_defaults es (pa_ia p) /\ schema_defaults es (pa_ds p)
  /\ none_without es "observable" (pa_observable p).

Definition action_defaults {X} (es : entries) (a : action X) : Prop :=
  interaction_defaults es (aa_ia a)
  /\ none_without es "input" (aa_input a) /\ none_without es "output" (aa_output a)
  /\ false_without es "safe" (aa_safe a) /\ false_without es "idempotent" (aa_idempotent a)
  /\ none_without es "synchronous" (aa_synchronous a).

Definition event_defaults {X} (es : entries) (e : event X) : Prop :=
  interaction_defaults es (ea_ia e)
  /\ none_without es "subscription" (ea_subscription e) /\ none_without es "data" (ea_data e)
  /\ none_without es "data_response" (ea_data_response e)
  /\ none_without es "cancellation" (ea_cancellation e).

Definition thing_defaults {E X} (es : entries) (t : thing E X) : Prop :=
  (absent "@context" es -> t_context t = JStr "https://www.w3.org/2022/wot/td/v1.1")
  /\ none_without es "id" (t_id t) /\ none_without es "@type" (t_attype t)
  /\ none_without es "titles" (t_titles t) /\ none_without es "description" (t_description t)
  /\ none_without es "descriptions" (t_descriptions t) /\ none_without es "version" (t_version t)
  /\ none_without es "created" (t_created t) /\ none_without es "modified" (t_modified t)
  /\ none_without es "support" (t_support t) /\ none_without es "base" (t_base t)
  /\ none_without es "properties" (t_properties t) /\ none_without es "actions" (t_actions t)
  /\ none_without es "events" (t_events t) /\ none_without es "links" (t_links t)
  /\ none_without es "forms" (t_forms t) /\ none_without es "uriVariables" (t_uri t)
  /\ none_without es "profile" (t_profile t) /\ none_without es "schemaDefinitions" (t_schemas t).

(** ** Names (TD 1.1, section 5.3): an object [es] and a value say the same thing about a
    member. *)

(** The field is set if and only if the member is there and is not [null]. *)
Definition named (es : entries) (k : string) {A} (o : option A) : Prop :=
  o <> None <-> exists v, In (k, v) es /\ v <> JNull.

Definition named_str (es : entries) (k : string) (o : option string) : Prop :=
  named es k o /\ forall s, o = Some s <-> In (k, JStr s) es.

Definition named_flag (es : entries) (k : string) (b : bool) : Prop := b = true <-> In (k, JBool true) es.

Definition has_str (es : entries) (k : string) (s : string) : Prop := forall s', In (k, JStr s') es <-> s' = s.

Definition has (es : entries) (k : string) : Prop := In k (map fst es).

Definition info_named (es : entries) (i : info) : Prop :=
  named es "@type" (i_attype i) /\ named_str es "title" (i_title i) /\ named es "titles" (i_titles i)
  /\ named_str es "description" (i_description i) /\ named es "descriptions" (i_descriptions i).

(** The value of [type] *)
Definition type_name {X} (s : dsubx X) : string :=
  match s with
  | SArray _ _ _ _ => "array" | SBoolean => "boolean" | SNumber _ => "number" | SInteger _ => "integer"
  | SObject _ _ _ => "object" | SString _ => "string" | SNull => "null"
  end.

Definition bounds_named {A} (es : entries) (mx : option (maximum A)) (mn : option (minimum A))
  {B} (mult : option B) : Prop :=
  (forall a, mx = Some (MaxIncl a) -> has es "maximum")
  /\ (forall a, mx = Some (MaxExcl a) -> has es "exclusiveMaximum")
  /\ (forall a, mn = Some (MinIncl a) -> has es "minimum")
  /\ (forall a, mn = Some (MinExcl a) -> has es "exclusiveMinimum")
  /\ named es "multipleOf" mult.

(** Without the array bounds, see [C47_refuted]. *)
Definition subtype_named {X} (es : entries) (s : dsubx X) : Prop :=
  has es "type" /\ (forall n, In ("type", JStr n) es -> n = type_name s)
  /\ match s with
     | SArray items mn mx _ => named es "items" items
     | SNumber n => bounds_named es (n_max n) (n_min n) (n_mult n)
     | SInteger n => bounds_named es (z_max n) (z_min n) (z_mult n)
     | SObject ps r _ => named es "properties" ps /\ named es "required" r
     | SString s =>
         named es "minLength" (s_min s) /\ named es "maxLength" (s_max s)
         /\ named_str es "pattern" (s_pattern s) /\ named_str es "contentEncoding" (s_encoding s)
         /\ named_str es "contentMediaType" (s_media s)
     | SBoolean | SNull => True
     end.

Definition schema_named {X} (es : entries) (d : dsx X) : Prop :=
  info_named es (ds_info d)
  /\ named es "const" (m_const (ds_misc d)) /\ named es "default" (m_default (ds_misc d))
  /\ named_str es "unit" (m_unit (ds_misc d)) /\ named es "enum" (m_enum (ds_misc d))
  /\ named_str es "format" (m_format (ds_misc d)) /\ named es "oneOf" (ds_one_of d)
  /\ named_flag es "readOnly" (m_ro (ds_misc d)) /\ named_flag es "writeOnly" (m_wo (ds_misc d))
  /\ forall s, ds_sub d = Some s -> subtype_named es s.

Definition td_location (l : location) : string :=
  match l with
  | LHeader => "header" | LQuery => "query" | LBody => "body" | LCookie => "cookie" | LUri => "uri"
  end.

Definition place_named (es : entries) (b : loc_name) : Prop :=
  (forall n, In ("in", JStr n) es -> n = td_location (ln_loc b)) /\ named_str es "name" (ln_name b).

Definition td_scheme (k : known_sec) : string :=
  match k with
  | KNoSec => "nosec" | KAuto => "auto" | KCombo _ => "combo" | KBasic _ => "basic"
  | KDigest _ _ => "digest" | KBearer _ => "bearer" | KPsk _ => "psk" | KOAuth2 _ => "oauth2"
  | KApiKey _ => "apikey"
  end.

Definition known_named (es : entries) (k : known_sec) : Prop :=
  has es "scheme" /\ (forall n, In ("scheme", JStr n) es -> n = td_scheme k)
  /\ match k with
     | KNoSec | KAuto => True
     | KCombo (COneOf _) => has es "oneOf"
     | KCombo (CAllOf _) => has es "allOf"
     | KBasic b | KApiKey b => place_named es b
     | KDigest q b =>
         place_named es b /\ has es "qop"
         /\ forall n, In ("qop", JStr n) es -> n = match q with QAuth => "auth" | QAuthInt => "auth-int" end
     | KBearer b =>
         named_str es "authorization" (be_auth b) /\ named_str es "name" (be_name b)
         /\ (forall s, In ("alg", JStr s) es -> s = be_alg b)
         /\ (forall s, In ("format", JStr s) es -> s = be_format b)
         /\ (forall n, In ("in", JStr n) es -> n = td_location (be_loc b))
     | KPsk i => named_str es "identity" i
     | KOAuth2 o =>
         named_str es "authorization" (oa_auth o) /\ named_str es "token" (oa_token o)
         /\ named_str es "refresh" (oa_refresh o) /\ named es "scopes" (oa_scopes o)
         /\ has_str es "flow" (oa_flow o)
     end.

Definition security_named (es : entries) (s : security_scheme) : Prop :=
  named es "@type" (ss_attype s) /\ named_str es "description" (ss_description s)
  /\ named es "descriptions" (ss_descriptions s) /\ named_str es "proxy" (ss_proxy s)
  /\ match ss_subtype s with
     | Known k => known_named es k
     | Unknown scheme _ => has_str es "scheme" scheme
     end.

Definition link_named (es : entries) (l : link) : Prop :=
  has_str es "href" (l_href l) /\ named_str es "type" (l_type l) /\ named_str es "rel" (l_rel l)
  /\ named_str es "anchor" (l_anchor l) /\ named_str es "sizes" (l_sizes l)
  /\ named es "hreflang" (l_hreflang l).

Definition add_resp_named (es : entries) (r : add_resp) : Prop :=
  named_flag es "success" (ar_success r)
  /\ named_str es "contentType" (ar_ctype r) /\ named_str es "schema" (ar_schema r).

Definition version_named (es : entries) (v : version_info) : Prop :=
  has_str es "instance" (v_instance v) /\ named_str es "model" (v_model v).

Definition form_named {X} (es : entries) (f : form X) : Prop :=
  (f_op f <> OpDefault <-> exists v, In ("op", v) es /\ v <> JNull)
  /\ has_str es "href" (f_href f)
  /\ named_str es "contentType" (f_ctype f) /\ named_str es "contentCoding" (f_ccoding f)
  /\ named_str es "subprotocol" (f_subprotocol f) /\ named es "security" (f_security f)
  /\ named es "scopes" (f_scopes f) /\ named es "response" (f_response f)
  /\ named es "additionalResponses" (f_additional f).

Definition interaction_named {X} (es : entries) (i : interaction X) : Prop :=
  info_named es (ia_info i) /\ has es "forms" /\ named es "uriVariables" (ia_uri i).

Definition property_named {X} (es : entries) (p : property X) : Prop :=
  interaction_named es (pa_ia p) /\ schema_named es (pa_ds p) /\ named es "observable" (pa_observable p).

Definition action_named {X} (es : entries) (a : action X) : Prop :=
  interaction_named es (aa_ia a)
  /\ named es "input" (aa_input a) /\ named es "output" (aa_output a)
  /\ named_flag es "safe" (aa_safe a) /\ named_flag es "idempotent" (aa_idempotent a)
  /\ named es "synchronous" (aa_synchronous a).

(** Without the response schema of events, see [C47_refuted]. *)
Definition event_named {X} (es : entries) (e : event X) : Prop :=
  interaction_named es (ea_ia e)
  /\ named es "subscription" (ea_subscription e) /\ named es "data" (ea_data e)
  /\ named es "cancellation" (ea_cancellation e).

Definition thing_named {E X} (es : entries) (t : thing E X) : Prop :=
  named_str es "id" (t_id t) /\ named es "@type" (t_attype t)
  /\ has_str es "title" (t_title t) /\ named es "titles" (t_titles t)
  /\ named_str es "description" (t_description t) /\ named es "descriptions" (t_descriptions t)
  /\ named es "version" (t_version t) /\ named es "created" (t_created t)
  /\ named es "modified" (t_modified t) /\ named_str es "support" (t_support t)
  /\ named_str es "base" (t_base t) /\ named es "properties" (t_properties t)
  /\ named es "actions" (t_actions t) /\ named es "events" (t_events t) /\ named es "links" (t_links t)
  /\ named es "forms" (t_forms t) /\ has es "security" /\ has es "securityDefinitions"
  /\ named es "uriVariables" (t_uri t) /\ named es "profile" (t_profile t)
  /\ named es "schemaDefinitions" (t_schemas t)
  /\ (forall s, In ("@context", JStr s) es -> t_context t = JStr s).

(** The values of [op] (TD 1.1, section 5.3.4.2) *)
Definition td_operations : list (string * form_op) :=
  [("readproperty", ReadProperty); ("writeproperty", WriteProperty);
   ("observeproperty", ObserveProperty); ("unobserveproperty", UnobserveProperty);
   ("invokeaction", InvokeAction); ("queryaction", QueryAction); ("cancelaction", CancelAction);
   ("subscribeevent", SubscribeEvent); ("unsubscribeevent", UnsubscribeEvent);
   ("readallproperties", ReadAllProperties); ("writeallproperties", WriteAllProperties);
   ("readmultipleproperties", ReadMultipleProperties);
   ("writemultipleproperties", WriteMultipleProperties);
   ("observeallproperties", ObserveAllProperties);
   ("unobserveallproperties", UnobserveAllProperties);
   ("queryallactions", QueryAllActions);
   ("subscribeallevents", SubscribeAllEvents); ("unsubscribeallevents", UnsubscribeAllEvents)].

(** ** Well-formed values *)

Definition is_str (v : json) : Prop := exists s, v = JStr s.
Definition is_bool (v : json) : Prop := exists b, v = JBool b.
Definition is_arr (v : json) : Prop := exists l, v = JArr l.
Definition is_obj (v : json) : Prop := exists es, v = JObj es.
Definition obj_or_arr (v : json) : Prop := is_obj v \/ is_arr v.
Definition is_number (v : json) : Prop := (exists n, v = JInt n) \/ exists x, v = JFloat x.
Definition is_int_in (P : Z -> Prop) (v : json) : Prop := exists n, v = JInt n /\ P n.
Definition is_strs (v : json) : Prop := exists l, v = JArr l /\ Forall is_str l.
Definition str_or_strs (v : json) : Prop := is_str v \/ is_strs v.
Definition is_text_map (v : json) : Prop := exists es, v = JObj es /\ Forall (fun kv => is_str (snd kv)) es.

(** The members every schema may have, with their values ([null] is allowed for the first ones). *)
Definition schema_shapes : list (string * (json -> Prop)) :=
  [("@type", str_or_strs); ("title", is_str); ("titles", is_text_map); ("description", is_str);
   ("descriptions", is_text_map); ("unit", is_str); ("format", is_str); ("enum", is_arr);
   ("oneOf", is_arr)].

Definition flag_shapes : list (string * (json -> Prop)) := [("readOnly", is_bool); ("writeOnly", is_bool)].

(** The members of each type. *)
Definition type_shapes : list (string * list (string * (json -> Prop))) :=
  [("array", [("items", obj_or_arr); ("min_items", is_int_in in_u32);
              ("max_items", is_int_in in_u32)]);
   ("boolean", []);
   ("number", [("multipleOf", is_number)]);
   ("integer", [("multipleOf", is_int_in in_nz_u64)]);
   ("object", [("properties", is_obj); ("required", is_strs)]);
   ("string", [("minLength", is_int_in in_u32); ("maxLength", is_int_in in_u32); ("pattern", is_str);
               ("contentEncoding", is_str); ("contentMediaType", is_str)]);
   ("null", [])].

(** A member every schema may have has a value of the wrong shape. *)
Definition malformed (es : entries) : Prop :=
  (exists k ok v, In (k, ok) schema_shapes /\ In (k, v) es /\ v <> JNull /\ ~ ok v)
  \/ (exists k ok v, In (k, ok) flag_shapes /\ In (k, v) es /\ ~ ok v).

(** The type is unknown, or one of its members has a value of the wrong shape. *)
Definition ill_typed (es : entries) : Prop :=
  (exists v, In ("type", v) es /\ ~ exists n, (v = JStr n /\ In n (map fst type_shapes)) \/ exists i, v = JInt i)
  \/ exists n shapes k ok v, In ("type", JStr n) es /\ In (n, shapes) type_shapes /\ In (k, ok) shapes
       /\ In (k, v) es /\ v <> JNull /\ ~ ok v.
