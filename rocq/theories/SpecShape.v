(** * The shape of Thing Descriptions

    A small schema language for JSON documents, and with it the structure of Thing Descriptions
    (TD 1.1, section 5.3 and appendix A): which members an object must have and what the values of its
    members look like.  Names the specification does not mention are not constrained.  [minItems],
    [maxItems] and [dataResponse] appear under the names the crate gives them (C47). *)

From Coq Require Import String Bool ZArith List.
From Coq Require Import Floats.SpecFloat.
From Verif Require Import Base MinMax Json Serde Types Spec SpecThing SpecSerde SpecDoc SpecMember SpecTyped SpecEqual.
Import ListNotations.
Set Implicit Arguments.
Local Open Scope string_scope.
Local Open Scope list_scope.

(** The objects of a Thing Description *)
Inductive part :=
| PThing | PVersion | PProperty | PAction | PEvent | PForm | PResponse | PAddResponse | PLink | PSchema | PSecurity.

Inductive shape :=
| Anything
| Text | Flag | Number | Natural
| OneOf (l : list string)                 (* one of these strings *)
| Tag | Texts | Date                      (* a language tag; texts by language tag; a date and time *)
| ListOf (s : shape) | OneOrMore (s : shape) | MapOf (s : shape)
| Object (p : part).

Definition info_shape : list (string * shape) :=
  [("@type", OneOrMore Text); ("title", Text); ("titles", Texts); ("description", Text); ("descriptions", Texts)].

Definition schema_shape : list (string * shape) :=
  info_shape
  ++ [("const", Anything); ("default", Anything); ("unit", Text); ("oneOf", ListOf (Object PSchema));
      ("enum", ListOf Anything); ("readOnly", Flag); ("writeOnly", Flag); ("format", Text);
      ("type", OneOf ["object"; "array"; "string"; "number"; "integer"; "boolean"; "null"]);
      ("items", OneOrMore (Object PSchema)); ("min_items", Natural); ("max_items", Natural);
      ("minimum", Number); ("exclusiveMinimum", Number); ("maximum", Number); ("exclusiveMaximum", Number);
      ("multipleOf", Number);
      ("properties", MapOf (Object PSchema)); ("required", ListOf Text);
      ("minLength", Natural); ("maxLength", Natural); ("pattern", Text); ("contentEncoding", Text);
      ("contentMediaType", Text)].

Definition interaction_shape : list (string * shape) :=
  info_shape ++ [("forms", ListOf (Object PForm)); ("uriVariables", MapOf (Object PSchema))].

(** The members of each object and the shapes of their values *)
Definition members (p : part) : list (string * shape) :=
  match p with
  | PThing =>
      info_shape
      ++ [("@context", Anything); ("id", Text); ("version", Object PVersion); ("created", Date); ("modified", Date);
          ("support", Text); ("base", Text); ("properties", MapOf (Object PProperty));
          ("actions", MapOf (Object PAction)); ("events", MapOf (Object PEvent)); ("links", ListOf (Object PLink));
          ("forms", ListOf (Object PForm)); ("security", OneOrMore Text);
          ("securityDefinitions", MapOf (Object PSecurity)); ("profile", OneOrMore Text);
          ("schemaDefinitions", MapOf (Object PSchema)); ("uriVariables", MapOf (Object PSchema))]
  | PVersion => [("instance", Text); ("model", Text)]
  | PProperty => [("observable", Flag)] ++ interaction_shape ++ schema_shape
  | PAction =>
      [("input", Object PSchema); ("output", Object PSchema); ("safe", Flag); ("idempotent", Flag);
       ("synchronous", Flag)] ++ interaction_shape
  | PEvent =>
      [("subscription", Object PSchema); ("data", Object PSchema); ("data_response", Object PSchema);
       ("cancellation", Object PSchema)]
      ++ interaction_shape
  | PForm =>
      [("op", OneOrMore (OneOf (map fst td_operations))); ("href", Text); ("contentType", Text);
       ("contentCoding", Text); ("subprotocol", Text); ("security", OneOrMore Text); ("scopes", OneOrMore Text);
       ("response", Object PResponse); ("additionalResponses", OneOrMore (Object PAddResponse))]
  | PResponse => [("contentType", Text)]
  | PAddResponse => [("success", Flag); ("contentType", Text); ("schema", Text)]
  | PLink =>
      [("href", Text); ("type", Text); ("rel", Text); ("anchor", Text); ("sizes", Text); ("hreflang", OneOrMore Tag)]
  | PSchema => schema_shape
  | PSecurity =>
      [("@type", OneOrMore Text); ("description", Text); ("descriptions", Texts); ("proxy", Text); ("scheme", Text)]
  end.

Definition needed (p : part) : list string :=
  match p with
  | PThing => ["title"; "security"; "securityDefinitions"]
  | PVersion => ["instance"]
  | PProperty | PAction | PEvent => ["forms"]
  | PForm | PLink => ["href"]
  | PResponse => ["contentType"]
  | PSecurity => ["scheme"]
  | PAddResponse | PSchema => []
  end.

(** Further members of the security schemes of the specification, and which they must have *)
Definition place : list (string * shape) :=
  [("in", OneOf ["header"; "query"; "body"; "cookie"; "uri"]); ("name", Text)].

Definition scheme_members (scheme : string) : list (string * shape) :=
  match assoc_name scheme
    [("combo", [("oneOf", OneOrMore Text); ("allOf", OneOrMore Text)]);
     ("basic", place); ("apikey", place);
     ("digest", ("qop", OneOf ["auth"; "auth-int"]) :: place);
     ("bearer", [("authorization", Text); ("alg", Text); ("format", Text)] ++ place);
     ("psk", [("identity", Text)]);
     ("oauth2", [("authorization", Text); ("token", Text); ("refresh", Text); ("scopes", OneOrMore Text);
                 ("flow", Text)])]
  with Some l => l | None => [] end.

Definition scheme_needed (scheme : string) : list string := if String.eqb scheme "oauth2" then ["flow"] else [].

Section Conforms.
  Variable E : env.

  (** [conforms s j]: the document [j] has the shape [s], at every depth. *)
  Inductive conforms : shape -> json -> Prop :=
  | cf_any j : conforms Anything j
  | cf_text s : conforms Text (JStr s)
  | cf_flag b : conforms Flag (JBool b)
  | cf_int n : conforms Number (JInt n)
  | cf_float x : conforms Number (JFloat x)
  | cf_natural n : (0 <= n)%Z -> conforms Natural (JInt n)
  | cf_one_of l s : In s l -> conforms (OneOf l) (JStr s)
  | cf_tag s : tag_ok E s = true -> conforms Tag (JStr s)
  | cf_texts es : (forall k v, In (k, v) es -> tag_ok E k = true /\ is_str v) -> conforms Texts (JObj es)
  | cf_date s : date_parse E s <> None -> conforms Date (JStr s)
  | cf_list s l : (forall j, In j l -> conforms s j) -> conforms (ListOf s) (JArr l)
  | cf_one s j : conforms s j -> conforms (OneOrMore s) j
  | cf_more s l : (forall j, In j l -> conforms s j) -> conforms (OneOrMore s) (JArr l)
  | cf_map s es : (forall k j, In (k, j) es -> conforms s j) -> conforms (MapOf s) (JObj es)
  | cf_object p es :
      (forall k, In k (needed p) -> In k (map fst es)) ->
      (forall k j s, In (k, j) es -> assoc_name k (members p) = Some s -> conforms s j) ->
      (p = PSecurity -> forall n, In ("scheme", JStr n) es ->
         (forall k, In k (scheme_needed n) -> In k (map fst es))
         /\ forall k j s, In (k, j) es -> assoc_name k (scheme_members n) = Some s -> conforms s j) ->
      conforms (Object p) (JObj es).

  (** ** What keeps a Thing from being written in this shape *)

  Variable X : exts.

  (** Custom security schemes have a name of their own and their data, an object or nothing,
      leaves the names of the specification alone. *)
  Definition schemes_own (t : thing E X) : Prop :=
    forall k s n data, In (k, s) (t_secdefs t) -> ss_subtype s = Unknown n data ->
      exists es, (data = JObj es \/ (data = JNull /\ es = [])) /\ own_name n es
        /\ disjoint (map fst es) ["@type"; "description"; "descriptions"; "proxy"; "scheme"].

  Definition dates_readable (t : thing E X) : Prop :=
    all_some (date_ok E) (t_created t) /\ all_some (date_ok E) (t_modified t).

  (** Nothing in the Thing would be written as [null]: empty lists of operations, versions without
      a model, infinite numbers. *)
  Record no_gaps (t : thing E X) : Prop := {
    ng_ops : forall c f, form_at (thing_body t) c f -> f_op f <> OpCustom [];
    ng_version : forall v, t_version t = Some v -> v_model v <> None;
    ng_numbers : forall d e n x, schema_in (thing_body t) d -> sub_ds e d -> ds_sub e = Some (SNumber n) ->
      number_in n x -> f64_finite x = true;
  }.
End Conforms.

(** ** Documents that leave extensions alone *)

(** No object in the document has a member named in [L]. *)
Inductive never (L : list string) : json -> Prop :=
| nv_leaf j : (forall l, j <> JArr l) -> (forall es, j <> JObj es) -> never L j
| nv_arr l : (forall j, In j l -> never L j) -> never L (JArr l)
| nv_obj es : (forall k, In k (map fst es) -> ~ In k L) -> (forall k j, In (k, j) es -> never L j) -> never L (JObj es).

Definition all_names (K : xnames) : list string :=
  k_t K ++ k_ia K ++ k_pa K ++ k_aa K ++ k_ea K ++ k_f K ++ k_er K ++ k_ds K ++ k_os K ++ k_as K.

(** The extension can be read from an object that has none of its members. *)
Definition reads_without (p : piece) (L : list string) : Prop :=
  forall es, (forall k, In k (map fst es) -> ~ In k L) -> p_de p es <> None.

(** So can all extensions, those of responses possibly excepted. *)
Record exts_optional (X : exts) (K : xnames) : Prop := {
  eo_t : reads_without (x_t X) (k_t K);
  eo_ia : reads_without (x_ia X) (k_ia K);
  eo_pa : reads_without (x_pa X) (k_pa K);
  eo_aa : reads_without (x_aa X) (k_aa K);
  eo_ea : reads_without (x_ea X) (k_ea K);
  eo_f : reads_without (x_f X) (k_f K);
  eo_ds : reads_without (x_ds X) (k_ds K);
  eo_os : reads_without (x_os X) (k_os K);
  eo_as : reads_without (x_as X) (k_as K);
}.

(** ** Documents with members of extensions *)

(** Every member of every object in the document is as [Q] says. *)
Inductive always (Q : string -> json -> Prop) : json -> Prop :=
| aw_leaf j : (forall l, j <> JArr l) -> (forall es, j <> JObj es) -> always Q j
| aw_arr l : (forall j, In j l -> always Q j) -> always Q (JArr l)
| aw_obj es : (forall k j, In (k, j) es -> Q k j) -> (forall k j, In (k, j) es -> always Q j) -> always Q (JObj es).

(** Expected responses have the members [R]. *)
Definition answers (R : list string) : json -> Prop :=
  always (fun k v => k = "response" -> forall es, v = JObj es -> forall r, In r R -> In r (map fst es)).

(** The extension can be read from an object whose members, at every depth, are as [Q] says,
    and which has the members [R]. *)
Definition reads_with (Q : string -> json -> Prop) (R : list string) (p : piece) : Prop :=
  forall es, no_repeats (JObj es) -> always Q (JObj es) -> (forall k, In k R -> In k (map fst es)) -> p_de p es <> None.

(** So can all extensions, none requiring members; those of responses possibly excepted. *)
Record exts_readable (X : exts) (Q : string -> json -> Prop) : Prop := {
  rw_t : reads_with Q [] (x_t X);
  rw_ia : reads_with Q [] (x_ia X);
  rw_pa : reads_with Q [] (x_pa X);
  rw_aa : reads_with Q [] (x_aa X);
  rw_ea : reads_with Q [] (x_ea X);
  rw_f : reads_with Q [] (x_f X);
  rw_ds : reads_with Q [] (x_ds X);
  rw_os : reads_with Q [] (x_os X);
  rw_as : reads_with Q [] (x_as X);
}.

Definition is_text (v : json) : Prop := exists s, v = JStr s.
Definition is_number (low high : Z) (v : json) : Prop := exists n, v = JInt n /\ (low <= n <= high)%Z.
Definition is_one_of (names : list string) (v : json) : Prop := exists s, v = JStr s /\ In s names.
Definition is_object (v : json) : Prop := exists es, v = JObj es.

(** What the members of the HTTP binding look like
    (https://www.w3.org/TR/wot-binding-templates, HTTP vocabulary) *)
Definition http_member (k : string) (v : json) : Prop :=
  (k = "htv:methodName" -> is_one_of ["GET"; "PUT"; "POST"; "DELETE"; "PATCH"] v)
  /\ (k = "htv:headers" -> exists l, v = JArr l /\ forall h, In h l -> is_object h)
  /\ (k = "htv:fieldName" \/ k = "htv:fieldValue" -> is_text v)
  /\ (k = "htv:statusCodeValue" -> is_number 0 18446744073709551615 v).

(** Those of the CoAP binding *)
Definition coap_member (k : string) (v : json) : Prop :=
  (k = "cov:method" -> is_one_of ["GET"; "PUT"; "POST"; "DELETE"; "PATCH"; "FETCH"; "iPATCH"] v)
  /\ (k = "cov:blockwise" \/ k = "cov:qblockwise" -> is_object v)
  /\ (k = "cov:block1Size" \/ k = "cov:block2Size" -> exists n, v = JInt n /\ In n [16; 32; 64; 128; 256; 512; 1024]%Z)
  /\ (k = "cov:hopLimit" -> is_number 0 255 v)
  /\ (k = "cov:accept" \/ k = "cov:contentFormat" -> is_number 0 65535 v).

(** Those of the MQTT binding *)
Definition mqtt_member (k : string) (v : json) : Prop :=
  (k = "mqv:retain" -> exists b, v = JBool b)
  /\ (k = "mqv:controlPacket" -> is_one_of ["mqv:publish"; "mqv:subscribe"; "mqv:unsubscribe"] v)
  /\ (k = "mqv:qos" -> is_one_of ["quality:0"; "quality:1"; "quality:2"] v)
  /\ (k = "mqv:topic" -> is_text v)
  /\ (k = "mqv:filter" -> is_text v \/ exists l, v = JArr l /\ forall x, In x l -> is_text x).

(** The numbers in a schema are in the range of the crate's types: [u32] for sizes and lengths,
    a positive [u64] for the [multipleOf] of integers. *)
Definition in_range (es : entries) : Prop :=
  (forall k n, In k ["min_items"; "max_items"; "minLength"; "maxLength"] -> In (k, JInt n) es -> in_u32 n)
  /\ (In ("type", JStr "integer") es -> forall v, In ("multipleOf", v) es -> exists n, v = JInt n /\ in_nz_u64 n).
