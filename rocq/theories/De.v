(** * Deserialization of the Thing Description types (src/thing.rs)

    [serde::Deserialize] as derived.  A struct with flattened members keeps the
    members it does not know and hands them to each flattened member in turn.  A
    flattened map, struct with its own flattened members, or internally tagged enum
    reads without removing; see [Serde.piece] for extensions.

    Reads documents; texts, and serde_json's limit on their nesting, are in
    [JsonText.v]. *)

From Coq Require Import String Bool ZArith List.
From Verif Require Import Base MinMax Json Serde Types.
Import ListNotations.
Set Implicit Arguments.
Local Open Scope string_scope.
Local Open Scope list_scope.

(** First member with one of the given names: how a flattened externally tagged enum
    finds its variant ([FlatMapDeserializer::deserialize_enum]). src/thing.rs 1001-1006, 1019-1024. *)
Definition first_of (ks : list string) (es : entries) : option (string * json) :=
  find (fun kv => smem (fst kv) ks) es.

(** src/thing.rs 842-851, [Option<Maximum<A>>] flattened: an error is read as absence *)
Definition d_max {A} (d : json -> option A) (es : entries) : option (maximum A) :=
  match first_of ["maximum"; "exclusiveMaximum"] es with
  | Some (k, v) =>
      if String.eqb k "maximum" then option_map (@MaxIncl A) (d v)
      else option_map (@MaxExcl A) (d v)
  | None => None
  end.

(** src/thing.rs 854-863 *)
Definition d_min {A} (d : json -> option A) (es : entries) : option (minimum A) :=
  match first_of ["minimum"; "exclusiveMinimum"] es with
  | Some (k, v) =>
      if String.eqb k "minimum" then option_map (@MinIncl A) (d v)
      else option_map (@MinExcl A) (d v)
  | None => None
  end.

(** src/thing.rs 996-1010 *)
Definition d_number (es : entries) : option number_schema :=
  let? m := opt "multipleOf" d_f64 es in
  Some {| n_max := d_max d_f64 es; n_min := d_min d_f64 es; n_mult := m |}.

(** src/thing.rs 1013-1028 *)
Definition d_integer (es : entries) : option integer_schema :=
  let? m := opt "multipleOf" d_nz_u64 es in
  Some {| z_max := d_max d_i64 es; z_min := d_min d_i64 es; z_mult := m |}.

(** src/thing.rs 1079-1104 *)
Definition d_string (es : entries) : option string_schema :=
  let? mn := opt "minLength" d_u32 es in
  let? mx := opt "maxLength" d_u32 es in
  let? p := opt "pattern" d_str es in
  let? e := opt "contentEncoding" d_str es in
  let? m := opt "contentMediaType" d_str es in
  Some {| s_min := mn; s_max := mx; s_pattern := p; s_encoding := e; s_media := m |}.

(** src/thing.rs 736-759: the variants and their tags *)
Inductive sub_kind := TkArray | TkBoolean | TkNumber | TkInteger | TkObject | TkString | TkNull.

(** src/thing.rs 737-759: the tags only *)
Definition sub_names : list (string * sub_kind) :=
  [("array", TkArray); ("boolean", TkBoolean); ("number", TkNumber); ("integer", TkInteger);
   ("object", TkObject); ("string", TkString); ("null", TkNull)].

(** src/thing.rs 299-314, 675-690: the members of that name *)
Definition info_keys : list string := ["@type"; "title"; "titles"; "description"; "descriptions"].

(** Members of [DataSchema] that are not flattened, src/thing.rs 675-718 *)
Definition ds_keys : list string :=
  info_keys ++ ["const"; "default"; "unit"; "oneOf"; "enum"; "readOnly"; "writeOnly"; "format"].

(** Members of [ArraySchema], src/thing.rs 786-805 *)
Definition array_keys : list string := ["items"; "min_items"; "max_items"].
(** Members of [ObjectSchema], src/thing.rs 1034-1038 *)
Definition object_keys : list string := ["properties"; "required"].

(** ** Security *)

(** src/thing.rs 1234-1257 *)
Definition locations : list (string * location) :=
  [("header", LHeader); ("query", LQuery); ("body", LBody); ("cookie", LCookie); ("uri", LUri)].

(** src/thing.rs 1293-1302 *)
Definition qops : list (string * qop) := [("auth", QAuth); ("auth-int", QAuthInt)].

(** src/thing.rs 1234-1257, derived [Deserialize] *)
Definition d_loc : json -> option location := d_variant locations.

(** src/thing.rs 1213-1231 (default header), 1305-1323 (default query) *)
Definition d_loc_name (default : location) (es : entries) : option loc_name :=
  let? l := dflt "in" default d_loc es in
  let? n := opt "name" d_str es in
  Some {| ln_loc := l; ln_name := n |}.

(** src/thing.rs 1326-1369 *)
Definition d_bearer (es : entries) : option bearer :=
  let? a := opt "authorization" d_str es in
  let? g := dflt "alg" "ES256" d_str es in
  let? f := dflt "format" "jwt" d_str es in
  let? l := dflt "in" LHeader d_loc es in
  let? n := opt "name" d_str es in
  Some {| be_auth := a; be_alg := g; be_format := f; be_loc := l; be_name := n |}.

(** src/thing.rs 1383-1411 *)
Definition d_oauth2 (es : entries) : option oauth2 :=
  let? a := opt "authorization" d_str es in
  let? t := opt "token" d_str es in
  let? r := opt "refresh" d_str es in
  let? s := opt "scopes" (d_oom d_str) es in
  let? f := req "flow" d_str es in
  Some {| oa_auth := a; oa_token := t; oa_refresh := r; oa_scopes := s; oa_flow := f |}.

(** src/thing.rs 1199-1210, externally tagged: a map with exactly one entry *)
Definition d_combo (es : entries) : option combo :=
  match es with
  | [(k, v)] =>
      if String.eqb k "oneOf" then option_map COneOf (d_oom d_str v)
      else if String.eqb k "allOf" then option_map CAllOf (d_oom d_str v)
      else None
  | _ => None
  end.

(** src/thing.rs 1133-1168: the variants and their tags *)
Inductive sec_kind :=
| TkNoSec | TkAuto | TkCombo | TkBasic | TkDigest | TkBearer | TkPsk | TkOAuth2 | TkApiKey.

(** src/thing.rs 1134-1168: the tags only *)
Definition sec_names : list (string * sec_kind) :=
  [("nosec", TkNoSec); ("auto", TkAuto); ("combo", TkCombo); ("basic", TkBasic);
   ("digest", TkDigest); ("bearer", TkBearer); ("psk", TkPsk); ("oauth2", TkOAuth2);
   ("apikey", TkApiKey)].

(** src/thing.rs 1133-1168, internally tagged by [scheme] *)
Definition d_known (es : entries) : option known_sec :=
  let? k := req "scheme" (d_tag sec_names) es in
  let c := without ["scheme"] es in
  match k with
  | TkNoSec => Some KNoSec
  | TkAuto => Some KAuto
  | TkCombo => option_map KCombo (d_combo c)
  | TkBasic => option_map KBasic (d_loc_name LHeader c)
  | TkDigest =>
      let? q := req "qop" (d_variant qops) c in
      option_map (KDigest q) (d_loc_name LHeader c)
  | TkBearer => option_map KBearer (d_bearer c)
  | TkPsk => option_map KPsk (opt "identity" d_str c)
  | TkOAuth2 => option_map KOAuth2 (d_oauth2 c)
  | TkApiKey => option_map KApiKey (d_loc_name LQuery c)
  end.

(** src/thing.rs 1171-1179 *)
Definition d_unknown (es : entries) : option sec_subtype :=
  let? s := req "scheme" d_str es in
  Some (Unknown s (canon (JObj (without ["scheme"] es)))).

(** src/thing.rs 1182-1190, untagged *)
Definition d_subtype (es : entries) : option sec_subtype :=
  match d_known es with
  | Some k => Some (Known k)
  | None => d_unknown es
  end.

(** Members of [SecurityScheme], src/thing.rs 1111-1125 *)
Definition security_keys : list string := ["@type"; "description"; "descriptions"; "proxy"].

(** ** Form operations *)

(** src/thing.rs 1550-1615 *)
Definition op_names : list (string * form_op) :=
  [("readproperty", ReadProperty); ("writeproperty", WriteProperty);
   ("observeproperty", ObserveProperty); ("unobserveproperty", UnobserveProperty);
   ("invokeaction", InvokeAction); ("queryaction", QueryAction); ("cancelaction", CancelAction);
   ("subscribeevent", SubscribeEvent); ("unsubscribeevent", UnsubscribeEvent);
   ("readallproperties", ReadAllProperties); ("writeallproperties", WriteAllProperties);
   ("readmultipleproperties", ReadMultipleProperties);
   ("writemultipleproperties", WriteMultipleProperties);
   ("observeallproperties", ObserveAllProperties);
   ("unobserveallproperties", UnobserveAllProperties);
   ("subscribeallevents", SubscribeAllEvents); ("unsubscribeallevents", UnsubscribeAllEvents);
   ("queryallactions", QueryAllActions)].

(** src/thing.rs 1550, derived [Deserialize] *)
Definition d_op : json -> option form_op := d_variant op_names.

(** src/thing.rs 1681-1692, [Deserialize for DefaultedFormOperations] *)
Definition d_ops (j : json) : option form_ops :=
  match j with
  | JNull => Some OpDefault
  | _ => option_map OpCustom (d_oom d_op j)
  end.

(** src/thing.rs 1710-1729 *)
Definition d_add_resp : json -> option add_resp :=
  d_struct 3
    (fun es =>
       let? s := dflt "success" false d_bool es in
       let? c := opt "contentType" d_str es in
       let? n := opt "schema" d_str es in
       Some {| ar_success := s; ar_ctype := c; ar_schema := n |})
    (fun l =>
       let? s := sq_dflt 0 false d_bool l in
       let? c := sq_opt 1 d_str l in
       let? n := sq_opt 2 d_str l in
       Some {| ar_success := s; ar_ctype := c; ar_schema := n |}).

(** src/thing.rs 646-654 *)
Definition d_version : json -> option version_info :=
  d_struct 2
    (fun es =>
       let? i := req "instance" d_str es in
       let? m := opt "model" d_str es in
       Some {| v_instance := i; v_model := m |})
    (fun l =>
       let? i := sq_req 0 d_str l in
       let? m := sq_opt 1 d_str l in
       Some {| v_instance := i; v_model := m |}).

(** Members of [Form], src/thing.rs 1467-1521 *)
Definition form_keys : list string :=
  ["op"; "href"; "contentType"; "contentCoding"; "subprotocol"; "security"; "scopes"; "response";
   "additionalResponses"].

(** Members of [InteractionAffordance], src/thing.rs 299-325 *)
Definition interaction_keys : list string := info_keys ++ ["forms"; "uriVariables"].

(** Members of [PropertyAffordance], src/thing.rs 398-411 *)
Definition property_keys : list string := ["observable"].
(** Members of [ActionAffordance], src/thing.rs 472-501 *)
Definition action_keys : list string := ["input"; "output"; "safe"; "idempotent"; "synchronous"].
(** Members of [EventAffordance], src/thing.rs 571-584 *)
Definition event_keys : list string := ["subscription"; "data"; "data_response"; "cancellation"].

(** Members of [Thing], src/thing.rs 56-162 *)
Definition thing_keys : list string :=
  ["@context"; "id"; "@type"; "title"; "titles"; "description"; "descriptions"; "version"; "created";
   "modified"; "support"; "base"; "properties"; "actions"; "events"; "links"; "forms"; "security";
   "securityDefinitions"; "uriVariables"; "profile"; "schemaDefinitions"].

Section De.
  Variable E : env.
  Variable X : exts.

  (** [LanguageTag<String>] (oxilangtag): accepted or not, kept as written. src/thing.rs 30, 1458. *)
  Definition d_langtag (j : json) : option string :=
    match j with JStr s => if tag_ok E s then Some s else None | _ => None end.

  (** src/thing.rs 30, [MultiLanguage]: keys are language tags *)
  Definition d_multilang (j : json) : option multilang :=
    match j with
    | JObj es =>
        option_map mof
          (omap_all (fun kv => if tag_ok E (fst kv) then option_map (fun s => (fst kv, s)) (d_str (snd kv))
                               else None) es)
    | _ => None
    end.

  (** src/thing.rs 299-314, 675-690 *)
  Definition d_info (es : entries) : option info :=
    let? a := opt "@type" (d_oom d_str) es in
    let? t := opt "title" d_str es in
    let? ts := opt "titles" d_multilang es in
    let? d := opt "description" d_str es in
    let? ds := opt "descriptions" d_multilang es in
    Some {| i_attype := a; i_title := t; i_titles := ts; i_description := d; i_descriptions := ds |}.

  (** src/thing.rs 690-718 *)
  Definition d_misc (es : entries) : option dmisc :=
    let? c := opt "const" d_value es in
    let? d := opt "default" d_value es in
    let? u := opt "unit" d_str es in
    let? e := opt "enum" (d_list d_value) es in
    let? ro := dflt "readOnly" false d_bool es in
    let? wo := dflt "writeOnly" false d_bool es in
    let? f := opt "format" d_str es in
    Some {| m_const := c; m_default := d; m_unit := u; m_enum := e; m_ro := ro; m_wo := wo;
            m_format := f |}.

  (** src/thing.rs 812-817, [BoxedElemOrVec], untagged *)
  Definition d_boxed (rec : json -> option (dsx X)) (j : json)
    : option (boxed (pty (x_ds X)) (pty (x_as X)) (pty (x_os X))) :=
    match rec j with
    | Some d => Some (BElem d)
    | None => option_map (fun l => BVec l) (d_list rec j)
    end.

  (** src/thing.rs 736-759 [DataSchemaSubtype], internally tagged by [type]; 779-810
      [ArraySchema]; 1031-1043 [ObjectSchema].  [rec] reads a nested schema. *)
  Definition sub_body (rec : json -> option (dsx X)) (es : entries) : option (dsubx X) :=
    let? k := req "type" (d_tag sub_names) es in
    let c := without ["type"] es in
    match k with
    | TkArray =>
        let? i := opt "items" (d_boxed rec) c in
        let? mn := opt "min_items" d_u32 c in
        let? mx := opt "max_items" d_u32 c in
        let? o := p_de (x_as X) (without array_keys c) in
        Some (SArray i mn mx o)
    | TkBoolean => Some SBoolean
    | TkNumber => option_map SNumber (d_number c)
    | TkInteger => option_map SInteger (d_integer c)
    | TkObject =>
        let? p := opt "properties" (d_map rec) c in
        let? r := opt "required" (d_list d_str) c in
        let? o := p_de (x_os X) (without object_keys c) in
        Some (SObject p r o)
    | TkString => option_map SString (d_string c)
    | TkNull => Some SNull
    end.

  (** src/thing.rs 670-727 [DataSchema].  The subtype is a flattened [Option]: an error
      is read as absence. *)
  Definition ds_body (rec : json -> option (dsx X)) (es : entries) : option (dsx X) :=
    let? i := d_info es in
    let? m := d_misc es in
    let? l := opt "oneOf" (d_list rec) es in
    let r := without ds_keys es in
    let? o := p_de (x_ds X) r in
    Some (mkDs i m l (sub_body rec r) o).

  (** The recursion: nested schemas sit inside the document, so its depth bounds the
      number of calls ([d_ds_obj] in RoundTrip.v shows that the bound is never met). src/thing.rs 670-727. *)
  Fixpoint d_ds_n (n : nat) (j : json) : option (dsx X) :=
    match n with
    | O => None
    | S n' => d_flat (ds_body (d_ds_n n')) j
    end.

  (** src/thing.rs 670-727, with enough fuel for the document *)
  Definition d_ds (j : json) : option (dsx X) := d_ds_n (S (jdepth j)) j.

  (** src/thing.rs 31-38, [DataSchemaMap] *)
  Definition d_dsmap : json -> option (amap (dsx X)) := d_map d_ds.

  (** src/thing.rs 1107-1130 *)
  Definition security_body (es : entries) : option security_scheme :=
    let? a := opt "@type" (d_oom d_str) es in
    let? d := opt "description" d_str es in
    let? ds := opt "descriptions" d_multilang es in
    let? p := opt "proxy" d_str es in
    let? s := d_subtype (without security_keys es) in
    Some {| ss_attype := a; ss_description := d; ss_descriptions := ds; ss_proxy := p;
            ss_subtype := s |}.

  (** src/thing.rs 1107-1130, from a document *)
  Definition d_security : json -> option security_scheme := d_flat security_body.

  (** src/thing.rs 1428-1459 *)
  Definition d_link : json -> option link :=
    d_struct 6
      (fun es =>
         let? h := req "href" d_str es in
         let? t := opt "type" d_str es in
         let? r := opt "rel" d_str es in
         let? a := opt "anchor" d_str es in
         let? s := opt "sizes" d_str es in
         let? l := opt "hreflang" (d_oom d_langtag) es in
         Some {| l_href := h; l_type := t; l_rel := r; l_anchor := a; l_sizes := s; l_hreflang := l |})
      (fun v =>
         let? h := sq_req 0 d_str v in
         let? t := sq_opt 1 d_str v in
         let? r := sq_opt 2 d_str v in
         let? a := sq_opt 3 d_str v in
         let? s := sq_opt 4 d_str v in
         let? l := sq_optd 5 (d_oom d_langtag) v in
         Some {| l_href := h; l_type := t; l_rel := r; l_anchor := a; l_sizes := s; l_hreflang := l |}).

  (** src/thing.rs 1695-1707 *)
  Definition exp_resp_body (es : entries) : option (exp_resp (pty (x_er X))) :=
    let? c := req "contentType" d_str es in
    let? o := p_de (x_er X) (without ["contentType"] es) in
    Some {| er_ctype := c; er_other := o |}.

  (** src/thing.rs 1695-1707, from a document *)
  Definition d_exp_resp : json -> option (exp_resp (pty (x_er X))) := d_flat exp_resp_body.

  (** src/thing.rs 1462-1526 *)
  Definition form_body (es : entries) : option (form X) :=
    let? op := dflt "op" OpDefault d_ops es in
    let? h := req "href" d_str es in
    let? ct := opt "contentType" d_str es in
    let? cc := opt "contentCoding" d_str es in
    let? sp := opt "subprotocol" d_str es in
    let? se := opt "security" (d_oom d_str) es in
    let? sc := opt "scopes" (d_oom d_str) es in
    let? re := opt "response" d_exp_resp es in
    let? ar := opt "additionalResponses" (d_oom d_add_resp) es in
    let? o := p_de (x_f X) (without form_keys es) in
    Some {| f_op := op; f_href := h; f_ctype := ct; f_ccoding := cc; f_subprotocol := sp;
            f_security := se; f_scopes := sc; f_response := re; f_additional := ar; f_other := o |}.

  (** src/thing.rs 1462-1526, from a document *)
  Definition d_form : json -> option (form X) := d_flat form_body.

  (** src/thing.rs 294-330 *)
  Definition interaction_body (es : entries) : option (interaction X) :=
    let? i := d_info es in
    let? f := req "forms" (d_list d_form) es in
    let? u := opt "uriVariables" d_dsmap es in
    let? o := p_de (x_ia X) (without interaction_keys es) in
    Some {| ia_info := i; ia_forms := f; ia_uri := u; ia_other := o |}.

  (** src/thing.rs 394-416 *)
  Definition property_body (es : entries) : option (property X) :=
    let? b := opt "observable" d_bool es in
    let r := without property_keys es in
    let? i := interaction_body r in
    let? d := d_ds (JObj r) in
    let? o := p_de (x_pa X) r in
    Some {| pa_ia := i; pa_ds := d; pa_observable := b; pa_other := o |}.

  (** src/thing.rs 394-416, from a document *)
  Definition d_property : json -> option (property X) := d_flat property_body.

  (** src/thing.rs 468-506 *)
  Definition action_body (es : entries) : option (action X) :=
    let? inp := opt "input" d_ds es in
    let? out := opt "output" d_ds es in
    let? sf := dflt "safe" false d_bool es in
    let? id := dflt "idempotent" false d_bool es in
    let? sy := opt "synchronous" d_bool es in
    let r := without action_keys es in
    let? i := interaction_body r in
    let? o := p_de (x_aa X) r in
    Some {| aa_ia := i; aa_input := inp; aa_output := out; aa_safe := sf; aa_idempotent := id;
            aa_synchronous := sy; aa_other := o |}.

  (** src/thing.rs 468-506, from a document *)
  Definition d_action : json -> option (action X) := d_flat action_body.

  (** src/thing.rs 567-589 *)
  Definition event_body (es : entries) : option (event X) :=
    let? su := opt "subscription" d_ds es in
    let? da := opt "data" d_ds es in
    let? dr := opt "data_response" d_ds es in
    let? ca := opt "cancellation" d_ds es in
    let r := without event_keys es in
    let? i := interaction_body r in
    let? o := p_de (x_ea X) r in
    Some {| ea_ia := i; ea_subscription := su; ea_data := da; ea_data_response := dr;
            ea_cancellation := ca; ea_other := o |}.

  (** src/thing.rs 567-589, from a document *)
  Definition d_event : json -> option (event X) := d_flat event_body.

  (** [time::serde::rfc3339::option], src/thing.rs 88-96 *)
  Definition d_date (j : json) : option (date E) :=
    match j with JStr s => date_parse E s | _ => None end.

  (** src/thing.rs 51-167, 276-278 *)
  Definition thing_body (es : entries) : option (thing E X) :=
    let? cx := dflt "@context" (JStr TD_CONTEXT_11) d_value es in
    let? id := opt "id" d_str es in
    let? ty := opt "@type" (d_oom d_str) es in
    let? ti := req "title" d_str es in
    let? ts := opt "titles" d_multilang es in
    let? de := opt "description" d_str es in
    let? ds := opt "descriptions" d_multilang es in
    let? ve := opt "version" d_version es in
    let? cr := opt "created" d_date es in
    let? mo := opt "modified" d_date es in
    let? su := opt "support" d_str es in
    let? ba := opt "base" d_str es in
    let? pr := opt "properties" (d_map d_property) es in
    let? ac := opt "actions" (d_map d_action) es in
    let? ev := opt "events" (d_map d_event) es in
    let? li := opt "links" (d_list d_link) es in
    let? fo := opt "forms" (d_list d_form) es in
    let? se := req "security" (d_oom d_str) es in
    let? sd := req "securityDefinitions" (d_map d_security) es in
    let? ur := opt "uriVariables" d_dsmap es in
    let? pf := opt "profile" (d_oom d_str) es in
    let? sc := opt "schemaDefinitions" d_dsmap es in
    let? o := p_de (x_t X) (without thing_keys es) in
    Some {| t_context := cx; t_id := id; t_attype := ty; t_title := ti; t_titles := ts;
            t_description := de; t_descriptions := ds; t_version := ve; t_created := cr;
            t_modified := mo; t_support := su; t_base := ba; t_properties := pr; t_actions := ac;
            t_events := ev; t_links := li; t_forms := fo; t_security := se; t_secdefs := sd;
            t_uri := ur; t_profile := pf; t_schemas := sc; t_other := o |}.

  (** src/thing.rs 51-167, from a document *)
  Definition d_thing : json -> option (thing E X) := d_flat thing_body.
End De.
