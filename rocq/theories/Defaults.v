(** * Default values ([impl Default], [#[derive(Default)]]) *)

From Coq Require Import String Bool ZArith List.
From Verif Require Import Base MinMax Json Serde Types HList Protocol.
Import ListNotations.
Set Implicit Arguments.
Local Open Scope string_scope.
Local Open Scope list_scope.

(** ** Security *)

(** src/thing.rs 1224-1231, [BasicSecurityScheme::default] *)
Definition basic_default : loc_name := {| ln_loc := LHeader; ln_name := None |}.

(** src/thing.rs 1293-1302, [QualityOfProtection], [#[default]] *)
Definition qop_default : qop := QAuth.

(** src/thing.rs 1282-1290, [DigestSecurityScheme::default] without [qop] *)
Definition digest_default : loc_name := {| ln_loc := LHeader; ln_name := None |}.

(** src/thing.rs 1316-1323, [ApiKeySecurityScheme::default] *)
Definition apikey_default : loc_name := {| ln_loc := LQuery; ln_name := None |}.

(** src/thing.rs 1349-1369, [BearerSecurityScheme::default] *)
Definition bearer_default : bearer :=
  {| be_auth := None; be_alg := "ES256"; be_format := "jwt"; be_loc := LHeader; be_name := None |}.

(** src/thing.rs 1373, derived for [PskSecurityScheme] *)
Definition psk_default : option string := None.

(** src/thing.rs 1413-1425, [OAuth2SecurityScheme::new] *)
Definition oauth2_new (flow : string) : oauth2 :=
  {| oa_auth := None; oa_token := None; oa_refresh := None; oa_scopes := None; oa_flow := flow |}.

(** src/thing.rs 1385, derived *)
Definition oauth2_default : oauth2 :=
  {| oa_auth := None; oa_token := None; oa_refresh := None; oa_scopes := None; oa_flow := "" |}.

(** src/thing.rs 1133-1138, [#[default]] *)
Definition known_default : known_sec := KNoSec.

(** src/thing.rs 1171, derived for [UnknownSecuritySchemeSubtype]; [Value::default] is null *)
Definition unknown_default : sec_subtype := Unknown "" JNull.

(** src/thing.rs 1192-1196, [SecuritySchemeSubtype::default] *)
Definition subtype_default : sec_subtype := Known known_default.

(** src/thing.rs 1109, derived *)
Definition security_default : security_scheme :=
  {| ss_attype := None; ss_description := None; ss_descriptions := None; ss_proxy := None;
     ss_subtype := subtype_default |}.

(** ** Version, links, responses *)

(** src/thing.rs 647, derived *)
Definition version_default : version_info := {| v_instance := ""; v_model := None |}.

(** src/thing.rs 656-667, [From<S> for VersionInfo] *)
Definition version_from (instance : string) : version_info := {| v_instance := instance; v_model := None |}.

(** src/thing.rs 1430, derived *)
Definition link_default : link :=
  {| l_href := ""; l_type := None; l_rel := None; l_anchor := None; l_sizes := None; l_hreflang := None |}.

(** src/thing.rs 1650-1658, [#[default]] *)
Definition ops_default : form_ops := OpDefault.

(** src/thing.rs 1695, derived *)
Definition exp_resp_default E (e : E) : exp_resp E := {| er_ctype := ""; er_other := e |}.

(** src/thing.rs 1711, derived *)
Definition add_resp_default : add_resp := {| ar_success := false; ar_ctype := None; ar_schema := None |}.

(** ** Data schemas *)

(** src/thing.rs 997, derived *)
Definition number_default : number_schema := {| n_max := None; n_min := None; n_mult := None |}.

(** src/thing.rs 1014, derived *)
Definition integer_default : integer_schema := {| z_max := None; z_min := None; z_mult := None |}.

(** src/thing.rs 1080, derived *)
Definition string_default : string_schema :=
  {| s_min := None; s_max := None; s_pattern := None; s_encoding := None; s_media := None |}.

(** src/thing.rs 672, derived: the members 690-718 *)
Definition misc_default : dmisc :=
  {| m_const := None; m_default := None; m_unit := None; m_enum := None; m_ro := false; m_wo := false;
     m_format := None |}.

(** The default values of the extensions ([Default] bounds of the impls below). src/thing.rs 207-238, 353-372. *)
Record xdefaults (X : exts) := {
  z_t : pty (x_t X);
  z_ia : pty (x_ia X);
  z_pa : pty (x_pa X);
  z_aa : pty (x_aa X);
  z_ea : pty (x_ea X);
  z_f : pty (x_f X);
  z_er : pty (x_er X);
  z_ds : pty (x_ds X);
  z_os : pty (x_os X);
  z_as : pty (x_as X);
}.

Section Defaults.
  Variable E : env.
  Variable X : exts.
  Variable Z : xdefaults X.

  (** src/thing.rs 827-839, [ArraySchema::default] *)
  Definition array_default : dsubx X := SArray None None None (z_as Z).

  (** src/thing.rs 1052-1063, [ObjectSchema::default] *)
  Definition object_default : dsubx X := SObject None None (z_os Z).

  (** src/thing.rs 772-776, [DataSchemaSubtype::default] *)
  Definition dsub_default : dsubx X := SNull.

  (** src/thing.rs 672, derived: [subtype] is an [Option], so absent *)
  Definition ds_default : dsx X := mkDs no_info misc_default None None (z_ds Z).

  (** src/thing.rs 1464, derived *)
  Definition form_default : form X :=
    {| f_op := ops_default; f_href := ""; f_ctype := None; f_ccoding := None; f_subprotocol := None;
       f_security := None; f_scopes := None; f_response := None; f_additional := None;
       f_other := z_f Z |}.

  (** src/thing.rs 353-372, [InteractionAffordance::default] *)
  Definition interaction_default : interaction X :=
    {| ia_info := no_info; ia_forms := []; ia_uri := None; ia_other := z_ia Z |}.

  (** src/thing.rs 435-450, [PropertyAffordance::default] *)
  Definition property_default : property X :=
    {| pa_ia := interaction_default; pa_ds := ds_default; pa_observable := None; pa_other := z_pa Z |}.

  (** src/thing.rs 528-546, [ActionAffordance::default] *)
  Definition action_default : action X :=
    {| aa_ia := interaction_default; aa_input := None; aa_output := None; aa_safe := false;
       aa_idempotent := false; aa_synchronous := None; aa_other := z_aa Z |}.

  (** src/thing.rs 610-627, [EventAffordance::default] *)
  Definition event_default : event X :=
    {| ea_ia := interaction_default; ea_subscription := None; ea_data := None; ea_data_response := None;
       ea_cancellation := None; ea_other := z_ea Z |}.

  (** src/thing.rs 207-238, [Thing::default]; [context] is a [Value], whose default is null *)
  Definition thing_default : thing E X :=
    {| t_context := JNull; t_id := None; t_attype := None; t_title := ""; t_titles := None;
       t_description := None; t_descriptions := None; t_version := None; t_created := None;
       t_modified := None; t_support := None; t_base := None; t_properties := None; t_actions := None;
       t_events := None; t_links := None; t_forms := None; t_security := []; t_secdefs := [];
       t_uri := None; t_profile := None; t_schemas := None; t_other := z_t Z |}.
End Defaults.
Arguments ds_default {X} Z.
Arguments form_default {X} Z.
Arguments property_default {X} Z.
Arguments action_default {X} Z.
Arguments event_default {X} Z.
Arguments array_default {X} Z.
Arguments object_default {X} Z.
Arguments dsub_default {X}.

(** ** Extensions of the crate *)

(** src/protocol/http.rs 32 [Response], 44 [Form], 51 [HttpProtocol], derived *)
Definition http_defaults : xdefaults http_exts :=
  {| z_t := tt : pty (x_t http_exts); z_ia := tt : pty (x_ia http_exts); z_pa := tt : pty (x_pa http_exts);
     z_aa := tt : pty (x_aa http_exts); z_ea := tt : pty (x_ea http_exts);
     z_f := {| hf_method := None |} : pty (x_f http_exts);
     z_er := {| hr_headers := []; hr_status := None |} : pty (x_er http_exts);
     z_ds := tt : pty (x_ds http_exts); z_os := tt : pty (x_os http_exts);
     z_as := tt : pty (x_as http_exts) |}.

(** src/protocol/coap.rs 44 [BlockWiseTransferParameters], 55 [Form], 74 [ExpectedResponse], 81 [CoapProtocol],
    derived *)
Definition coap_defaults : xdefaults coap_exts :=
  {| z_t := tt : pty (x_t coap_exts); z_ia := tt : pty (x_ia coap_exts); z_pa := tt : pty (x_pa coap_exts);
     z_aa := tt : pty (x_aa coap_exts); z_ea := tt : pty (x_ea coap_exts);
     z_f := {| cf_method := None; cf_block := None; cf_qblock := None; cf_hop := None; cf_accept := None;
               cf_format := None |} : pty (x_f coap_exts);
     z_er := {| cr_format := None |} : pty (x_er coap_exts);
     z_ds := tt : pty (x_ds coap_exts); z_os := tt : pty (x_os coap_exts);
     z_as := tt : pty (x_as coap_exts) |}.

(** src/protocol/coap.rs 44, derived *)
Definition blockwise_default : blockwise := {| bw_2 := None; bw_1 := None |}.

(** src/protocol/mqtt.rs 32 [Form], 52 [MqttProtocol], derived *)
Definition mqtt_defaults : xdefaults mqtt_exts :=
  {| z_t := tt : pty (x_t mqtt_exts); z_ia := tt : pty (x_ia mqtt_exts); z_pa := tt : pty (x_pa mqtt_exts);
     z_aa := tt : pty (x_aa mqtt_exts); z_ea := tt : pty (x_ea mqtt_exts);
     z_f := {| mf_retain := false; mf_packet := None; mf_qos := None; mf_topic := None; mf_filter := [] |}
            : pty (x_f mqtt_exts);
     z_er := tt : pty (x_er mqtt_exts); z_ds := tt : pty (x_ds mqtt_exts); z_os := tt : pty (x_os mqtt_exts);
     z_as := tt : pty (x_as mqtt_exts) |}.

(** src/hlist.rs 8 [Nil], 12 [Cons], derived *)
Definition cons_defaults X X' (Z : xdefaults X) (Z' : xdefaults X') : xdefaults (cons_exts X X') :=
  {| z_t := (z_t Z, z_t Z') : pty (x_t (cons_exts X X'));
     z_ia := (z_ia Z, z_ia Z') : pty (x_ia (cons_exts X X'));
     z_pa := (z_pa Z, z_pa Z') : pty (x_pa (cons_exts X X'));
     z_aa := (z_aa Z, z_aa Z') : pty (x_aa (cons_exts X X'));
     z_ea := (z_ea Z, z_ea Z') : pty (x_ea (cons_exts X X'));
     z_f := (z_f Z, z_f Z') : pty (x_f (cons_exts X X'));
     z_er := (z_er Z, z_er Z') : pty (x_er (cons_exts X X'));
     z_ds := (z_ds Z, z_ds Z') : pty (x_ds (cons_exts X X'));
     z_os := (z_os Z, z_os Z') : pty (x_os (cons_exts X X'));
     z_as := (z_as Z, z_as Z') : pty (x_as (cons_exts X X')) |}.

(** src/hlist.rs 8, derived *)
Definition nil_defaults (t : piece) (z : pty t) : xdefaults (nil_exts t) :=
  {| z_t := z : pty (x_t (nil_exts t)); z_ia := tt : pty (x_ia (nil_exts t));
     z_pa := tt : pty (x_pa (nil_exts t)); z_aa := tt : pty (x_aa (nil_exts t));
     z_ea := tt : pty (x_ea (nil_exts t)); z_f := tt : pty (x_f (nil_exts t));
     z_er := tt : pty (x_er (nil_exts t)); z_ds := tt : pty (x_ds (nil_exts t));
     z_os := tt : pty (x_os (nil_exts t)); z_as := tt : pty (x_as (nil_exts t)) |}.
