(** * Equality ([==]) of the Thing Description types

    [PartialEq], written by hand for the types that mention [ExtendableThing] (src/thing.rs
    240-274, 374-391, 452-465, 548-564, 629-644) and derived for the others.  Derived
    equality compares the fields one after the other. *)

From Coq Require Import String Bool ZArith List.
From Verif Require Import Base MinMax Json Serde Types HList Protocol.
Import ListNotations.
Set Implicit Arguments.
Local Open Scope string_scope.
Local Open Scope list_scope.

(** [Option<A>: PartialEq], e.g. src/thing.rs 411 *)
Definition opt_eqb {A} (f : A -> A -> bool) (x y : option A) : bool :=
  match x, y with
  | None, None => true
  | Some a, Some b => f a b
  | _, _ => false
  end.

(** [Vec<A>: PartialEq]: same length, same elements, e.g. src/thing.rs 707 *)
Definition list_eqb {A} (f : A -> A -> bool) : list A -> list A -> bool :=
  fix go l l' :=
    match l, l' with
    | [], [] => true
    | a :: l, b :: l' => f a b && go l l'
    | _, _ => false
    end.

(** [HashMap<String, A>: PartialEq]: same length, and every entry of the first one is
    found in the second one, e.g. src/thing.rs 30 *)
Definition hash_eqb {A} (f : A -> A -> bool) (m m' : amap A) : bool :=
  Nat.eqb (List.length m) (List.length m')
  && forallb (fun kv => match mlook (fst kv) m' with Some v => f (snd kv) v | None => false end) m.

(** [Option<String>], e.g. src/thing.rs 1438 *)
Definition ostr_eqb : option string -> option string -> bool := opt_eqb String.eqb.
(** [Vec<String>], e.g. src/thing.rs 132 *)
Definition strs_eqb : list string -> list string -> bool := list_eqb String.eqb.
(** [Option<Vec<String>>], e.g. src/thing.rs 69 *)
Definition ostrs_eqb : option (list string) -> option (list string) -> bool := opt_eqb strs_eqb.
(** [Option<u32>] and the like, e.g. src/thing.rs 802 *)
Definition oz_eqb : option Z -> option Z -> bool := opt_eqb Z.eqb.

(** [serde_json::Value: PartialEq].  Integers and floats differ; objects are [BTreeMap]s,
    compared entry by entry. src/thing.rs 61. *)
Fixpoint json_eqb (j j' : json) : bool :=
  match j, j' with
  | JNull, JNull => true
  | JBool b, JBool b' => Bool.eqb b b'
  | JInt n, JInt n' => Z.eqb n n'
  | JFloat x, JFloat x' => f64_eqb x x'
  | JStr s, JStr s' => String.eqb s s'
  | JArr l, JArr l' => list_eqb json_eqb l l'
  | JObj es, JObj es' =>
      list_eqb (fun kv kv' => String.eqb (fst kv) (fst kv') && json_eqb (snd kv) (snd kv')) es es'
  | _, _ => false
  end.

(** [MultiLanguage], src/thing.rs 30.  [LanguageTag] is compared by its text. *)
Definition multilang_eqb : multilang -> multilang -> bool := hash_eqb String.eqb.

(** The five members shared by src/thing.rs 383-387 and 675-690 *)
Definition info_eqb (i i' : info) : bool :=
  ostrs_eqb (i_attype i) (i_attype i')
  && ostr_eqb (i_title i) (i_title i')
  && opt_eqb multilang_eqb (i_titles i) (i_titles i')
  && ostr_eqb (i_description i) (i_description i')
  && opt_eqb multilang_eqb (i_descriptions i) (i_descriptions i').

(** derived, src/thing.rs 997 *)
Definition number_eqb (n n' : number_schema) : bool :=
  opt_eqb (max_eqb f64_eqb) (n_max n) (n_max n')
  && opt_eqb (min_eqb f64_eqb) (n_min n) (n_min n')
  && opt_eqb f64_eqb (n_mult n) (n_mult n').

(** derived, src/thing.rs 1014 *)
Definition integer_eqb (n n' : integer_schema) : bool :=
  opt_eqb (max_eqb Z.eqb) (z_max n) (z_max n')
  && opt_eqb (min_eqb Z.eqb) (z_min n) (z_min n')
  && oz_eqb (z_mult n) (z_mult n').

(** derived, src/thing.rs 1080 *)
Definition string_eqb (s s' : string_schema) : bool :=
  oz_eqb (s_min s) (s_min s') && oz_eqb (s_max s) (s_max s')
  && ostr_eqb (s_pattern s) (s_pattern s') && ostr_eqb (s_encoding s) (s_encoding s')
  && ostr_eqb (s_media s) (s_media s').

(** derived, src/thing.rs 672, the members 690-718 *)
Definition misc_eqb (m m' : dmisc) : bool :=
  opt_eqb json_eqb (m_const m) (m_const m')
  && opt_eqb json_eqb (m_default m) (m_default m')
  && ostr_eqb (m_unit m) (m_unit m')
  && opt_eqb (list_eqb json_eqb) (m_enum m) (m_enum m')
  && Bool.eqb (m_ro m) (m_ro m') && Bool.eqb (m_wo m) (m_wo m')
  && ostr_eqb (m_format m) (m_format m').

(** ** Security, derived: src/thing.rs 1200, 1214, 1234, 1269, 1293, 1306, 1327, 1373, 1385 *)

Definition location_eqb (l l' : location) : bool :=
  match l, l' with
  | LHeader, LHeader | LQuery, LQuery | LBody, LBody | LCookie, LCookie | LUri, LUri => true
  | _, _ => false
  end.

(** derived, src/thing.rs 1293-1302 *)
Definition qop_eqb (q q' : qop) : bool :=
  match q, q' with QAuth, QAuth | QAuthInt, QAuthInt => true | _, _ => false end.

(** derived, src/thing.rs 1214, 1269, 1306 *)
Definition loc_name_eqb (b b' : loc_name) : bool :=
  location_eqb (ln_loc b) (ln_loc b') && ostr_eqb (ln_name b) (ln_name b').

(** derived, src/thing.rs 1327 *)
Definition bearer_eqb (b b' : bearer) : bool :=
  ostr_eqb (be_auth b) (be_auth b') && String.eqb (be_alg b) (be_alg b')
  && String.eqb (be_format b) (be_format b') && location_eqb (be_loc b) (be_loc b')
  && ostr_eqb (be_name b) (be_name b').

(** derived, src/thing.rs 1385 *)
Definition oauth2_eqb (o o' : oauth2) : bool :=
  ostr_eqb (oa_auth o) (oa_auth o') && ostr_eqb (oa_token o) (oa_token o')
  && ostr_eqb (oa_refresh o) (oa_refresh o') && ostrs_eqb (oa_scopes o) (oa_scopes o')
  && String.eqb (oa_flow o) (oa_flow o').

(** derived, src/thing.rs 1133, 1200 *)
Definition known_eqb (k k' : known_sec) : bool :=
  match k, k' with
  | KNoSec, KNoSec | KAuto, KAuto => true
  | KCombo (COneOf l), KCombo (COneOf l') | KCombo (CAllOf l), KCombo (CAllOf l') => strs_eqb l l'
  | KBasic b, KBasic b' | KApiKey b, KApiKey b' => loc_name_eqb b b'
  | KDigest q b, KDigest q' b' => qop_eqb q q' && loc_name_eqb b b'
  | KBearer b, KBearer b' => bearer_eqb b b'
  | KPsk i, KPsk i' => ostr_eqb i i'
  | KOAuth2 o, KOAuth2 o' => oauth2_eqb o o'
  | _, _ => false
  end.

(** derived, src/thing.rs 1171, 1182 *)
Definition subtype_eqb (s s' : sec_subtype) : bool :=
  match s, s' with
  | Known k, Known k' => known_eqb k k'
  | Unknown n d, Unknown n' d' => String.eqb n n' && json_eqb d d'
  | _, _ => false
  end.

(** derived, src/thing.rs 1109 *)
Definition security_eqb (s s' : security_scheme) : bool :=
  ostrs_eqb (ss_attype s) (ss_attype s')
  && ostr_eqb (ss_description s) (ss_description s')
  && opt_eqb multilang_eqb (ss_descriptions s) (ss_descriptions s')
  && ostr_eqb (ss_proxy s) (ss_proxy s')
  && subtype_eqb (ss_subtype s) (ss_subtype s').

(** ** Links and forms *)

(** derived, src/thing.rs 1430 *)
Definition link_eqb (l l' : link) : bool :=
  String.eqb (l_href l) (l_href l') && ostr_eqb (l_type l) (l_type l')
  && ostr_eqb (l_rel l) (l_rel l') && ostr_eqb (l_anchor l) (l_anchor l')
  && ostr_eqb (l_sizes l) (l_sizes l') && ostrs_eqb (l_hreflang l) (l_hreflang l').

(** derived, src/thing.rs 1551 *)
Definition form_op_eqb (o o' : form_op) : bool :=
  match o, o' with
  | ReadProperty, ReadProperty | WriteProperty, WriteProperty
  | ObserveProperty, ObserveProperty | UnobserveProperty, UnobserveProperty
  | InvokeAction, InvokeAction | QueryAction, QueryAction | CancelAction, CancelAction
  | SubscribeEvent, SubscribeEvent | UnsubscribeEvent, UnsubscribeEvent
  | ReadAllProperties, ReadAllProperties | WriteAllProperties, WriteAllProperties
  | ReadMultipleProperties, ReadMultipleProperties
  | WriteMultipleProperties, WriteMultipleProperties
  | ObserveAllProperties, ObserveAllProperties | UnobserveAllProperties, UnobserveAllProperties
  | SubscribeAllEvents, SubscribeAllEvents | UnsubscribeAllEvents, UnsubscribeAllEvents
  | QueryAllActions, QueryAllActions => true
  | _, _ => false
  end.

(** derived, src/thing.rs 1650 *)
Definition form_ops_eqb (o o' : form_ops) : bool :=
  match o, o' with
  | OpDefault, OpDefault => true
  | OpCustom l, OpCustom l' => list_eqb form_op_eqb l l'
  | _, _ => false
  end.

(** derived, src/thing.rs 1711 *)
Definition add_resp_eqb (r r' : add_resp) : bool :=
  Bool.eqb (ar_success r) (ar_success r') && ostr_eqb (ar_ctype r) (ar_ctype r')
  && ostr_eqb (ar_schema r) (ar_schema r').

(** derived, src/thing.rs 647 *)
Definition version_eqb (v v' : version_info) : bool :=
  String.eqb (v_instance v) (v_instance v') && ostr_eqb (v_model v) (v_model v').

(** Equality of the types that are not defined in src/thing.rs: dates
    ([time::OffsetDateTime]) and extensions *)
Record eqs (E : env) (X : exts) := {
  q_date : date E -> date E -> bool;
  q_t : pty (x_t X) -> pty (x_t X) -> bool;
  q_ia : pty (x_ia X) -> pty (x_ia X) -> bool;
  q_pa : pty (x_pa X) -> pty (x_pa X) -> bool;
  q_aa : pty (x_aa X) -> pty (x_aa X) -> bool;
  q_ea : pty (x_ea X) -> pty (x_ea X) -> bool;
  q_f : pty (x_f X) -> pty (x_f X) -> bool;
  q_er : pty (x_er X) -> pty (x_er X) -> bool;
  q_ds : pty (x_ds X) -> pty (x_ds X) -> bool;
  q_os : pty (x_os X) -> pty (x_os X) -> bool;
  q_as : pty (x_as X) -> pty (x_as X) -> bool;
}.

Section Equal.
  Variable E : env.
  Variable X : exts.
  Variable Q : eqs E X.

  (** derived, src/thing.rs 672, 736, 781, 812, 1032 *)
  Fixpoint ds_eqb (d d' : dsx X) : bool :=
    match d, d' with
    | mkDs i m l s o, mkDs i' m' l' s' o' =>
        info_eqb i i' && misc_eqb m m'
        && opt_eqb (list_eqb ds_eqb) l l'
        && opt_eqb sub_eqb s s'
        && q_ds Q o o'
    end
  (** derived, src/thing.rs 736, 781, 1032 *)
  with sub_eqb (s s' : dsubx X) : bool :=
    match s, s' with
    | SArray i mn mx o, SArray i' mn' mx' o' =>
        opt_eqb boxed_eqb i i' && oz_eqb mn mn' && oz_eqb mx mx' && q_as Q o o'
    | SBoolean, SBoolean => true
    | SNumber n, SNumber n' => number_eqb n n'
    | SInteger n, SInteger n' => integer_eqb n n'
    | SObject p r o, SObject p' r' o' =>
        opt_eqb (hash_eqb ds_eqb) p p' && ostrs_eqb r r' && q_os Q o o'
    | SString n, SString n' => string_eqb n n'
    | SNull, SNull => true
    | _, _ => false
    end
  (** derived, src/thing.rs 812 *)
  with boxed_eqb (b b' : boxed (pty (x_ds X)) (pty (x_as X)) (pty (x_os X))) : bool :=
    match b, b' with
    | BElem d, BElem d' => ds_eqb d d'
    | BVec l, BVec l' => list_eqb ds_eqb l l'
    | _, _ => false
    end.

  (** [DataSchemaMap], src/thing.rs 31-38 *)
  Definition dsmap_eqb : amap (dsx X) -> amap (dsx X) -> bool := hash_eqb ds_eqb.

  (** derived, src/thing.rs 1695 *)
  Definition exp_resp_eqb (r r' : exp_resp (pty (x_er X))) : bool :=
    String.eqb (er_ctype r) (er_ctype r') && q_er Q (er_other r) (er_other r').

  (** derived, src/thing.rs 1464 *)
  Definition form_eqb (f f' : form X) : bool :=
    form_ops_eqb (f_op f) (f_op f')
    && String.eqb (f_href f) (f_href f')
    && ostr_eqb (f_ctype f) (f_ctype f')
    && ostr_eqb (f_ccoding f) (f_ccoding f')
    && ostr_eqb (f_subprotocol f) (f_subprotocol f')
    && ostrs_eqb (f_security f) (f_security f')
    && ostrs_eqb (f_scopes f) (f_scopes f')
    && opt_eqb exp_resp_eqb (f_response f) (f_response f')
    && opt_eqb (list_eqb add_resp_eqb) (f_additional f) (f_additional f')
    && q_f Q (f_other f) (f_other f').

  (** src/thing.rs 374-391 *)
  Definition interaction_eqb (i i' : interaction X) : bool :=
    info_eqb (ia_info i) (ia_info i')
    && list_eqb form_eqb (ia_forms i) (ia_forms i')
    && opt_eqb dsmap_eqb (ia_uri i) (ia_uri i')
    && q_ia Q (ia_other i) (ia_other i').

  (** src/thing.rs 452-465 *)
  Definition property_eqb (p p' : property X) : bool :=
    interaction_eqb (pa_ia p) (pa_ia p')
    && ds_eqb (pa_ds p) (pa_ds p')
    && opt_eqb Bool.eqb (pa_observable p) (pa_observable p')
    && q_pa Q (pa_other p) (pa_other p').

  (** src/thing.rs 548-564 *)
  Definition action_eqb (a a' : action X) : bool :=
    interaction_eqb (aa_ia a) (aa_ia a')
    && opt_eqb ds_eqb (aa_input a) (aa_input a')
    && opt_eqb ds_eqb (aa_output a) (aa_output a')
    && Bool.eqb (aa_safe a) (aa_safe a')
    && Bool.eqb (aa_idempotent a) (aa_idempotent a')
    && opt_eqb Bool.eqb (aa_synchronous a) (aa_synchronous a')
    && q_aa Q (aa_other a) (aa_other a').

  (** src/thing.rs 629-644 *)
  Definition event_eqb (e e' : event X) : bool :=
    interaction_eqb (ea_ia e) (ea_ia e')
    && opt_eqb ds_eqb (ea_subscription e) (ea_subscription e')
    && opt_eqb ds_eqb (ea_data e) (ea_data e')
    && opt_eqb ds_eqb (ea_data_response e) (ea_data_response e')
    && opt_eqb ds_eqb (ea_cancellation e) (ea_cancellation e')
    && q_ea Q (ea_other e) (ea_other e').

  (** src/thing.rs 240-274 *)
  Definition thing_eqb (t t' : thing E X) : bool :=
    json_eqb (t_context t) (t_context t')
    && ostr_eqb (t_id t) (t_id t')
    && ostrs_eqb (t_attype t) (t_attype t')
    && String.eqb (t_title t) (t_title t')
    && opt_eqb multilang_eqb (t_titles t) (t_titles t')
    && ostr_eqb (t_description t) (t_description t')
    && opt_eqb multilang_eqb (t_descriptions t) (t_descriptions t')
    && opt_eqb version_eqb (t_version t) (t_version t')
    && opt_eqb (q_date Q) (t_created t) (t_created t')
    && opt_eqb (q_date Q) (t_modified t) (t_modified t')
    && ostr_eqb (t_support t) (t_support t')
    && ostr_eqb (t_base t) (t_base t')
    && opt_eqb (hash_eqb property_eqb) (t_properties t) (t_properties t')
    && opt_eqb (hash_eqb action_eqb) (t_actions t) (t_actions t')
    && opt_eqb (hash_eqb event_eqb) (t_events t) (t_events t')
    && opt_eqb (list_eqb link_eqb) (t_links t) (t_links t')
    && opt_eqb (list_eqb form_eqb) (t_forms t) (t_forms t')
    && strs_eqb (t_security t) (t_security t')
    && hash_eqb security_eqb (t_secdefs t) (t_secdefs t')
    && opt_eqb dsmap_eqb (t_uri t) (t_uri t')
    && ostrs_eqb (t_profile t) (t_profile t')
    && opt_eqb dsmap_eqb (t_schemas t) (t_schemas t')
    && q_t Q (t_other t) (t_other t').
End Equal.

(** ** Equality of the extensions *)

(** [(): PartialEq]; also the protocol structs without fields, src/protocol/http.rs 51,
    coap.rs 81, mqtt.rs 52 *)
Definition unit_eqb (a b : unit) : bool := true.

(** derived, src/protocol/http.rs 8 *)
Definition http_method_eqb (m m' : http_method) : bool :=
  match m, m' with
  | HGet, HGet | HPut, HPut | HPost, HPost | HDelete, HDelete | HPatch, HPatch => true
  | _, _ => false
  end.

(** derived, src/protocol/http.rs 21 *)
Definition http_header_eqb (h h' : http_header) : bool :=
  ostr_eqb (hh_name h) (hh_name h') && ostr_eqb (hh_value h) (hh_value h').

(** derived, src/protocol/http.rs 32 *)
Definition http_response_eqb (r r' : http_response) : bool :=
  list_eqb http_header_eqb (hr_headers r) (hr_headers r') && oz_eqb (hr_status r) (hr_status r').

(** derived, src/protocol/http.rs 44 *)
Definition http_form_eqb (f f' : http_form) : bool := opt_eqb http_method_eqb (hf_method f) (hf_method f').

(** derived, src/protocol/coap.rs 9 *)
Definition coap_method_eqb (m m' : coap_method) : bool :=
  match m, m' with
  | CGet, CGet | CPut, CPut | CPost, CPost | CDelete, CDelete | CPatch, CPatch
  | CFetch, CFetch | CIpatch, CIpatch => true
  | _, _ => false
  end.

(** derived, src/protocol/coap.rs 23 *)
Definition block_eqb (b b' : block_size) : bool :=
  match b, b' with
  | B16, B16 | B32, B32 | B64, B64 | B128, B128 | B256, B256 | B512, B512 | B1024, B1024 => true
  | _, _ => false
  end.

(** derived, src/protocol/coap.rs 44 *)
Definition blockwise_eqb (b b' : blockwise) : bool :=
  opt_eqb block_eqb (bw_2 b) (bw_2 b') && opt_eqb block_eqb (bw_1 b) (bw_1 b').

(** derived, src/protocol/coap.rs 55 *)
Definition coap_form_eqb (f f' : coap_form) : bool :=
  opt_eqb coap_method_eqb (cf_method f) (cf_method f')
  && opt_eqb blockwise_eqb (cf_block f) (cf_block f')
  && opt_eqb blockwise_eqb (cf_qblock f) (cf_qblock f')
  && oz_eqb (cf_hop f) (cf_hop f')
  && oz_eqb (cf_accept f) (cf_accept f')
  && oz_eqb (cf_format f) (cf_format f').

(** derived, src/protocol/coap.rs 74 *)
Definition coap_response_eqb (r r' : coap_response) : bool := oz_eqb (cr_format r) (cr_format r').

(** derived, src/protocol/mqtt.rs 8 *)
Definition mqtt_packet_eqb (p p' : mqtt_packet) : bool :=
  match p, p' with
  | MPublish, MPublish | MSubscribe, MSubscribe | MUnsubscribe, MUnsubscribe => true
  | _, _ => false
  end.

(** derived, src/protocol/mqtt.rs 19 *)
Definition mqtt_qos_eqb (q q' : mqtt_qos) : bool :=
  match q, q' with
  | AtMostOnce, AtMostOnce | AtLeastOnce, AtLeastOnce | ExactlyOnce, ExactlyOnce => true
  | _, _ => false
  end.

(** derived, src/protocol/mqtt.rs 32 *)
Definition mqtt_form_eqb (f f' : mqtt_form) : bool :=
  Bool.eqb (mf_retain f) (mf_retain f')
  && opt_eqb mqtt_packet_eqb (mf_packet f) (mf_packet f')
  && opt_eqb mqtt_qos_eqb (mf_qos f) (mf_qos f')
  && ostr_eqb (mf_topic f) (mf_topic f')
  && strs_eqb (mf_filter f) (mf_filter f').

(** The extension points of src/protocol; [q]: equality of dates (src/protocol/http.rs 54-64) *)
Definition http_eqs E (q : date E -> date E -> bool) : eqs E http_exts :=
  @Build_eqs E http_exts q unit_eqb unit_eqb unit_eqb unit_eqb unit_eqb http_form_eqb http_response_eqb
    unit_eqb unit_eqb unit_eqb.
(** src/protocol/coap.rs 84-94, the same *)
Definition coap_eqs E (q : date E -> date E -> bool) : eqs E coap_exts :=
  @Build_eqs E coap_exts q unit_eqb unit_eqb unit_eqb unit_eqb unit_eqb coap_form_eqb coap_response_eqb
    unit_eqb unit_eqb unit_eqb.
(** src/protocol/mqtt.rs 55-65, the same *)
Definition mqtt_eqs E (q : date E -> date E -> bool) : eqs E mqtt_exts :=
  @Build_eqs E mqtt_exts q unit_eqb unit_eqb unit_eqb unit_eqb unit_eqb mqtt_form_eqb unit_eqb
    unit_eqb unit_eqb unit_eqb.

(** derived, src/hlist.rs 8, 12 *)
Definition cons_eqb {A B} (f : A -> A -> bool) (g : B -> B -> bool) (x y : A * B) : bool :=
  f (fst x) (fst y) && g (snd x) (snd y).

(** derived, src/hlist.rs 12 *)
Definition cons_eqs E X X' (Q : eqs E X) (Q' : eqs E X') : eqs E (cons_exts X X') :=
  @Build_eqs E (cons_exts X X') (q_date Q) (cons_eqb (q_t Q) (q_t Q'))
    (cons_eqb (q_ia Q) (q_ia Q')) (cons_eqb (q_pa Q) (q_pa Q')) (cons_eqb (q_aa Q) (q_aa Q'))
    (cons_eqb (q_ea Q) (q_ea Q')) (cons_eqb (q_f Q) (q_f Q')) (cons_eqb (q_er Q) (q_er Q'))
    (cons_eqb (q_ds Q) (q_ds Q')) (cons_eqb (q_os Q) (q_os Q')) (cons_eqb (q_as Q) (q_as Q')).
