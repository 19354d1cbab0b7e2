(** * The Thing Description types (src/thing.rs) *)

From Coq Require Import String Bool ZArith List.
From Verif Require Import Base MinMax Json Serde.
Import ListNotations.
Set Implicit Arguments.
Local Open Scope string_scope.
Local Open Scope list_scope.

(** ** Externals

    Parameters standing for crates outside /repo: [oxilangtag] and [time] (dates
    with their RFC 3339 printer, which fails on dates RFC 3339 cannot express, and
    parser). A [LanguageTag<String>] is represented by its string.  [tag_parse] is
    [str::parse] (the builder), which may normalise the tag; [tag_ok] tells whether
    [Deserialize] accepts a string, which it keeps as it is. *)
Record env := {
  tag_parse : string -> option string;
  tag_ok : string -> bool;
  date : Type;
  date_fmt : date -> option string;
  date_parse : string -> option date;
}.

(** ** Extension points (src/extend.rs 21-66, [ExtendableThing])

    One piece per associated type, plus the extension value of the Thing itself
    ([Thing::other], src/thing.rs 164-166). *)
Record exts := {
  x_t : piece;
  x_ia : piece;
  x_pa : piece;
  x_aa : piece;
  x_ea : piece;
  x_f : piece;
  x_er : piece;
  x_ds : piece;
  x_os : piece;
  x_as : piece;
}.

(** [MultiLanguage = HashMap<LanguageTag<String>, String>], src/thing.rs 30 *)
Definition multilang := amap string.

(** Human readable members shared by several structs: src/thing.rs 299-314
    ([InteractionAffordance]) and 675-690 ([DataSchema]).
    Simplification: the five fields are grouped in a record, in Rust they are
    repeated in each struct. *)
Record info := {
  i_attype : option (list string);
  i_title : option string;
  i_titles : option multilang;
  i_description : option string;
  i_descriptions : option multilang;
}.

(** src/builder/human_readable_info.rs 10-22, [HumanReadableInfo::default] *)
Definition no_info : info :=
  {| i_attype := None; i_title := None; i_titles := None; i_description := None;
     i_descriptions := None |}.

(** ** Data schemas *)

(** src/thing.rs 996-1010, [NumberSchema] *)
Record number_schema := {
  n_max : option (maximum f64);
  n_min : option (minimum f64);
  n_mult : option f64;
}.

(** src/thing.rs 1013-1028, [IntegerSchema] ([i64] bounds, [NonZeroU64]) *)
Record integer_schema := {
  z_max : option (maximum Z);
  z_min : option (minimum Z);
  z_mult : option Z;
}.

(** src/thing.rs 1079-1104, [StringSchema] *)
Record string_schema := {
  s_min : option Z;
  s_max : option Z;
  s_pattern : option string;
  s_encoding : option string;
  s_media : option string;
}.

(** The non-recursive fields of [DataSchema] that are not human readable
    information, src/thing.rs 690-718. *)
Record dmisc := {
  m_const : option json;
  m_default : option json;
  m_unit : option string;
  m_enum : option (list json);
  m_ro : bool;
  m_wo : bool;
  m_format : option string;
}.

Section Schemas.
  Variables DS AS OS : Type.

  (** src/thing.rs 670-727 [DataSchema], 736-759 [DataSchemaSubtype], 779-810
      [ArraySchema], 812-817 [BoxedElemOrVec], 1031-1043 [ObjectSchema].
      Simplification: the unchecked twins ([UncheckedDataSchema] etc.,
      src/builder/data_schema.rs 64-81, src/thing.rs 761-770, 819-825, 1046-1052)
      differ only in the type of language tags (not yet parsed) and share these
      types. *)
  Inductive ds :=
  | mkDs (i : info) (m : dmisc) (one_of : option (list ds)) (sub : option dsub) (other : DS)
  (** src/thing.rs 736-759 [DataSchemaSubtype], 779-810 [ArraySchema], 1031-1043 [ObjectSchema] *)
  with dsub :=
  | SArray (items : option boxed) (mn mx : option Z) (o : AS)
  | SBoolean
  | SNumber (n : number_schema)
  | SInteger (n : integer_schema)
  | SObject (props : option (list (string * ds))) (required : option (list string)) (o : OS)
  | SString (s : string_schema)
  | SNull
  (** src/thing.rs 812-817, [BoxedElemOrVec] *)
  with boxed :=
  | BElem (d : ds)
  | BVec (l : list ds).

  (** src/thing.rs 675-690, the human readable fields *)
  Definition ds_info (d : ds) : info := match d with mkDs i _ _ _ _ => i end.
  (** src/thing.rs 694-718, the other fields that are not schemas *)
  Definition ds_misc (d : ds) : dmisc := match d with mkDs _ m _ _ _ => m end.
  (** src/thing.rs 702-703, [one_of] *)
  Definition ds_one_of (d : ds) : option (list ds) := match d with mkDs _ _ o _ _ => o end.
  (** src/thing.rs 721-722, [subtype] *)
  Definition ds_sub (d : ds) : option dsub := match d with mkDs _ _ _ s _ => s end.
  (** src/thing.rs 725-726, [other] *)
  Definition ds_other (d : ds) : DS := match d with mkDs _ _ _ _ o => o end.

  (** Sub-schemas directly contained in a schema subtype / in a schema. src/thing.rs 812-817. *)
  Definition boxed_list (b : boxed) : list ds :=
    match b with BElem d => [d] | BVec l => l end.

  (** The same for src/thing.rs 736-759. *)
  Definition sub_children (s : dsub) : list ds :=
    match s with
    | SArray (Some b) _ _ _ => boxed_list b
    | SObject (Some ps) _ _ => map snd ps
    | _ => []
    end.

  (** The same for src/thing.rs 670-727. *)
  Definition ds_children (d : ds) : list ds :=
    match ds_one_of d with Some l => l | None => [] end
    ++ match ds_sub d with Some s => sub_children s | None => [] end.

  (** Induction over schemas through all nestings. *)
  Section Ind.
    Variable P : ds -> Prop.
    Hypothesis H : forall i m o s x,
      (forall l d, o = Some l -> In d l -> P d) ->
      (forall s' d, s = Some s' -> In d (sub_children s') -> P d) ->
      P (mkDs i m o s x).

    (** Induction over the schemas of src/thing.rs 670-817; no counterpart in /repo. *)
    Fixpoint ds_ind' (d : ds) : P d :=
      match d with
      | mkDs i m o s x =>
          let go_list :=
            (fix go (l : list ds) : forall d, In d l -> P d :=
               match l with
               | [] => fun _ H => match H with end
               | a :: l' => fun d H =>
                   match H with
                   | or_introl E => eq_ind a P (ds_ind' a) d E
                   | or_intror H' => go l' d H'
                   end
               end) in
          let go_map :=
            (fix go (l : list (string * ds)) : forall d, In d (map snd l) -> P d :=
               match l with
               | [] => fun _ H => match H with end
               | (k, a) :: l' => fun d H =>
                   match H with
                   | or_introl E => eq_ind a P (ds_ind' a) d E
                   | or_intror H' => go l' d H'
                   end
               end) in
          @H i m o s x
            (match o as o return (forall l d, o = Some l -> In d l -> P d) with
             | None => fun l d E => match E with eq_refl => I end
             | Some l0 => fun l d E Hin =>
                 go_list l0 d (eq_ind_r (fun l => In d l) Hin (f_equal (fun o => match o with Some l => l | None => [] end) E))
             end)
            (match s as s return (forall s' d, s = Some s' -> In d (sub_children s') -> P d) with
             | None => fun s' d E => match E with eq_refl => I end
             | Some s0 => fun s' d E Hin =>
                 (match s0 as s0 return (forall d, In d (sub_children s0) -> P d) with
                  | SArray (Some (BElem e)) _ _ _ => fun d Hin =>
                      match Hin with
                      | or_introl E => eq_ind e P (ds_ind' e) d E
                      | or_intror F => match F with end
                      end
                  | SArray (Some (BVec l)) _ _ _ => go_list l
                  | SObject (Some ps) _ _ => go_map ps
                  | SArray None _ _ _ | SObject None _ _ | SBoolean | SNumber _ | SInteger _
                  | SString _ | SNull => fun _ F => match F with end
                  end) d
                 (eq_ind_r (fun s => In d (sub_children s)) Hin
                    (f_equal (fun o => match o with Some l => l | None => SNull end) E))
             end)
      end.
  End Ind.
End Schemas.
Arguments SBoolean {DS AS OS}.
Arguments SNull {DS AS OS}.
Arguments SNumber {DS AS OS} n.
Arguments SInteger {DS AS OS} n.
Arguments SString {DS AS OS} s.
Arguments SArray {DS AS OS} items mn mx o.
Arguments SObject {DS AS OS} props required o.

(** [DataSchemaFromOther], src/thing.rs 729-733 *)
Definition dsx (X : exts) := ds (pty (x_ds X)) (pty (x_as X)) (pty (x_os X)).
(** [DataSchemaSubtype] of an extension, src/thing.rs 729-733 *)
Definition dsubx (X : exts) := dsub (pty (x_ds X)) (pty (x_as X)) (pty (x_os X)).

(** ** Security *)

(** src/thing.rs 1234-1265, [SecurityAuthenticationLocation] *)
Inductive location := LHeader | LQuery | LBody | LCookie | LUri.

(** src/thing.rs 1293-1302, [QualityOfProtection] *)
Inductive qop := QAuth | QAuthInt.

(** src/thing.rs 1199-1210, [ComboSecurityScheme] *)
Inductive combo := COneOf (l : list string) | CAllOf (l : list string).

(** src/thing.rs 1213-1231 [BasicSecurityScheme], 1305-1323 [ApiKeySecurityScheme] *)
Record loc_name := { ln_loc : location; ln_name : option string }.

(** src/thing.rs 1326-1369, [BearerSecurityScheme] *)
Record bearer := {
  be_auth : option string; be_alg : string; be_format : string;
  be_loc : location; be_name : option string;
}.

(** src/thing.rs 1383-1425, [OAuth2SecurityScheme] *)
Record oauth2 := {
  oa_auth : option string; oa_token : option string; oa_refresh : option string;
  oa_scopes : option (list string); oa_flow : string;
}.

(** src/thing.rs 1133-1168, [KnownSecuritySchemeSubtype]; [KPsk] inlines
    [PskSecurityScheme] (1372-1377), [KDigest] inlines [DigestSecurityScheme]
    (1268-1290). *)
Inductive known_sec :=
| KNoSec
| KAuto
| KCombo (c : combo)
| KBasic (b : loc_name)
| KDigest (q : qop) (b : loc_name)
| KBearer (b : bearer)
| KPsk (identity : option string)
| KOAuth2 (o : oauth2)
| KApiKey (b : loc_name).

(** src/thing.rs 1171-1190, [UnknownSecuritySchemeSubtype], [SecuritySchemeSubtype] *)
Inductive sec_subtype :=
| Known (k : known_sec)
| Unknown (scheme : string) (data : json).

(** src/thing.rs 1107-1130, [SecurityScheme] *)
Record security_scheme := {
  ss_attype : option (list string);
  ss_description : option string;
  ss_descriptions : option multilang;
  ss_proxy : option string;
  ss_subtype : sec_subtype;
}.

(** ** Links and forms *)

(** src/thing.rs 1428-1459, [Link] *)
Record link := {
  l_href : string;
  l_type : option string;
  l_rel : option string;
  l_anchor : option string;
  l_sizes : option string;
  l_hreflang : option (list string);
}.

(** src/thing.rs 1551-1615, [FormOperation] *)
Inductive form_op :=
| ReadProperty | WriteProperty | ObserveProperty | UnobserveProperty
| InvokeAction | QueryAction | CancelAction
| SubscribeEvent | UnsubscribeEvent
| ReadAllProperties | WriteAllProperties | ReadMultipleProperties | WriteMultipleProperties
| ObserveAllProperties | UnobserveAllProperties
| SubscribeAllEvents | UnsubscribeAllEvents | QueryAllActions.

(** src/thing.rs 1650-1666, [DefaultedFormOperations] *)
Inductive form_ops :=
| OpDefault
| OpCustom (l : list form_op).

(** src/thing.rs 1710-1729, [AdditionalExpectedResponse] *)
Record add_resp := {
  ar_success : bool;
  ar_ctype : option string;
  ar_schema : option string;
}.

(** src/thing.rs 1695-1707, [ExpectedResponse] *)
Record exp_resp (E : Type) := { er_ctype : string; er_other : E }.

(** src/thing.rs 1462-1526, [Form] *)
Record form (X : exts) := {
  f_op : form_ops;
  f_href : string;
  f_ctype : option string;
  f_ccoding : option string;
  f_subprotocol : option string;
  f_security : option (list string);
  f_scopes : option (list string);
  f_response : option (exp_resp (pty (x_er X)));
  f_additional : option (list add_resp);
  f_other : pty (x_f X);
}.

(** ** Affordances *)

(** src/thing.rs 294-330, [InteractionAffordance] *)
Record interaction (X : exts) := {
  ia_info : info;
  ia_forms : list (form X);
  ia_uri : option (amap (dsx X));
  ia_other : pty (x_ia X);
}.

(** src/thing.rs 394-416, [PropertyAffordance] *)
Record property (X : exts) := {
  pa_ia : interaction X;
  pa_ds : dsx X;
  pa_observable : option bool;
  pa_other : pty (x_pa X);
}.

(** src/thing.rs 468-506, [ActionAffordance] *)
Record action (X : exts) := {
  aa_ia : interaction X;
  aa_input : option (dsx X);
  aa_output : option (dsx X);
  aa_safe : bool;
  aa_idempotent : bool;
  aa_synchronous : option bool;
  aa_other : pty (x_aa X);
}.

(** src/thing.rs 567-589, [EventAffordance] *)
Record event (X : exts) := {
  ea_ia : interaction X;
  ea_subscription : option (dsx X);
  ea_data : option (dsx X);
  ea_data_response : option (dsx X);
  ea_cancellation : option (dsx X);
  ea_other : pty (x_ea X);
}.

(** ** Thing *)

(** src/thing.rs 647-667, [VersionInfo] *)
Record version_info := { v_instance : string; v_model : option string }.

(** src/thing.rs 51-167, [Thing] *)
Record thing (E : env) (X : exts) := {
  t_context : json;
  t_id : option string;
  t_attype : option (list string);
  t_title : string;
  t_titles : option multilang;
  t_description : option string;
  t_descriptions : option multilang;
  t_version : option version_info;
  t_created : option (date E);
  t_modified : option (date E);
  t_support : option string;
  t_base : option string;
  t_properties : option (amap (property X));
  t_actions : option (amap (action X));
  t_events : option (amap (event X));
  t_links : option (list link);
  t_forms : option (list (form X));
  t_security : list string;
  t_secdefs : amap security_scheme;
  t_uri : option (amap (dsx X));
  t_profile : option (list string);
  t_schemas : option (amap (dsx X));
  t_other : pty (x_t X);
}.

(** src/thing.rs 42, 46 *)
Definition TD_CONTEXT_10 := "https://www.w3.org/2019/wot/td/v1".
(** src/thing.rs 46 *)
Definition TD_CONTEXT_11 := "https://www.w3.org/2022/wot/td/v1.1".
