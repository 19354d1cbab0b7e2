(** * Vocabulary of the serialization properties

    When a value, an extension or a whole Thing can be written and read back.  Nothing
    here mentions the serializer or the deserializer of a TD type; extensions are the
    only thing whose reading and writing is talked about. *)

From Coq Require Import String Bool ZArith List.
From Coq Require Import Floats.SpecFloat.
From Verif Require Import Base MinMax Json Serde Types Spec.
Import ListNotations.
Set Implicit Arguments.
Local Open Scope string_scope.
Local Open Scope list_scope.

(** The two ways a JSON document is produced: as text, or as [serde_json::Value]. *)
Definition json_writer (mk : entries -> json) : Prop := mk = mk_text \/ mk = mk_value.

(** Ranges of the Rust integer types *)
Definition in_u8 (n : Z) : Prop := (0 <= n <= 255)%Z.
Definition in_u16 (n : Z) : Prop := (0 <= n <= 65535)%Z.
Definition in_u32 (n : Z) : Prop := (0 <= n <= 4294967295)%Z.
Definition in_u64 (n : Z) : Prop := (0 <= n <= 18446744073709551615)%Z.
Definition in_nz_u64 (n : Z) : Prop := (1 <= n <= 18446744073709551615)%Z.
Definition in_i64 (n : Z) : Prop := (-9223372036854775808 <= n <= 9223372036854775807)%Z.

Definition all_some {A} (P : A -> Prop) (o : option A) : Prop := forall a, o = Some a -> P a.

(** The member names this crate reads or writes itself (src/thing.rs). *)
Definition td_names : list string :=
  ["@context"; "id"; "@type"; "title"; "titles"; "description"; "descriptions"; "version"; "created";
   "modified"; "support"; "base"; "properties"; "actions"; "events"; "links"; "forms"; "security";
   "securityDefinitions"; "uriVariables"; "profile"; "schemaDefinitions";
   "observable"; "input"; "output"; "safe"; "idempotent"; "synchronous";
   "subscription"; "data"; "data_response"; "cancellation";
   "op"; "href"; "contentType"; "contentCoding"; "subprotocol"; "scopes"; "response";
   "additionalResponses";
   "const"; "default"; "unit"; "oneOf"; "enum"; "readOnly"; "writeOnly"; "format"; "type";
   "items"; "min_items"; "max_items"; "maximum"; "exclusiveMaximum"; "minimum"; "exclusiveMinimum";
   "multipleOf"; "required"; "minLength"; "maxLength"; "pattern"; "contentEncoding";
   "contentMediaType"].

Definition disjoint (l l' : list string) : Prop := forall k, In k l -> ~ In k l'.

(** ** Extensions

    [K]: the member names of the extension; [ok]: the values considered.  The extension
    writes members named in [K], none twice, and reads the value back from any object
    that has these members. *)
Record round_trips (p : piece) (K : list string) (ok : pty p -> Prop) : Prop := {
  rt_written : forall mk a, json_writer mk -> ok a ->
    NoDup (map fst (p_ser p mk a)) /\ incl (map fst (p_ser p mk a)) K;
  rt_read : forall mk a es, json_writer mk -> ok a ->
    (forall k, In k K -> get k es = get k (p_ser p mk a)) -> p_de p es = Some a;
  rt_taken : incl (p_take p) K;
}.
Arguments rt_written [p K ok] _ [mk a] _ _.
Arguments rt_read [p K ok] _ [mk a es] _ _ _.

(** Names and values for every extension point. *)
Record xnames := {
  k_t : list string; k_ia : list string; k_pa : list string; k_aa : list string;
  k_ea : list string; k_f : list string; k_er : list string; k_ds : list string;
  k_os : list string; k_as : list string;
}.

Record xvalues (X : exts) := {
  v_t : pty (x_t X) -> Prop; v_ia : pty (x_ia X) -> Prop; v_pa : pty (x_pa X) -> Prop;
  v_aa : pty (x_aa X) -> Prop; v_ea : pty (x_ea X) -> Prop; v_f : pty (x_f X) -> Prop;
  v_er : pty (x_er X) -> Prop; v_ds : pty (x_ds X) -> Prop; v_os : pty (x_os X) -> Prop;
  v_as : pty (x_as X) -> Prop;
}.

Record exts_round_trip (X : exts) (K : xnames) (V : xvalues X) : Prop := {
  xr_t : round_trips (x_t X) (k_t K) (v_t V);
  xr_ia : round_trips (x_ia X) (k_ia K) (v_ia V);
  xr_pa : round_trips (x_pa X) (k_pa K) (v_pa V);
  xr_aa : round_trips (x_aa X) (k_aa K) (v_aa V);
  xr_ea : round_trips (x_ea X) (k_ea K) (v_ea V);
  xr_f : round_trips (x_f X) (k_f K) (v_f V);
  xr_er : round_trips (x_er X) (k_er K) (v_er V);
  xr_ds : round_trips (x_ds X) (k_ds K) (v_ds V);
  xr_os : round_trips (x_os X) (k_os K) (v_os V);
  xr_as : round_trips (x_as X) (k_as K) (v_as V);
}.

(** No extension uses a name of the crate; extensions that end up in the same object use
    different names. *)
Record names_apart (K : xnames) : Prop := {
  na_t : disjoint (k_t K) td_names;
  na_ia : disjoint (k_ia K) td_names;
  na_pa : disjoint (k_pa K) td_names;
  na_aa : disjoint (k_aa K) td_names;
  na_ea : disjoint (k_ea K) td_names;
  na_f : disjoint (k_f K) td_names;
  na_er : disjoint (k_er K) td_names;
  na_ds : disjoint (k_ds K) td_names;
  na_os : disjoint (k_os K) td_names;
  na_as : disjoint (k_as K) td_names;
  na_ds_os : disjoint (k_ds K) (k_os K);
  na_ds_as : disjoint (k_ds K) (k_as K);
  na_ia_ds : disjoint (k_ia K) (k_ds K);
  na_ia_os : disjoint (k_ia K) (k_os K);
  na_ia_as : disjoint (k_ia K) (k_as K);
  na_ia_pa : disjoint (k_ia K) (k_pa K);
  na_pa_ds : disjoint (k_pa K) (k_ds K);
  na_pa_os : disjoint (k_pa K) (k_os K);
  na_pa_as : disjoint (k_pa K) (k_as K);
  na_ia_aa : disjoint (k_ia K) (k_aa K);
  na_ia_ea : disjoint (k_ia K) (k_ea K);
}.

(** ** Values that survive

    The ranges, sortedness and tag conditions are invariants of the Rust types ([u32],
    [HashMap], [LanguageTag], [serde_json::Value]).  The others are real restrictions. *)
Section Ok.
  Variable E : env.
  Variable X : exts.
  Variable V : xvalues X.

  Definition tags_ok (m : multilang) : Prop :=
    msorted m /\ forall s, In s (mkeys m) -> tag_ok E s = true.

  Definition info_ok (i : info) : Prop := forall m, info_map i m -> tags_ok m.

  (** A JSON value other than [null] (an [Option] cannot tell [null] from absence). *)
  Definition some_value (v : json) : Prop := value_ok v /\ v <> JNull.

  Definition finite (x : f64) : Prop := f64_finite x = true.

  (** A schema, not looking at nested ones. *)
  Definition subtype_ok (s : dsubx X) : Prop :=
    match s with
    | SArray _ mn mx o => all_some in_u32 mn /\ all_some in_u32 mx /\ v_as V o
    | SNumber n =>
        all_some (fun m => finite (max_val m)) (n_max n)
        /\ all_some (fun m => finite (min_val m)) (n_min n)
        /\ all_some finite (n_mult n)
    | SInteger n =>
        all_some (fun m => in_i64 (max_val m)) (z_max n)
        /\ all_some (fun m => in_i64 (min_val m)) (z_min n)
        /\ all_some in_nz_u64 (z_mult n)
    | SObject ps _ o => all_some (@msorted _) ps /\ v_os V o
    | SString s => all_some in_u32 (s_min s) /\ all_some in_u32 (s_max s)
    | SBoolean | SNull => True
    end.

  Definition node_ok (d : dsx X) : Prop :=
    info_ok (ds_info d)
    /\ all_some some_value (m_const (ds_misc d))
    /\ all_some some_value (m_default (ds_misc d))
    /\ all_some (Forall value_ok) (m_enum (ds_misc d))
    /\ all_some subtype_ok (ds_sub d)
    /\ v_ds V (ds_other d).

  Definition schema_ok (d : dsx X) : Prop := forall e, sub_ds e d -> node_ok e.

  Definition schemas_ok (m : amap (dsx X)) : Prop :=
    msorted m /\ forall k d, In (k, d) m -> schema_ok d.

  (** ** Security *)

  Definition scheme_names : list string :=
    ["nosec"; "auto"; "combo"; "basic"; "digest"; "bearer"; "psk"; "oauth2"; "apikey"].

  (** A name that is not taken by the crate. *)
  Definition own_name (scheme : string) (data : entries) : Prop := ~ In scheme scheme_names.

  (** When a custom scheme with this name and data cannot be mistaken for one of the crate,
      for example [own_name]. *)
  Variable custom : string -> entries -> Prop.

  (** The data of a custom scheme is an object, which does not use the names of the scheme
      itself. *)
  Definition custom_ok (scheme : string) (data : json) : Prop :=
    exists es, data = JObj es /\ value_ok data /\ custom scheme es
       /\ disjoint (map fst es) ["@type"; "description"; "descriptions"; "proxy"; "scheme"].

  Definition security_ok (s : security_scheme) : Prop :=
    all_some tags_ok (ss_descriptions s)
    /\ forall scheme data, ss_subtype s = Unknown scheme data -> custom_ok scheme data.

  (** ** Links, forms, affordances *)

  Definition link_ok (l : link) : Prop :=
    all_some (Forall (fun s => tag_ok E s = true)) (l_hreflang l).

  Definition form_ok (f : form X) : Prop :=
    f_op f <> OpCustom []
    /\ all_some (fun r => v_er V (er_other r)) (f_response f)
    /\ v_f V (f_other f).

  Definition interaction_ok (i : interaction X) : Prop :=
    info_ok (ia_info i)
    /\ Forall form_ok (ia_forms i)
    /\ all_some schemas_ok (ia_uri i)
    /\ v_ia V (ia_other i).

  (** The members of a property's affordance and of its data schema share one object: both
      must have the same titles, descriptions and types. *)
  Definition property_ok (p : property X) : Prop :=
    interaction_ok (pa_ia p) /\ schema_ok (pa_ds p)
    /\ ia_info (pa_ia p) = ds_info (pa_ds p)
    /\ v_pa V (pa_other p).

  Definition action_ok (a : action X) : Prop :=
    interaction_ok (aa_ia a)
    /\ all_some schema_ok (aa_input a) /\ all_some schema_ok (aa_output a)
    /\ v_aa V (aa_other a).

  Definition event_ok (e : event X) : Prop :=
    interaction_ok (ea_ia e)
    /\ all_some schema_ok (ea_subscription e) /\ all_some schema_ok (ea_data e)
    /\ all_some schema_ok (ea_data_response e) /\ all_some schema_ok (ea_cancellation e)
    /\ v_ea V (ea_other e).

  Definition map_ok {A} (P : A -> Prop) (m : amap A) : Prop :=
    msorted m /\ forall k a, In (k, a) m -> P a.

  (** A date that RFC 3339 can express. *)
  Definition date_ok (d : date E) : Prop :=
    exists s, date_fmt E d = Some s /\ date_parse E s = Some d.

  Definition thing_ok (t : thing E X) : Prop :=
    value_ok (t_context t)
    /\ all_some tags_ok (t_titles t) /\ all_some tags_ok (t_descriptions t)
    /\ all_some date_ok (t_created t) /\ all_some date_ok (t_modified t)
    /\ all_some (map_ok property_ok) (t_properties t)
    /\ all_some (map_ok action_ok) (t_actions t)
    /\ all_some (map_ok event_ok) (t_events t)
    /\ all_some (Forall link_ok) (t_links t)
    /\ all_some (Forall form_ok) (t_forms t)
    /\ map_ok security_ok (t_secdefs t)
    /\ all_some schemas_ok (t_uri t)
    /\ all_some schemas_ok (t_schemas t)
    /\ v_t V (t_other t).
End Ok.
