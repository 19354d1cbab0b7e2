(** * The invariants of the Rust types

    Every Thing of the crate meets [thing_typed]: integers are in range, hash maps are
    represented as sorted lists, language tags are well formed, JSON values are
    [serde_json::Value]s.  [T]: the extension values that exist. *)

From Coq Require Import String Bool ZArith List.
From Verif Require Import Base MinMax Json Serde Types HList Protocol Spec SpecThing SpecSerde SpecExt SpecDoc SpecMember.
Import ListNotations.
Set Implicit Arguments.
Local Open Scope string_scope.
Local Open Scope list_scope.

(** A [serde_json::Value] *)
Definition value_typed (j : json) : Prop := document j /\ value_ok j.

(** A well-formed document without repeated members *)
Definition clean (j : json) : Prop := document j /\ no_repeats j.

(** ** Custom schemes that would be taken for one of the crate

    [looks_known es scheme]: the data [es] has the shape of the known scheme named
    [scheme]. *)
Definition every (k : string) (P : json -> Prop) (es : entries) : Prop := forall v, In (k, v) es -> P v.
Definition has (k : string) (P : json -> Prop) (es : entries) : Prop := exists v, In (k, v) es /\ P v.
Definition optional (P : json -> Prop) (v : json) : Prop := v = JNull \/ P v.

(** A variant, as serde reads it: the name, or an object [{name: null}] *)
Definition variant_of (names : list string) (v : json) : Prop :=
  exists s, In s names /\ (v = JStr s \/ v = JObj [(s, JNull)]).

Definition located (es : entries) : Prop :=
  every "in" (variant_of ["header"; "query"; "body"; "cookie"; "uri"]) es
  /\ every "name" (optional is_str) es.

Inductive looks_known (es : entries) : string -> Prop :=
| lk_nosec : looks_known es "nosec"
| lk_auto : looks_known es "auto"
| lk_combo k v : es = [(k, v)] -> k = "oneOf" \/ k = "allOf" -> str_or_strs v -> looks_known es "combo"
| lk_basic : located es -> looks_known es "basic"
| lk_apikey : located es -> looks_known es "apikey"
| lk_digest : located es -> has "qop" (variant_of ["auth"; "auth-int"]) es -> looks_known es "digest"
| lk_bearer : located es -> every "authorization" (optional is_str) es -> every "alg" is_str es ->
    every "format" is_str es -> looks_known es "bearer"
| lk_psk : every "identity" (optional is_str) es -> looks_known es "psk"
| lk_oauth2 : every "authorization" (optional is_str) es -> every "token" (optional is_str) es ->
    every "refresh" (optional is_str) es -> every "scopes" (optional str_or_strs) es -> has "flow" is_str es ->
    looks_known es "oauth2".

Definition distinct (scheme : string) (data : entries) : Prop := ~ looks_known data scheme.

(** ** Extensions *)

(** What an extension writes for the values in [ok]: members named in [K], none twice, with
    clean values. *)
Record writes_clean (p : piece) (K : list string) (ok : pty p -> Prop) : Prop := {
  wc_names : forall mk a, json_writer mk -> ok a ->
    NoDup (map fst (p_ser p mk a)) /\ incl (map fst (p_ser p mk a)) K;
  wc_clean : forall mk a k v, json_writer mk -> ok a -> In (k, v) (p_ser p mk a) -> clean v;
}.

Record exts_write_clean (X : exts) (K : xnames) (T : xvalues X) : Prop := {
  wc_t : writes_clean (x_t X) (k_t K) (v_t T);
  wc_ia : writes_clean (x_ia X) (k_ia K) (v_ia T);
  wc_pa : writes_clean (x_pa X) (k_pa K) (v_pa T);
  wc_aa : writes_clean (x_aa X) (k_aa K) (v_aa T);
  wc_ea : writes_clean (x_ea X) (k_ea K) (v_ea T);
  wc_f : writes_clean (x_f X) (k_f K) (v_f T);
  wc_er : writes_clean (x_er X) (k_er K) (v_er T);
  wc_ds : writes_clean (x_ds X) (k_ds K) (v_ds T);
  wc_os : writes_clean (x_os X) (k_os K) (v_os T);
  wc_as : writes_clean (x_as X) (k_as K) (v_as T);
}.

(** What is read from the members written for a value in [T] is in [V]. *)
Definition reads_back (p : piece) (K : list string) (T V : pty p -> Prop) : Prop :=
  forall mk a es b, json_writer mk -> T a ->
    (forall k, In k K -> get k es = get k (p_ser p mk a)) -> p_de p es = Some b -> V b.

(** Extensions: [K] their names, [T] the values there are, [V] those that survive being
    written and read. *)
Record exts_sound (X : exts) (K : xnames) (T V : xvalues X) : Prop := {
  es_round : exts_round_trip K V;
  es_apart : names_apart K;
  es_read : exts_read_ok V;
  es_clean : exts_write_clean K T;
  es_back : reads_back (x_er X) (k_er K) (v_er T) (v_er V);
}.

(** The values of the types of src/protocol: only HTTP responses without headers do not
    survive. *)
Definition http_typed : xvalues http_exts :=
  {| v_t := fun _ : pty (x_t http_exts) => True;
     v_ia := fun _ : pty (x_ia http_exts) => True; v_pa := fun _ : pty (x_pa http_exts) => True;
     v_aa := fun _ : pty (x_aa http_exts) => True; v_ea := fun _ : pty (x_ea http_exts) => True;
     v_f := fun _ : pty (x_f http_exts) => True;
     v_er := (fun r => all_some in_u64 (hr_status r)) : pty (x_er http_exts) -> Prop;
     v_ds := fun _ : pty (x_ds http_exts) => True; v_os := fun _ : pty (x_os http_exts) => True;
     v_as := fun _ : pty (x_as http_exts) => True |}.

Definition coap_typed : xvalues coap_exts := coap_values.
Definition mqtt_typed : xvalues mqtt_exts := mqtt_values.

Section Typed.
  Variable E : env.
  Variable X : exts.
  Variable T : xvalues X.

  Definition subtype_typed (s : dsubx X) : Prop :=
    match s with
    | SArray _ mn mx o => all_some in_u32 mn /\ all_some in_u32 mx /\ v_as T o
    | SInteger n =>
        all_some (fun m => in_i64 (max_val m)) (z_max n)
        /\ all_some (fun m => in_i64 (min_val m)) (z_min n)
        /\ all_some in_nz_u64 (z_mult n)
    | SObject ps _ o => all_some (@msorted _) ps /\ v_os T o
    | SString s => all_some in_u32 (s_min s) /\ all_some in_u32 (s_max s)
    | SNumber _ | SBoolean | SNull => True
    end.

  Definition node_typed (d : dsx X) : Prop :=
    info_ok E (ds_info d)
    /\ all_some value_typed (m_const (ds_misc d))
    /\ all_some value_typed (m_default (ds_misc d))
    /\ all_some (Forall value_typed) (m_enum (ds_misc d))
    /\ all_some subtype_typed (ds_sub d)
    /\ v_ds T (ds_other d).

  Definition schema_typed (d : dsx X) : Prop := forall e, sub_ds e d -> node_typed e.

  Definition schemas_typed : amap (dsx X) -> Prop := map_ok schema_typed.

  Definition security_typed (s : security_scheme) : Prop :=
    all_some (tags_ok E) (ss_descriptions s)
    /\ forall scheme data, ss_subtype s = Unknown scheme data -> value_typed data.

  Definition form_typed (f : form X) : Prop :=
    all_some (fun r => v_er T (er_other r)) (f_response f) /\ v_f T (f_other f).

  Definition interaction_typed (i : interaction X) : Prop :=
    info_ok E (ia_info i) /\ Forall form_typed (ia_forms i) /\ all_some schemas_typed (ia_uri i)
    /\ v_ia T (ia_other i).

  Definition property_typed (p : property X) : Prop :=
    interaction_typed (pa_ia p) /\ schema_typed (pa_ds p) /\ v_pa T (pa_other p).

  Definition action_typed (a : action X) : Prop :=
    interaction_typed (aa_ia a)
    /\ all_some schema_typed (aa_input a) /\ all_some schema_typed (aa_output a)
    /\ v_aa T (aa_other a).

  Definition event_typed (e : event X) : Prop :=
    interaction_typed (ea_ia e)
    /\ all_some schema_typed (ea_subscription e) /\ all_some schema_typed (ea_data e)
    /\ all_some schema_typed (ea_data_response e) /\ all_some schema_typed (ea_cancellation e)
    /\ v_ea T (ea_other e).

  Definition thing_typed (t : thing E X) : Prop :=
    value_typed (t_context t)
    /\ all_some (tags_ok E) (t_titles t) /\ all_some (tags_ok E) (t_descriptions t)
    /\ all_some (map_ok property_typed) (t_properties t)
    /\ all_some (map_ok action_typed) (t_actions t)
    /\ all_some (map_ok event_typed) (t_events t)
    /\ all_some (Forall (link_ok E)) (t_links t)
    /\ all_some (Forall form_typed) (t_forms t)
    /\ map_ok security_typed (t_secdefs t)
    /\ all_some schemas_typed (t_uri t)
    /\ all_some schemas_typed (t_schemas t)
    /\ v_t T (t_other t).

  (** No property has a title, a description or a type. *)
  Definition untitled (t : thing E X) : Prop :=
    forall ps k p, t_properties t = Some ps -> In (k, p) ps -> ds_info (pa_ds p) = no_info.

  (** No form has an empty list of operations or a response with values outside [T]. *)
  Definition forms_survive (t : thing E X) : Prop :=
    forall c f, form_at (thing_body t) c f ->
      f_op f <> OpCustom [] /\ all_some (fun r => v_er T (er_other r)) (f_response f).
End Typed.

(** Both have a title, or both have types, ... *)
Definition share (i i' : info) : Prop :=
  (i_attype i <> None /\ i_attype i' <> None) \/ (i_title i <> None /\ i_title i' <> None)
  \/ (i_titles i <> None /\ i_titles i' <> None)
  \/ (i_description i <> None /\ i_description i' <> None)
  \/ (i_descriptions i <> None /\ i_descriptions i' <> None).
