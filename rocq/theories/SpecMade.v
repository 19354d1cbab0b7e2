(** * Which values can be made with the builders (C63)

    Conditions on the value alone; [e] ranges over the schema and everything nested in it. *)

From Coq Require Import String Bool ZArith List.
From Verif Require Import Base MinMax Json Serde Types DsBuilder Builder Spec SpecCalls SpecThing.
Import ListNotations.
Set Implicit Arguments.
Local Open Scope string_scope.
Local Open Scope list_scope.

Section Made.
  Variables DS AS OS : Type.
  Notation ds := (ds DS AS OS).

  (** [recorded s]: the string [s] may stand as a language tag. *)
  Variable recorded : string -> Prop.

  Definition tags_made (m : multilang) : Prop := msorted m /\ forall s, In s (mkeys m) -> recorded s.

  Record info_made (i : info) : Prop := {
    im_attype : i_attype i <> Some [];
    im_maps : forall m, info_map i m -> tags_made m;
  }.

  (** One schema, without those nested in it *)
  Record node_made (e : ds) : Prop := {
    (** one of: a type, a constant, an enumeration, alternatives *)
    nm_one : specializations e = 1%nat;
    (** not both read-only and write-only; constants are read-only, alternatives neither *)
    nm_rw : ~ (m_ro (ds_misc e) = true /\ m_wo (ds_misc e) = true);
    nm_const : m_const (ds_misc e) <> None -> m_ro (ds_misc e) = true;
    nm_union : ds_one_of e <> None -> m_ro (ds_misc e) = false /\ m_wo (ds_misc e) = false;
    (** no list is there and empty *)
    nm_enum : m_enum (ds_misc e) <> Some [];
    nm_one_of : ds_one_of e <> Some [];
    nm_props : forall ps r o, ds_sub e = Some (SObject ps r o) -> ps <> Some [] /\ r <> Some [];
    (** required members are members *)
    nm_required : required_declared e;
    (** a list of item schemas comes without bounds on the number of items *)
    nm_tuple : forall l mn mx o, ds_sub e = Some (SArray (Some (BVec l)) mn mx o) -> mn = None /\ mx = None;
    (** human readable information *)
    nm_info : info_made (ds_info e);
    (** maps are represented by sorted lists *)
    nm_sorted : forall m r o, ds_sub e = Some (SObject (Some m) r o) -> msorted m;
  }.

  Definition schema_made (d : ds) : Prop := forall e, sub_ds e d -> node_made e.
End Made.

(** Any string is accepted as a language tag until [build]. *)
Definition any_tag (s : string) : Prop := True.

(** ** Things

    [consistent] ([SpecThing.v]) says which parts have to fit together; the records below say what is
    impossible although it would fit. *)

(** A list that is there is not empty. *)
Definition not_empty {A} (o : option (list A)) : Prop := o <> Some [].

(** A map, absent when empty *)
Definition map_made {A} (P : A -> Prop) (o : option (amap A)) : Prop :=
  not_empty o /\ forall m, o = Some m -> msorted m /\ forall n a, In (n, a) m -> P a.

Definition langs_made (o : option multilang) : Prop := forall m, o = Some m -> msorted m.

Record scheme_made (c : security_scheme) : Prop := {
  sm_attype : not_empty (ss_attype c);
  sm_descriptions : langs_made (ss_descriptions c);
  (** the identity of a pre-shared key can not be given *)
  sm_psk : forall i, ss_subtype c = Known (KPsk i) -> i = None;
  sm_scopes : forall a, ss_subtype c = Known (KOAuth2 a) -> not_empty (oa_scopes a);
}.

(** What may follow the first entry of [@context] *)
Definition context_entry (j : json) : Prop :=
  (exists s, j = JStr s /\ s <> TD_CONTEXT_11)
  \/ (exists m, j = JObj (map (fun kv => (fst kv, JStr (snd kv))) m) /\ msorted m).

Definition context_made (j : json) : Prop :=
  j = JStr TD_CONTEXT_11
  \/ exists js, js <> [] /\ j = JArr (JStr TD_CONTEXT_11 :: js) /\ forall c, In c js -> context_entry c.

Definition no_limits : string_schema :=
  {| s_min := None; s_max := None; s_pattern := None; s_encoding := None; s_media := None |}.

Section Things.
  Variable E : env.
  Variable X : exts.
  Notation made := (schema_made any_tag).

  Record form_made (f : form X) : Prop := {
    fm_op : f_op f <> OpCustom [];
    fm_security : not_empty (f_security f);
    fm_scopes : not_empty (f_scopes f);
    fm_additional : not_empty (f_additional f);
  }.

  Record interaction_made (i : interaction X) : Prop := {
    it_info : info_made any_tag (ia_info i);
    it_forms : forall f, In f (ia_forms i) -> form_made f;
    it_uri : map_made made (ia_uri i);
  }.

  Record property_made (a : property X) : Prop := {
    pm_ia : interaction_made (pa_ia a);
    pm_ds : made (pa_ds a);
    (** the interaction and the schema have the same title, description, .. *)
    pm_info : ia_info (pa_ia a) = ds_info (pa_ds a);
    (** property builders do not offer the calls of string schemas *)
    pm_string : forall s, ds_sub (pa_ds a) = Some (SString s) -> s = no_limits;
  }.

  Definition schema_opt (o : option (dsx X)) : Prop := forall d, o = Some d -> made d.

  Record action_made (a : action X) : Prop := {
    am_ia : interaction_made (aa_ia a);
    am_input : schema_opt (aa_input a);
    am_output : schema_opt (aa_output a);
  }.

  Record event_made (a : event X) : Prop := {
    em_ia : interaction_made (ea_ia a);
    em_subscription : schema_opt (ea_subscription a);
    em_data : schema_opt (ea_data a);
    em_data_response : schema_opt (ea_data_response a);
    em_cancellation : schema_opt (ea_cancellation a);
  }.

  Record thing_made (t : thing E X) : Prop := {
    tm_context : context_made (t_context t);
    tm_attype : not_empty (t_attype t);
    tm_titles : langs_made (t_titles t);
    tm_descriptions : langs_made (t_descriptions t);
    tm_properties : map_made property_made (t_properties t);
    tm_actions : map_made action_made (t_actions t);
    tm_events : map_made event_made (t_events t);
    tm_links : not_empty (t_links t) /\ forall l, In l (olist (t_links t)) -> not_empty (l_hreflang l);
    tm_forms : not_empty (t_forms t) /\ forall f, In f (olist (t_forms t)) -> form_made f;
    (** the required schemes are among those defined, each once *)
    tm_security : NoDup (t_security t) /\ incl (t_security t) (mkeys (t_secdefs t));
    tm_secdefs : msorted (t_secdefs t) /\ forall n c, In (n, c) (t_secdefs t) -> scheme_made c;
    tm_uri : map_made made (t_uri t);
    tm_profile : not_empty (t_profile t);
    tm_schemas : map_made made (t_schemas t);
    (** everything fits together; language tags are as the tag parser writes them *)
    tm_fits : consistent (parsed E) (thing_body t);
  }.

  (** A tag the parser has written is read as itself. *)
  Definition tags_stable : Prop := forall s s', tag_parse E s = Some s' -> tag_parse E s' = Some s'.
End Things.
