(** * A Thing with its hash maps in another order (C72)

    The model keeps hash maps sorted.  [rearranged t t']: [t'] is [t] with the entries of its hash maps, at any depth, in
    other orders, each map in an order of its own; nothing else differs.  The text of [t'] is the text of [t] if its maps are
    visited in these orders.  [arrange ord t]: the order is the one in which [ord] visits a map. *)

From Coq Require Import String Bool ZArith Permutation List.
From Verif Require Import Base MinMax Json Serde Types DsBuilder.
Import ListNotations.
Set Implicit Arguments.
Local Open Scope string_scope.
Local Open Scope list_scope.

(** Both absent, or both there and related *)
Inductive opt_rel {A B} (R : A -> B -> Prop) : option A -> option B -> Prop :=
| or_none : opt_rel R None None
| or_some a b : R a b -> opt_rel R (Some a) (Some b).

(** The values are related, then the entries permuted. *)
Inductive map_rel {A} (R : A -> A -> Prop) (m m' : amap A) : Prop :=
| mr m1 : Forall2 (fun kv kv' => fst kv = fst kv' /\ R (snd kv) (snd kv')) m m1 -> Permutation m1 m' -> map_rel R m m'.

Definition lang_rel (m m' : multilang) : Prop := Permutation m m'.

Definition info_rel (i i' : info) : Prop :=
  i_attype i' = i_attype i /\ i_title i' = i_title i /\ opt_rel lang_rel (i_titles i) (i_titles i')
  /\ i_description i' = i_description i /\ opt_rel lang_rel (i_descriptions i) (i_descriptions i').

Section Rearranged.
  Variable E : env.
  Variable X : exts.

  Inductive ds_rel : dsx X -> dsx X -> Prop :=
  | dr i i' m l l' s s' o : info_rel i i' -> opt_rel (Forall2 ds_rel) l l' -> opt_rel sub_rel s s' ->
      ds_rel (mkDs i m l s o) (mkDs i' m l' s' o)
  with sub_rel : dsubx X -> dsubx X -> Prop :=
  | sr_array i i' mn mx o : opt_rel boxed_rel i i' -> sub_rel (SArray i mn mx o) (SArray i' mn mx o)
  | sr_object p p' r o : opt_rel (map_rel ds_rel) p p' -> sub_rel (SObject p r o) (SObject p' r o)
  | sr_same s : sub_rel s s
  with boxed_rel : boxed (pty (x_ds X)) (pty (x_as X)) (pty (x_os X)) -> boxed (pty (x_ds X)) (pty (x_as X)) (pty (x_os X)) -> Prop :=
  | br_elem d d' : ds_rel d d' -> boxed_rel (BElem d) (BElem d')
  | br_vec l l' : Forall2 ds_rel l l' -> boxed_rel (BVec l) (BVec l').

  Definition security_rel (s s' : security_scheme) : Prop :=
    ss_attype s' = ss_attype s /\ ss_description s' = ss_description s
    /\ opt_rel lang_rel (ss_descriptions s) (ss_descriptions s') /\ ss_proxy s' = ss_proxy s /\ ss_subtype s' = ss_subtype s.

  Definition interaction_rel (i i' : interaction X) : Prop :=
    info_rel (ia_info i) (ia_info i') /\ ia_forms i' = ia_forms i /\ opt_rel (map_rel ds_rel) (ia_uri i) (ia_uri i')
    /\ ia_other i' = ia_other i.

  Definition property_rel (p p' : property X) : Prop :=
    interaction_rel (pa_ia p) (pa_ia p') /\ ds_rel (pa_ds p) (pa_ds p') /\ pa_observable p' = pa_observable p
    /\ pa_other p' = pa_other p.

  Definition action_rel (a a' : action X) : Prop :=
    interaction_rel (aa_ia a) (aa_ia a') /\ opt_rel ds_rel (aa_input a) (aa_input a')
    /\ opt_rel ds_rel (aa_output a) (aa_output a') /\ aa_safe a' = aa_safe a /\ aa_idempotent a' = aa_idempotent a
    /\ aa_synchronous a' = aa_synchronous a /\ aa_other a' = aa_other a.

  Definition event_rel (e e' : event X) : Prop :=
    interaction_rel (ea_ia e) (ea_ia e') /\ opt_rel ds_rel (ea_subscription e) (ea_subscription e')
    /\ opt_rel ds_rel (ea_data e) (ea_data e') /\ opt_rel ds_rel (ea_data_response e) (ea_data_response e')
    /\ opt_rel ds_rel (ea_cancellation e) (ea_cancellation e') /\ ea_other e' = ea_other e.

  Record rearranged (t t' : thing E X) : Prop := {
    ra_titles : opt_rel lang_rel (t_titles t) (t_titles t');
    ra_descriptions : opt_rel lang_rel (t_descriptions t) (t_descriptions t');
    ra_properties : opt_rel (map_rel property_rel) (t_properties t) (t_properties t');
    ra_actions : opt_rel (map_rel action_rel) (t_actions t) (t_actions t');
    ra_events : opt_rel (map_rel event_rel) (t_events t) (t_events t');
    ra_secdefs : map_rel security_rel (t_secdefs t) (t_secdefs t');
    ra_uri : opt_rel (map_rel ds_rel) (t_uri t) (t_uri t');
    ra_schemas : opt_rel (map_rel ds_rel) (t_schemas t) (t_schemas t');
    ra_context : t_context t' = t_context t;
    ra_id : t_id t' = t_id t;
    ra_attype : t_attype t' = t_attype t;
    ra_title : t_title t' = t_title t;
    ra_description : t_description t' = t_description t;
    ra_version : t_version t' = t_version t;
    ra_created : t_created t' = t_created t;
    ra_modified : t_modified t' = t_modified t;
    ra_support : t_support t' = t_support t;
    ra_base : t_base t' = t_base t;
    ra_links : t_links t' = t_links t;
    ra_forms : t_forms t' = t_forms t;
    ra_security : t_security t' = t_security t;
    ra_profile : t_profile t' = t_profile t;
    ra_other : t_other t' = t_other t;
  }.
End Rearranged.

Section Arrange.
  Variable ord : order.
  Variable E : env.
  Variable X : exts.

  Definition arrange_map {A} (f : A -> A) (m : amap A) : amap A := ord (map (fun kv => (fst kv, f (snd kv))) m).

  Definition arrange_lang (m : multilang) : multilang := ord m.

  Definition arrange_info (i : info) : info :=
    {| i_attype := i_attype i; i_title := i_title i; i_titles := option_map arrange_lang (i_titles i);
       i_description := i_description i; i_descriptions := option_map arrange_lang (i_descriptions i) |}.

  Fixpoint arrange_ds (d : dsx X) : dsx X :=
    match d with
    | mkDs i m l s o => mkDs (arrange_info i) m (option_map (map arrange_ds) l) (option_map arrange_sub s) o
    end
  with arrange_sub (s : dsubx X) : dsubx X :=
    match s with
    | SArray i mn mx o => SArray (option_map arrange_boxed i) mn mx o
    | SObject p r o => SObject (option_map (arrange_map arrange_ds) p) r o
    | SBoolean => SBoolean | SNumber n => SNumber n | SInteger n => SInteger n | SString n => SString n | SNull => SNull
    end
  with arrange_boxed (b : boxed (pty (x_ds X)) (pty (x_as X)) (pty (x_os X))) :=
    match b with
    | BElem d => BElem (arrange_ds d)
    | BVec l => BVec (map arrange_ds l)
    end.

  Definition arrange_security (s : security_scheme) : security_scheme :=
    {| ss_attype := ss_attype s; ss_description := ss_description s;
       ss_descriptions := option_map arrange_lang (ss_descriptions s); ss_proxy := ss_proxy s;
       ss_subtype := ss_subtype s |}.

  Definition arrange_interaction (i : interaction X) : interaction X :=
    {| ia_info := arrange_info (ia_info i); ia_forms := ia_forms i;
       ia_uri := option_map (arrange_map arrange_ds) (ia_uri i); ia_other := ia_other i |}.

  Definition arrange_property (p : property X) : property X :=
    {| pa_ia := arrange_interaction (pa_ia p); pa_ds := arrange_ds (pa_ds p);
       pa_observable := pa_observable p; pa_other := pa_other p |}.

  Definition arrange_action (a : action X) : action X :=
    {| aa_ia := arrange_interaction (aa_ia a); aa_input := option_map arrange_ds (aa_input a);
       aa_output := option_map arrange_ds (aa_output a); aa_safe := aa_safe a;
       aa_idempotent := aa_idempotent a; aa_synchronous := aa_synchronous a; aa_other := aa_other a |}.

  Definition arrange_event (e : event X) : event X :=
    {| ea_ia := arrange_interaction (ea_ia e); ea_subscription := option_map arrange_ds (ea_subscription e);
       ea_data := option_map arrange_ds (ea_data e);
       ea_data_response := option_map arrange_ds (ea_data_response e);
       ea_cancellation := option_map arrange_ds (ea_cancellation e); ea_other := ea_other e |}.

  Definition arrange (t : thing E X) : thing E X :=
    {| t_context := t_context t; t_id := t_id t; t_attype := t_attype t;
       t_title := t_title t; t_titles := option_map arrange_lang (t_titles t); t_description := t_description t;
       t_descriptions := option_map arrange_lang (t_descriptions t); t_version := t_version t;
       t_created := t_created t; t_modified := t_modified t; t_support := t_support t; t_base := t_base t;
       t_properties := option_map (arrange_map arrange_property) (t_properties t);
       t_actions := option_map (arrange_map arrange_action) (t_actions t);
       t_events := option_map (arrange_map arrange_event) (t_events t);
       t_links := t_links t; t_forms := t_forms t; t_security := t_security t;
       t_secdefs := arrange_map arrange_security (t_secdefs t);
       t_uri := option_map (arrange_map arrange_ds) (t_uri t); t_profile := t_profile t;
       t_schemas := option_map (arrange_map arrange_ds) (t_schemas t); t_other := t_other t |}.
End Arrange.
