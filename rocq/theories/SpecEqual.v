(** * When two Things are the same

    [plain] forgets what [==] cannot see: the sign of zeros and how a date is given ([D], for
    example its time zone).  It changes nothing else. *)

From Coq Require Import String Bool ZArith List.
From Coq Require Import Floats.SpecFloat.
From Verif Require Import Base MinMax Json Serde Types Builder Spec SpecThing Equal.
Import ListNotations.
Set Implicit Arguments.
Local Open Scope string_scope.
Local Open Scope list_scope.

Definition plain_f64 (x : f64) : f64 :=
  match x with S754_zero _ => S754_zero false | _ => x end.

Fixpoint plain_json (j : json) : json :=
  match j with
  | JFloat x => JFloat (plain_f64 x)
  | JArr l => JArr (map plain_json l)
  | JObj es => JObj (map (fun kv => (fst kv, plain_json (snd kv))) es)
  | _ => j
  end.

Definition plain_max (m : maximum f64) : maximum f64 :=
  match m with MaxIncl x => MaxIncl (plain_f64 x) | MaxExcl x => MaxExcl (plain_f64 x) end.

Definition plain_min (m : minimum f64) : minimum f64 :=
  match m with MinIncl x => MinIncl (plain_f64 x) | MinExcl x => MinExcl (plain_f64 x) end.

Definition plain_number (n : number_schema) : number_schema :=
  {| n_max := option_map plain_max (n_max n); n_min := option_map plain_min (n_min n);
     n_mult := option_map plain_f64 (n_mult n) |}.

Definition plain_misc (m : dmisc) : dmisc :=
  {| m_const := option_map plain_json (m_const m); m_default := option_map plain_json (m_default m);
     m_unit := m_unit m; m_enum := option_map (map plain_json) (m_enum m);
     m_ro := m_ro m; m_wo := m_wo m; m_format := m_format m |}.

Definition plain_subtype (s : sec_subtype) : sec_subtype :=
  match s with Known k => Known k | Unknown n d => Unknown n (plain_json d) end.

Definition plain_security (s : security_scheme) : security_scheme :=
  {| ss_attype := ss_attype s; ss_description := ss_description s;
     ss_descriptions := ss_descriptions s; ss_proxy := ss_proxy s;
     ss_subtype := plain_subtype (ss_subtype s) |}.

(** The numbers in a number schema *)
Definition number_in (n : number_schema) (x : f64) : Prop :=
  n_mult n = Some x
  \/ n_max n = Some (MaxIncl x) \/ n_max n = Some (MaxExcl x)
  \/ n_min n = Some (MinIncl x) \/ n_min n = Some (MinExcl x).

Section Plain.
  Variable E : env.
  Variable X : exts.

  Fixpoint plain_ds (d : dsx X) : dsx X :=
    match d with
    | mkDs i m l s o =>
        mkDs i (plain_misc m) (option_map (map plain_ds) l) (option_map plain_sub s) o
    end
  with plain_sub (s : dsubx X) : dsubx X :=
    match s with
    | SArray i mn mx o => SArray (option_map plain_boxed i) mn mx o
    | SNumber n => SNumber (plain_number n)
    | SObject p r o => SObject (option_map (map (fun kv => (fst kv, plain_ds (snd kv)))) p) r o
    | SBoolean => SBoolean | SInteger n => SInteger n | SString n => SString n | SNull => SNull
    end
  with plain_boxed (b : boxed (pty (x_ds X)) (pty (x_as X)) (pty (x_os X))) :=
    match b with
    | BElem d => BElem (plain_ds d)
    | BVec l => BVec (map plain_ds l)
    end.

  Definition plain_interaction (i : interaction X) : interaction X :=
    {| ia_info := ia_info i; ia_forms := ia_forms i; ia_uri := option_map (mmap plain_ds) (ia_uri i);
       ia_other := ia_other i |}.

  Definition plain_property (p : property X) : property X :=
    {| pa_ia := plain_interaction (pa_ia p); pa_ds := plain_ds (pa_ds p);
       pa_observable := pa_observable p; pa_other := pa_other p |}.

  Definition plain_action (a : action X) : action X :=
    {| aa_ia := plain_interaction (aa_ia a); aa_input := option_map plain_ds (aa_input a);
       aa_output := option_map plain_ds (aa_output a); aa_safe := aa_safe a;
       aa_idempotent := aa_idempotent a; aa_synchronous := aa_synchronous a; aa_other := aa_other a |}.

  Definition plain_event (e : event X) : event X :=
    {| ea_ia := plain_interaction (ea_ia e); ea_subscription := option_map plain_ds (ea_subscription e);
       ea_data := option_map plain_ds (ea_data e);
       ea_data_response := option_map plain_ds (ea_data_response e);
       ea_cancellation := option_map plain_ds (ea_cancellation e); ea_other := ea_other e |}.

  Variable D : date E -> date E.

  Definition plain (t : thing E X) : thing E X :=
    {| t_context := plain_json (t_context t); t_id := t_id t; t_attype := t_attype t;
       t_title := t_title t; t_titles := t_titles t; t_description := t_description t;
       t_descriptions := t_descriptions t; t_version := t_version t;
       t_created := option_map D (t_created t); t_modified := option_map D (t_modified t);
       t_support := t_support t; t_base := t_base t;
       t_properties := option_map (mmap plain_property) (t_properties t);
       t_actions := option_map (mmap plain_action) (t_actions t);
       t_events := option_map (mmap plain_event) (t_events t);
       t_links := t_links t; t_forms := t_forms t; t_security := t_security t;
       t_secdefs := mmap plain_security (t_secdefs t);
       t_uri := option_map (mmap plain_ds) (t_uri t); t_profile := t_profile t;
       t_schemas := option_map (mmap plain_ds) (t_schemas t); t_other := t_other t |}.

  (** No number schema of the Thing, at any depth, has a NaN. *)
  Definition without_nan (t : thing E X) : Prop :=
    forall d e n x, schema_in (thing_body t) d -> sub_ds e d -> ds_sub e = Some (SNumber n) ->
      number_in n x -> x <> S754_nan.

  (** Dates are compared as [D] gives them, extensions exactly. *)
  Record eqs_exact (Q : eqs E X) : Prop := {
    qe_date : forall d d', q_date Q d d' = true <-> D d = D d';
    qe_t : forall a b, q_t Q a b = true <-> a = b;
    qe_ia : forall a b, q_ia Q a b = true <-> a = b;
    qe_pa : forall a b, q_pa Q a b = true <-> a = b;
    qe_aa : forall a b, q_aa Q a b = true <-> a = b;
    qe_ea : forall a b, q_ea Q a b = true <-> a = b;
    qe_f : forall a b, q_f Q a b = true <-> a = b;
    qe_er : forall a b, q_er Q a b = true <-> a = b;
    qe_ds : forall a b, q_ds Q a b = true <-> a = b;
    qe_os : forall a b, q_os Q a b = true <-> a = b;
    qe_as : forall a b, q_as Q a b = true <-> a = b;
  }.
End Plain.
