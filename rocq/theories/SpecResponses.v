(** * Calls and things without the additional responses of affordances (C06) *)

From Coq Require Import String Bool List.
From Verif Require Import Base MinMax Json Serde Types DsBuilder Builder.
Import ListNotations.
Set Implicit Arguments.
Local Open Scope list_scope.

(** A function on what a successful result carries. *)
Definition on_ok {A B} (f : A -> B) (r : result error A) : result error B :=
  match r with Ok a => Ok (f a) | Err e => Err e end.

Definition on_snd {A B} (f : A -> B) (c : string * A) : string * B := (fst c, f (snd c)).

Section Responses.
  Variable E : env.
  Variable X : exts.

  (** ** Calls: no [additional_response] in the closure of a form of an affordance *)
  Definition other_call (o : fop X) : bool := match o with FAdditional _ => false | _ => true end.
  Definition drop_ia (o : ia_op X) : ia_op X :=
    match o with IForm x p => IForm x (filter other_call p) | IUri n p => IUri n p end.
  Definition drop_p (o : pop X) : pop X := match o with PIa o => PIa (drop_ia o) | o => o end.
  Definition drop_a (o : aop X) : aop X := match o with AIa o => AIa (drop_ia o) | o => o end.
  Definition drop_e (o : eop X) : eop X := match o with EIa o => EIa (drop_ia o) | o => o end.
  Definition drop_t (o : top E X) : top E X :=
    match o with
    | TProperty n xi xp p => TProperty n xi xp (map drop_p p)
    | TAction n xi xa p => TAction n xi xa (map drop_a p)
    | TEvent n xi xe p => TEvent n xi xe (map drop_e p)
    | o => o
    end.

  (** ** Things: [additionalResponses] absent from every form of an affordance *)
  Definition erase_form (f : form X) : form X :=
    {| f_op := f_op f; f_href := f_href f; f_ctype := f_ctype f; f_ccoding := f_ccoding f;
       f_subprotocol := f_subprotocol f; f_security := f_security f; f_scopes := f_scopes f;
       f_response := f_response f; f_additional := None; f_other := f_other f |}.
  Definition erase_ia (i : interaction X) : interaction X :=
    {| ia_info := ia_info i; ia_forms := map erase_form (ia_forms i); ia_uri := ia_uri i; ia_other := ia_other i |}.
  Definition erase_p (a : property X) : property X :=
    {| pa_ia := erase_ia (pa_ia a); pa_ds := pa_ds a; pa_observable := pa_observable a; pa_other := pa_other a |}.
  Definition erase_a (a : action X) : action X :=
    {| aa_ia := erase_ia (aa_ia a); aa_input := aa_input a; aa_output := aa_output a; aa_safe := aa_safe a;
       aa_idempotent := aa_idempotent a; aa_synchronous := aa_synchronous a; aa_other := aa_other a |}.
  Definition erase_e (a : event X) : event X :=
    {| ea_ia := erase_ia (ea_ia a); ea_subscription := ea_subscription a; ea_data := ea_data a;
       ea_data_response := ea_data_response a; ea_cancellation := ea_cancellation a; ea_other := ea_other a |}.
  Definition erase_thing (t : thing E X) : thing E X :=
    {| t_context := t_context t; t_id := t_id t; t_attype := t_attype t; t_title := t_title t;
       t_titles := t_titles t; t_description := t_description t; t_descriptions := t_descriptions t;
       t_version := t_version t; t_created := t_created t; t_modified := t_modified t;
       t_support := t_support t; t_base := t_base t;
       t_properties := option_map (map (on_snd erase_p)) (t_properties t);
       t_actions := option_map (map (on_snd erase_a)) (t_actions t);
       t_events := option_map (map (on_snd erase_e)) (t_events t);
       t_links := t_links t; t_forms := t_forms t; t_security := t_security t;
       t_secdefs := t_secdefs t; t_uri := t_uri t; t_profile := t_profile t;
       t_schemas := t_schemas t; t_other := t_other t |}.
End Responses.
