(** * Declarations that are checked one by one (C66) *)

From Coq Require Import String Bool List.
From Verif Require Import Base MinMax Json Serde Types DsBuilder Builder Spec SpecCalls SpecThing.
Import ListNotations.
Set Implicit Arguments.
Local Open Scope list_scope.

Section Apart.
  Variable E : env.
  Variable X : exts.
  Notation top := (top E X).

  (** Calls that declare an affordance, a link or a form *)
  Definition is_property (o : top) : bool := match o with TProperty _ _ _ _ => true | _ => false end.
  Definition is_action (o : top) : bool := match o with TAction _ _ _ _ => true | _ => false end.
  Definition is_event (o : top) : bool := match o with TEvent _ _ _ _ => true | _ => false end.
  Definition is_link (o : top) : bool := match o with TLink _ | TLinkWith _ => true | _ => false end.
  Definition is_form (o : top) : bool := match o with TForm _ _ => true | _ => false end.
  Definition separable (o : top) : bool := is_property o || is_action o || is_event o || is_link o || is_form o.

  (** The other calls *)
  Definition frame (p : list top) : list top := filter (fun o => negb (separable o)) p.

  (** The names of the affordances of a kind, in order *)
  Definition named_by (k : affordance_type) (o : top) : option string :=
    match k, o with
    | AProperty, TProperty n _ _ _ | AAction, TAction n _ _ _ | AEvent, TEvent n _ _ _ => Some n
    | _, _ => None
    end.
  Definition names (k : affordance_type) (p : list top) : list string := picks (named_by k) p.

  (** The Things agree but for their affordances, links and forms. *)
  Record same_frame (t t' : thing E X) : Prop := {
    sf_context : t_context t = t_context t'; sf_id : t_id t = t_id t'; sf_attype : t_attype t = t_attype t';
    sf_title : t_title t = t_title t'; sf_titles : t_titles t = t_titles t';
    sf_description : t_description t = t_description t'; sf_descriptions : t_descriptions t = t_descriptions t';
    sf_version : t_version t = t_version t'; sf_created : t_created t = t_created t';
    sf_modified : t_modified t = t_modified t'; sf_support : t_support t = t_support t'; sf_base : t_base t = t_base t';
    sf_security : t_security t = t_security t'; sf_secdefs : t_secdefs t = t_secdefs t'; sf_uri : t_uri t = t_uri t';
    sf_profile : t_profile t = t_profile t'; sf_schemas : t_schemas t = t_schemas t'; sf_other : t_other t = t_other t';
  }.

  (** [thinned p p']: [p'] is [p] without some of these declarations. *)
  Inductive thinned : list top -> list top -> Prop :=
  | th_nil : thinned [] []
  | th_keep o p p' : thinned p p' -> thinned (o :: p) (o :: p')
  | th_drop o p p' : separable o = true -> thinned p p' -> thinned (o :: p) p'.

  (** [l'] is [l] without some of its elements, in order. *)
  Inductive sublist {A} : list A -> list A -> Prop :=
  | sl_nil : sublist [] []
  | sl_keep a l l' : sublist l l' -> sublist (a :: l) (a :: l')
  | sl_drop a l l' : sublist l l' -> sublist (a :: l) l'.
End Apart.
