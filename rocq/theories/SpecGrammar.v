(** * Which chains of calls type check

    The Rust types of the builders record what has been called.  Here the chains they allow are
    described as a grammar, without builder states. *)

From Coq Require Import String Bool ZArith List.
From Verif Require Import Base MinMax Json Serde Types DsBuilder Builder.
Import ListNotations.
Set Implicit Arguments.
Local Open Scope string_scope.
Local Open Scope list_scope.

Definition all {A} (f : A -> bool) (l : list A) : Prop := forall a, In a l -> f a = true.

(** ** Data schemas *)

Inductive schema_choice :=
| CTuple | CVec | CBoolean | CNumber | CInteger | CObject | CString | CNull | CConstant | CEnum | CUnion.

Section Schemas.
  Variables DS AS OS : Type.
  Notation dsop := (dsop DS AS OS).

  (** Calls that are possible at any point *)
  Definition plain (o : dsop) : bool :=
    match o with DInfo _ | DUnit _ | DFormat _ | DDefault _ => true | _ => false end.

  (** Calls that say what kind of schema it is *)
  Definition chooses (o : dsop) : option schema_choice :=
    match o with
    | DTuple _ => Some CTuple | DVec _ => Some CVec | DBool => Some CBoolean | DNumber => Some CNumber
    | DInteger => Some CInteger | DObject _ => Some CObject | DString => Some CString | DNull => Some CNull
    | DConstant _ => Some CConstant | DEnum _ => Some CEnum | DOneOf _ => Some CUnion
    | _ => None
    end.

  (** Calls of one kind of schema *)
  Definition belongs (k : schema_choice) (o : dsop) : bool :=
    match k, o with
    | CTuple, DAppend _ => true
    | CVec, (DSetItem _ | DMinItems _ | DMaxItems _) => true
    | CNumber, (DNumMin _ | DNumMax _ | DNumMult _) => true
    | CInteger, (DIntMin _ | DIntMax _ | DIntMult _) => true
    | CObject, DProperty _ _ _ => true
    | CString, (DMinLength _ | DMaxLength _ | DPattern _ | DEncoding _ | DMedia _) => true
    | CEnum, DEnum _ => true
    | CUnion, DOneOf _ => true
    | _, _ => false
    end.

  Definition marks (o : dsop) : bool := match o with DReadOnly | DWriteOnly => true | _ => false end.

  (** Neither constants (read-only already) nor unions can be marked. *)
  Definition markable (k : schema_choice) : bool := match k with CConstant | CUnion => false | _ => true end.

  Definition setter (k : schema_choice) (o : dsop) : bool := plain o || belongs k o.

  (** Once marked, a string schema has no calls of its own any more. *)
  Definition late_setter (k : schema_choice) (o : dsop) : bool :=
    plain o || (belongs k o && match k with CString => false | _ => true end).

  (** The extension is completed, a kind is chosen, and perhaps it is marked. *)
  Inductive schema_shape : list dsop -> Prop :=
  | sh_bare pre x mid c k post :
      all plain pre -> all plain mid -> chooses c = Some k -> all (setter k) post ->
      schema_shape (pre ++ DFinish x :: mid ++ c :: post)
  | sh_marked pre x mid c k post m late :
      all plain pre -> all plain mid -> chooses c = Some k -> all (setter k) post ->
      markable k = true -> marks m = true -> all (late_setter k) late ->
      schema_shape (pre ++ DFinish x :: mid ++ c :: post ++ m :: late).

  Definition closure (o : dsop) : option (list dsop) :=
    match o with DOneOf p | DAppend p | DSetItem p | DProperty _ _ p => Some p | _ => None end.

  Inductive schema_chain (p : list dsop) : Prop :=
  | sc_chain : schema_shape p -> (forall o q, In o p -> closure o = Some q -> schema_chain q) -> schema_chain p.
End Schemas.

(** ** Links and security schemes *)

Definition is_href (o : link_op) : bool := match o with LHref _ => true | _ => false end.

(** [href] is given exactly once. *)
Definition link_chain (p : list link_op) : Prop := exists s, filter is_href p = [LHref s].

Inductive scheme_choice := ENoSec | EAuto | EBasic | EDigest | EBearer | EPsk | EOAuth2 | EApiKey | ECustom.

Definition sec_common (o : sec_op) : bool :=
  match o with
  | SAttype _ | SDescription _ | SDescriptions _ | SProxy _ | SWithKey _ | SRequired => true
  | _ => false
  end.

Definition sec_chooses (o : sec_op) : option scheme_choice :=
  match o with
  | SNoSec => Some ENoSec | SAuto => Some EAuto | SBasic => Some EBasic | SDigest => Some EDigest
  | SBearer => Some EBearer | SPsk => Some EPsk | SOAuth2 _ => Some EOAuth2 | SApiKey => Some EApiKey
  | SCustom _ => Some ECustom
  | _ => None
  end.

Definition sec_belongs (k : scheme_choice) (o : sec_op) : bool :=
  match k, o with
  | (EBasic | EApiKey), (SName _ | SLocation _) => true
  | EDigest, (SName _ | SLocation _ | SQop _) => true
  | EBearer, (SName _ | SLocation _ | SAuthorization _ | SAlg _ | SFormat _) => true
  | EOAuth2, (SAuthorization _ | SToken _ | SRefresh _ | SScope _) => true
  | ECustom, SData _ => true
  | _, _ => false
  end.

Definition combo_choice (o : sec_op) : bool := match o with SAllOf _ | SOneOf _ => true | _ => false end.
Definition combo_name (o : sec_op) : bool := match o with SName _ => true | _ => false end.
Definition combo_grows (o : sec_op) : bool := match o with SExtend _ | SPush _ => true | _ => false end.

Inductive security_chain : list sec_op -> Prop :=
| se_scheme pre c k post :
    all sec_common pre -> sec_chooses c = Some k -> all (fun o => sec_common o || sec_belongs k o) post ->
    security_chain (pre ++ c :: post)
| se_combo pre mid c post :
    all sec_common pre -> all (fun o => sec_common o || combo_name o) mid -> combo_choice c = true ->
    all (fun o => sec_common o || combo_name o || combo_grows o) post ->
    security_chain (pre ++ SCombo :: mid ++ c :: post).

(** ** Forms, affordances, Things *)

Section Things.
  Variable E : env.
  Variable X : exts.

  Definition is_form_href (o : fop X) : bool := match o with FHref _ => true | _ => false end.

  Definition form_chain (p : list (fop X)) : Prop := exists s, filter is_form_href p = [FHref s].

  Definition interaction_fits (o : ia_op X) : Prop :=
    match o with IForm _ p => form_chain p | IUri _ p => schema_chain p end.

  Definition schema_calls (p : list (pop X)) := flat_map (fun o => match o with PDs o => [o] | _ => [] end) p.

  (** The calls on schemas form a chain.  Those of string schemas are missing from property builders. *)
  Definition property_chain (p : list (pop X)) : Prop :=
    schema_chain (schema_calls p)
    /\ (forall o, In (PDs o) p -> belongs CString o = false)
    /\ (forall o, In (PIa o) p -> interaction_fits o).

  Definition action_fits (o : aop X) : Prop :=
    match o with
    | AIa o => interaction_fits o
    | AInput p | AOutput p => schema_chain p
    | _ => True
    end.

  Definition event_fits (o : eop X) : Prop :=
    match o with
    | EIa o => interaction_fits o
    | ESubscription p | EData p | EDataResponse p | ECancellation p => schema_chain p
    | _ => True
    end.

  (** Calls that need a completed extension *)
  Definition needs_finish (o : top E X) : bool :=
    match o with
    | TForm _ _ | TUri _ _ | TProperty _ _ _ _ | TAction _ _ _ _ | TEvent _ _ _ _ | TSchema _ _ => true
    | _ => false
    end.

  Definition finishes (o : top E X) : bool := match o with TFinish => true | _ => false end.

  Definition call_fits (o : top E X) : Prop :=
    match o with
    | TLinkWith p => link_chain p
    | TSecurity p => security_chain p
    | TForm _ p => form_chain p
    | TUri _ p | TSchema _ p => schema_chain p
    | TProperty _ _ _ p => property_chain p
    | TAction _ _ _ p => forall o, In o p -> action_fits o
    | TEvent _ _ _ p => forall o, In o p -> event_fits o
    | _ => True
    end.

  (** The extension is completed at most once.  Everything that needs it comes after that. *)
  Definition finished_once (p : list (top E X)) : Prop :=
    all (fun o => negb (finishes o) && negb (needs_finish o)) p
    \/ exists pre post,
        p = pre ++ TFinish :: post
        /\ all (fun o => negb (finishes o) && negb (needs_finish o)) pre
        /\ all (fun o => negb (finishes o)) post.

  Definition thing_chain (p : list (top E X)) : Prop :=
    finished_once p /\ forall o, In o p -> call_fits o.
End Things.
