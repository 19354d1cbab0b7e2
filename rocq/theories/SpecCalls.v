(** * Vocabulary of the property statements: what a list of calls declares

    [picks f p] lists what the calls of [p] selected by [f] were given, in call
    order; [lasto] is the last of them. The definitions below relate a program (a
    list of calls) to a value member by member, without reference to builder
    states. *)

From Coq Require Import String Bool ZArith List.
From Verif Require Import Base MinMax Json Serde Types DsBuilder Spec.
Import ListNotations.
Set Implicit Arguments.
Local Open Scope string_scope.
Local Open Scope list_scope.

Definition picks {O B} (f : O -> option B) (p : list O) : list B := flat_map (fun o => otolist (f o)) p.

Definition some_call {O} (f : O -> bool) (p : list O) : bool := existsb f p.

(** ** Human readable information *)

Definition c_attype o := match o with IAttype s => Some s | _ => None end.
Definition c_title o := match o with ITitle s => Some s | _ => None end.
Definition c_titles o := match o with ITitles l => Some l | _ => None end.
Definition c_description o := match o with IDescription s => Some s | _ => None end.
Definition c_descriptions o := match o with IDescriptions l => Some l | _ => None end.

(** [tg]: how a language tag is recorded ([Some]: as given; or as some parser
    returns it). A language map holds, under the recorded tags, the last text given
    for each tag, and nothing else.  If several tags are recorded as the same tag,
    one of their texts is kept. *)
Record ml_declared (tg : string -> option string) (adds : list (string * string)) (m : multilang)
  : Prop := {
  md_sorted : msorted m;
  md_kept : forall k v, llook k adds = Some v -> exists k', tg k = Some k' /\ In k' (mkeys m);
  md_only : forall k' v, In (k', v) m -> exists k, tg k = Some k' /\ llook k adds = Some v;
}.

(** Both absent, or both present and related. *)
Inductive omatch {A B} (R : A -> B -> Prop) : option A -> option B -> Prop :=
| om_none : omatch R None None
| om_some a b : R a b -> omatch R (Some a) (Some b).

Record info_declared (tg : string -> option string) (p : list info_op) (i : info) : Prop := {
  id_attype : i_attype i = nonempty (picks c_attype p);
  id_title : i_title i = lasto (picks c_title p);
  id_titles : omatch (ml_declared tg) (lasto (picks c_titles p)) (i_titles i);
  id_description : i_description i = lasto (picks c_description p);
  id_descriptions : omatch (ml_declared tg) (lasto (picks c_descriptions p)) (i_descriptions i);
}.

(** ** Data schemas *)

Inductive dtype := TyArray | TyBoolean | TyNumber | TyInteger | TyObject | TyString | TyNull.

Section Sub.
  Variables DS AS OS : Type.
  Notation ds := (ds DS AS OS).
  Notation dsub := (dsub DS AS OS).
  Notation dsop := (dsop DS AS OS).

  (** Members of the type specific part of a schema. *)
  Definition sub_type (s : option dsub) : option dtype :=
    match s with
    | Some (SArray _ _ _ _) => Some TyArray
    | Some SBoolean => Some TyBoolean
    | Some (SNumber _) => Some TyNumber
    | Some (SInteger _) => Some TyInteger
    | Some (SObject _ _ _) => Some TyObject
    | Some (SString _) => Some TyString
    | Some SNull => Some TyNull
    | None => None
    end.
  Definition sub_tuple (s : option dsub) : list ds :=
    match s with Some (SArray (Some (BVec l)) _ _ _) => l | _ => [] end.
  Definition sub_is_tuple (s : option dsub) : bool :=
    match s with Some (SArray (Some (BVec _)) _ _ _) => true | _ => false end.
  Definition sub_elem (s : option dsub) : option ds :=
    match s with Some (SArray (Some (BElem d)) _ _ _) => Some d | _ => None end.
  Definition sub_min_items (s : option dsub) := match s with Some (SArray _ m _ _) => m | _ => None end.
  Definition sub_max_items (s : option dsub) := match s with Some (SArray _ _ m _) => m | _ => None end.
  Definition sub_as (s : option dsub) := match s with Some (SArray _ _ _ o) => Some o | _ => None end.
  Definition sub_nmin (s : option dsub) := match s with Some (SNumber n) => n_min n | _ => None end.
  Definition sub_nmax (s : option dsub) := match s with Some (SNumber n) => n_max n | _ => None end.
  Definition sub_nmult (s : option dsub) := match s with Some (SNumber n) => n_mult n | _ => None end.
  Definition sub_zmin (s : option dsub) := match s with Some (SInteger n) => z_min n | _ => None end.
  Definition sub_zmax (s : option dsub) := match s with Some (SInteger n) => z_max n | _ => None end.
  Definition sub_zmult (s : option dsub) := match s with Some (SInteger n) => z_mult n | _ => None end.
  Definition sub_props (s : option dsub) : amap ds :=
    match s with Some (SObject (Some m) _ _) => m | _ => [] end.
  Definition sub_has_props (s : option dsub) : bool :=
    match s with Some (SObject (Some _) _ _) => true | _ => false end.
  Definition sub_required (s : option dsub) : option (list string) :=
    match s with Some (SObject _ r _) => r | _ => None end.
  Definition sub_os (s : option dsub) := match s with Some (SObject _ _ o) => Some o | _ => None end.
  Definition sub_smin (s : option dsub) := match s with Some (SString t) => s_min t | _ => None end.
  Definition sub_smax (s : option dsub) := match s with Some (SString t) => s_max t | _ => None end.
  Definition sub_pattern (s : option dsub) := match s with Some (SString t) => s_pattern t | _ => None end.
  Definition sub_encoding (s : option dsub) := match s with Some (SString t) => s_encoding t | _ => None end.
  Definition sub_media (s : option dsub) := match s with Some (SString t) => s_media t | _ => None end.

  (** Which calls give which member. *)
  Definition d_info (o : dsop) := match o with DInfo i => Some i | _ => None end.
  Definition d_unit (o : dsop) := match o with DUnit v => Some v | _ => None end.
  Definition d_format (o : dsop) := match o with DFormat v => Some v | _ => None end.
  Definition d_default (o : dsop) := match o with DDefault v => Some v | _ => None end.
  Definition d_constant (o : dsop) := match o with DConstant v => Some v | _ => None end.
  Definition d_enum (o : dsop) := match o with DEnum v => Some v | _ => None end.
  Definition d_one_of (o : dsop) := match o with DOneOf q => Some q | _ => None end.
  Definition d_finish (o : dsop) := match o with DFinish x => Some x | _ => None end.
  Definition d_type (o : dsop) :=
    match o with
    | DTuple _ | DVec _ => Some TyArray
    | DBool => Some TyBoolean
    | DNumber => Some TyNumber
    | DInteger => Some TyInteger
    | DObject _ => Some TyObject
    | DString => Some TyString
    | DNull => Some TyNull
    | _ => None
    end.
  Definition d_array (o : dsop) := match o with DTuple x | DVec x => Some x | _ => None end.
  Definition d_object (o : dsop) := match o with DObject x => Some x | _ => None end.
  Definition is_tuple (o : dsop) : bool := match o with DTuple _ => true | _ => false end.
  Definition is_property (o : dsop) : bool := match o with DProperty _ _ _ => true | _ => false end.
  Definition d_append (o : dsop) := match o with DAppend q => Some q | _ => None end.
  Definition d_set_item (o : dsop) := match o with DSetItem q => Some q | _ => None end.
  Definition d_min_items (o : dsop) := match o with DMinItems n => Some n | _ => None end.
  Definition d_max_items (o : dsop) := match o with DMaxItems n => Some n | _ => None end.
  Definition d_nmin (o : dsop) := match o with DNumMin n => Some n | _ => None end.
  Definition d_nmax (o : dsop) := match o with DNumMax n => Some n | _ => None end.
  Definition d_nmult (o : dsop) := match o with DNumMult n => Some n | _ => None end.
  Definition d_zmin (o : dsop) := match o with DIntMin n => Some n | _ => None end.
  Definition d_zmax (o : dsop) := match o with DIntMax n => Some n | _ => None end.
  Definition d_zmult (o : dsop) := match o with DIntMult n => Some n | _ => None end.
  Definition d_property (o : dsop) := match o with DProperty n _ q => Some (n, q) | _ => None end.
  Definition d_required (o : dsop) := match o with DProperty n true _ => Some n | _ => None end.
  Definition d_smin (o : dsop) := match o with DMinLength n => Some n | _ => None end.
  Definition d_smax (o : dsop) := match o with DMaxLength n => Some n | _ => None end.
  Definition d_pattern (o : dsop) := match o with DPattern v => Some v | _ => None end.
  Definition d_encoding (o : dsop) := match o with DEncoding v => Some v | _ => None end.
  Definition d_media (o : dsop) := match o with DMedia v => Some v | _ => None end.
  Definition is_read_only (o : dsop) : bool := match o with DReadOnly | DConstant _ => true | _ => false end.
  Definition is_write_only (o : dsop) : bool := match o with DWriteOnly => true | _ => false end.

  Variable tg : string -> option string.

  Section Declared.
  (** [gives q c]: the closure [q] gives the schema [c]. *)
  Variable gives : list dsop -> ds -> Prop.

  (** Everything the calls [p] declared is in the schema, and nothing else. *)
  Record sub_declared (p : list dsop) (s : option dsub) : Prop := {
    sd_type : sub_type s = lasto (picks d_type p);
    sd_as : sub_as s = lasto (picks d_array p);
    sd_os : sub_os s = lasto (picks d_object p);
    sd_is_tuple : sub_is_tuple s = some_call is_tuple p;
    sd_tuple : Forall2 gives (picks d_append p) (sub_tuple s);
    sd_elem : omatch gives (lasto (picks d_set_item p)) (sub_elem s);
    sd_min_items : sub_min_items s = lasto (picks d_min_items p);
    sd_max_items : sub_max_items s = lasto (picks d_max_items p);
    sd_nmin : sub_nmin s = lasto (picks d_nmin p);
    sd_nmax : sub_nmax s = lasto (picks d_nmax p);
    sd_nmult : sub_nmult s = lasto (picks d_nmult p);
    sd_zmin : sub_zmin s = lasto (picks d_zmin p);
    sd_zmax : sub_zmax s = lasto (picks d_zmax p);
    sd_zmult : sub_zmult s = lasto (picks d_zmult p);
    sd_has_props : sub_has_props s = some_call is_property p;
    sd_props : msorted (sub_props s)
               /\ forall k, omatch gives (llook k (picks d_property p)) (mlook k (sub_props s));
    sd_required : sub_required s = nonempty (picks d_required p);
    sd_smin : sub_smin s = lasto (picks d_smin p);
    sd_smax : sub_smax s = lasto (picks d_smax p);
    sd_pattern : sub_pattern s = lasto (picks d_pattern p);
    sd_encoding : sub_encoding s = lasto (picks d_encoding p);
    sd_media : sub_media s = lasto (picks d_media p);
  }.

  Record ds_declared (p : list dsop) (d : ds) : Prop := {
    dd_info : info_declared tg (picks d_info p) (ds_info d);
    dd_const : m_const (ds_misc d) = lasto (picks d_constant p);
    dd_default : m_default (ds_misc d) = lasto (picks d_default p);
    dd_unit : m_unit (ds_misc d) = lasto (picks d_unit p);
    dd_format : m_format (ds_misc d) = lasto (picks d_format p);
    dd_enum : m_enum (ds_misc d) = nonempty (picks d_enum p);
    dd_one_of : exists cs, Forall2 gives (picks d_one_of p) cs /\ ds_one_of d = nonempty cs;
    dd_ro : m_ro (ds_misc d) = some_call is_read_only p;
    dd_wo : m_wo (ds_misc d) = some_call is_write_only p;
    dd_other : picks d_finish p = [ds_other d];
    dd_sub : sub_declared p (ds_sub d);
  }.
  End Declared.

  (** [ds_says p d]: the schema [d] holds exactly what the calls [p] declare, and so
      do, at every depth, the schemas declared by the closures in [p]. *)
  Inductive ds_says (p : list dsop) (d : ds) : Prop :=
  | says_ds : ds_declared ds_says p d -> ds_says p d.
End Sub.
