(** * Vocabulary of the property statements: schemas, tags, bounds

    Small definitions that do not refer to builders, checks or conversions.
    They say where things occur in a description and when a bound is sensible. *)

From Coq Require Import String Bool ZArith List.
From Coq Require Import Floats.SpecFloat.
From Verif Require Import Base MinMax Json Serde Types.
Import ListNotations.
Set Implicit Arguments.
Local Open Scope string_scope.
Local Open Scope list_scope.

(** ** Occurrence of data schemas *)

Section Occurs.
  Variables DS AS OS : Type.
  Notation ds := (ds DS AS OS).

  (** [sub_ds e d]: the schema [e] is [d] or is nested in [d], at any depth,
      through [oneOf], [items] (one schema or several) or [properties]. *)
  Inductive sub_ds (e : ds) : ds -> Prop :=
  | sub_self : sub_ds e e
  | sub_one_of d l c : ds_one_of d = Some l -> In c l -> sub_ds e c -> sub_ds e d
  | sub_item d c mn mx o :
      ds_sub d = Some (SArray (Some (BElem c)) mn mx o) -> sub_ds e c -> sub_ds e d
  | sub_items d l c mn mx o :
      ds_sub d = Some (SArray (Some (BVec l)) mn mx o) -> In c l -> sub_ds e c -> sub_ds e d
  | sub_prop d ps k c r o :
      ds_sub d = Some (SObject (Some ps) r o) -> In (k, c) ps -> sub_ds e c -> sub_ds e d.

  (** ** Language tags *)

  (** A language map ([titles] or [descriptions]). *)
  Definition info_map (i : info) (m : multilang) : Prop :=
    i_titles i = Some m \/ i_descriptions i = Some m.

  (** .. of the schema or of any schema in it. *)
  Definition ds_map (d : ds) (m : multilang) : Prop :=
    exists e, sub_ds e d /\ info_map (ds_info e) m.

  (** The string is used as a language tag in it. *)
  Definition info_tag (i : info) (s : string) : Prop := exists m, info_map i m /\ In s (mkeys m).
  Definition ds_tag (d : ds) (s : string) : Prop := exists m, ds_map d m /\ In s (mkeys m).

  Definition is_aggregate (d : ds) : Prop :=
    (exists i mn mx o, ds_sub d = Some (SArray i mn mx o))
    \/ (exists p r o, ds_sub d = Some (SObject p r o)).

  (** How many of type, constant, enumeration and alternatives a schema has. *)
  Definition present {A} (o : option A) : nat := match o with Some _ => 1 | None => 0 end.
  Definition specializations (d : ds) : nat :=
    present (ds_sub d) + present (m_const (ds_misc d)) + present (m_enum (ds_misc d))
    + present (ds_one_of d).

  (** In an object schema, every required member is a declared member. *)
  Definition required_declared (d : ds) : Prop :=
    forall ps req o k, ds_sub d = Some (SObject ps (Some req) o) -> In k req ->
      exists m c, ps = Some m /\ In (k, c) m.
End Occurs.

(** ** Bounds *)

(** The number in a bound. *)
Definition min_val {T} (m : minimum T) : T := match m with MinIncl x | MinExcl x => x end.
Definition max_val {T} (m : maximum T) : T := match m with MaxIncl x | MaxExcl x => x end.

Definition is_nan (x : f64) : Prop := x = S754_nan.

(** [x <= y] on floats: both are numbers and [x] is not above [y]. *)
Definition fle (x y : f64) : Prop := SFcompare x y = Some Lt \/ SFcompare x y = Some Eq.

(** Both bounds include or both exclude their limit. *)
Definition same_kind {T} (a : minimum T) (b : maximum T) : Prop :=
  match a, b with
  | MinIncl _, MaxIncl _ | MinExcl _, MaxExcl _ => True
  | _, _ => False
  end.

Section Bounds.
  Variables DS AS OS : Type.
  Notation ds := (ds DS AS OS).
  Notation dsub := (dsub DS AS OS).

  (** No bound is NaN, minimum does not exceed maximum, minItems does not exceed
      maxItems, multipleOf is neither zero nor negative. *)
  Definition sane_bounds (s : dsub) : Prop :=
    match s with
    | SArray _ mn mx _ => forall a b, mn = Some a -> mx = Some b -> (a <= b)%Z
    | SNumber n =>
        (forall a, n_min n = Some a -> ~ is_nan (min_val a))
        /\ (forall b, n_max n = Some b -> ~ is_nan (max_val b))
        /\ (forall a b, n_min n = Some a -> n_max n = Some b -> fle (min_val a) (max_val b))
        /\ (forall x, n_mult n = Some x -> ~ fle x (S754_zero false))
    | SInteger n =>
        forall a b, z_min n = Some a -> z_max n = Some b -> (min_val a <= max_val b)%Z
    | _ => True
    end.

  (** [sane_bounds], and a minimum and a maximum given together are both inclusive
      or both exclusive. *)
  Definition accepted_bounds (s : dsub) : Prop :=
    sane_bounds s
    /\ match s with
       | SNumber n => forall a b, n_min n = Some a -> n_max n = Some b -> same_kind a b
       | SInteger n => forall a b, z_min n = Some a -> z_max n = Some b -> same_kind a b
       | _ => True
       end.

  (** Every schema in [d] has accepted (sane) bounds. *)
  Definition all_accepted (d : ds) : Prop :=
    forall e s, sub_ds e d -> ds_sub e = Some s -> accepted_bounds s.

  Definition all_sane (d : ds) : Prop :=
    forall e s, sub_ds e d -> ds_sub e = Some s -> sane_bounds s.
End Bounds.
