(** * Vocabulary of the property statements: numbers and what bounds admit *)

From Coq Require Import ZArith QArith Bool Floats.SpecFloat.
From Verif Require Import MinMax Spec.
Set Implicit Arguments.
Local Open Scope Q_scope.

(** The number a finite float stands for: sign * mantissa * 2 ^ exponent. *)
Definition fval (x : f64) : option Q :=
  match x with
  | S754_zero _ => Some 0
  | S754_finite s m e => Some (inject_Z (if s then Zneg m else Zpos m) * (2 # 1) ^ e)
  | _ => None
  end.

(** [x <= q] and [x < q], for a float and a number. *)
Definition f_le_q (x : f64) (q : Q) : Prop :=
  match fval x with Some v => v <= q | None => x = S754_infinity true end.
Definition f_lt_q (x : f64) (q : Q) : Prop :=
  match fval x with Some v => v < q | None => x = S754_infinity true end.
(** [q <= x] and [q < x]. *)
Definition q_le_f (q : Q) (x : f64) : Prop :=
  match fval x with Some v => q <= v | None => x = S754_infinity false end.
Definition q_lt_f (q : Q) (x : f64) : Prop :=
  match fval x with Some v => q < v | None => x = S754_infinity false end.

(** The numbers a bound admits. *)
Definition min_admits (a : minimum f64) (q : Q) : Prop :=
  match a with MinIncl x => f_le_q x q | MinExcl x => f_lt_q x q end.
Definition max_admits (b : maximum f64) (q : Q) : Prop :=
  match b with MaxIncl x => q_le_f q x | MaxExcl x => q_lt_f q x end.

(** The integers a bound admits. *)
Definition zmin_admits (a : minimum Z) (n : Z) : Prop :=
  match a with MinIncl x => (x <= n)%Z | MinExcl x => (x < n)%Z end.
Definition zmax_admits (b : maximum Z) (n : Z) : Prop :=
  match b with MaxIncl x => (n <= x)%Z | MaxExcl x => (n < x)%Z end.

(** The floats a bound admits, in the order of the type. *)
Section Admits.
  Variable T : Type.
  Variable cmp : T -> T -> option comparison.
  Definition le_of (x y : T) : Prop := cmp x y = Some Lt \/ cmp x y = Some Eq.
  Definition lt_of (x y : T) : Prop := cmp x y = Some Lt.
  Definition min_allows (a : minimum T) (x : T) : Prop :=
    match a with MinIncl v => le_of v x | MinExcl v => lt_of v x end.
  Definition max_allows (b : maximum T) (x : T) : Prop :=
    match b with MaxIncl v => le_of x v | MaxExcl v => lt_of x v end.
End Admits.

(** [cmp] (partial_cmp) and [eqb] (==) form a lawful partial order: [cmp] is dual,
    agrees with [eqb], is reflexive on what is comparable at all, transitive and
    antisymmetric. *)
Record lawful A (cmp : A -> A -> option comparison) (eqb : A -> A -> bool) : Prop := {
  law_dual : forall a b, cmp b a = option_map CompOpp (cmp a b);
  law_eq : forall a b, eqb a b = true <-> cmp a b = Some Eq;
  law_le_trans : forall a b c, le_of cmp a b -> le_of cmp b c -> le_of cmp a c;
  law_lt_le : forall a b c, lt_of cmp a b -> le_of cmp b c -> lt_of cmp a c;
  law_le_lt : forall a b c, le_of cmp a b -> lt_of cmp b c -> lt_of cmp a c;
  law_refl : forall a b, cmp a b <> None -> cmp a a = Some Eq;
  law_antisym : forall a b, le_of cmp a b -> le_of cmp b a -> eqb a b = true;
}.

(** Comparing a minimum with a maximum: the other direction is the reverse, [==]
    both ways is [Equal], bounds of one kind compare as their values; an inclusive
    and an exclusive bound are never [Less], and [Greater] when the maximum is at
    most the minimum. *)
Definition cross_lawful T (cmp : T -> T -> option comparison) (eqb : T -> T -> bool) : Prop :=
  forall a b,
    maxmin_cmp cmp b a = option_map CompOpp (minmax_cmp cmp a b)
    /\ maxmin_eqb eqb b a = minmax_eqb eqb a b
    /\ (minmax_eqb eqb a b = true <-> minmax_cmp cmp a b = Some Eq)
    /\ (same_kind a b -> minmax_cmp cmp a b = cmp (min_val a) (max_val b)
                         /\ maxmin_cmp cmp b a = cmp (max_val b) (min_val a))
    /\ (~ same_kind a b ->
        (minmax_cmp cmp a b = Some Gt <-> le_of cmp (max_val b) (min_val a))
        /\ minmax_cmp cmp a b <> Some Lt).
