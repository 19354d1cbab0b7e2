(** * Numeric bounds and their comparison operators (src/thing.rs 828-993) *)

From Coq Require Import ZArith Bool Floats.SpecFloat.
Set Implicit Arguments.

(** ** Numbers

    [f64] is [spec_float]: signed zeros, infinities, NaN and (sign, mantissa,
    exponent) triples; the triples that are actual [f64] values are those
    satisfying [f64_ok].  Simplification: NaN payloads are not distinguished. *)

Definition f64 := spec_float.

(** Format of IEEE 754 binary64 (Rust [f64]): precision and maximal exponent. *)
Definition f64_prec : Z := 53.
(** Maximal exponent of [f64], src/thing.rs 993. *)
Definition f64_emax : Z := 1024.

(** Valid encodings of the binary64 format. *)
Definition f64_ok (x : f64) : bool := valid_binary f64_prec f64_emax x.

(** [f64::partial_cmp] *)
Definition f64_cmp (x y : f64) : option comparison := SFcompare x y.

(** [f64::eq] *)
Definition f64_eqb (x y : f64) : bool := SFeqb x y.

(** [f64::is_nan] *)
Definition f64_is_nan (x : f64) : bool :=
  match x with S754_nan => true | _ => false end.

(** [f64::is_finite] *)
Definition f64_finite (x : f64) : bool :=
  match x with S754_zero _ => true | S754_finite _ _ _ => true | _ => false end.

(** [x <= 0.] on [f64] (false on NaN) *)
Definition f64_le0 (x : f64) : bool := SFleb x (S754_zero false).

(** [n as f64], round to nearest even *)
Definition f64_of_Z (n : Z) : f64 := binary_normalize f64_prec f64_emax n 0 false.

(** [i64::partial_cmp] *)
Definition i64_cmp (x y : Z) : option comparison := Some (Z.compare x y).

(** ** Bounds *)

(** src/thing.rs 842-851, [enum Maximum<T>] *)
Inductive maximum (T : Type) :=
| MaxIncl (x : T)
| MaxExcl (x : T).
Arguments MaxIncl {T} x.
Arguments MaxExcl {T} x.

(** src/thing.rs 854-863, [enum Minimum<T>] *)
Inductive minimum (T : Type) :=
| MinIncl (x : T)
| MinExcl (x : T).
Arguments MinIncl {T} x.
Arguments MinExcl {T} x.

Section Cmp.
  Variable T : Type.
  (** [T: PartialOrd] and [T: PartialEq] *)
  Variable cmp : T -> T -> option comparison.
  Variable eqb : T -> T -> bool.

  (** src/thing.rs 865-888, [PartialOrd for Minimum<T>] *)
  Definition min_cmp (x y : minimum T) : option comparison :=
    match x, y with
    | MinIncl a, MinIncl b | MinExcl a, MinExcl b => cmp a b
    | MinIncl a, MinExcl b =>
        match cmp a b with
        | Some Lt | Some Eq => Some Lt
        | Some Gt => None
        | None => None
        end
    | MinExcl a, MinIncl b =>
        match cmp a b with
        | Some Lt => None
        | Some Eq | Some Gt => Some Gt
        | None => None
        end
    end.

  (** src/thing.rs 890-915, [PartialOrd for Maximum<T>] *)
  Definition max_cmp (x y : maximum T) : option comparison :=
    match x, y with
    | MaxIncl a, MaxIncl b | MaxExcl a, MaxExcl b => cmp a b
    | MaxIncl a, MaxExcl b =>
        match cmp a b with
        | Some Lt => None
        | Some Eq | Some Gt => Some Gt
        | None => None
        end
    | MaxExcl a, MaxIncl b =>
        match cmp a b with
        | Some Lt | Some Eq => Some Lt
        | Some Gt => None
        | None => None
        end
    end.

  (** derived [PartialEq for Minimum<T>], src/thing.rs 853 *)
  Definition min_eqb (x y : minimum T) : bool :=
    match x, y with
    | MinIncl a, MinIncl b | MinExcl a, MinExcl b => eqb a b
    | _, _ => false
    end.

  (** derived [PartialEq for Maximum<T>], src/thing.rs 841 *)
  Definition max_eqb (x y : maximum T) : bool :=
    match x, y with
    | MaxIncl a, MaxIncl b | MaxExcl a, MaxExcl b => eqb a b
    | _, _ => false
    end.

  (** src/thing.rs 917-929, [PartialEq<Maximum<T>> for Minimum<T>] *)
  Definition minmax_eqb (x : minimum T) (y : maximum T) : bool :=
    match x, y with
    | MinIncl a, MaxIncl b | MinExcl a, MaxExcl b => eqb a b
    | _, _ => false
    end.

  (** src/thing.rs 931-939, [PartialEq<Minimum<T>> for Maximum<T>] *)
  Definition maxmin_eqb (x : maximum T) (y : minimum T) : bool := minmax_eqb y x.

  (** src/thing.rs 941-960, [PartialOrd<Maximum<T>> for Minimum<T>] *)
  Definition minmax_cmp (x : minimum T) (y : maximum T) : option comparison :=
    match x, y with
    | MinIncl a, MaxIncl b | MinExcl a, MaxExcl b => cmp a b
    | MinExcl a, MaxIncl b | MinIncl a, MaxExcl b =>
        match cmp a b with
        | Some Lt => None
        | Some Eq | Some Gt => Some Gt
        | None => None
        end
    end.

  (** src/thing.rs 962-970, [PartialOrd<Minimum<T>> for Maximum<T>];
      [CompOpp] is [Ordering::reverse] *)
  Definition maxmin_cmp (x : maximum T) (y : minimum T) : option comparison :=
    option_map CompOpp (minmax_cmp y x).
End Cmp.

(** src/thing.rs 972-993, [Minimum::<f64>::is_nan] *)
Definition min_is_nan (m : minimum f64) : bool :=
  match m with MinIncl x | MinExcl x => f64_is_nan x end.

(** src/thing.rs 972-993, [Maximum::<f64>::is_nan] *)
Definition max_is_nan (m : maximum f64) : bool :=
  match m with MaxIncl x | MaxExcl x => f64_is_nan x end.
