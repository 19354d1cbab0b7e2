(** * What the data schema builder guarantees, and numeric bounds (C21 - C28, C50)

    [dbuild p]: the schema given by the calls [p] on an empty data schema builder;
    [None]: the calls do not type check in Rust.  [sub_ds e d]: [e] is [d] or is
    nested in it at any depth. *)

From Coq Require Import String Bool ZArith QArith Floats.SpecFloat List.
From Verif Require Import Base MinMax Json Serde Types DsBuilder Builder Spec SpecNum SpecCalls SpecThing SpecArgs SpecEqual SpecRead SpecGiven
  DsProgFacts NumFacts SchemaFacts BoundFacts HList Protocol Samples SampleFacts DsExamples
  GivenFacts.
Import ListNotations.
Set Implicit Arguments.
Local Open Scope string_scope.
Local Open Scope list_scope.

(** The example schema builds. *)
Example lamp_schema_builds : dbuild lamp_schema = Some the_schema.
Proof. exact the_schema_built. Qed.

(** ** C21 *)
Theorem C21_not_read_and_write_only :
  forall DS AS OS (p : list (dsop DS AS OS)) d,
    dbuild p = Some d ->
    forall e, sub_ds e d -> ~ (m_ro (ds_misc e) = true /\ m_wo (ds_misc e) = true).
Proof. exact built_rw. Qed.
Print Assumptions C21_not_read_and_write_only.

Theorem C21_flags_set :
  forall DS AS OS (p : list (dsop DS AS OS)) d,
    dbuild p = Some d ->
    (In DReadOnly p -> m_ro (ds_misc d) = true) /\ (In DWriteOnly p -> m_wo (ds_misc d) = true).
Proof. exact built_flags. Qed.
Print Assumptions C21_flags_set.

(** In every schema of a built Thing. *)
Theorem C21_in_things :
  forall E X ord title x p (t : thing E X),
    order_ok ord -> thing_program ord title x p = Some (Ok t) ->
    forall d e, schema_in (thing_body t) d -> sub_ds e d ->
      ~ (m_ro (ds_misc e) = true /\ m_wo (ds_misc e) = true).
Proof. exact things_rw. Qed.
Print Assumptions C21_in_things.

Example C21_used :
  (exists d, dbuild ([DFinish tt; DBool; DReadOnly] : list (dsop unit unit unit)) = Some d
             /\ m_ro (ds_misc d) = true /\ m_wo (ds_misc d) = false)
  /\ (exists d, dbuild ([DFinish tt; DBool; DWriteOnly] : list (dsop unit unit unit)) = Some d
                /\ m_ro (ds_misc d) = false /\ m_wo (ds_misc d) = true)
  /\ dbuild ([DFinish tt; DBool; DWriteOnly; DReadOnly] : list (dsop unit unit unit)) = None
  /\ (exists e, sub_ds e the_schema /\ e <> the_schema /\ m_ro (ds_misc e) = true)
  /\ (exists d e, schema_in (thing_body the_lamp) d /\ sub_ds e d /\ m_ro (ds_misc e) = true).
Proof. exact flags_used. Qed.

(** ** C22 *)
Theorem C22_one_specialization :
  forall DS AS OS (p : list (dsop DS AS OS)) d,
    dbuild p = Some d -> forall e, sub_ds e d -> specializations e = 1%nat.
Proof. exact built_specialized. Qed.
Print Assumptions C22_one_specialization.

Theorem C22_in_things :
  forall E X ord title x p (t : thing E X),
    order_ok ord -> thing_program ord title x p = Some (Ok t) ->
    forall d e, schema_in (thing_body t) d -> sub_ds e d -> specializations e = 1%nat.
Proof. exact things_specialized. Qed.
Print Assumptions C22_in_things.

Example C22_used :
  (exists e, sub_ds e the_schema /\ ds_one_of e <> None)
  /\ (exists e, sub_ds e the_schema /\ m_const (ds_misc e) <> None)
  /\ (exists e, sub_ds e the_schema /\ m_enum (ds_misc e) <> None)
  /\ (exists e, sub_ds e the_schema /\ e <> the_schema /\ ds_sub e <> None)
  /\ dbuild ([DFinish tt; DBool; DEnum (JBool true)] : list (dsop unit unit unit)) = None
  /\ dbuild ([DFinish tt; DUnit "m"] : list (dsop unit unit unit)) = None.
Proof. exact specializations_used. Qed.

(** ** C23 *)
Theorem C23_required_declared :
  forall DS AS OS (p : list (dsop DS AS OS)) d,
    dbuild p = Some d -> forall e, sub_ds e d -> required_declared e.
Proof. exact built_required. Qed.
Print Assumptions C23_required_declared.

Theorem C23_in_things :
  forall E X ord title x p (t : thing E X),
    order_ok ord -> thing_program ord title x p = Some (Ok t) ->
    forall d e, schema_in (thing_body t) d -> sub_ds e d -> required_declared e.
Proof. exact things_required. Qed.
Print Assumptions C23_in_things.

Example C23_used :
  exists ps o, ds_sub the_schema = Some (SObject (Some ps) (Some ["level"; "mode"]) o)
               /\ mkeys ps = ["level"; "mode"; "path"].
Proof. do 2 eexists. split; reflexivity. Qed.

(** ** C24 *)
Theorem C24_constants :
  forall DS AS OS (p q : list (dsop DS AS OS)) v d,
    dbuild (p ++ DConstant v :: q) = Some d ->
    m_const (ds_misc d) = Some v /\ m_ro (ds_misc d) = true /\ ds_sub d = None.
Proof. exact built_const. Qed.
Print Assumptions C24_constants.

Theorem C24_nested_constants :
  forall DS AS OS (p : list (dsop DS AS OS)) d,
    dbuild p = Some d ->
    forall e, sub_ds e d -> m_const (ds_misc e) <> None -> m_ro (ds_misc e) = true.
Proof. exact const_read_only. Qed.
Print Assumptions C24_nested_constants.

Theorem C24_in_things :
  forall E X ord title x p (t : thing E X),
    order_ok ord -> thing_program ord title x p = Some (Ok t) ->
    forall d e, schema_in (thing_body t) d -> sub_ds e d ->
      m_const (ds_misc e) <> None -> m_ro (ds_misc e) = true.
Proof. exact things_const. Qed.
Print Assumptions C24_in_things.

Example C24_used :
  exists d, dbuild ([DUnit "m"; DFinish tt] ++ DConstant (JInt 7) :: [DFormat "f"; DInfo (ITitle "seven")]
                    : list (dsop unit unit unit)) = Some d
            /\ m_unit (ds_misc d) = Some "m" /\ m_format (ds_misc d) = Some "f".
Proof. exact const_used. Qed.

(** ** C25 *)
Theorem C25_content_declared :
  forall DS AS OS (p : list (dsop DS AS OS)) d, dbuild p = Some d -> ds_says Some p d.
Proof. exact build_says. Qed.
Print Assumptions C25_content_declared.

(** What the calls declare leaves no choice. *)
Theorem C25_content_unique :
  forall DS AS OS (p : list (dsop DS AS OS)) d d', ds_says Some p d -> ds_says Some p d' -> d = d'.
Proof. exact says_unique. Qed.
Print Assumptions C25_content_unique.

Example C25_used :
  (exists d, dbuild ([DFinish tt; DEnum (JInt 1); DEnum (JInt 2); DUnit "a"; DUnit "b"] : list (dsop unit unit unit))
             = Some d /\ m_enum (ds_misc d) = Some [JInt 1; JInt 2] /\ m_unit (ds_misc d) = Some "b")
  /\ (exists d, dbuild ([DFinish tt; DTuple tt;
                        DAppend [DFinish tt; DObject tt; DProperty "x" true [DFinish tt; DBool]];
                        DAppend [DFinish tt; DNull]] : list (dsop unit unit unit)) = Some d
        /\ map (fun c => length (ds_children c)) (ds_children d) = [1%nat; 0%nat]).
Proof. exact content_used. Qed.

(** ** C26

    The property is false of the code in both directions.  Bounds that nothing
    satisfies are accepted, and bounds that some numbers satisfy are rejected. *)
Theorem C26_accepted_iff_inhabited_refuted :
  (exists (a : minimum f64) (b : maximum f64) t,
      run id_order (one_property sample_env http_exts "p" tt tt tt [DNumber; DNumMin a; DNumMax b]) = Some (Ok t)
      /\ ~ exists q, min_admits a q /\ max_admits b q)
  /\ (exists (a : minimum Z) (b : maximum Z) t,
      run id_order (one_property sample_env http_exts "p" tt tt tt [DInteger; DIntMin a; DIntMax b]) = Some (Ok t)
      /\ ~ exists n, zmin_admits a n /\ zmax_admits b n)
  /\ (exists (a : minimum f64) (b : maximum f64) e,
      run id_order (one_property sample_env http_exts "p" tt tt tt [DNumber; DNumMin a; DNumMax b]) = Some (Err e)
      /\ exists q, min_admits a q /\ max_admits b q)
  /\ (exists (a : minimum Z) (b : maximum Z) e,
      run id_order (one_property sample_env http_exts "p" tt tt tt [DInteger; DIntMin a; DIntMax b]) = Some (Err e)
      /\ exists n, zmin_admits a n /\ zmax_admits b n).
Proof. exact bounds_iff_refuted. Qed.
Print Assumptions C26_accepted_iff_inhabited_refuted.

(** It holds when both bounds are inclusive (and finite).  For exclusive bounds it
    holds unless they are equal (numbers), or equal or consecutive (integers).
    One inclusive and one exclusive bound are always rejected. *)
Theorem C26_inclusive_partial :
  forall E X ord, order_ok ord -> forall title n x xi xp xd,
    (forall u v, f64_ok u = true -> f64_ok v = true -> f64_finite u = true -> f64_finite v = true ->
      ((exists t, thing_program ord title x
                    (one_property E X n xi xp xd [DNumber; DNumMin (MinIncl u); DNumMax (MaxIncl v)]) = Some (Ok t))
       <-> exists q, min_admits (MinIncl u) q /\ max_admits (MaxIncl v) q))
    /\ (forall u v,
      ((exists t, thing_program ord title x
                    (one_property E X n xi xp xd [DInteger; DIntMin (MinIncl u); DIntMax (MaxIncl v)]) = Some (Ok t))
       <-> exists k, zmin_admits (MinIncl u) k /\ zmax_admits (MaxIncl v) k)).
Proof. exact inclusive_bounds. Qed.
Print Assumptions C26_inclusive_partial.

Theorem C26_exclusive_partial :
  forall E X ord, order_ok ord -> forall title n x xi xp xd,
    (forall u v, f64_ok u = true -> f64_ok v = true -> f64_finite u = true -> f64_finite v = true ->
      ((exists q, min_admits (MinExcl u) q /\ max_admits (MaxExcl v) q)
       <-> (exists t, thing_program ord title x
                        (one_property E X n xi xp xd [DNumber; DNumMin (MinExcl u); DNumMax (MaxExcl v)]) = Some (Ok t))
           /\ f64_eqb u v = false))
    /\ (forall u v,
      ((exists k, zmin_admits (MinExcl u) k /\ zmax_admits (MaxExcl v) k)
       <-> (exists t, thing_program ord title x
                        (one_property E X n xi xp xd [DInteger; DIntMin (MinExcl u); DIntMax (MaxExcl v)]) = Some (Ok t))
           /\ v <> u /\ v <> (u + 1)%Z)).
Proof. exact exclusive_bounds. Qed.
Print Assumptions C26_exclusive_partial.

Theorem C26_mixed_rejected :
  forall E X ord, order_ok ord -> forall title n x xi xp xd,
    (forall a b, ~ same_kind a b ->
      ~ exists t, thing_program ord title x (one_property E X n xi xp xd [DNumber; DNumMin a; DNumMax b]) = Some (Ok t))
    /\ (forall a b, ~ same_kind a b ->
      ~ exists t, thing_program ord title x (one_property E X n xi xp xd [DInteger; DIntMin a; DIntMax b]) = Some (Ok t)).
Proof. exact mixed_bounds. Qed.
Print Assumptions C26_mixed_rejected.

Example C26_used :
  f64_ok (f64_of_Z 3) = true /\ f64_finite (f64_of_Z 3) = true
  /\ (exists v, fval (f64_of_Z (-3)) = Some v /\ (v == -3 # 1)%Q)
  /\ ~ same_kind (MinIncl 1%Z) (MaxExcl 2%Z).
Proof. exact numbers_used. Qed.

(** ** C27 *)
Theorem C27_reverse :
  cross_lawful i64_cmp Z.eqb /\ cross_lawful f64_cmp f64_eqb.
Proof. exact reverse_cmp. Qed.
Print Assumptions C27_reverse.

(** Greater: nothing satisfies both bounds. *)
Theorem C27_greater_is_empty :
  (forall a b, minmax_cmp i64_cmp a b = Some Gt -> ~ exists n, zmin_admits a n /\ zmax_admits b n)
  /\ (forall a b, f64_ok (min_val a) = true -> f64_ok (max_val b) = true ->
        f64_finite (min_val a) = true -> f64_finite (max_val b) = true ->
        minmax_cmp f64_cmp a b = Some Gt -> ~ exists q, min_admits a q /\ max_admits b q).
Proof. exact greater_empty. Qed.
Print Assumptions C27_greater_is_empty.

Example C27_used :
  minmax_cmp i64_cmp (MinExcl 3%Z) (MaxIncl 3%Z) = Some Gt
  /\ maxmin_cmp i64_cmp (MaxIncl 3%Z) (MinExcl 3%Z) = Some Lt
  /\ minmax_cmp f64_cmp (MinExcl (f64_of_Z 5)) (MaxIncl (f64_of_Z 3)) = Some Gt
  /\ minmax_cmp f64_cmp (MinIncl S754_nan) (MaxIncl (f64_of_Z 3)) = None
  /\ minmax_eqb f64_eqb (MinIncl (S754_zero true)) (MaxIncl (S754_zero false)) = true.
Proof. repeat split; reflexivity. Qed.

(** ** C28 *)
Theorem C28_lawful :
  lawful (min_cmp i64_cmp) (min_eqb Z.eqb) /\ lawful (max_cmp i64_cmp) (max_eqb Z.eqb)
  /\ lawful (min_cmp f64_cmp) (min_eqb f64_eqb) /\ lawful (max_cmp f64_cmp) (max_eqb f64_eqb).
Proof. exact bounds_lawful. Qed.
Print Assumptions C28_lawful.

(** The values a bound admits: values of its type, infinities included .. *)
Theorem C28_inclusion :
  (forall a b, min_cmp i64_cmp a b <> None ->
     (le_of (min_cmp i64_cmp) a b <-> forall n, min_allows i64_cmp b n -> min_allows i64_cmp a n))
  /\ (forall a b, max_cmp i64_cmp a b <> None ->
     (le_of (max_cmp i64_cmp) a b <-> forall n, max_allows i64_cmp a n -> max_allows i64_cmp b n))
  /\ (forall a b, min_cmp f64_cmp a b <> None ->
     (le_of (min_cmp f64_cmp) a b <-> forall n, min_allows f64_cmp b n -> min_allows f64_cmp a n))
  /\ (forall a b, max_cmp f64_cmp a b <> None ->
     (le_of (max_cmp f64_cmp) a b <-> forall n, max_allows f64_cmp a n -> max_allows f64_cmp b n)).
Proof. exact bounds_inclusion. Qed.
Print Assumptions C28_inclusion.

(** .. or, for finite bounds, rational numbers. *)
Theorem C28_inclusion_numbers :
  (forall a b, f64_ok (min_val a) = true -> f64_ok (min_val b) = true ->
     f64_finite (min_val a) = true -> f64_finite (min_val b) = true -> min_cmp f64_cmp a b <> None ->
     (le_of (min_cmp f64_cmp) a b <-> forall q, min_admits b q -> min_admits a q))
  /\ (forall a b, f64_ok (max_val a) = true -> f64_ok (max_val b) = true ->
     f64_finite (max_val a) = true -> f64_finite (max_val b) = true -> max_cmp f64_cmp a b <> None ->
     (le_of (max_cmp f64_cmp) a b <-> forall q, max_admits a q -> max_admits b q)).
Proof. exact bounds_inclusion_q. Qed.
Print Assumptions C28_inclusion_numbers.

(** Comparing finite floats compares the numbers they stand for. *)
Theorem C28_float_order_is_numeric :
  forall x y p q,
    f64_ok x = true -> f64_ok y = true -> fval x = Some p -> fval y = Some q ->
    f64_cmp x y = Some (p ?= q)%Q.
Proof. exact f64_cmp_val. Qed.
Print Assumptions C28_float_order_is_numeric.

Example C28_used :
  min_cmp f64_cmp (MinIncl (f64_of_Z 3)) (MinExcl (f64_of_Z 3)) = Some Lt
  /\ max_cmp f64_cmp (MaxExcl (f64_of_Z 3)) (MaxIncl (f64_of_Z 3)) = Some Lt
  /\ min_cmp i64_cmp (MinIncl 5%Z) (MinExcl 3%Z) = None
  /\ max_cmp i64_cmp (MaxIncl 5%Z) (MaxIncl 3%Z) = Some Gt.
Proof. repeat split; reflexivity. Qed.

(** ** C50

    False of the code: infinite bounds and a NaN multipleOf get through. *)
Theorem C50_non_finite_refuted :
  (exists t d k b,
      run id_order (one_property sample_env http_exts "p" tt tt tt [DNumber; DNumMax (MaxIncl (S754_infinity false))])
      = Some (Ok t)
      /\ checked_schema (thing_body t) d /\ ds_sub d = Some (SNumber k)
      /\ n_max k = Some b /\ f64_finite (max_val b) = false)
  /\ (exists t d k m,
      run id_order (one_property sample_env http_exts "p" tt tt tt [DNumber; DNumMult S754_nan])
      = Some (Ok t)
      /\ checked_schema (thing_body t) d /\ ds_sub d = Some (SNumber k)
      /\ n_mult k = Some m /\ f64_finite m = false).
Proof. exact non_finite_refuted. Qed.
Print Assumptions C50_non_finite_refuted.

(** NaN bounds do not.  Missing: infinite bounds, NaN or infinite multipleOf. *)
Theorem C50_no_nan_partial :
  forall E X ord title x p (t : thing E X),
    order_ok ord -> thing_program ord title x p = Some (Ok t) ->
    forall d e k, checked_schema (thing_body t) d -> sub_ds e d -> ds_sub e = Some (SNumber k) ->
      (forall a, n_min k = Some a -> ~ is_nan (min_val a)) /\ (forall b, n_max k = Some b -> ~ is_nan (max_val b)).
Proof. exact bounds_not_nan. Qed.
Print Assumptions C50_no_nan_partial.

Example C50_used :
  run id_order (one_property sample_env http_exts "p" tt tt tt [DNumber; DNumMin (MinExcl S754_nan)])
  = Some (Err NanMinMax)
  /\ exists d e k a, checked_schema (thing_body the_lamp) d /\ sub_ds e d /\ ds_sub e = Some (SNumber k)
       /\ n_min k = Some a /\ e <> d.
Proof. exact nan_used. Qed.

(** Exactly which single number schemas build, whatever the numbers. *)
Theorem C50_number_exact :
  forall E X ord, order_ok ord ->
  forall title n x xi xp xd mn mx ml,
    (exists t, thing_program ord title x
       (one_property E X n xi xp xd
          (DNumber :: ocall (fun m => DNumMin m) mn ++ ocall (fun m => DNumMax m) mx ++ ocall (fun m => DNumMult m) ml))
       = Some (Ok t))
    <-> (forall a, mn = Some a -> ~ is_nan (min_val a))
        /\ (forall b, mx = Some b -> ~ is_nan (max_val b))
        /\ (forall a b, mn = Some a -> mx = Some b -> same_kind a b /\ fle (min_val a) (max_val b))
        /\ (forall m, ml = Some m -> ~ fle m (S754_zero false)).
Proof. exact number_exact. Qed.
Print Assumptions C50_number_exact.

Example C50_number_exact_used :
  ~ fle S754_nan (S754_zero false) /\ ~ fle (S754_infinity false) (S754_zero false)
  /\ fle (S754_infinity true) (S754_zero false) /\ ~ is_nan (S754_infinity true)
  /\ fle (S754_infinity true) (S754_infinity false).
Proof. exact number_exact_used. Qed.

(** Every number in a schema of a built Thing is an argument of some call: the
    builder makes up none. *)
Theorem C50_given :
  forall E X ord title x p (t : thing E X),
    order_ok ord -> thing_program ord title x p = Some (Ok t) ->
    forall d e n v, schema_in (thing_body t) d -> sub_ds e d -> ds_sub e = Some (SNumber n) -> number_in n v ->
      number_given p v.
Proof. exact numbers_given. Qed.
Print Assumptions C50_given.

Example C50_given_used :
  (exists d e n, schema_in (thing_body the_lamp) d /\ sub_ds e d /\ e <> d /\ ds_sub e = Some (SNumber n)
     /\ number_in n (f64_of_Z 1%Z))
  /\ number_given lamp (f64_of_Z 1%Z) /\ ~ number_given speeds (f64_of_Z 1%Z).
Proof. exact given_used. Qed.

(** So with finite arguments every number of the Thing is finite. *)
Theorem C50_finite_given :
  forall E X ord title x p (t : thing E X),
    order_ok ord -> thing_program ord title x p = Some (Ok t) ->
    (forall v, number_given p v -> f64_finite v = true) -> numbers_finite t.
Proof. exact finite_given. Qed.
Print Assumptions C50_finite_given.

Example C50_finite_given_used :
  run id_order speeds = Some (Ok speeds_thing)
  /\ (forall v, number_given speeds v -> f64_finite v = true)
  /\ number_given speeds (f64_of_Z 2%Z).
Proof. exact finite_used. Qed.
