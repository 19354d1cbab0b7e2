(** * The number a text stands for *)

From Coq Require Import Ascii NArith ZArith QArith List.
From Coq Require Import Floats.SpecFloat.
From Verif Require Import Base MinMax JsonText SpecNum SpecJsonText.
Import ListNotations.
Set Implicit Arguments.

(** The number that digits stand for *)
Definition dvalue (ds : chars) : N := fold_left (fun a c => 10 * a + (N_of_ascii c - 48))%N ds 0%N.

(** [exponent_value exp k]: the exponent is [k]; none is zero. *)
Inductive exponent_value : chars -> Z -> Prop :=
| ev_none : exponent_value [] 0
| ev_plain c ds : digits ds -> exponent_value (c :: ds) (Z.of_N (dvalue ds))
| ev_plus c ds : digits ds -> exponent_value (c :: "+"%char :: ds) (Z.of_N (dvalue ds))
| ev_minus c ds : digits ds -> exponent_value (c :: "-"%char :: ds) (- Z.of_N (dvalue ds)).

(** [text_value s neg n q]: the text [s] is a JSON number that stands for [q]; it has a minus sign if [neg], and [n] are
    its digits, before and after the point, as one number. *)
Inductive text_value (s : chars) (neg : bool) (n : N) (q : Q) : Prop :=
| tv_intro int ds frac exp k :
    s = (if neg then ["-"%char] else []) ++ int ++ frac ++ exp ->
    number_parts (if neg then ["-"%char] else []) int frac exp ->
    (frac = [] /\ ds = [] \/ frac = "."%char :: ds) ->
    exponent_value exp k ->
    n = dvalue (int ++ ds) ->
    q == inject_Z (if neg then - Z.of_N n else Z.of_N n) * (10 # 1) ^ (k - Z.of_nat (length ds)) ->
    text_value s neg n q.

(** The float is exactly the number. *)
Definition is_number (x : f64) (q : Q) : Prop := exists v, fval x = Some v /\ v == q.

(** The float has the sign bit set. *)
Definition minus (x : f64) : bool := match x with S754_zero s | S754_finite s _ _ => s | _ => false end.
