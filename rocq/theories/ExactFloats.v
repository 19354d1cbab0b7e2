(** * A way of writing and reading floats

    The properties about JSON texts leave open how floats are written and read ([floats] in JsonText.v); serde_json does
    that (Cargo.toml 13).  Here is one way to do it, to show that what the properties ask of it can be met for all floats.
    It is not a model of code in /repo, nor of serde_json, which writes the shortest decimal expansion instead. *)

From Coq Require Import String Ascii Bool NArith ZArith Decimal List.
From Coq Require Import Floats.SpecFloat.
From Verif Require Import Base MinMax Json JsonText.
Import ListNotations.
Set Implicit Arguments.
Local Open Scope list_scope.

(** ** Writing: all digits *)

(** mantissa * 2 ^ -p is mantissa * 5 ^ p * 10 ^ -p.  No counterpart in /repo (Cargo.toml 13). *)
Definition w_float (x : f64) : chars :=
  match x with
  | S754_zero s => (if s then ["-"%char] else []) ++ ["0"; "."; "0"]%char
  | S754_finite s m (Zneg p) =>
      (if s then ["-"%char] else []) ++ w_uint (N.to_uint (Npos m * 5 ^ Npos p)) ++ ["e"; "-"]%char ++ w_uint (N.to_uint (Npos p))
  | S754_finite s m e =>
      (if s then ["-"%char] else []) ++ w_uint (N.to_uint (Npos m * 2 ^ Z.to_N e)) ++ ["."; "0"]%char
  | _ => ["n"; "u"; "l"; "l"]%char
  end.

(** ** Reading: round to nearest, ties to even *)

(** The float nearest to [n * 10 ^ k]: divide with 64 extra bits, note on which side of the middle the rest is, round.
    No counterpart in /repo (Cargo.toml 13). *)
Definition nearest (neg : bool) (n : N) (k : Z) : f64 :=
  match n with
  | N0 => S754_zero neg
  | Npos _ =>
      let num := (Z.of_N n * 10 ^ Z.max k 0)%Z in
      let den := (10 ^ Z.max (- k) 0)%Z in
      let s := (Zdigits2 den + 64)%Z in
      let r := ((num * 2 ^ s) mod den)%Z in
      binary_round_aux f64_prec f64_emax neg ((num * 2 ^ s) / den)%Z (- s)
        (if (r =? 0)%Z then loc_Exact else loc_Inexact (Z.compare (2 * r) den))
  end.

(** A sign: negative or not, and what follows.  No counterpart in /repo (Cargo.toml 13). *)
Definition r_sign (s : chars) : bool * chars :=
  match s with
  | c :: s' => if Ascii.eqb c "-" then (true, s') else if Ascii.eqb c "+" then (false, s') else (false, s)
  | [] => (false, [])
  end.

(** The digits of a fraction.  No counterpart in /repo (Cargo.toml 13). *)
Definition r_fraction (s : chars) : chars * uint * chars :=
  match s with
  | c :: s' => if Ascii.eqb c "." then p_digits s' else ([], Nil, s)
  | [] => ([], Nil, [])
  end.

(** An exponent.  No counterpart in /repo (Cargo.toml 13). *)
Definition r_exponent (s : chars) : Z :=
  match s with
  | c :: s' =>
      if Ascii.eqb c "e" || Ascii.eqb c "E" then
        let '(neg, s2) := r_sign s' in
        let '(_, u, _) := p_digits s2 in
        if neg then (- Z.of_N (N.of_uint u))%Z else Z.of_N (N.of_uint u)
      else 0%Z
  | [] => 0%Z
  end.

(** Too large numbers are an error.  No counterpart in /repo (Cargo.toml 13). *)
Definition r_float (s : chars) : option f64 :=
  let '(neg, s1) := r_sign s in
  let '(_, i, s2) := p_digits s1 in
  let '(fs, f, s3) := r_fraction s2 in
  let len := N.of_nat (List.length fs) in
  let x := nearest neg (N.of_uint i * 10 ^ len + N.of_uint f) (r_exponent s3 - Z.of_N len) in
  if f64_finite x then Some x else None.

(** No counterpart in /repo (Cargo.toml 13). *)
Definition exact_floats : floats := {| fl_write := w_float; fl_read := r_float |}.
