(** * Numbers in JSON texts, nesting *)

From Coq Require Import String Ascii NArith List.
From Verif Require Import Base MinMax Json JsonText.
Import ListNotations.
Set Implicit Arguments.
Local Open Scope list_scope.

Definition digits (s : chars) : Prop :=
  s <> [] /\ forall c, In c s -> (48 <= N_of_ascii c <= 57)%N.

(** RFC 8259, section 6 *)
Record number_parts (sign int frac exp : chars) : Prop := {
  np_sign : sign = [] \/ sign = ["-"%char];
  np_int : digits int;
  np_zero : forall ds, int = "0"%char :: ds -> ds = [];
  np_frac : frac = [] \/ exists ds, frac = "."%char :: ds /\ digits ds;
  np_exp : exp = [] \/ exists c g ds, exp = c :: g ++ ds /\ (c = "e"%char \/ c = "E"%char)
             /\ (g = [] \/ g = ["+"%char] \/ g = ["-"%char]) /\ digits ds;
}.

(** A number with a fraction or an exponent *)
Definition float_text (s : chars) : Prop :=
  exists sign int frac exp, s = sign ++ int ++ frac ++ exp /\ number_parts sign int frac exp /\ (frac <> [] \/ exp <> []).

(** The float is written as such a number and read as the same float. *)
Definition faithful (F : floats) (x : f64) : Prop :=
  float_text (fl_write F x) /\ fl_read F (fl_write F x) = Some x.

(** The float occurs in the document. *)
Inductive float_in (x : f64) : json -> Prop :=
| fi_here : float_in x (JFloat x)
| fi_arr j l : In j l -> float_in x j -> float_in x (JArr l)
| fi_obj k j es : In (k, j) es -> float_in x j -> float_in x (JObj es).

(** [nested n j]: [j] has [n] arrays or objects inside one another. *)
Inductive nested : nat -> json -> Prop :=
| ne_none j : nested 0 j
| ne_arr n j l : In j l -> nested n j -> nested (S n) (JArr l)
| ne_arr_nil : nested 1 (JArr [])
| ne_obj n k j es : In (k, j) es -> nested n j -> nested (S n) (JObj es)
| ne_obj_nil : nested 1 (JObj []).
