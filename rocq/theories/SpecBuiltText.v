(** * How deep calls are, and the values they are given *)

From Coq Require Import String List.
From Verif Require Import Base MinMax Json Serde Types DsBuilder Builder SpecSerde SpecArgs SpecGiven SpecJsonText.
Import ListNotations.
Set Implicit Arguments.

Section Calls.
  Variables DS AS OS : Type.
  Notation dsop := (dsop DS AS OS).

  (** [closures n q]: [n] lists of calls inside one another, [q] the outermost. *)
  Inductive closures : nat -> list dsop -> Prop :=
  | cl_one q : closures 1 q
  | cl_more n q o q' : In o q -> closure o = Some q' -> closures n q' -> closures (S n) q.

  (** The value in a call of a data schema builder *)
  Definition value_of (o : dsop) : option json :=
    match o with DConstant v | DDefault v | DEnum v => Some v | _ => None end.
End Calls.

(** The value [v] is an argument somewhere in [p], or a member of the data of a custom security scheme. *)
Inductive value_given E X (p : list (top E X)) (v : json) : Prop :=
| vg_schema q o : schema_calls p q -> calls q o -> value_of o = Some v -> value_given p v
| vg_scheme q es k : In (TSecurity q) p -> In (SData (JObj es)) q -> In (k, v) es -> value_given p v.

(** The float [x] is an argument somewhere in [p], alone or inside a value. *)
Definition float_given E X (p : list (top E X)) (x : f64) : Prop :=
  number_given p x \/ exists v, value_given p v /\ float_in x v.

(** No floats among the members an extension writes *)
Definition writes_no_float (p : piece) : Prop :=
  forall mk a n j x, json_writer mk -> In (n, j) (p_ser p mk a) -> ~ float_in x j.

Record exts_no_float (X : exts) : Prop := {
  nf_t : writes_no_float (x_t X); nf_ia : writes_no_float (x_ia X); nf_pa : writes_no_float (x_pa X);
  nf_aa : writes_no_float (x_aa X); nf_ea : writes_no_float (x_ea X); nf_f : writes_no_float (x_f X);
  nf_er : writes_no_float (x_er X); nf_ds : writes_no_float (x_ds X); nf_os : writes_no_float (x_os X);
  nf_as : writes_no_float (x_as X);
}.
