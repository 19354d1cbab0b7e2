(** * What reading guarantees *)

From Coq Require Import String Bool ZArith List.
From Coq Require Import Floats.SpecFloat.
From Verif Require Import Base MinMax Json Serde Types Spec SpecThing SpecSerde SpecDoc SpecTyped SpecEqual.
Import ListNotations.
Set Implicit Arguments.
Local Open Scope string_scope.
Local Open Scope list_scope.

(** The extensions read only values in [T]. *)
Definition exts_read_typed (X : exts) (T : xvalues X) : Prop :=
  exts_read_ok T /\ reads_ok (x_er X) (v_er T).

(** All numbers in number schemas, at any depth, are finite. *)
Definition numbers_finite E X (t : thing E X) : Prop :=
  forall d e n x, schema_in (thing_body t) d -> sub_ds e d -> ds_sub e = Some (SNumber n) ->
    number_in n x -> f64_finite x = true.
