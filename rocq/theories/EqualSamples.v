(** * Samples for the equality of Things *)

From Coq Require Import String Bool ZArith List.
From Coq Require Import Floats.SpecFloat.
From Verif Require Import Base MinMax Json Serde Types DsBuilder Builder HList Ser De Protocol Samples Spec SpecCalls
  SpecThing SpecSerde SpecExt SpecDoc SpecMember SpecTyped SampleFacts DsExamples Witnesses ExtTypedFacts ExchangeMore
  Equal SpecEqual EqualFacts.
Import ListNotations.
Set Implicit Arguments.
Local Open Scope string_scope.
Local Open Scope list_scope.

Definition sample_eqs : eqs sample_env http_exts := http_eqs sample_env String.eqb.
Definition same_date (d : date sample_env) : date sample_env := d.

Lemma sample_exact : eqs_exact same_date sample_eqs.
Proof. apply http_exact. intros d d'. apply String.eqb_eq. Qed.

(** A property with [0.0] and one with [-0.0] as maximum *)
Definition zero_max (s : bool) : thing sample_env http_exts.
Proof.
  destruct s.
  - let r := eval vm_compute in (number_thing [DNumber; DNumMax (MaxIncl (S754_zero true))]) in
    match r with Some ?t => exact t end.
  - let r := eval vm_compute in (number_thing [DNumber; DNumMax (MaxIncl (S754_zero false))]) in
    match r with Some ?t => exact t end.
Defined.

Lemma zero_typed s : thing_typed http_typed (zero_max s).
Proof. destruct s; tthing_tac. Qed.

Lemma nan_typed : thing_typed http_typed nan_thing.
Proof. tthing_tac. Qed.

Lemma lamp_equal : thing_eqb sample_eqs the_lamp the_lamp = true.
Proof. reflexivity. Qed.

Lemma lamp_without : without_nan the_lamp.
Proof. apply (equal_refl sample_exact lamp_typed). exact lamp_equal. Qed.

Lemma zeros_equal : thing_eqb sample_eqs (zero_max true) (zero_max false) = true.
Proof. reflexivity. Qed.

Definition max_signs (t : thing sample_env http_exts) : list bool :=
  map (fun kp => match ds_sub (pa_ds (snd kp)) with
                 | Some (SNumber n) => match n_max n with Some (MaxIncl (S754_zero s)) => s | _ => false end
                 | _ => false
                 end) (olist (t_properties t)).

Lemma zeros_differ : zero_max true <> zero_max false.
Proof. intros H. apply (f_equal max_signs) in H. cbn in H. discriminate. Qed.

Lemma nan_built : run id_order (one_property sample_env http_exts "p" tt tt tt [DNumber; DNumMult S754_nan]) = Some (Ok nan_thing).
Proof. reflexivity. Qed.

Lemma nan_unequal : thing_eqb sample_eqs nan_thing nan_thing = false.
Proof. reflexivity. Qed.

Lemma equal_used :
  eqs_exact same_date sample_eqs
  /\ thing_typed http_typed the_lamp /\ without_nan the_lamp /\ thing_eqb sample_eqs the_lamp the_lamp = true
  /\ thing_typed http_typed the_door /\ thing_eqb sample_eqs the_lamp the_door = false
  /\ thing_typed http_typed (zero_max true) /\ thing_typed http_typed (zero_max false)
  /\ zero_max true <> zero_max false /\ thing_eqb sample_eqs (zero_max true) (zero_max false) = true.
Proof.
  exact (conj sample_exact (conj lamp_typed (conj lamp_without (conj lamp_equal (conj door_typed (conj eq_refl
    (conj (zero_typed true) (conj (zero_typed false) (conj zeros_differ zeros_equal))))))))).
Qed.

Lemma equal_refl_refuted :
  run id_order (one_property sample_env http_exts "p" tt tt tt [DNumber; DNumMult S754_nan]) = Some (Ok nan_thing)
  /\ thing_typed http_typed nan_thing /\ thing_eqb sample_eqs nan_thing nan_thing = false.
Proof. exact (conj nan_built (conj nan_typed nan_unequal)). Qed.
