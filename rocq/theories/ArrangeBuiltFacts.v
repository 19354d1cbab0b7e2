(** * Built Things, written with their hash maps in another order *)

From Coq Require Import String Bool ZArith Lia List.
From Verif Require Import Base MinMax Json Serde Types DsBuilder Builder HList Ser De Spec SpecCalls SpecSerde SpecExt SpecDoc SpecMember
  SpecTyped SpecArgs SpecGiven BuiltFacts JsonText SpecJsonText SpecNum SpecNest SpecBuiltText BuiltTextFacts SpecShuffle
  SpecArrange ArrangeTextFacts SpecThing.
Import ListNotations.
Set Implicit Arguments.

Lemma arranged_built E X ord (Ho : order_ok ord) F K (T V : xvalues X) (HS : exts_sound K T V)
  k title x p (t t' : thing E X) : thing_program ord title x p = Some (Ok t) -> rearranged t t' ->
  tags_read E -> args_typed T x p -> args_ok V x p -> ~ titles_property p ->
  exts_shallow X k -> k <= 3 -> exts_no_float X -> exts_shuffle_free X ->
  (forall q, schema_calls p q -> ~ closures 61 q) -> (forall v, value_given p v -> ~ nested 4 v) ->
  (forall y, float_given p y -> f64_finite y = true -> faithful F y) ->
  exists j, s_thing mk_text t' = Some j /\ obind (from_text F (to_text F j)) (d_thing E X) = Some t.
Proof.
  intros Ht R Htr Hat Ha Hti HX Hk HN Hsh Hc Hv Hg.
  destruct (@built_from_text E X ord Ho F K T V HS k title x p t Ht Htr Hat Ha Hti HX Hk HN Hc Hv Hg) as (j & Hj & Hr).
  assert (Htt : thing_typed T t) by exact (@built_typed E X ord Ho title x p t Ht T Htr Hat).
  assert (Hf : forall y, float_in y j -> faithful F y).
  { intros y Hy. apply Hg; [exact (@built_floats E X ord Ho mk_text title x p t j y Ht (or_introl eq_refl) HN Hj Hy)|].
    exact (document_finite (ThingTextFacts.written_document HS (or_introl eq_refl) Htt Hj) Hy). }
  destruct (arranged_text HS Hsh R Htt Hj Hf) as (j' & Hj' & Q). exists j'. split; [exact Hj'|]. rewrite Q. exact Hr.
Qed.
