(** * The texts of Things *)

From Coq Require Import String Ascii Bool Lia List.
From Verif Require Import Base MinMax Json Serde Types Ser De Spec SpecThing SpecSerde SpecExt SpecDoc SpecMember SpecTyped
  JsonText SpecJsonText CleanFacts ExactFacts JsonTextFacts SpecSyntax SyntaxFacts.
Import ListNotations.
Set Implicit Arguments.

Section Things.
  Variable F : floats.
  Variable E : env.
  Variable X : exts.
  Variable K : xnames.
  Variables T V : xvalues X.
  Hypothesis HS : exts_sound K T V.

  Lemma written_document mk (t : thing E X) j : json_writer mk -> thing_typed T t -> s_thing mk t = Some j -> document j.
  Proof. intros Hw. exact (thing_document Hw (es_clean HS) (es_round HS) (es_apart HS) (t := t) (j := j)). Qed.

  Lemma thing_text mk (t : thing E X) j : json_writer mk -> thing_typed T t -> s_thing mk t = Some j ->
    (forall x, float_in x j -> faithful F x) ->
    (~ nested 128 j -> from_text F (to_text F j) = Some j) /\ (nested 128 j -> from_text F (to_text F j) = None).
  Proof.
    intros Hw Ht Hj Hf. assert (Hd := written_document Hw Ht Hj). split; [apply text_shallow|apply text_deep]; auto.
  Qed.

  Lemma thing_in_grammar mk (t : thing E X) j : json_writer mk -> thing_typed T t -> s_thing mk t = Some j ->
    (forall x, float_in x j -> faithful F x) -> json_text F (list_ascii_of_string (to_text F j)) j.
  Proof. intros Hw Ht Hj Hf. exact (syntax_written (written_document Hw Ht Hj) Hf). Qed.

  Hypothesis Hdates : forall s d, date_parse E s = Some d -> date_ok E d.

  Lemma thing_from_text (t : thing E X) j : thing_typed T t -> s_thing mk_text t = Some j ->
    (forall x, float_in x j -> faithful F x) ->
    ((no_repeats j /\ obind (from_text F (to_text F j)) (d_thing E X) = Some t)
     <-> thing_ok V distinct t /\ untitled t /\ ~ nested 128 j).
  Proof.
    intros Ht Hj Hf. destruct (thing_text (or_introl eq_refl) Ht Hj Hf) as [H1 H2].
    assert (Q := thing_text_exact HS Hdates Ht).
    assert (N : nested 128 j \/ ~ nested 128 j) by (rewrite nested_depth; destruct (Compare_dec.le_lt_dec 128 (jdepth j)); [left|right]; lia).
    destruct N as [N|N].
    - rewrite H2 by exact N. split; [intros [_ F']; discriminate F'|tauto].
    - rewrite H1 by exact N. cbn [obind]. split.
      + intros [Hn Hr]. destruct (proj1 Q) as [Q1 Q2]; eauto.
      + intros (Q1 & Q2 & _). destruct (proj2 Q (conj Q1 Q2)) as (j' & Hj' & R). rewrite Hj in Hj'. injection Hj' as <-. exact R.
  Qed.

  (** Through [serde_json::Value] *)
  Lemma thing_from_value (t : thing E X) j : thing_typed T t -> s_thing mk_value t = Some j ->
    (forall x, float_in x j -> faithful F x) ->
    (obind (from_text F (to_text F j)) (d_thing E X) = Some t <-> thing_ok V distinct t /\ ~ nested 128 j).
  Proof.
    intros Ht Hj Hf. destruct (thing_text (or_intror eq_refl) Ht Hj Hf) as [H1 H2].
    assert (Q := thing_value_exact HS Hdates Ht).
    assert (N : nested 128 j \/ ~ nested 128 j) by (rewrite nested_depth; destruct (Compare_dec.le_lt_dec 128 (jdepth j)); [left|right]; lia).
    destruct N as [N|N].
    - rewrite H2 by exact N. split; [discriminate|tauto].
    - rewrite H1 by exact N. cbn [obind]. split.
      + intros Hr. split; [|exact N]. apply (proj1 Q). eauto.
      + intros [Q1 _]. destruct (proj2 Q Q1) as (j' & Hj' & R). rewrite Hj in Hj'. injection Hj' as <-. exact R.
  Qed.
End Things.
