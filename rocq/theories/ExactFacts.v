(** * Exactly the values that survive being written and read *)

From Coq Require Import String Bool ZArith Permutation Lia List.
From Verif Require Import Base MinMax Json Serde Types HList Protocol Spec SpecSerde SpecExt SpecDoc SpecMember SpecThing
  SpecTyped Ser De SerdeFacts RoundTrip RoundTripDs RoundTripTd RoundTripThing ProtocolFacts MemberFacts CanonFacts
  DecodedFacts NameFacts ShapeFacts CleanFacts ExtTypedFacts StableFacts KnownFacts.
Import ListNotations.
Set Implicit Arguments.
Local Open Scope string_scope.
Local Open Scope list_scope.

Section Exact.
  Variable E : env.
  Variable X : exts.
  Variable K : xnames.
  Variables T V : xvalues X.
  Hypothesis HS : exts_sound K T V.

  Lemma no_text mk P : @textual False mk P.
  Proof. intros []. Qed.

  Local Hint Resolve es_round es_apart es_read es_clean : core.

  Ltac doc L := eapply proj1; eapply (@L False); eauto; try (intros []; fail).

  Lemma schema_exact mk d : json_writer mk -> schema_typed E T d ->
    (d_ds E X (s_ds mk d) = Some d <-> schema_ok E V d).
  Proof.
    intros Hw Ht. split; intros H.
    - eapply ds_decoded; [eauto| |exact H]. doc ds_clean.
    - eapply ds_rt; eauto.
  Qed.

  Lemma form_exact mk f : json_writer mk -> form_typed T f ->
    (d_form X (s_form mk f) = Some f <-> form_ok V f).
  Proof.
    intros Hw Ht. split; intros H.
    - eapply form_decoded; [eauto| |exact H|eapply form_back; eauto]. doc form_clean.
    - eapply form_rt; eauto.
  Qed.

  Lemma property_exact p : property_typed E T p ->
    (d_property E X (s_property mk_value p) = Some p <-> property_ok E V p).
  Proof.
    assert (json_writer mk_value) as Hw by (right; reflexivity).
    intros Ht. split; intros H.
    - eapply property_decoded; [eauto| |exact H|eapply property_back; eauto]. doc property_clean.
    - eapply property_rt; eauto.
  Qed.

  Lemma action_exact mk a : json_writer mk -> action_typed E T a ->
    (d_action E X (s_action mk a) = Some a <-> action_ok E V a).
  Proof.
    intros Hw Ht. split; intros H.
    - eapply action_decoded; [eauto| |exact H|eapply action_back; eauto]. doc action_clean.
    - eapply action_rt; eauto.
  Qed.

  Lemma event_exact mk e : json_writer mk -> event_typed E T e ->
    (d_event E X (s_event mk e) = Some e <-> event_ok E V e).
  Proof.
    intros Hw Ht. split; intros H.
    - eapply event_decoded; [eauto| |exact H|eapply event_back; eauto]. doc event_clean.
    - eapply event_rt; eauto.
  Qed.

  Hypothesis Hdates : forall s d, date_parse E s = Some d -> date_ok E d.

  Lemma thing_value_exact (t : thing E X) : thing_typed T t ->
    ((exists j, s_thing mk_value t = Some j /\ d_thing E X j = Some t) <-> thing_ok V distinct t).
  Proof. intros Ht. rewrite <- thing_distinct. apply (value_exact HS Hdates Ht). Qed.

  Lemma thing_text_exact (t : thing E X) : thing_typed T t ->
    ((exists j, s_thing mk_text t = Some j /\ no_repeats j /\ d_thing E X j = Some t)
     <-> thing_ok V distinct t /\ untitled t).
  Proof. intros Ht. rewrite <- thing_distinct. apply (text_exact HS Hdates Ht). Qed.
End Exact.

Lemma security_exact E s : security_typed E s ->
  ((exists j, s_security mk_value s = Some j /\ d_security E j = Some s) <-> security_ok E distinct s).
Proof.
  intros Ht. rewrite <- security_distinct. split.
  - intros (j & Hj & H). eapply security_decoded; [| |exact H];
      apply (@security_clean True E mk_value (or_intror eq_refl) unlike_known s j Ht); auto;
      intros _; left; reflexivity.
  - intros H. destruct (security_rt (or_intror eq_refl) unlike_known_apart H) as (j & Hj & H' & _). eauto.
Qed.
