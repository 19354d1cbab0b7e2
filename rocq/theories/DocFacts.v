(** * Facts about documents, as used by the properties *)

From Coq Require Import String Bool ZArith Permutation Lia List.
From Verif Require Import Base MinMax Json Serde Types SpecSerde SpecDoc Ser De SerdeFacts
  RoundTrip RoundTripDs GrownFacts CanonFacts ExtDocFacts.
Import ListNotations.
Set Implicit Arguments.
Local Open Scope string_scope.
Local Open Scope list_scope.

Section Grown.
  Variables (E : env) (X : exts) (K : xnames).
  Hypothesis HX : exts_read_only X K.
  Hypothesis HK : names_apart K.

  Lemma thing_grown j j' : grown K DThing j j' -> d_thing E X j = d_thing E X j'.
  Proof. apply (thing_respects E HX HK (n := S (jdepth j))). lia. Qed.
  Lemma property_grown j j' : grown K DProperty j j' -> d_property E X j = d_property E X j'.
  Proof. apply (property_respects E HX HK (n := S (jdepth j))). lia. Qed.
  Lemma action_grown j j' : grown K DAction j j' -> d_action E X j = d_action E X j'.
  Proof. apply (action_respects E HX HK (n := S (jdepth j))). lia. Qed.
  Lemma event_grown j j' : grown K DEvent j j' -> d_event E X j = d_event E X j'.
  Proof. apply (event_respects E HX HK (n := S (jdepth j))). lia. Qed.
  Lemma form_grown j j' : grown K DForm j j' -> d_form X j = d_form X j'.
  Proof. apply (form_respects HX HK (n := S (jdepth j))). lia. Qed.
  Lemma ds_grown j j' : grown K DSchema j j' -> d_ds E X j = d_ds E X j'.
  Proof. apply (ds_respects E HX HK (n := S (jdepth j))). lia. Qed.
End Grown.

Lemma link_grown E K j j' : grown K DLink j j' -> d_link E j = d_link E j'.
Proof. apply (link_respects E (n := S (jdepth j))). lia. Qed.

Section Order.
  Variables (E : env) (X : exts).
  Hypothesis HX : exts_order_free X.

  Lemma thing_reordered j j' :
    reordered j j' -> no_repeats j -> one_bound_each j -> d_thing E X j = d_thing E X j'.
  Proof. apply stable_reordered. apply thing_stable; auto. Qed.
  Lemma ds_reordered j j' :
    reordered j j' -> no_repeats j -> one_bound_each j -> d_ds E X j = d_ds E X j'.
  Proof. apply stable_reordered. apply ds_stable; auto. Qed.
End Order.
