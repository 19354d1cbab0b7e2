(** * Calls before and after [finish_extend] are the same methods *)

From Coq Require Import String Bool ZArith List.
From Verif Require Import Base MinMax Json Serde Types DsBuilder Builder HList Extend SpecMethods SpecThing.
Set Implicit Arguments.
Local Open Scope string_scope.

Lemma late_method E X (o : thing_early E) : method (thing_late X o) = early_method o.
Proof. destruct o; reflexivity. Qed.

Lemma late_inj E X (o o' : thing_early E) : thing_late X o = thing_late X o' -> o = o'.
Proof. destruct o, o'; cbn [thing_late]; intros H; try discriminate H; injection H as H; subst; reflexivity. Qed.

Lemma late_all E X (o : top E X) :
  (exists e, o = thing_late X e) <-> ~ In (method o) ("finish_extend" :: "form" :: "uri_variable" :: "property" :: "action" :: "event" :: "schema_definition" :: nil).
Proof.
  split.
  - intros (e & ->). destruct e; cbn; intuition discriminate.
  - destruct o; cbn [method]; intros H; try (exfalso; apply H; cbn; tauto);
      [eexists (TeId _ _)|eexists (TeDescription _ _)|eexists (TeVersion _ _)|eexists (TeCreated _ _)|eexists (TeModified _ _)|eexists (TeSupport _ _)
      |eexists (TeBase _ _)|eexists (TeContext _ _)|eexists (TeContextMap _ _)|eexists (TeAttype _ _)|eexists (TeTitles _ _)
      |eexists (TeDescriptions _ _)|eexists (TeLink _ _)|eexists (TeLinkWith _ _)|eexists (TeSecurity _ _)|eexists (TeProfile _ _)];
      reflexivity.
Qed.

Lemma early_calls E X :
  (forall o, method (thing_late X o) = early_method (E := E) o)
  /\ (forall o o', @thing_late E X o = thing_late X o' -> o = o')
  /\ forall o : top E X, (exists e, o = thing_late X e)
       <-> ~ In (method o) ("finish_extend" :: "form" :: "uri_variable" :: "property" :: "action" :: "event" :: "schema_definition" :: nil).
Proof. split; [apply late_method|]. split; [apply late_inj|apply late_all]. Qed.
