(** * Values for the examples of C63 *)

From Coq Require Import String Bool ZArith List.
From Verif Require Import Base MinMax Json Serde Types DsBuilder Builder Protocol Spec SpecThing SpecMade MadeFacts
  Samples SampleFacts DsExamples.
Import ListNotations.
Set Implicit Arguments.
Local Open Scope string_scope.
Local Open Scope list_scope.

Definition psk (i : option string) : security_scheme :=
  {| ss_attype := None; ss_description := None; ss_descriptions := None; ss_proxy := None;
     ss_subtype := Known (KPsk i) |}.
Definition either (l : list string) : security_scheme :=
  {| ss_attype := None; ss_description := None; ss_descriptions := None; ss_proxy := None;
     ss_subtype := Known (KCombo (COneOf l)) |}.

Definition text_property (s : string_schema) : property http_exts :=
  {| pa_ia := @Build_interaction http_exts no_info [] None tt;
     pa_ds := schema_of plain_misc None (Some (SString s)); pa_observable := None; pa_other := tt |}.

Definition small (ctx : json) (sec : list string) (defs : amap security_scheme) (props : option (amap (property http_exts)))
  : thing sample_env http_exts :=
  {| t_context := ctx; t_id := None; t_attype := None; t_title := "Small"; t_titles := None; t_description := None;
     t_descriptions := None; t_version := None; t_created := None; t_modified := None; t_support := None; t_base := None;
     t_properties := props; t_actions := None; t_events := None; t_links := None; t_forms := None; t_security := sec;
     t_secdefs := defs; t_uri := None; t_profile := None; t_schemas := None; t_other := tt |}.

(** Two schemes and a choice between them, the second one required; a further context *)
Definition small_thing : thing sample_env http_exts :=
  small (JArr [JStr TD_CONTEXT_11; JObj [("saref", JStr "https://w3id.org/saref#")]]) ["b"; "a"]
    [("a", psk None); ("b", either ["a"; "c"]); ("c", psk None)] None.

Lemma small_thing_made : thing_made small_thing.
Proof.
  assert (forall c f, form_at (thing_body small_thing) c f -> False) as Hf.
  { intros c f [g []|k n i g Ha _]. inversion Ha; contradiction. }
  assert (forall k n i, affordance (thing_body small_thing) k n i -> False) as Ha by (intros k n i Ha; inversion Ha; contradiction).
  assert (forall d, uri_variable (thing_body small_thing) d -> False) as Hu.
  { intros d [n []|k m i n H _]. exact (Ha _ _ _ H). }
  assert (forall d, checked_schema (thing_body small_thing) d -> False) as Hs by (intros d H; inversion H; contradiction).
  constructor.
  - right. exists [JObj [("saref", JStr "https://w3id.org/saref#")]]. split; [discriminate|]. split; [reflexivity|].
    intros c [<-|[]]. right. exists [("saref", "https://w3id.org/saref#")]. split; [reflexivity|]. cbn. tauto.
  - discriminate.
  - intros m F. discriminate F.
  - intros m F. discriminate F.
  - split; [discriminate|]. intros m F. discriminate F.
  - split; [discriminate|]. intros m F. discriminate F.
  - split; [discriminate|]. intros m F. discriminate F.
  - split; [discriminate|]. intros m [].
  - split; [discriminate|]. intros m [].
  - split.
    + repeat constructor; cbn; intuition discriminate.
    + intros n [<-|[<-|[]]]; cbn; auto.
  - split; [cbn; intuition (subst; reflexivity || discriminate)|]. intros n c Hin.
    assert (c = psk None \/ c = either ["a"; "c"]) as [->| ->].
    { destruct Hin as [F|[F|[F|[]]]]; injection F as _ <-; auto. }
    + constructor; [intros F; discriminate F|intros m F; discriminate F| |intros i F; discriminate F].
      intros i F. injection F as <-. reflexivity.
    + constructor; [intros F; discriminate F|intros m F; discriminate F| |]; intros i F; discriminate F.
  - split; [discriminate|]. intros m F. discriminate F.
  - discriminate.
  - split; [discriminate|]. intros m F. discriminate F.
  - constructor.
    + cbn. repeat constructor; cbn; intuition discriminate.
    + intros k s n [F|[F|[F|[]]]]; injection F as <- <-; intros (l & Hn & [G|G]); try discriminate G; injection G as <-; cbn in *; intuition (subst; auto).
    + intros c f l n H. destruct (Hf _ _ H).
    + intros f H. destruct (Hf _ _ H).
    + intros c f l n H. destruct (Hf _ _ H).
    + intros f l r n H. destruct (Hf _ _ H).
    + intros d H. destruct (Hu _ H).
    + constructor.
    + constructor.
    + constructor.
    + intros d H. destruct (Hs _ H).
    + intros s [m [F|F|n c Hin F|k n i F _|d F _] Hk|l hs [] _ _]; cbn in *; subst; try destruct Hk.
      * destruct Hin as [G|[G|[G|[]]]]; injection G as _ <-; discriminate F.
      * destruct (Ha _ _ _ F).
      * exfalso. destruct F as [F|n a [] _|F|n []]; eauto.
    + intros l z [].
Qed.
