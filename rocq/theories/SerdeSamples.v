(** * Concrete Things and documents for the serialization properties *)

From Coq Require Import String Bool ZArith Lia List.
From Coq Require Import Floats.SpecFloat.
From Verif Require Import Base MinMax Json Serde Types DsBuilder Builder HList Protocol Spec DsFacts Samples
  SpecSerde Ser De SpecExt SerdeFacts.
Import ListNotations.
Set Implicit Arguments.
Local Open Scope string_scope.
Local Open Scope list_scope.

Ltac in_tac H := cbn in H; repeat destruct H as [<-|H]; try destruct H.

Ltac sorted_tac :=
  cbn; repeat first [exact I | split; [let H := fresh in intros ? H; in_tac H; reflexivity|]].

Ltac tags_tac :=
  split; [sorted_tac|
          let s := fresh "s" in let H := fresh "H" in
          intros s H; simpl in H; repeat destruct H as [<-|H]; try destruct H; reflexivity].

Ltac info_tac :=
  let m := fresh "m" in let H := fresh "H" in
  intros m [H|H]; cbn in H; try discriminate H; injection H as <-; (tags_tac).

Ltac some_tac := let a := fresh "a" in let H := fresh "H" in
  intros a H; cbn in H; try discriminate H; injection H as <-.

Ltac value_tac :=
  lazymatch goal with
  | |- value_ok (JObj _) =>
      apply V_obj; [sorted_tac|let H := fresh in intros ? ? H; cbn in H;
                               repeat destruct H as [[= <- <-]|H]; try destruct H; value_tac]
  | |- value_ok (JArr _) => apply V_arr; let H := fresh in intros ? H; in_tac H; value_tac
  | |- Forall _ _ => repeat constructor; value_tac
  | |- value_ok _ => constructor; try reflexivity
  end.

Ltac subtype_tac :=
  lazymatch goal with
  | |- True => exact I
  | |- _ /\ _ => split; subtype_tac
  | |- all_some _ _ =>
      some_tac; first [reflexivity|unfold in_u32, in_i64, in_nz_u64; simpl; lia|sorted_tac]
  | |- _ => exact I
  end.

Ltac node_tac :=
  split; [info_tac|split; [some_tac; (split; [value_tac|discriminate])|
  split; [some_tac; (split; [value_tac|discriminate])|
  split; [some_tac; value_tac|
  split; [some_tac; cbn [subtype_ok]; subtype_tac
         |exact I]]]]].

Ltac schema_tac :=
  let c := fresh "c" in let H := fresh "H" in
  apply everywhere_intro;
  [node_tac|intros c H; cbn in H; repeat destruct H as [<-|H]; try destruct H; schema_tac].

Ltac forall_tac tac :=
  lazymatch goal with
  | |- Forall _ [] => apply Forall_nil
  | |- Forall _ (_ :: _) => apply Forall_cons; [tac|forall_tac tac]
  | |- Forall ?P ?l => let l' := eval hnf in l in change (Forall P l'); forall_tac tac
  end.

Ltac form_tac :=
  split; [discriminate|split; [some_tac; (split; [discriminate|some_tac; split; discriminate])|exact I]].

Ltac schemas_tac :=
  split; [sorted_tac|let H := fresh in intros ? ? H; cbn in H;
                     repeat destruct H as [[= <- <-]|H]; try destruct H; schema_tac].

Ltac interaction_tac :=
  split; [info_tac|split; [forall_tac form_tac|split; [some_tac; schemas_tac|exact I]]].

Ltac map_tac tac :=
  split; [sorted_tac|let H := fresh in intros ? ? H; cbn in H;
                     repeat destruct H as [[= <- <-]|H]; try destruct H; tac].

Ltac property_tac :=
  split; [interaction_tac|split; [schema_tac|split; [reflexivity|exact I]]].
Ltac action_tac :=
  split; [interaction_tac|split; [some_tac; schema_tac|split; [some_tac; schema_tac|exact I]]].
Ltac event_tac :=
  split; [interaction_tac|split; [some_tac; schema_tac|split; [some_tac; schema_tac|
    split; [some_tac; schema_tac|split; [some_tac; schema_tac|exact I]]]]].
Ltac security_tac :=
  split; [some_tac; tags_tac|discriminate].
Ltac link_tac := some_tac; repeat constructor.
Ltac date_tac := some_tac; eexists; split; reflexivity.

Lemma lamp_ok : thing_ok http_values own_name the_lamp.
Proof.
  unfold thing_ok.
  split; [cbn; value_tac|].
  split; [some_tac; tags_tac|]. split; [some_tac; tags_tac|].
  split; [date_tac|]. split; [date_tac|].
  split; [some_tac; map_tac property_tac|].
  split; [some_tac; map_tac action_tac|].
  split; [some_tac; map_tac event_tac|].
  split; [some_tac; forall_tac link_tac|].
  split; [some_tac; forall_tac form_tac|].
  split; [map_tac security_tac|].
  split; [some_tac; schemas_tac|]. split; [some_tac; schemas_tac|]. exact I.
Qed.
