(** * Texts with all floats *)

From Coq Require Import String Ascii Bool NArith ZArith QArith Lia List.
From Coq Require Import Floats.SpecFloat.
From Verif Require Import Base MinMax Json Serde Types DsBuilder Builder HList Ser De Protocol Samples SampleFacts BuiltSamples Spec SpecCalls
  SpecSerde SpecExt SpecDoc SpecMember SpecTyped SpecArgs SpecGiven SpecNum BuiltFacts JsonText SpecJsonText JsonTextFacts
  SpecNest SpecBuiltText BuiltTextFacts NestSamples BuiltTextSamples ExactFloats SpecFloatText ExactFloatFacts SpecThing.
Import ListNotations.
Set Implicit Arguments.
Local Open Scope string_scope.
Local Open Scope list_scope.

Lemma exact_document j : document j -> (forall x, float_in x j -> f64_ok x = true) -> ~ nested 128 j ->
  from_text exact_floats (to_text exact_floats j) = Some j.
Proof.
  intros Hd Hf Hn. apply text_shallow; auto. intros x Hx. apply exact_faithful; [auto|]. eapply document_finite; eauto.
Qed.

Lemma exact_built E X ord : order_ok ord -> forall K (T V : xvalues X), exts_sound K T V ->
  forall k title x p (t : thing E X), thing_program ord title x p = Some (Ok t) ->
  tags_read E -> args_typed T x p -> args_ok V x p -> ~ titles_property p ->
  exts_shallow X k -> (k <= 3)%nat -> exts_no_float X ->
  (forall q, schema_calls p q -> ~ closures 61 q) -> (forall v, value_given p v -> ~ nested 4 v) ->
  (forall y, float_given p y -> f64_ok y = true) ->
  exists j, s_thing mk_text t = Some j /\ obind (from_text exact_floats (to_text exact_floats j)) (d_thing E X) = Some t.
Proof.
  intros Ho K T V HS k title x p t Ht H1 H2 H3 H4 H5 H6 H7 H8 H9 H10.
  eapply (built_from_text Ho (F := exact_floats) HS); eauto. intros y Hy Hf. apply exact_faithful; auto.
Qed.

(** ** Examples *)

Definition tenth : f64 := S754_finite false 7205759403792794 (-56).
Definition tiniest : f64 := S754_finite true 1 (-1074).

Lemma exact_used :
  f64_ok tenth = true /\ f64_finite tenth = true /\ f64_ok tiniest = true /\ f64_finite tiniest = true
  /\ r_float (list_ascii_of_string "0.1") = Some tenth
  /\ r_float (list_ascii_of_string "-4.9E-324") = Some tiniest
  /\ r_float (list_ascii_of_string "1e400") = None
  /\ w_float (S754_finite true 5629499534213120 (-51)) = list_ascii_of_string "-2500000000000000000000000000000000000000000000000000e-51"
  /\ (exists q, text_value (list_ascii_of_string "2.50") false 250 q /\ is_number (S754_finite false 5629499534213120 (-51)) q)
  /\ (forall y, float_given door_angles y -> f64_ok y = true).
Proof.
  do 4 (split; [reflexivity|]). do 4 (split; [vm_compute; reflexivity|]). split.
  - exists (5 # 2)%Q. split.
    + eapply tv_intro with (int := ["2"%char]) (ds := ["5"; "0"]%char) (frac := ["."; "5"; "0"]%char) (exp := []) (neg := false);
        [reflexivity| |right; reflexivity|constructor|reflexivity|reflexivity].
      assert (D : forall l, forallb (fun c => (48 <=? N_of_ascii c) && (N_of_ascii c <=? 57))%N l = true -> l <> [] -> digits l).
      { intros l H Hl. split; [exact Hl|]. intros c Hc. rewrite forallb_forall in H. apply H in Hc.
        apply andb_true_iff in Hc as [H1 H2]. apply N.leb_le in H1, H2. split; assumption. }
      constructor; [left; reflexivity|apply D; [reflexivity|discriminate]|discriminate| |left; reflexivity].
      right. eexists. split; [reflexivity|]. apply D; [reflexivity|discriminate].
    + eexists. split; [reflexivity|]. vm_compute. reflexivity.
  - intros y Hy. apply angles_floats in Hy as [-> | ->]; reflexivity.
Qed.
