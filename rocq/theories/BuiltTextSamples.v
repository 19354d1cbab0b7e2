(** * Built Things and their texts: extensions and an example *)

From Coq Require Import String Bool ZArith Lia List.
From Coq Require Import Floats.SpecFloat.
From Verif Require Import Base MinMax Json Serde Types DsBuilder Builder HList Ser De Protocol Samples SampleFacts
  Spec SpecCalls SpecSerde SpecExt SpecDoc SpecMember SpecTyped SpecArgs SpecGiven SerdeFacts MemberFacts CleanFacts StableFacts SerdeSamples DocSamples
  Witnesses SerdeMore ExchangeMore BuiltFacts BuiltSamples JsonText SpecJsonText JsonTextFacts TextSamples ExtTypedFacts
  SpecNest NestFacts NestSamples SpecBuiltText ThingFloatFacts BuiltTextFacts SpecThing.
Import ListNotations.
Set Implicit Arguments.
Local Open Scope string_scope.
Local Open Scope list_scope.

(** ** The extensions of src/protocol write no floats *)

Ltac no_floats := repeat first [apply fines_nil | apply fines_fld | apply fines_app | apply fines_ofld; intros | apply fine_str | apply fine_int
  | apply fine_bool | apply fine_null | apply fine_strs].

Lemma no_float_of p : (forall mk a, json_writer mk -> fines (fun _ => False) (p_ser p mk a)) -> writes_no_float p.
Proof. intros H mk a n j x Hw Hin Hx. exact (H mk a Hw n j Hin x Hx). Qed.

Lemma unit_no_float : writes_no_float unit_piece.
Proof. intros mk a n j x _ []. Qed.

Lemma http_no_float : exts_no_float http_exts.
Proof.
  constructor; try apply unit_no_float; apply no_float_of; intros mk a Hw;
    cbn [http_exts x_f x_er p_ser http_form_piece http_response_piece].
  - no_floats.
  - destruct (hr_headers a) as [|h l]; no_floats; apply (@fine_list _ _ (s_http_header mk)); intros; apply (fine_mk Hw); no_floats.
Qed.

Lemma coap_no_float : exts_no_float coap_exts.
Proof.
  constructor; try apply unit_no_float; apply no_float_of; intros mk a Hw;
    cbn [coap_exts x_f x_er p_ser coap_form_piece coap_response_piece]; no_floats; apply (fine_mk Hw); no_floats.
Qed.

Lemma mqtt_no_float : exts_no_float mqtt_exts.
Proof.
  constructor; try apply unit_no_float; apply no_float_of; intros mk a Hw; cbn [mqtt_exts x_f p_ser mqtt_form_piece].
  destruct (mf_retain a), (mf_filter a); no_floats.
Qed.

Lemma cons_no_float X X' : exts_no_float X -> exts_no_float X' -> exts_no_float (cons_exts X X').
Proof.
  assert (H : forall p q, writes_no_float p -> writes_no_float q -> writes_no_float (cons_piece p q)).
  { intros p q Hp Hq mk a n j x Hw Hin. cbn in Hin. apply in_app_or in Hin as [Hin|Hin]; eauto. }
  intros [] []. constructor; apply H; auto.
Qed.

(** ** A program with floats *)

Lemma in_floats_of x j : In x (floats_of j) -> float_in x j.
Proof.
  induction j as [| | | | |l IH|es IH] using json_ind'; cbn; intros H; try contradiction.
  - destruct H as [<-|[]]. constructor.
  - apply in_flat_map in H as (j & Hj & H). eapply fi_arr; eauto.
  - apply in_flat_map in H as ([k j] & Hj & H). eapply fi_obj; eauto.
Qed.

Definition angle_item : list (dsop unit unit unit) :=
  [DFinish tt; DNumber; DNumMin (MinIncl (S754_zero false)); DNumMax (MaxIncl (f64_of_Z 90%Z));
   DDefault (JArr [JFloat (f64_of_Z 90%Z)])].
Definition angle_calls : list (dsop unit unit unit) := [DFinish tt; DVec tt; DSetItem angle_item].

Definition door_angles : list hop :=
  [TFinish; TSecurity [SBasic; SWithKey "b"; SRequired];
   TSecurity [SCustom "acme"; SData (JObj [("level", JArr [JFloat (S754_zero false)])])];
   TProperty "angles" tt tt (map (@PDs http_exts) angle_calls ++ [PIa (IForm no_method [FHref "/angles"; FOp ReadProperty])])].

Definition the_angles : thing sample_env http_exts.
Proof.
  let r := eval vm_compute in (run id_order door_angles) in match r with Some (Ok ?t) => exact t end.
Defined.

Lemma angles_built : run id_order door_angles = Some (Ok the_angles).
Proof. reflexivity. Qed.

Lemma angles_args_typed : args_typed http_typed tt door_angles.
Proof. typed_args_tac. Qed.

Lemma angles_args_ok : args_ok http_values tt door_angles.
Proof.
  ok_args_tac. cbn. eexists. split; [reflexivity|]. split; [value_tac|]. split.
  - intros H. inversion H.
  - intros k [<-|[]] H. apply smem_In in H. discriminate.
Qed.

Lemma angles_schema q : schema_calls door_angles q -> q = angle_calls.
Proof.
  intros Hq. destruct Hq as [n H|n H|n xi xp c H Hc|n xi xp c H Hc|n xi xp c H Hc];
    (destruct H as [H|[H|[H|[H|[]]]]]; try discriminate H).
  injection H as <- <- <- <-. destruct Hc as [->|[k H]]; [reflexivity|].
  destruct H as [H|[]]. discriminate H.
Qed.

Lemma angles_calls o : calls angle_calls o -> In o angle_calls \/ In o angle_item.
Proof.
  intros Ho. inversion Ho as [? ? H|? o1 q ? H Hc H2]; subst; clear Ho; [auto|].
  destruct H as [<-|[<-|[<-|[]]]]; try discriminate Hc. injection Hc as <-.
  inversion H2 as [? ? H|? o1 q ? H Hc H3]; subst; clear H2; [auto|].
  destruct H as [<-|[<-|[<-|[<-|[<-|[]]]]]]; discriminate Hc.
Qed.

Lemma angles_closures n q : schema_calls door_angles q -> closures n q -> n <= 2.
Proof.
  intros Hq H. apply angles_schema in Hq as ->. inversion H as [|m q o q' Ho Hc H2]; subst; clear H; [lia|].
  destruct Ho as [<-|[<-|[<-|[]]]]; try discriminate Hc. injection Hc as <-.
  inversion H2 as [|m' q o q' Ho Hc H3]; subst; clear H2; [lia|].
  destruct Ho as [<-|[<-|[<-|[<-|[<-|[]]]]]]; discriminate Hc.
Qed.

Lemma angles_values v : value_given door_angles v -> v = JArr [JFloat (f64_of_Z 90%Z)] \/ v = JArr [JFloat (S754_zero false)].
Proof.
  intros [q o Hq Ho Hv|q es k Hq Hd Hv].
  - apply angles_schema in Hq as ->. apply angles_calls in Ho as [H|H].
    + destruct H as [<-|[<-|[<-|[]]]]; discriminate Hv.
    + destruct H as [<-|[<-|[<-|[<-|[<-|[]]]]]]; try discriminate Hv. injection Hv as <-. auto.
  - destruct Hq as [H|[H|[H|[H|[]]]]]; try discriminate H; injection H as <-.
    + destruct Hd as [H|[H|[H|[]]]]; discriminate H.
    + destruct Hd as [H|[H|[]]]; try discriminate H. injection H as <-. destruct Hv as [[= _ <-]|[]]. auto.
Qed.

Lemma angles_floats y : float_given door_angles y -> y = S754_zero false \/ y = f64_of_Z 90%Z.
Proof.
  intros [(q & o & Hq & Ho & Hv)|(v & Hv & Hy)].
  - apply angles_schema in Hq as ->. apply angles_calls in Ho as [H|H].
    + destruct H as [<-|[<-|[<-|[]]]]; discriminate Hv.
    + destruct H as [<-|[<-|[<-|[<-|[<-|[]]]]]]; try discriminate Hv; injection Hv as <-; auto.
  - apply angles_values in Hv as [-> | ->]; apply floats_of_in in Hy; destruct Hy as [<-|[]]; auto.
Qed.

Lemma built_text_used :
  run id_order door_angles = Some (Ok the_angles) /\ tags_read sample_env /\ args_typed http_typed tt door_angles
  /\ args_ok http_values tt door_angles /\ ~ titles_property door_angles
  /\ exts_shallow http_exts 2 /\ exts_no_float http_exts
  /\ (forall q, schema_calls door_angles q -> ~ closures 61 q)
  /\ (exists q, schema_calls door_angles q /\ closures 2 q)
  /\ (forall v, value_given door_angles v -> ~ nested 4 v)
  /\ value_given door_angles (JArr [JFloat (S754_zero false)])
  /\ (forall y, float_given door_angles y -> f64_finite y = true -> faithful few_floats y)
  /\ number_given door_angles (f64_of_Z 90%Z)
  /\ exists j, s_thing mk_text the_angles = Some j /\ float_in (f64_of_Z 90%Z) j.
Proof.
  split; [exact angles_built|]. split; [exact sample_tags|]. split; [exact angles_args_typed|]. split; [exact angles_args_ok|].
  split.
  { intros (n & xi & xp & q & o & Hc & Ho). cbn in Hc.
    destruct (String.eqb n "angles"); [|discriminate]. injection Hc as <- <- <-.
    cbn in Ho. repeat destruct Ho as [Ho|Ho]; try discriminate Ho. exact Ho. }
  split; [exact http_shallow|]. split; [exact http_no_float|].
  assert (Hin : schema_calls door_angles angle_calls).
  { eapply sc_property; [right; right; right; left; reflexivity|left; reflexivity]. }
  split; [intros q Hq H; assert (Q := angles_closures Hq H); lia|]. split.
  { exists angle_calls. split; [exact Hin|]. eapply cl_more; [right; right; left; reflexivity|reflexivity|apply cl_one]. }
  split; [intros v Hv; apply not_nested; apply angles_values in Hv as [-> | ->]; cbn; lia|]. split.
  { eapply vg_scheme; [right; right; left; reflexivity|right; left; reflexivity|left; reflexivity]. }
  split; [intros y Hy _; apply angles_floats in Hy as [-> | ->]; [exact zero_faithful|exact ninety_faithful]|]. split.
  { exists angle_calls, (DNumMax (MaxIncl (f64_of_Z 90%Z))). split; [exact Hin|]. split; [|reflexivity].
    eapply calls_inside; [right; right; left; reflexivity|reflexivity|].
    apply calls_here. right; right; right; left; reflexivity. }
  eexists. split; [reflexivity|].
  assert (Hf : forall (l : list f64) j, l = floats_of j -> In (f64_of_Z 90%Z) l -> float_in (f64_of_Z 90%Z) j).
  { intros l j -> H. apply in_floats_of. exact H. }
  eapply Hf; [cbv; reflexivity|]. left. reflexivity.
Qed.
