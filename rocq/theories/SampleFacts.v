(** Facts about the sample programs, used as examples and counterexamples. *)

From Coq Require Import String Bool ZArith Permutation List Ascii.
From Coq Require Import Floats.SpecFloat.
From Verif Require Import Base MinMax Json Serde Types DsBuilder Builder Spec SpecCalls SpecThing
  OrderFacts CommuteFacts ProgramProps HList Protocol Samples.
Import ListNotations.
Set Implicit Arguments.
Local Open Scope string_scope.
Local Open Scope list_scope.

Lemma id_order_ok : order_ok id_order.
Proof. intros A m. apply Permutation_refl. Qed.

Lemma rev_order_ok : order_ok rev_order.
Proof. intros A m. apply Permutation_sym, Permutation_rev. Qed.

Lemma lamp_ok :
  run id_order lamp = Some (Ok the_lamp) /\ run rev_order lamp = Some (Ok the_lamp)
  /\ order_ok id_order /\ order_ok rev_order.
Proof.
  split; [reflexivity|]. split; [reflexivity|].
  split; [exact id_order_ok|exact rev_order_ok].
Qed.

Lemma lamp_combo : exists s, In ("combo", s) (t_secdefs the_lamp) /\ combined s "basic_sc".
Proof.
  eexists. split; [right; left; reflexivity|].
  exists ["basic_sc"; "nosec"]. split; [left; reflexivity|right; reflexivity].
Qed.

(** A form of an action refers to a schema nobody defines. *)
Definition unchecked_response : list hop :=
  [TFinish; TSecurity [SNoSec];
   TAction "a" tt tt [AIa (IForm no_method [FHref "/"; FAdditional [RSchema "Problem"]])]].

Definition ok_thing (r : option (result error (thing sample_env http_exts))) :=
  match r with Some (Ok t) => Some t | _ => None end.

Definition unchecked_response_thing : thing sample_env http_exts.
Proof. let r := eval vm_compute in (ok_thing (run id_order unchecked_response)) in
       match r with Some ?t => exact t end. Defined.

Lemma affordance_responses :
  exists (p : list hop) t c f l r n,
    run id_order p = Some (Ok t)
    /\ form_at (thing_body t) c f /\ f_additional f = Some l /\ In r l /\ ar_schema r = Some n
    /\ ~ In n (mkeys (olist (t_schemas t))).
Proof.
  exists unchecked_response.
  exists unchecked_response_thing, CtxAction.
  do 4 eexists. split; [reflexivity|].
  split; [eapply (@form_aff http_exts _ AAction "a")|].
  - eapply aff_action. left. reflexivity.
  - left. reflexivity.
  - split; [reflexivity|]. split; [left; reflexivity|]. split; [reflexivity|]. intros [].
Qed.

Lemma lamp_bounds :
  exists d, checked_schema (thing_body the_lamp) d
    /\ exists e n, sub_ds e d /\ ds_sub e = Some (SInteger n) /\ z_min n <> None /\ z_max n <> None.
Proof.
  eexists. split; [eapply chk_property; [left; reflexivity|reflexivity]|].
  do 2 eexists. split.
  - eapply sub_prop; [reflexivity|left; reflexivity|]. apply sub_self.
  - split; [reflexivity|split; discriminate].
Qed.

Definition unsane : list (dsop unit unit unit) :=
  [DFinish tt; DInteger; DIntMin (MinIncl 5%Z); DIntMax (MaxIncl 4%Z)].

Definition unchecked : list hop :=
  [TFinish; TSecurity [SNoSec]; TSchema "s" bad_bounds; TUri "u" unsane;
   TAction "a" tt tt [AIa (IUri "v" unsane)]; TEvent "e" tt tt [EDataResponse bad_bounds]].

Definition unchecked_thing : thing sample_env http_exts.
Proof. let r := eval vm_compute in (ok_thing (run id_order unchecked)) in
       match r with Some ?t => exact t end. Defined.

Lemma unsane_bounds DS AS OS (d : ds DS AS OS) e n :
  sub_ds e d -> ds_sub e = Some (SInteger n) -> z_min n = Some (MinIncl 5%Z) -> z_max n = Some (MaxIncl 4%Z) ->
  ~ all_sane d.
Proof.
  intros He Es Hmin Hmax H. specialize (H e _ He Es). simpl in H. specialize (H _ _ Hmin Hmax).
  simpl in H. apply H. reflexivity.
Qed.

Lemma unchecked_bounds :
  exists (p : list hop) t,
    run id_order p = Some (Ok t)
    /\ (exists n d, In (n, d) (olist (t_schemas t)) /\ ~ all_sane d)
    /\ (exists n d, In (n, d) (olist (t_uri t)) /\ ~ all_sane d)
    /\ (exists m a n d, In (m, a) (olist (t_actions t)) /\ In (n, d) (olist (ia_uri (aa_ia a))) /\ ~ all_sane d)
    /\ (exists m a d, In (m, a) (olist (t_events t)) /\ ea_data_response a = Some d /\ ~ all_sane d).
Proof.
  exists unchecked.
  exists unchecked_thing. split; [reflexivity|].
  split; [|split; [|split]].
  - do 2 eexists. split; [left; reflexivity|].
    eapply unsane_bounds; [eapply sub_prop; [reflexivity|left; reflexivity|]; eapply sub_item; [reflexivity|]; apply sub_self|reflexivity..].
  - do 2 eexists. split; [left; reflexivity|]. eapply unsane_bounds; [apply sub_self|reflexivity..].
  - do 4 eexists. split; [left; reflexivity|]. split; [left; reflexivity|].
    eapply unsane_bounds; [apply sub_self|reflexivity..].
  - do 3 eexists. split; [left; reflexivity|]. split; [reflexivity|].
    eapply unsane_bounds; [eapply sub_prop; [reflexivity|left; reflexivity|]; eapply sub_item; [reflexivity|]; apply sub_self|reflexivity..].
Qed.

Lemma lamp_uri : exists d, uri_variable (thing_body the_lamp) d /\ ds_sub d = Some SBoolean.
Proof.
  eexists. split.
  - eapply uri_aff with (k := AProperty); [eapply aff_property; left; reflexivity|]. left. reflexivity.
  - reflexivity.
Qed.

(** Lower casing twice. *)
Lemma lower_ascii_idem c : lower_ascii (lower_ascii c) = lower_ascii c.
Proof. destruct c as [[] [] [] [] [] [] [] []]; vm_compute; reflexivity. Qed.

Lemma lower_idem s : lower (lower s) = lower s.
Proof. induction s as [|c s IH]; cbn [lower]; rewrite ?lower_ascii_idem, ?IH; reflexivity. Qed.

Lemma sample_idem k k' : tag_parse sample_env k = Some k' -> tag_parse sample_env k' = Some k'.
Proof.
  cbn [tag_parse sample_env]. destruct (tag_chars (lower k) && negb (String.eqb k "")) eqn:Ek; [|discriminate].
  intros H. injection H as <-. rewrite lower_idem.
  apply andb_true_iff in Ek as [-> Ek]. destruct k; [discriminate|reflexivity].
Qed.

Lemma lamp_tags :
  tag_in (thing_body the_lamp) "en" /\ tag_in (thing_body the_lamp) "de-at"
  /\ (forall k k', tag_parse sample_env k = Some k' -> tag_parse sample_env k' = Some k')
  /\ run id_order
       [TFinish; TSchema "s" [DFinish tt; DVec tt; DSetItem [DInfo (ITitles [("en", "x"); ("e n", "x")]); DFinish tt; DBool]]]
     = Some (Err (InvalidLanguageTag "e n")).
Proof.
  split; [|split; [|split]].
  - eapply tag_map.
    + eapply lm_schema.
      * apply in_checked. eapply chk_property; [left; reflexivity|reflexivity].
      * eexists. split; [eapply sub_prop; [reflexivity|left; reflexivity|apply sub_self]|].
        left. reflexivity.
    + left. reflexivity.
  - eapply tag_link; [right; left; reflexivity|reflexivity|left; reflexivity].
  - exact sample_idem.
  - reflexivity.
Qed.

Definition bad_sizes : list hop := [TLinkWith [LHref "x"; LSizes "1x1"]].

Lemma lamp_consistent :
  (exists y, declares lamp y /\ consistent (parsable sample_env) y)
  /\ (exists y, @declares sample_env http_exts [TLinkWith [LHref "x"; LSizes "1x1"]] y
                /\ ~ consistent (parsable sample_env) y).
Proof.
  split.
  - pose proof (proj1 lamp_ok) as Hr.
    destruct (@build_iff_consistent sample_env http_exts id_order "Lamp" tt lamp (Ok the_lamp) id_order_ok Hr) as (y & Hy & _ & H & _).
    exists y. split; auto. apply H. exists the_lamp. reflexivity.
  - assert (Hr : run id_order bad_sizes = Some (Err SizesWithRelNotIcon)) by reflexivity.
    destruct (@build_iff_consistent sample_env http_exts id_order "Lamp" tt bad_sizes (Err SizesWithRelNotIcon) id_order_ok Hr) as (y & Hy & _ & H & _).
    exists y. split; [exact Hy|]. intros Hc. apply H in Hc as [t Ht]. discriminate.
Qed.

Definition bad_combo : list hop := [TSecurity [SCombo; SOneOf ["basic"]]].

Lemma missing_schema_misused :
  exists (p : list hop) n,
    run id_order p = Some (Err (MissingSchemaDefinition n))
    /\ forall y, declares p y ->
         ~ exists c f l r, form_at y c f /\ f_additional f = Some l /\ In r l /\ ar_schema r = Some n.
Proof.
  exists bad_combo, "basic". split; [reflexivity|].
  intros y Hy (c & f & l & r & Hf & _).
  pose proof (dc_forms Hy) as H1. pose proof (dc_properties Hy) as H2.
  pose proof (dc_actions Hy) as H3. pose proof (dc_events Hy) as H4.
  assert (Ef : y_forms y = []) by (inversion H1; reflexivity).
  assert (Ep : y_properties y = []) by (inversion H2; reflexivity).
  assert (Ea : y_actions y = []) by (inversion H3; reflexivity).
  assert (Ee : y_events y = []) by (inversion H4; reflexivity).
  destruct Hf as [f Hf|k n i f Ha Hf].
  - rewrite Ef in Hf. exact Hf.
  - destruct Ha as [n a Ha|n a Ha|n a Ha]; [rewrite Ep in Ha|rewrite Ea in Ha|rewrite Ee in Ha]; exact Ha.
Qed.

Lemma plain_injective k k' s : tag_parse plain_env k = Some s -> tag_parse plain_env k' = Some s -> k = k'.
Proof.
  cbn [tag_parse plain_env]. destruct (_ && _); [|discriminate]. destruct (_ && _); [|discriminate]. congruence.
Qed.

Definition plain_lamp_thing : thing plain_env http_exts.
Proof.
  let r := eval vm_compute in
    (match @thing_program plain_env http_exts rev_order "Lamp" tt (lamp_calls plain_env "today") with
     | Some (Ok t) => Some t | _ => None end) in
  match r with Some ?t => exact t end.
Defined.

Lemma plain_lamp :
  (forall k k' s, tag_parse plain_env k = Some s -> tag_parse plain_env k' = Some s -> k = k')
  /\ exists t, @thing_program plain_env http_exts rev_order "Lamp" tt (lamp_calls plain_env "today") = Some (Ok t)
               /\ t_titles t = Some [("EN", "Lamp"); ("it", "Lampada")].
Proof. split; [exact plain_injective|]. 
  exists plain_lamp_thing. split; reflexivity. Qed.

Definition clash : list hop := [TTitles [("EN", "a"); ("en", "b")]].

Definition clash_thing1 : thing sample_env http_exts.
Proof. let r := eval vm_compute in (ok_thing (run id_order clash)) in match r with Some ?t => exact t end. Defined.
Definition clash_thing2 : thing sample_env http_exts.
Proof. let r := eval vm_compute in (ok_thing (run rev_order clash)) in match r with Some ?t => exact t end. Defined.

Lemma order_dependent_thing :
  exists (p : list hop) t1 t2,
    order_ok id_order /\ order_ok rev_order
    /\ run id_order p = Some (Ok t1) /\ run rev_order p = Some (Ok t2)
    /\ t_titles t1 = Some [("en", "b")] /\ t_titles t2 = Some [("en", "a")].
Proof.
  exists clash, clash_thing1, clash_thing2.
  split; [exact id_order_ok|]. split; [exact rev_order_ok|].
  split; [reflexivity|]. split; [reflexivity|]. split; reflexivity.
Qed.
