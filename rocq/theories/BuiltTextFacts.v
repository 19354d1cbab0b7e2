(** * Built Things and their texts *)

From Coq Require Import String Bool ZArith Lia List.
From Verif Require Import Base MinMax Json Serde Types DsBuilder Builder HList Ser De Spec SpecCalls SpecSerde SpecExt SpecDoc SpecMember
  SpecTyped SpecArgs SpecGiven DsFacts DsProgFacts ProgFacts SaysFacts ThingFacts ProgramProps ArgFacts BuiltFacts GivenFacts
  JsonText SpecJsonText JsonTextFacts SpecNum SpecEqual SpecRead SpecNest NestFacts SpecBuiltText ThingFloatFacts SpecThing.
Import ListNotations.
Set Implicit Arguments.
Local Open Scope string_scope.
Local Open Scope list_scope.

Lemma document_finite j x : document j -> float_in x j -> f64_finite x = true.
Proof. intros H Hx. induction Hx; inversion H; subst; eauto. Qed.

Section Schemas.
  Variable X : exts.
  Variable tg : string -> option string.
  Notation says := (@ds_says (pty (x_ds X)) (pty (x_as X)) (pty (x_os X)) tg).

  Lemma child_inside (c d : dsx X) : inside c d -> In c (ds_children d).
  Proof.
    unfold ds_children. destruct 1 as [d l H Hc|d mn mx o H|d l mn mx o H Hc|d ps k r o H Hc]; rewrite H; apply in_or_app.
    - left. exact Hc.
    - right. left. reflexivity.
    - right. exact Hc.
    - right. cbn. apply in_map_iff. exists (k, c). auto.
  Qed.

  Lemma levels_closures n (d : dsx X) : levels n d -> forall p, says p d -> closures n p.
  Proof.
    induction 1 as [d|n c d Hi Hl IH]; intros p Hs; [apply cl_one|].
    destruct (child_calls c Hs (child_inside Hi)) as (q & Hq & o & Ho & Hc). eapply cl_more; eauto.
  Qed.

  Definition node_value (d : dsx X) (v : json) : Prop :=
    m_const (ds_misc d) = Some v \/ m_default (ds_misc d) = Some v \/ exists l, m_enum (ds_misc d) = Some l /\ In v l.

  Lemma value_calls p (d : dsx X) v : says p d -> node_value d v -> exists o, calls p o /\ value_of o = Some v.
  Proof.
    intros [H] Hv. destruct H.
    assert (Hp : forall (f : dsop (pty (x_ds X)) (pty (x_as X)) (pty (x_os X)) -> option json),
               In v (picks f p) -> (forall c, f c = Some v -> value_of c = Some v) ->
               exists o, calls p o /\ value_of o = Some v).
    { intros f Hin Hf. apply picks_In in Hin as (c & Hc & Hcv). exists c. split; [constructor; auto|auto]. }
    assert (Hl : forall (f : dsop (pty (x_ds X)) (pty (x_as X)) (pty (x_os X)) -> option json),
               lasto (picks f p) = Some v -> (forall c, f c = Some v -> value_of c = Some v) ->
               exists o, calls p o /\ value_of o = Some v).
    { intros f Hb Hf. apply last_pick in Hb as (c & Hc & Hcv). exists c. split; [constructor; auto|auto]. }
    destruct Hv as [Hv|[Hv|(l & Hv & Hin)]].
    - rewrite dd_const in Hv. eapply Hl; [exact Hv|]. intros [] F; try discriminate F; exact F.
    - rewrite dd_default in Hv. eapply Hl; [exact Hv|]. intros [] F; try discriminate F; exact F.
    - rewrite dd_enum in Hv. apply (Hp (@d_enum _ _ _)); [|intros [] F; try discriminate F; exact F].
      unfold nonempty in Hv. destruct (picks (@d_enum _ _ _) p); [discriminate Hv|]. injection Hv as <-. exact Hin.
  Qed.

  Lemma sub_value_calls (d e : dsx X) v : sub_ds e d -> node_value e v ->
    forall p, says p d -> exists o, calls p o /\ value_of o = Some v.
  Proof.
    intros He Hv.
    assert (Hstep : forall (c d : dsx X), inside c d -> (forall q, says q c -> exists o, calls q o /\ value_of o = Some v) ->
              forall p, says p d -> exists o, calls p o /\ value_of o = Some v).
    { intros c d' Hi IH p Hs. destruct (child_calls c Hs (child_inside Hi)) as (q & Hq & o & Ho & Hoq).
      destruct (IH q Hq) as (o' & H1 & H2). exists o'. split; auto. eapply calls_inside; eauto. }
    induction He as [|d l c Hd Hc _ IH|d c mn mx o Hd _ IH|d l c mn mx o Hd Hc _ IH|d ps k c r o Hd Hc _ IH].
    - intros p Hs. eapply value_calls; eauto.
    - eapply Hstep; [eapply ins_one_of; eauto|exact IH].
    - eapply Hstep; [eapply ins_item; eauto|exact IH].
    - eapply Hstep; [eapply ins_items; eauto|exact IH].
    - eapply Hstep; [eapply ins_prop; eauto|exact IH].
  Qed.
End Schemas.

Section Things.
  Variable E : env.
  Variable X : exts.

  Lemma context_shallow (p : list (top E X)) j : context_says p j -> jdepth j <= 2.
  Proof.
    unfold context_says. intros H. destruct (picks (@t_of_context E X) p) as [|c cs].
    - subst j. apply Nat.le_0_l.
    - destruct H as (js & Hjs & ->). apply depth_arr. intros j Hj. destruct Hj as [<-|Hj]; [apply Nat.le_0_l|].
      revert Hjs Hj. generalize (c :: cs). clear. intros l H. induction H as [|a b l l' Hab H IH]; [intros []|].
      intros [<-|Hj]; [|auto]. destruct Hab as [s|l0 m [Hs Hm]]; [apply Nat.le_0_l|].
      apply depth_obj. intros k v Hv. specialize (Hm k). apply (at_key Hs) in Hv. rewrite Hv in Hm.
      apply omatch_r in Hm as (x & _ & ->). apply le_n.
  Qed.

  Lemma context_no_float (p : list (top E X)) j x : context_says p j -> ~ float_in x j.
  Proof.
    unfold context_says. intros H Hx. destruct (picks (@t_of_context E X) p) as [|c cs].
    - subst j. inversion Hx.
    - destruct H as (js & Hjs & ->). inversion Hx as [|j l Hj Hx'|]; subst. destruct Hj as [<-|Hj]; [inversion Hx'|].
      revert Hjs Hj. generalize (c :: cs). clear - Hx'. intros l H. induction H as [|a b l l' Hab H IH]; [intros []|].
      intros [<-|Hj]; [|auto]. destruct Hab as [s|l0 m [Hs Hm]]; [inversion Hx'|].
      inversion Hx' as [| |k v es Hv Hxv]; subst. specialize (Hm k). apply (at_key Hs) in Hv. rewrite Hv in Hm.
      apply omatch_r in Hm as (y & _ & ->). inversion Hxv.
  Qed.

  Lemma built_value_in title x p (t : thing E X) v : thing_says title x p t -> value_in t v -> value_given p v \/ t_context t = v.
  Proof.
    intros Hs Hv. 
    assert (HN : forall d e, schema_in (thing_body t) d -> sub_ds e d -> node_value e v -> value_given p v).
    { intros d e Hd He Hn. destruct (schema_said Hs Hd) as (q & Hq & Hsays).
      destruct (sub_value_calls He Hn Hsays) as (o & H1 & H2). eapply vg_schema; eauto. }
    destruct Hv as [Hv|d e Hd He Hv|d e Hd He Hv|d e l Hd He Hl Hv|n s scheme es k Hin Hsub Hv].
    - right. exact Hv.
    - left. eapply HN; eauto. left. exact Hv.
    - left. eapply HN; eauto. right. left. exact Hv.
    - left. eapply HN; eauto. right. right. eauto.
    - left. destruct (ts_security Hs) as (rs & Hrs & _ & _ & _ & Hdefs).
      apply Hdefs in Hin. apply in_map_iff in Hin as (r & [= <- <-] & Hr).
      destruct (from_call Hrs Hr) as (q & Hq & Hqs).
      destruct Hqs as [(c & key & Hc & Hsch & _) _ _ _ _ _]. rewrite Hsub in Hsch. clear - Hsch Hr Hq Hv.
      assert (Hdata : lasto (picks w_data q) = Some (JObj es)).
      { inversion Hsch. destruct (lasto (picks w_data q)); cbn in *; congruence. }
      rename Hdata into El.
      apply last_pick in El as (o & Ho & F). destruct o; try discriminate F. injection F as ->.
      apply picks_In in Hq as (o & Ho' & F). destruct o; try discriminate F. injection F as ->.
      eapply vg_scheme; eauto.
  Qed.

  Variable ord : order.
  Hypothesis Hord : order_ok ord.

  Lemma built_levels title x p (t : thing E X) d n : thing_program ord title x p = Some (Ok t) ->
    schema_in (thing_body t) d -> levels n d -> exists q, schema_calls p q /\ closures n q.
  Proof.
    intros Ht Hd Hl. destruct (schema_said (built_says Hord _ _ _ Ht) Hd) as (q & Hq & Hs).
    exists q. split; auto. eapply levels_closures; eauto.
  Qed.

  Lemma built_not_nested mk L k title x p (t : thing E X) j : thing_program ord title x p = Some (Ok t) -> json_writer mk ->
    exts_shallow X k -> 1 <= L -> 2 <= k ->
    (forall q, schema_calls p q -> ~ closures (S L) q) -> (forall v, value_given p v -> ~ nested (S k) v) ->
    s_thing mk t = Some j -> ~ nested (5 + 2 * L + k) j.
  Proof.
    intros Ht Hw HX HL Hk Hc Hv Hj. eapply (thing_not_nested (t := t)); eauto; [lia| |].
    - intros d Hd Hl. destruct (built_levels _ _ _ Ht Hd Hl) as (q & Hq & Hq'). exact (Hc q Hq Hq').
    - intros v Hin. destruct (built_value_in (built_says Hord _ _ _ Ht) Hin) as [H|H]; [auto|].
      subst v. apply not_nested. assert (Q := context_shallow _ _ (ts_context (built_says Hord _ _ _ Ht))). lia.
  Qed.

  Lemma built_floats mk title x p (t : thing E X) j y : thing_program ord title x p = Some (Ok t) -> json_writer mk ->
    exts_no_float X -> s_thing mk t = Some j -> float_in y j -> float_given p y.
  Proof.
    intros Ht Hw HX Hj Hy. assert (Hs := built_says Hord _ _ _ Ht).
    destruct (thing_floats _ Hw HX Hj Hy) as [(d & e & n & Hd & He & Hn & Hin)|(v & Hv & Hin)].
    - left. destruct (schema_said Hs Hd) as (q & Hq & Hsays).
      destruct (sub_number_calls Hsays He Hn Hin) as (o & H1 & H2). exists q, o. auto.
    - destruct (built_value_in Hs Hv) as [H|<-]; [right; eauto|].
      destruct (context_no_float _ (ts_context Hs) Hin).
  Qed.

  Variable F : floats.
  Variable K : xnames.
  Variables T V : xvalues X.
  Hypothesis HS : exts_sound K T V.

  Lemma built_from_text k title x p (t : thing E X) : thing_program ord title x p = Some (Ok t) ->
    tags_read E -> args_typed T x p -> args_ok V x p -> ~ titles_property p ->
    exts_shallow X k -> k <= 3 -> exts_no_float X ->
    (forall q, schema_calls p q -> ~ closures 61 q) -> (forall v, value_given p v -> ~ nested 4 v) ->
    (forall y, float_given p y -> f64_finite y = true -> faithful F y) ->
    exists j, s_thing mk_text t = Some j /\ obind (from_text F (to_text F j)) (d_thing E X) = Some t.
  Proof.
    intros Ht Htr Hat Ha Hti HX Hk HN Hc Hv Hg.
    assert (Hb : (exists j, s_thing mk_text t = Some j /\ d_thing E X j = Some t) <-> ~ titles_property p)
      by (eapply built_text; eauto).
    destruct (proj2 Hb Hti) as (j & Hj & Hr).
    exists j. split; [exact Hj|].
    assert (Htt : thing_typed T t) by (eapply built_typed; eauto).
    assert (Hf : forall y, float_in y j -> faithful F y).
    { intros y Hy. apply Hg; [eapply built_floats; eauto; left; reflexivity|].
      exact (document_finite (ThingTextFacts.written_document HS (or_introl eq_refl) Htt Hj) Hy). }
    rewrite (proj1 (ThingTextFacts.thing_text HS (or_introl eq_refl) Htt Hj Hf)); [exact Hr|].
    eapply (built_not_nested (L := 60) (k := 3)); eauto; [left; reflexivity| |lia].
    assert (Hp : forall p, writes_shallow p k -> writes_shallow p 3).
    { intros q Hp mk a n v Hw Hin. assert (Q := Hp mk a n v Hw Hin). rewrite not_nested in *. lia. }
    destruct HX. constructor; auto.
  Qed.
End Things.
