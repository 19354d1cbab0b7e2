(** Consequences of [program_judge] in the form used by the property theorems. *)
From Coq Require Import String Bool ZArith Permutation Lia List.
From Verif Require Import Base MinMax Json Serde Types DsBuilder Builder Spec SpecCalls SpecThing
  DsFacts ConvFacts CheckFacts DsProgFacts ProgFacts SaysFacts BuildFacts ThingFacts OrderFacts.
Import ListNotations.
Set Implicit Arguments.
Local Open Scope string_scope.
Local Open Scope list_scope.

Lemma all_accepted_sane DS AS OS (d : ds DS AS OS) : all_accepted d -> all_sane d.
Proof. intros H e s He Es. apply (H e s He Es). Qed.

Lemma Forall2_source A B (R : A -> B -> Prop) l l' b :
  Forall2 R l l' -> In b l' -> exists a, In a l /\ R a b.
Proof. intros F. induction F as [|a b' l l' H F IH]; simpl; intros []; subst; eauto. destruct IH as (a' & ? & ?); eauto. Qed.

Section Program.
  Variable E : env.
  Variable X : exts.
  Variable ord : order.
  Hypothesis Hord : order_ok ord.
  Variable title : string.
  Variable x : pty (x_t X).
  Variable p : list (top E X).

  Section Any.
    Variable r : result error (thing E X).
    Hypothesis Hr : thing_program ord title x p = Some r.

    Lemma declared_once : exists y, declares p y /\ forall y', declares p y' -> y' = y.
    Proof.
      destruct (program_judge Hord _ _ _ Hr) as (s & Hs & _).
      exists (body_of s). split; [eapply tb_says_declares; eauto|].
      intros y' Hy'. eapply declares_fun; eauto. eapply tb_says_declares; eauto.
    Qed.

    Lemma outcome y : declares p y ->
      ((exists t, r = Ok t) <-> consistent (parsable E) y) /\ (forall e, r = Err e -> defect E y e).
    Proof.
      intros Hy. destruct (program_judge Hord _ _ _ Hr) as (s & Hs & Hj).
      assert (y = body_of s) as -> by (eapply declares_fun; eauto; eapply tb_says_declares; eauto).
      destruct r as [t|e]; simpl in Hj.
      - destruct Hj as [Ht Hc]. split; [split; eauto|]. intros e He. discriminate.
      - split.
        + split; [intros [t Ht]; discriminate|]. intros Hc. exfalso. eapply defect_inconsistent; eauto.
        + intros e' He. inversion He; subst; auto.
    Qed.

    Lemma no_panic : r <> Err EPanic.
    Proof.
      destruct declared_once as (y & Hy & _). intros He. apply (proj2 (outcome Hy)) in He. exact He.
    Qed.

    Lemma fails y : declares p y -> ~ consistent (parsable E) y -> exists e, r = Err e.
    Proof.
      intros Hy Hn. destruct (outcome Hy) as [[Ho _] _]. destruct r as [t|e]; eauto.
      exfalso. apply Hn, Ho. eauto.
    Qed.
  End Any.

  Section Built.
    Variable t : thing E X.
    Hypothesis Ht : thing_program ord title x p = Some (Ok t).

    Lemma built_says : thing_says title x p t.
    Proof.
      destruct (program_judge Hord _ _ _ Ht) as (s & Hs & Hj). simpl in Hj. destruct Hj as [-> Hc].
      apply thing_of_says; auto.
    Qed.

    Lemma built_consistent : consistent (parsed E) (thing_body t).
    Proof.
      destruct (program_judge Hord _ _ _ Ht) as (s & Hs & Hj). simpl in Hj. destruct Hj as [-> Hc].
      apply thing_consistent; auto.
    Qed.

    Lemma built_security n :
      In n (t_security t) \/ (exists c f l, form_at (thing_body t) c f /\ f_security f = Some l /\ In n l) ->
      In n (mkeys (t_secdefs t)).
    Proof.
      intros [Hn|(c & f & l & Hf & El & Hn)].
      - destruct (ts_security built_says) as (rs & _ & Es & _ & _ & Hk). rewrite Es in Hn.
        apply in_map_iff in Hn as ([[k b] sc] & <- & Hn). apply filter_In in Hn as [Hn _].
        apply in_map_iff. exists (k, sc). split; auto. apply Hk. apply in_map_iff. exists (k, b, sc). auto.
      - eapply (co_security built_consistent); eauto.
    Qed.

    Lemma built_thing_ops f : In f (olist (t_forms t)) ->
      exists l, f_op f = OpCustom l /\ l <> [] /\ incl l (ops_of CtxThing).
    Proof.
      intros Hf. assert (Ha : form_at (thing_body t) CtxThing f) by (constructor; auto).
      destruct (f_op f) as [|l] eqn:Eo.
      - exfalso. eapply (co_thing_ops built_consistent); eauto.
      - exists l. split; auto. split.
        + destruct (ts_forms built_says) as (fs & Hfs & Ef).
          rewrite Ef, olist_nonempty in Hf. destruct (Forall2_source _ Hfs Hf) as (c & Hc).
          destruct Hc as [_ Hc]. pose proof (fs_op Hc) as H. rewrite Eo in H.
          destruct (picks (@q_op X) (snd c)); [discriminate|]. inversion H; subst. discriminate.
        + intros o Ho. eapply (co_ops built_consistent); eauto.
    Qed.

    Lemma built_responses f l r n :
      In f (olist (t_forms t)) -> f_additional f = Some l -> In r l -> ar_schema r = Some n ->
      In n (mkeys (olist (t_schemas t))).
    Proof. intros Hf. apply (co_responses built_consistent). constructor; auto. Qed.

    Lemma built_context : exists js,
      ~ In (JStr TD_CONTEXT_11) js
      /\ ((js = [] /\ t_context t = JStr TD_CONTEXT_11)
          \/ (js <> [] /\ t_context t = JArr (JStr TD_CONTEXT_11 :: js)))
      /\ Forall2 context_is (picks (@t_of_context E X) p) js.
    Proof.
      pose proof (ts_context built_says) as Hc. unfold context_says in Hc.
      destruct (picks (@t_of_context E X) p) as [|c cs] eqn:Ep.
      - exists []. split; auto. 
      - destruct Hc as (js & Hjs & Ej). exists js. split; [|split]; auto.
        + intros Hin. destruct (Forall2_source _ Hjs Hin) as (c' & Hc' & Hi).
          rewrite <- Ep in Hc'. inversion Hi; subst.
          unfold picks in Hc'. apply in_flat_map in Hc' as (o & Ho & Hc').
          destruct o; simpl in Hc'; try contradiction;
            try (destruct Hc' as [Hc'|[]]; discriminate).
          destruct (String.eqb s TD_CONTEXT_11) eqn:Es; simpl in Hc'; [contradiction|].
          destruct Hc' as [Hc'|[]]. inversion Hc'; subst. rewrite String.eqb_refl in Es. discriminate.
        + right. split; auto. inversion Hjs; subst. discriminate.
    Qed.
  End Built.
End Program.

(** ** Empty collections *)
Section Empties.
  Variable E : env.
  Variable X : exts.

  Lemma nonempty_not_nil A (l : list A) : nonempty l <> Some [].
  Proof. destruct l; simpl; discriminate. Qed.

  Lemma nonempty_Forall2 A B (R : A -> B -> Prop) l l' :
    Forall2 R l l' -> (nonempty l' = None <-> l = []).
  Proof. intros F. destruct F; simpl; split; intros; auto; discriminate. Qed.

  Lemma nonempty_None A (l : list A) : nonempty l = None <-> l = [].
  Proof. destruct l; simpl; split; intros; auto; discriminate. Qed.

  Lemma omap_says_not_nil P A (R : P -> A -> Prop) adds m : omap_says R adds m -> m <> Some [].
  Proof.
    intros [[_ H] Hn] ->. destruct adds as [|[k v] adds].
    - assert (@Some (amap A) [] = None) by (apply Hn; auto). discriminate.
    - specialize (H k).
      assert (Hl : llook k ((k, v) :: adds) <> None).
      { simpl. destruct (llook k adds); [discriminate|]. rewrite String.eqb_refl. discriminate. }
      destruct (llook k ((k, v) :: adds)); [|auto]. inversion H.
  Qed.
End Empties.

(** ** Order *)
Section Orders.
  Variable E : env.
  Variable X : exts.
  Variables ord1 ord2 : order.
  Hypothesis Hord1 : order_ok ord1.
  Hypothesis Hord2 : order_ok ord2.
  Variable title : string.
  Variable x : pty (x_t X).
  Variable p : list (top E X).

  Lemma order_types :
    thing_program ord1 title x p = None <-> thing_program ord2 title x p = None.
  Proof.
    unfold thing_program. destruct (trun p _); simpl; split; intros; auto; discriminate.
  Qed.

  Lemma order_success r1 r2 :
    thing_program ord1 title x p = Some r1 -> thing_program ord2 title x p = Some r2 ->
    ((exists t, r1 = Ok t) <-> (exists t, r2 = Ok t)).
  Proof.
    intros H1 H2. destruct (declared_once Hord1 _ _ _ H1) as (y & Hy & _).
    destruct (@outcome E X ord1 Hord1 title x p r1 H1 y Hy) as [-> _]. destruct (@outcome E X ord2 Hord2 title x p r2 H2 y Hy) as [-> _].
    reflexivity.
  Qed.

  Lemma order_thing t :
    (forall y m, declares p y -> lang_map_in y m -> no_clash E m) ->
    thing_program ord1 title x p = Some (Ok t) -> thing_program ord2 title x p = Some (Ok t).
  Proof.
    intros Hn H1. unfold thing_program in *.
    destruct (trun p (thing_new E X title x)) as [s|] eqn:Er; [|discriminate]. simpl in *.
    injection H1 as H1. apply trun_says in Er.
    assert (Hwf : tb_wf s) by (eapply tb_says_wf; eauto).
    pose proof (tbuild_judge Hord1 Hwf) as J1. pose proof (tbuild_judge Hord2 Hwf) as J2.
    rewrite H1 in J1. simpl in J1. destruct J1 as [Et Hc].
    destruct (tbuild ord2 s) as [t'|e] eqn:E2; simpl in J2.
    - destruct J2 as [Et' _]. rewrite Et, Et'. do 2 f_equal. symmetry.
      eapply thing_of_order; eauto.
      intros m Hm. eapply Hn; eauto. eapply tb_says_declares; eauto.
    - exfalso. eapply defect_inconsistent; eauto.
  Qed.
End Orders.

(** ** Further consequences *)

Lemma Forall2_impl A B (R R' : A -> B -> Prop) l l' :
  (forall a b, R a b -> R' a b) -> Forall2 R l l' -> Forall2 R' l l'.
Proof. intros H F. induction F; constructor; auto. Qed.

Lemma twice_not_NoDup A (n : A) l : twice n l -> ~ NoDup l.
Proof.
  intros (l1 & l2 & l3 & ->) H. apply NoDup_remove_2 in H. apply H.
  rewrite !in_app_iff. right. right. left. reflexivity.
Qed.

Lemma Forall2_named_keys P A (R : P -> A -> Prop) l l' :
  Forall2 (named R) l l' -> map fst l = map fst l'.
Proof. intros F. induction F as [|a b l l' [H _] F IH]; simpl; congruence. Qed.

Lemma absent_nonempty A B C (R : A -> B -> Prop) (l : list A) (l' : list B) (f : option (list B)) (c : list C) :
  Forall2 R l l' -> f = nonempty l' -> (l = [] <-> c = []) -> absent_iff_none f c.
Proof.
  intros F -> Hc. split; [|apply nonempty_not_nil]. rewrite <- Hc. eapply nonempty_Forall2; eauto.
Qed.

Lemma absent_list A (l : list A) : absent_iff_none (nonempty l) l.
Proof. split; [apply nonempty_None|apply nonempty_not_nil]. Qed.

Lemma absent_omap P A (R : P -> A -> Prop) adds m : omap_says R adds m -> absent_iff_none m adds.
Proof. intros H. split; [apply H|eapply omap_says_not_nil; eauto]. Qed.

Section More.
  Variable E : env.
  Variable X : exts.
  Variable ord : order.
  Hypothesis Hord : order_ok ord.
  Variable title : string.
  Variable x : pty (x_t X).
  Variable p : list (top E X).
  Variable r : result error (thing E X).
  Hypothesis Hr : thing_program ord title x p = Some r.

  Lemma sec_twice rs n :
    Forall2 (sec_says Some) (picks (@t_of_security E X) p) rs -> twice n (map (fun r => fst (fst r)) rs) ->
    exists e, r = Err e.
  Proof.
    intros Hrs Hn. destruct (@declared_once E X ord Hord title x p r Hr) as (y & Hy & _).
    eapply (@fails E X ord Hord title x p r Hr); eauto. intros Hc.
    destruct (dc_secdefs Hy) as (rs' & Hrs' & Es).
    assert (rs = rs') as <-.
    { eapply Forall2_fun; [|exact Hrs|exact Hrs']. intros. eapply sec_says_fun; [|eauto..]. simpl; congruence. }
    apply co_secdefs in Hc. unfold secnames in Hc. rewrite Es, map_map in Hc.
    eapply twice_not_NoDup; eauto.
  Qed.

  Lemma aff_twice n :
    twice n (map fst (picks (@t_of_property E X) p)) \/ twice n (map fst (picks (@t_of_action E X) p))
    \/ twice n (map fst (picks (@t_of_event E X) p)) ->
    exists e, r = Err e.
  Proof.
    intros Hn. destruct (@declared_once E X ord Hord title x p r Hr) as (y & Hy & _).
    eapply (@fails E X ord Hord title x p r Hr); eauto. intros Hc.
    rewrite (Forall2_named_keys (dc_properties Hy)), (Forall2_named_keys (dc_actions Hy)),
      (Forall2_named_keys (dc_events Hy)) in Hn.
    destruct Hn as [Hn|[Hn|Hn]]; apply twice_not_NoDup in Hn; apply Hn, Hc.
  Qed.

  Lemma bad_tag y s : declares p y -> tag_in y s -> tag_parse E s = None -> exists e, r = Err e.
  Proof.
    intros Hy Ht Hs. eapply (@fails E X ord Hord title x p r Hr); eauto. intros Hc.
    apply (co_tags Hc Ht). auto.
  Qed.

  Lemma declared_names t : r = Ok t ->
    NoDup (map fst (picks (@t_of_property E X) p)) /\ NoDup (map fst (picks (@t_of_action E X) p))
    /\ NoDup (map fst (picks (@t_of_event E X) p)).
  Proof.
    intros Ht. destruct (@declared_once E X ord Hord title x p r Hr) as (y & Hy & _).
    assert (Hc : consistent (parsable E) y).
    { apply (proj1 (@outcome E X ord Hord title x p r Hr y Hy)). eauto. }
    rewrite (Forall2_named_keys (dc_properties Hy)), (Forall2_named_keys (dc_actions Hy)),
      (Forall2_named_keys (dc_events Hy)).
    split; [|split]; apply Hc.
  Qed.
End More.

Section MoreBuilt.
  Variable E : env.
  Variable X : exts.
  Variable ord : order.
  Hypothesis Hord : order_ok ord.
  Variable title : string.
  Variable x : pty (x_t X).
  Variable p : list (top E X).
  Variable t : thing E X.
  Hypothesis Ht : thing_program ord title x p = Some (Ok t).
  Let Hs : thing_says title x p t := built_says Hord _ _ _ Ht.

  Lemma empties :
    absent_iff_none (t_forms t) (picks (@t_of_form E X) p)
    /\ absent_iff_none (t_links t) (picks (@t_of_link E X) p)
    /\ absent_iff_none (t_properties t) (picks (@t_of_property E X) p)
    /\ absent_iff_none (t_actions t) (picks (@t_of_action E X) p)
    /\ absent_iff_none (t_events t) (picks (@t_of_event E X) p)
    /\ absent_iff_none (t_uri t) (picks (@t_of_uri E X) p)
    /\ absent_iff_none (t_schemas t) (picks (@t_of_schema E X) p)
    /\ absent_iff_none (t_profile t) (picks (@t_of_profile E X) p)
    /\ absent_iff_none (t_attype t) (picks (@t_of_attype E X) p).
  Proof.
    destruct (ts_forms Hs) as (fs & Hf & Ef). destruct (ts_links Hs) as (ls & Hl & El).
    repeat split; try (eapply absent_nonempty; eauto; reflexivity);
      try (eapply absent_omap; apply Hs);
      try (rewrite (ts_profile Hs); apply absent_list);
      try (rewrite (ts_attype Hs); apply absent_list).
  Qed.

  Lemma empty_hreflang :
    Forall2 (fun q l => absent_iff_none (l_hreflang l) (picks k_hreflang q))
      (picks (@t_of_link E X) p) (olist (t_links t)).
  Proof.
    destruct (ts_links Hs) as (ls & Hl & El). rewrite El, olist_nonempty.
    eapply Forall2_impl; [|exact Hl]. intros q l [_ _ _ _ _ (hs & Hh & Eh)].
    eapply absent_nonempty; eauto. reflexivity.
  Qed.

  Lemma omap_got P A (R : P -> A -> Prop) adds m n a :
    omap_says R adds m -> In (n, a) (olist m) -> exists c, llook n adds = Some c /\ R c a.
  Proof.
    intros [[Hm H] _] Hin. specialize (H n). apply In_mlook in Hin; [|apply msorted_NoDup; auto].
    rewrite Hin in H. inversion H; subst; eauto.
  Qed.

  Lemma empty_uri_property n a : In (n, a) (olist (t_properties t)) ->
    exists xi xp q, llook n (picks (@t_of_property E X) p) = Some (xi, xp, q)
      /\ absent_iff_none (ia_uri (pa_ia a)) (picks (@i_uri X) (picks (@p_ia X) q)).
  Proof.
    intros Hin. destruct (omap_got n a (ts_properties Hs) Hin) as ([[xi xp] q] & Hl & Ha).
    exists xi, xp, q. split; auto. eapply absent_omap. apply (is_uri (ps_ia Ha)).
  Qed.

  Lemma empty_uri_action n a : In (n, a) (olist (t_actions t)) ->
    exists xi xp q, llook n (picks (@t_of_action E X) p) = Some (xi, xp, q)
      /\ absent_iff_none (ia_uri (aa_ia a)) (picks (@i_uri X) (picks (@a_ia X) q)).
  Proof.
    intros Hin. destruct (omap_got n a (ts_actions Hs) Hin) as ([[xi xp] q] & Hl & Ha).
    exists xi, xp, q. split; auto. eapply absent_omap. apply (is_uri (as_ia Ha)).
  Qed.

  Lemma empty_uri_event n a : In (n, a) (olist (t_events t)) ->
    exists xi xp q, llook n (picks (@t_of_event E X) p) = Some (xi, xp, q)
      /\ absent_iff_none (ia_uri (ea_ia a)) (picks (@i_uri X) (picks (@e_ia X) q)).
  Proof.
    intros Hin. destruct (omap_got n a (ts_events Hs) Hin) as ([[xi xp] q] & Hl & Ha).
    exists xi, xp, q. split; auto. eapply absent_omap. apply (is_uri (es_ia Ha)).
  Qed.

  Lemma built_tags s :
    (forall k k', tag_parse E k = Some k' -> tag_parse E k' = Some k') ->
    tag_in (thing_body t) s -> tag_parse E s = Some s.
  Proof.
    intros Hi Hin. destruct (co_tags (built_consistent Hord _ _ _ Ht) Hin) as [k Hk]. eauto.
  Qed.
End MoreBuilt.

(** ** The statements of the property file *)
Section Statements.
  Variable E : env.
  Variable X : exts.

  Lemma built_security_definitions ord title x p (t : thing E X) :
    order_ok ord -> thing_program ord title x p = Some (Ok t) ->
    exists rs,
      Forall2 (sec_says (tag_parse E)) (picks (@t_of_security E X) p) rs
      /\ t_security t = map (fun r => fst (fst r)) (filter (fun r => snd (fst r)) rs)
      /\ NoDup (map (fun r => fst (fst r)) rs)
      /\ msorted (t_secdefs t)
      /\ forall k s, In (k, s) (t_secdefs t) <-> In (k, s) (map (fun r => (fst (fst r), snd r)) rs).
  Proof. intros Hord Ht. apply (ts_security (built_says Hord _ _ _ Ht)). Qed.

  Lemma sec_twice_fails ord title x p (r : result error (thing E X)) :
    order_ok ord -> thing_program ord title x p = Some r ->
    forall rs n,
      Forall2 (sec_says Some) (picks (@t_of_security E X) p) rs ->
      twice n (map (fun r => fst (fst r)) rs) ->
      exists e, r = Err e.
  Proof. intros Hord Hr rs n. apply (@sec_twice E X ord Hord title x p r Hr). Qed.

  Lemma built_combo ord title x p (t : thing E X) :
    order_ok ord -> thing_program ord title x p = Some (Ok t) ->
    forall k s n, In (k, s) (t_secdefs t) -> combined s n -> In n (mkeys (t_secdefs t)).
  Proof. intros Hord Ht k s n. apply (co_combo (built_consistent Hord _ _ _ Ht)). Qed.

  Lemma built_affordance_ops ord title x p (t : thing E X) :
    order_ok ord -> thing_program ord title x p = Some (Ok t) ->
    (forall n a f l, In (n, a) (olist (t_properties t)) -> In f (ia_forms (pa_ia a)) -> f_op f = OpCustom l ->
       incl l [ReadProperty; WriteProperty; ObserveProperty; UnobserveProperty])
    /\ (forall n a f l, In (n, a) (olist (t_actions t)) -> In f (ia_forms (aa_ia a)) -> f_op f = OpCustom l ->
       incl l [InvokeAction; QueryAction; CancelAction])
    /\ (forall n a f l, In (n, a) (olist (t_events t)) -> In f (ia_forms (ea_ia a)) -> f_op f = OpCustom l ->
       incl l [SubscribeEvent; UnsubscribeEvent]).
  Proof.
    intros Hord Ht. pose proof (co_ops (built_consistent Hord _ _ _ Ht)) as H.
    split; [|split]; intros n a f l Ha Hf El o Ho.
    - apply (H CtxProperty f l o); auto. apply (@form_aff _ (thing_body t) AProperty n (pa_ia a)); auto. constructor; auto.
    - apply (H CtxAction f l o); auto. apply (@form_aff _ (thing_body t) AAction n (aa_ia a)); auto. constructor; auto.
    - apply (H CtxEvent f l o); auto. apply (@form_aff _ (thing_body t) AEvent n (ea_ia a)); auto. constructor; auto.
  Qed.

  Lemma built_affordances ord title x p (t : thing E X) :
    order_ok ord -> thing_program ord title x p = Some (Ok t) ->
    (NoDup (map fst (picks (@t_of_property E X) p))
     /\ omap_says (property_says (tag_parse E)) (picks (@t_of_property E X) p) (t_properties t))
    /\ (NoDup (map fst (picks (@t_of_action E X) p))
        /\ omap_says (action_says (tag_parse E)) (picks (@t_of_action E X) p) (t_actions t))
    /\ (NoDup (map fst (picks (@t_of_event E X) p))
        /\ omap_says (event_says (tag_parse E)) (picks (@t_of_event E X) p) (t_events t)).
  Proof.
    intros Hord Ht. destruct (@declared_names E X ord Hord title x p (Ok t) Ht t eq_refl) as (Hp & Ha & He).
    pose proof (built_says Hord _ _ _ Ht) as Hs.
    split; [|split]; split; auto; apply Hs.
  Qed.

  Lemma aff_twice_fails ord title x p (r : result error (thing E X)) :
    order_ok ord -> thing_program ord title x p = Some r ->
    forall n,
      twice n (map fst (picks (@t_of_property E X) p)) \/ twice n (map fst (picks (@t_of_action E X) p))
      \/ twice n (map fst (picks (@t_of_event E X) p)) ->
      exists e, r = Err e.
  Proof. intros Hord Hr n. apply (@aff_twice E X ord Hord title x p r Hr). Qed.

  Lemma built_bounds ord title x p (t : thing E X) :
    order_ok ord -> thing_program ord title x p = Some (Ok t) ->
    forall d, checked_schema (thing_body t) d -> all_sane d.
  Proof. intros Hord Ht d Hd. apply all_accepted_sane. apply (co_bounds (built_consistent Hord _ _ _ Ht) Hd). Qed.

  Lemma built_uris ord title x p (t : thing E X) :
    order_ok ord -> thing_program ord title x p = Some (Ok t) ->
    forall d, uri_variable (thing_body t) d -> ~ is_aggregate d.
  Proof. intros Hord Ht. apply (co_uris (built_consistent Hord _ _ _ Ht)). Qed.

  Lemma built_tags_parsed ord title x p (t : thing E X) :
    order_ok ord -> thing_program ord title x p = Some (Ok t) ->
    forall s, tag_in (thing_body t) s -> exists k, tag_parse E k = Some s.
  Proof. intros Hord Ht s Hs. apply (co_tags (built_consistent Hord _ _ _ Ht) Hs). Qed.

  Lemma built_tags_accepted ord title x p (t : thing E X) :
    order_ok ord -> thing_program ord title x p = Some (Ok t) ->
    (forall k k', tag_parse E k = Some k' -> tag_parse E k' = Some k') ->
    forall s, tag_in (thing_body t) s -> tag_parse E s = Some s.
  Proof. intros Hord Ht Hi s Hs. eapply built_tags; eauto. Qed.

  Lemma bad_tag_fails ord title x p (r : result error (thing E X)) :
    order_ok ord -> thing_program ord title x p = Some r ->
    forall y s, declares p y -> tag_in y s -> tag_parse E s = None -> exists e, r = Err e.
  Proof. intros Hord Hr y s. apply (@bad_tag E X ord Hord title x p r Hr). Qed.

  Lemma built_links ord title x p (t : thing E X) :
    order_ok ord -> thing_program ord title x p = Some (Ok t) ->
    forall l z, In l (olist (t_links t)) -> l_sizes l = Some z -> l_rel l = Some "icon".
  Proof. intros Hord Ht. apply (co_links (built_consistent Hord _ _ _ Ht)). Qed.

  Lemma build_iff_consistent ord title x p (r : result error (thing E X)) :
    order_ok ord -> thing_program ord title x p = Some r ->
    exists y,
      declares p y /\ (forall y', declares p y' -> y' = y)
      /\ ((exists t, r = Ok t) <-> consistent (parsable E) y)
      /\ r <> Err EPanic.
  Proof.
    intros Hord Hr. destruct (@declared_once E X ord Hord title x p r Hr) as (y & Hy & Hu).
    exists y. split; auto. split; auto. split.
    - apply (@outcome E X ord Hord title x p r Hr y Hy).
    - apply (@no_panic E X ord Hord title x p r Hr).
  Qed.

  Lemma errors_name_defects ord title x p (r : result error (thing E X)) :
    order_ok ord -> thing_program ord title x p = Some r ->
    forall y e, declares p y -> r = Err e -> defect E y e.
  Proof. intros Hord Hr y e Hy. apply (@outcome E X ord Hord title x p r Hr y Hy). Qed.

  Lemma content_unique title x p (t t' : thing E X) :
    (forall k k' s, tag_parse E k = Some s -> tag_parse E k' = Some s -> k = k') ->
    thing_says title x p t -> thing_says title x p t' -> t = t'.
  Proof. apply thing_says_fun. Qed.

  Lemma llook_In A k (v : A) l : llook k l = Some v -> In (k, v) l.
  Proof.
    induction l as [|[k' v'] l IH]; simpl; [discriminate|]. destruct (llook k l) eqn:El.
    - intros H. inversion H; subst. auto.
    - destruct (String.eqb_spec k k'); [|discriminate]. intros H. inversion H; subst. auto.
  Qed.

  Lemma empties_nested ord title x p (t : thing E X) :
    order_ok ord -> thing_program ord title x p = Some (Ok t) ->
    Forall2 (fun q l => absent_iff_none (l_hreflang l) (picks k_hreflang q))
      (picks (@t_of_link E X) p) (olist (t_links t))
    /\ (forall n a, In (n, a) (olist (t_properties t)) ->
          exists xi xp q, In (n, (xi, xp, q)) (picks (@t_of_property E X) p)
            /\ absent_iff_none (ia_uri (pa_ia a)) (picks (@i_uri X) (picks (@p_ia X) q)))
    /\ (forall n a, In (n, a) (olist (t_actions t)) ->
          exists xi xp q, In (n, (xi, xp, q)) (picks (@t_of_action E X) p)
            /\ absent_iff_none (ia_uri (aa_ia a)) (picks (@i_uri X) (picks (@a_ia X) q)))
    /\ (forall n a, In (n, a) (olist (t_events t)) ->
          exists xi xp q, In (n, (xi, xp, q)) (picks (@t_of_event E X) p)
            /\ absent_iff_none (ia_uri (ea_ia a)) (picks (@i_uri X) (picks (@e_ia X) q))).
  Proof.
    intros Hord Ht. split; [|split; [|split]].
    - eapply empty_hreflang; eauto.
    - intros n a Ha. destruct (@empty_uri_property _ _ _ Hord _ _ _ _ Ht n a Ha) as (xi & xp & q & Hl & Hu).
      apply llook_In in Hl. eauto 6.
    - intros n a Ha. destruct (@empty_uri_action _ _ _ Hord _ _ _ _ Ht n a Ha) as (xi & xp & q & Hl & Hu).
      apply llook_In in Hl. eauto 6.
    - intros n a Ha. destruct (@empty_uri_event _ _ _ Hord _ _ _ _ Ht n a Ha) as (xi & xp & q & Hl & Hu).
      apply llook_In in Hl. eauto 6.
  Qed.

  Lemma order_independent_success ord1 ord2 title x (p : list (top E X)) :
    order_ok ord1 -> order_ok ord2 ->
    (thing_program ord1 title x p = None <-> thing_program ord2 title x p = None)
    /\ ((exists t, thing_program ord1 title x p = Some (Ok t))
        <-> (exists t, thing_program ord2 title x p = Some (Ok t))).
  Proof.
    intros H1 H2. pose proof (order_types ord1 ord2 title x p) as Ho. split; [exact Ho|].
    destruct (thing_program ord1 title x p) as [r1|] eqn:E1, (thing_program ord2 title x p) as [r2|] eqn:E2.
    - pose proof (@order_success E X ord1 ord2 H1 H2 title x p r1 r2 E1 E2) as H.
      split; intros [t Ht]; injection Ht as ->.
      + destruct (proj1 H (ex_intro _ t eq_refl)) as [t' ->]. eauto.
      + destruct (proj2 H (ex_intro _ t eq_refl)) as [t' ->]. eauto.
    - destruct Ho as [_ Ho]. specialize (Ho eq_refl). discriminate.
    - destruct Ho as [Ho _]. specialize (Ho eq_refl). discriminate.
    - reflexivity.
  Qed.

  Lemma order_independent_thing ord1 ord2 title x (p : list (top E X)) t :
    order_ok ord1 -> order_ok ord2 ->
    (forall y m k v k' v' s, declares p y -> lang_map_in y m -> In (k, v) m -> In (k', v') m ->
       tag_parse E k = Some s -> tag_parse E k' = Some s -> v = v') ->
    thing_program ord1 title x p = Some (Ok t) -> thing_program ord2 title x p = Some (Ok t).
  Proof.
    intros H1 H2 Hn Ht. eapply order_thing; [exact H1|exact H2| |exact Ht].
    intros y m Hy Hm k v k' v' Hk Hk' Ek.
    assert (Hc : consistent (parsable E) y).
    { apply (proj1 (@outcome E X ord1 H1 title x p _ Ht y Hy)). eauto. }
    destruct (tag_parse E k) as [s|] eqn:Es.
    - eapply Hn; eauto.
    - exfalso. apply (@co_tags _ _ _ Hc k); auto. econstructor; [exact Hm|]. apply in_map_iff. exists (k, v). auto.
  Qed.
End Statements.
