(** * The order of declarations *)

From Coq Require Import String Bool ZArith Permutation List.
From Verif Require Import Base MinMax Json Serde Types DsBuilder Builder Spec SpecCalls SpecThing SpecReorder
  DsFacts ConvFacts CheckFacts DsProgFacts ProgFacts SaysFacts BuildFacts ThingFacts OrderFacts CommuteFacts ProgramProps.
Import ListNotations.
Set Implicit Arguments.
Local Open Scope string_scope.
Local Open Scope list_scope.

Section Reorder.
  Variable E : env.
  Variable X : exts.
  Notation tstate := (tstate E X).

  Definition rearrange (s : tstate) lp la le ls : tstate :=
    set_tb_secdefs (set_tb_events (set_tb_actions (set_tb_properties s lp) la) le) ls.

  Definition sim (s s' : tstate) : Prop :=
    exists lp la le ls,
      Permutation (tb_properties s) lp /\ Permutation (tb_actions s) la /\ Permutation (tb_events s) le
      /\ Permutation (tb_secdefs s) ls /\ s' = rearrange s lp la le ls.

  Lemma sim_refl s : sim s s.
  Proof. exists (tb_properties s), (tb_actions s), (tb_events s), (tb_secdefs s). destruct s. repeat split; apply Permutation_refl. Qed.

  Lemma perm_two A (l : list A) a b : Permutation ((l ++ [a]) ++ [b]) ((l ++ [b]) ++ [a]).
  Proof. rewrite <- !app_assoc. apply Permutation_app_head. apply perm_swap. Qed.

  Lemma sim_secdefs s l l' : Permutation l l' -> sim (set_tb_secdefs s l) (set_tb_secdefs s l').
  Proof.
    intros H. exists (tb_properties s), (tb_actions s), (tb_events s), l'.
    split; [apply Permutation_refl|]. split; [apply Permutation_refl|]. split; [apply Permutation_refl|]. split; [exact H|reflexivity].
  Qed.
  Lemma sim_properties s l l' : Permutation l l' -> sim (set_tb_properties s l) (set_tb_properties s l').
  Proof.
    intros H. exists l', (tb_actions s), (tb_events s), (tb_secdefs s).
    split; [exact H|]. split; [apply Permutation_refl|]. split; [apply Permutation_refl|]. split; [apply Permutation_refl|reflexivity].
  Qed.
  Lemma sim_actions s l l' : Permutation l l' -> sim (set_tb_actions s l) (set_tb_actions s l').
  Proof.
    intros H. exists (tb_properties s), l', (tb_events s), (tb_secdefs s).
    split; [apply Permutation_refl|]. split; [exact H|]. split; [apply Permutation_refl|]. split; [apply Permutation_refl|reflexivity].
  Qed.
  Lemma sim_events s l l' : Permutation l l' -> sim (set_tb_events s l) (set_tb_events s l').
  Proof.
    intros H. exists (tb_properties s), (tb_actions s), l', (tb_secdefs s).
    split; [apply Permutation_refl|]. split; [apply Permutation_refl|]. split; [exact H|]. split; [apply Permutation_refl|reflexivity].
  Qed.

  Lemma tstep_sim o s s' : sim s s' ->
    match tstep o s, tstep o s' with Some a, Some b => sim a b | None, None => True | _, _ => False end.
  Proof.
    intros (lp & la & le & ls & H1 & H2 & H3 & H4 & ->).
    Ltac keep lp la le ls := exists lp, la, le, ls; repeat split; assumption.
    destruct o; cbn [tstep]; try keep lp la le ls.
    - destruct (s0 =? TD_CONTEXT_11); keep lp la le ls.
    - destruct (link_run p); [|exact I]. keep lp la le ls.
    - destruct (sec_run p) as [[[n r] c]|]; [|exact I]. cbn [obind].
      exists lp, la, le, (ls ++ [(n, c)]). destruct r; repeat split; try assumption; apply Permutation_app_tail; exact H4.
    - change (tb_extended (rearrange s lp la le ls)) with (tb_extended s). destruct (tb_extended s); [exact I|]. keep lp la le ls.
    - unfold when_extended. change (tb_extended (rearrange s lp la le ls)) with (tb_extended s). destruct (tb_extended s); [|exact I].
      destruct (form_run x p); [|exact I]. keep lp la le ls.
    - unfold when_extended. change (tb_extended (rearrange s lp la le ls)) with (tb_extended s). destruct (tb_extended s); [|exact I].
      destruct (dbuild p); [|exact I]. keep lp la le ls.
    - unfold when_extended. change (tb_extended (rearrange s lp la le ls)) with (tb_extended s). destruct (tb_extended s); [|exact I].
      destruct (prop_run xi xp p) as [a|]; [|exact I]. exists (lp ++ [(name, a)]), la, le, ls. repeat split; try assumption.
      apply Permutation_app_tail. exact H1.
    - unfold when_extended. change (tb_extended (rearrange s lp la le ls)) with (tb_extended s). destruct (tb_extended s); [|exact I].
      destruct (action_run xi xa p) as [a|]; [|exact I]. exists lp, (la ++ [(name, a)]), le, ls. repeat split; try assumption.
      apply Permutation_app_tail. exact H2.
    - unfold when_extended. change (tb_extended (rearrange s lp la le ls)) with (tb_extended s). destruct (tb_extended s); [|exact I].
      destruct (event_run xi xe p) as [a|]; [|exact I]. exists lp, la, (le ++ [(name, a)]), ls. repeat split; try assumption.
      apply Permutation_app_tail. exact H3.
    - unfold when_extended. change (tb_extended (rearrange s lp la le ls)) with (tb_extended s). destruct (tb_extended s); [|exact I].
      destruct (dbuild p); [|exact I]. keep lp la le ls.
  Qed.

  Definition osim (a b : option tstate) : Prop :=
    match a, b with Some a, Some b => sim a b | None, None => True | _, _ => False end.

  Lemma osim_refl a : osim a a.
  Proof. destruct a; [apply sim_refl|exact I]. Qed.

  Lemma trun_sim p : forall s s', sim s s' -> osim (trun p s) (trun p s').
  Proof.
    induction p as [|o p IH]; intros s s' H; [exact H|]. unfold trun in *. cbn [orun].
    pose proof (tstep_sim o H) as Q. destruct (tstep o s), (tstep o s'); cbn [obind]; try contradiction; [auto|exact I].
  Qed.

  Lemma minsert_swap A n m (a b : A) l : n <> m -> msorted l -> minsert n a (minsert m b l) = minsert m b (minsert n a l).
  Proof.
    intros N Hs. apply mext; auto using msorted_minsert. intros k.
    rewrite !mlook_minsert by auto using msorted_minsert.
    destruct (String.eqb_spec k n), (String.eqb_spec k m); congruence.
  Qed.

  Lemma two_steps (o1 o2 : top E X) s :
    exchangeable o1 o2 -> tb_wf s ->
    osim (let? s' := tstep o1 s in tstep o2 s') (let? s' := tstep o2 s in tstep o1 s').
  Proof.
    intros H Hw.
    assert (Hd : target o1 <> target o2 /\ target o1 <> VStatus /\ target o2 <> VStatus ->
      osim (let? s' := tstep o1 s in tstep o2 s') (let? s' := tstep o2 s in tstep o1 s')).
    { intros (Q1 & Q2 & Q3). rewrite tstep_commute by assumption. apply osim_refl. }
    destruct o1, o2; try (exact (Hd H)); clear Hd; cbn [exchangeable] in H; cbn [tstep].
    - (* security *)
      destruct (sec_run p) as [[[n r] c]|] eqn:E1; destruct (sec_run p0) as [[[n0 r0] c0]|] eqn:E2; cbn [obind]; try exact I.
      pose proof (se_required (sec_run_says _ E1)) as Q1. pose proof (se_required (sec_run_says _ E2)) as Q2. cbn in Q1, Q2.
      rewrite <- Q1, <- Q2 in H.
      pose proof (perm_two (tb_secdefs s) (n, c) (n0, c0)) as P.
      destruct H as [->| ->]; [destruct r0|destruct r].
      + exact (sim_secdefs (set_tb_security s (tb_security s ++ [n0])) P).
      + exact (sim_secdefs s P).
      + exact (sim_secdefs (set_tb_security s (tb_security s ++ [n])) P).
      + exact (sim_secdefs s P).
    - unfold when_extended. destruct (tb_extended s) eqn:Ex; [|exact I].
      destruct (dbuild p) as [d|], (dbuild p0) as [d0|]; cbn [obind]; try exact I;
        match goal with |- context [tb_extended (set_tb_uri s ?l)] => change (tb_extended (set_tb_uri s l)) with (tb_extended s) end;
        rewrite ?Ex; try exact I.
      match goal with |- context [tb_extended (set_tb_uri s ?l)] => change (tb_extended (set_tb_uri s l)) with (tb_extended s) end.
      rewrite Ex. cbn [osim].
      assert (Hs : msorted (match tb_uri s with Some m => m | None => [] end)).
      { destruct (tb_uri s) as [l|] eqn:Eu; [apply (tw_uri Hw Eu)|constructor]. }
      change (sim (set_tb_uri s (Some (minsert name0 d0 (minsert name d (match tb_uri s with Some m => m | None => [] end)))))
                  (set_tb_uri s (Some (minsert name d (minsert name0 d0 (match tb_uri s with Some m => m | None => [] end)))))).
      exact (eq_ind _ (fun m => sim _ (set_tb_uri s (Some m))) (sim_refl _) _ (eq_sym (minsert_swap d d0 _ H Hs))).
    - unfold when_extended. destruct (tb_extended s) eqn:Ex; [|exact I].
      destruct (prop_run xi xp p) as [a|], (prop_run xi0 xp0 p0) as [a0|]; cbn [obind]; try exact I;
        match goal with |- context [tb_extended (set_tb_properties s ?l)] => change (tb_extended (set_tb_properties s l)) with (tb_extended s) end;
        rewrite ?Ex; try exact I.
      match goal with |- context [tb_extended (set_tb_properties s ?l)] => change (tb_extended (set_tb_properties s l)) with (tb_extended s) end.
      rewrite Ex. exact (sim_properties s (perm_two (tb_properties s) (name, a) (name0, a0))).
    - unfold when_extended. destruct (tb_extended s) eqn:Ex; [|exact I].
      destruct (action_run xi xa p) as [a|], (action_run xi0 xa0 p0) as [a0|]; cbn [obind]; try exact I;
        match goal with |- context [tb_extended (set_tb_actions s ?l)] => change (tb_extended (set_tb_actions s l)) with (tb_extended s) end;
        rewrite ?Ex; try exact I.
      match goal with |- context [tb_extended (set_tb_actions s ?l)] => change (tb_extended (set_tb_actions s l)) with (tb_extended s) end.
      rewrite Ex. exact (sim_actions s (perm_two (tb_actions s) (name, a) (name0, a0))).
    - unfold when_extended. destruct (tb_extended s) eqn:Ex; [|exact I].
      destruct (event_run xi xe p) as [a|], (event_run xi0 xe0 p0) as [a0|]; cbn [obind]; try exact I;
        match goal with |- context [tb_extended (set_tb_events s ?l)] => change (tb_extended (set_tb_events s l)) with (tb_extended s) end;
        rewrite ?Ex; try exact I.
      match goal with |- context [tb_extended (set_tb_events s ?l)] => change (tb_extended (set_tb_events s l)) with (tb_extended s) end.
      rewrite Ex. exact (sim_events s (perm_two (tb_events s) (name, a) (name0, a0))).
    - unfold when_extended. destruct (tb_extended s) eqn:Ex; [|exact I].
      destruct (dbuild p) as [d|], (dbuild p0) as [d0|]; cbn [obind]; try exact I;
        match goal with |- context [tb_extended (set_tb_schemas s ?l)] => change (tb_extended (set_tb_schemas s l)) with (tb_extended s) end;
        rewrite ?Ex; try exact I.
      match goal with |- context [tb_extended (set_tb_schemas s ?l)] => change (tb_extended (set_tb_schemas s l)) with (tb_extended s) end.
      rewrite Ex. cbn [osim].
      change (sim (set_tb_schemas s (minsert name0 d0 (minsert name d (tb_schemas s))))
                  (set_tb_schemas s (minsert name d (minsert name0 d0 (tb_schemas s))))).
      exact (eq_ind _ (fun m => sim _ (set_tb_schemas s m)) (sim_refl _) _ (eq_sym (minsert_swap d d0 _ H (proj1 (tw_schemas Hw))))).
  Qed.

  (** ** Building *)

  Lemma consistent_perm good (y y' : body X) :
    Permutation (y_secdefs y) (y_secdefs y') -> Permutation (y_properties y) (y_properties y') ->
    Permutation (y_actions y) (y_actions y') -> Permutation (y_events y) (y_events y') ->
    y_schemas y' = y_schemas y -> y_forms y' = y_forms y -> y_uris y' = y_uris y -> y_links y' = y_links y ->
    y_titles y' = y_titles y -> y_descriptions y' = y_descriptions y ->
    consistent good y -> consistent good y'.
  Proof.
    intros P1 P2 P3 P4 E1 E2 E3 E4 E5 E6 H.
    assert (I1 : forall c, In c (y_secdefs y') -> In c (y_secdefs y)) by (intros c; apply Permutation_in, Permutation_sym, P1).
    assert (I2 : forall c, In c (y_properties y') -> In c (y_properties y)) by (intros c; apply Permutation_in, Permutation_sym, P2).
    assert (I3 : forall c, In c (y_actions y') -> In c (y_actions y)) by (intros c; apply Permutation_in, Permutation_sym, P3).
    assert (I4 : forall c, In c (y_events y') -> In c (y_events y)) by (intros c; apply Permutation_in, Permutation_sym, P4).
    assert (N1 : forall n, In n (secnames y) -> In n (secnames y')) by (intros n; apply Permutation_in, Permutation_map, P1).
    assert (A : forall k n i, affordance y' k n i -> affordance y k n i) by (intros k n i []; econstructor; eauto).
    assert (F : forall c f, form_at y' c f -> form_at y c f).
    { intros c f [f' Hf|k n i f' Ha Hf]; [constructor; rewrite <- E2; exact Hf|econstructor; eauto]. }
    assert (U : forall d, uri_variable y' d -> uri_variable y d).
    { intros d [n Hn|k m i n Ha Hn]; [left with n; rewrite <- E3; exact Hn|econstructor 2; eauto]. }
    assert (C : forall d, checked_schema y' d -> checked_schema y d) by (intros d [n a Q R|n a Q R|n a Q R|n a Q R|n a Q R|n a Q R]; [eapply chk_property|eapply chk_input|eapply chk_output|eapply chk_subscription|eapply chk_data|eapply chk_cancellation]; eauto).
    assert (L : forall m, lang_map_in y' m -> lang_map_in y m).
    { intros m [Q|Q|n c Q Q'|k n i Q Q'|d Q Q'].
      - apply lm_title. congruence.
      - apply lm_description. congruence.
      - eapply lm_security; eauto.
      - eapply lm_affordance; eauto.
      - eapply lm_schema; [|exact Q']. destruct Q as [Q|n a Q Q2|Q|n Q].
        + apply in_checked; auto.
        + eapply in_response; eauto.
        + apply in_uri; auto.
        + eapply in_definitions. rewrite <- E1. exact Q. }
    destruct H. constructor; unfold secnames in *; rewrite ?E1, ?E4; eauto.
    - eapply Permutation_NoDup; [apply Permutation_map, P1|exact co_secdefs].
    - eapply Permutation_NoDup; [apply Permutation_map, P2|exact co_properties].
    - eapply Permutation_NoDup; [apply Permutation_map, P3|exact co_actions].
    - eapply Permutation_NoDup; [apply Permutation_map, P4|exact co_events].
    - intros s [m Hm Hs|l hs Hl Hh Hs]; apply co_tags; [eapply tag_map; eauto|eapply tag_link; eauto].
      rewrite <- E4. exact Hl.
  Qed.

  Lemma the_map_perm A B (f : A -> B) l l' :
    NoDup (map fst l) -> Permutation l l' -> the_map f l = the_map f l'.
  Proof.
    intros Hn Hp. unfold the_map. destruct l as [|c l], l' as [|c' l'].
    - reflexivity.
    - apply Permutation_nil_cons in Hp. destruct Hp.
    - apply Permutation_sym, Permutation_nil_cons in Hp. destruct Hp.
    - cbn [nonempty option_map]. f_equal. apply mof_Permutation_eq; [|apply Permutation_map, Hp].
      rewrite map_map. exact Hn.
  Qed.

  Lemma sim_thing ord s s' : consistent (parsable E) (body_of s) -> sim s s' -> thing_of ord s' = thing_of ord s.
  Proof.
    intros Hc (lp & la & le & ls & P1 & P2 & P3 & P4 & ->). unfold thing_of.
    replace (the_defs ord (rearrange s lp la le ls)) with (the_defs ord s).
    2: { unfold the_defs. apply mof_Permutation_eq; [|apply Permutation_map, P4]. rewrite map_map. exact (co_secdefs Hc). }
    change (tb_properties (rearrange s lp la le ls)) with lp. change (tb_actions (rearrange s lp la le ls)) with la.
    change (tb_events (rearrange s lp la le ls)) with le.
    rewrite <- (the_map_perm (fun u => property_tagged E ord (property_of u)) (l := tb_properties s) (l' := lp)); [| |exact P1].
    2: { pose proof (co_properties Hc) as Q. cbn [body_of y_properties] in Q. rewrite map_map in Q. exact Q. }
    rewrite <- (the_map_perm (fun u => action_tagged E ord (action_of u)) (l := tb_actions s) (l' := la)); [| |exact P2].
    2: { pose proof (co_actions Hc) as Q. cbn [body_of y_actions] in Q. rewrite map_map in Q. exact Q. }
    rewrite <- (the_map_perm (fun u => event_tagged E ord (event_of u)) (l := tb_events s) (l' := le)); [| |exact P3].
    2: { pose proof (co_events Hc) as Q. cbn [body_of y_events] in Q. rewrite map_map in Q. exact Q. }
    reflexivity.
  Qed.

  Lemma sim_consistent s s' : sim s s' -> consistent (parsable E) (body_of s) <-> consistent (parsable E) (body_of s').
  Proof.
    intros (lp & la & le & ls & P1 & P2 & P3 & P4 & ->).
    split; apply consistent_perm; try reflexivity; cbn [body_of y_secdefs y_properties y_actions y_events].
    5-8: apply Permutation_sym. all: try apply Permutation_map; assumption.
  Qed.

  Lemma swap_builds ord title x p o1 o2 q (t : thing E X) :
    order_ok ord -> exchangeable o1 o2 ->
    (thing_program ord title x (p ++ o1 :: o2 :: q) = Some (Ok t)
     <-> thing_program ord title x (p ++ o2 :: o1 :: q) = Some (Ok t))
    /\ (thing_program ord title x (p ++ o1 :: o2 :: q) = None
        <-> thing_program ord title x (p ++ o2 :: o1 :: q) = None).
  Proof.
    intros Ho Hx.
    assert (Hsim : osim (trun (p ++ o1 :: o2 :: q) (thing_new E X title x)) (trun (p ++ o2 :: o1 :: q) (thing_new E X title x))).
    { unfold trun. rewrite !orun_app. destruct (orun (@tstep E X) p (thing_new E X title x)) as [s|] eqn:Er; [|exact I].
      cbn [obind orun]. assert (Hw : tb_wf s) by (eapply tb_says_wf, (trun_says _ _ _ Er)).
      pose proof (two_steps _ _ Hx Hw) as Q.
      destruct (tstep o1 s) as [s1|], (tstep o2 s) as [s2|]; cbn [obind] in *.
      - destruct (tstep o2 s1), (tstep o1 s2); cbn [obind] in *; try contradiction; [apply trun_sim, Q|exact I].
      - destruct (tstep o2 s1); cbn [obind] in *; [contradiction|exact I].
      - destruct (tstep o1 s2); cbn [obind] in *; [contradiction|exact I].
      - exact I. }
    unfold thing_program.
    destruct (trun (p ++ o1 :: o2 :: q) (thing_new E X title x)) as [s|] eqn:R1,
             (trun (p ++ o2 :: o1 :: q) (thing_new E X title x)) as [s'|] eqn:R2; cbn [osim obind] in *; try contradiction.
    - split; [|split; discriminate].
      assert (W1 : tb_wf s) by (eapply tb_says_wf, (trun_says _ _ _ R1)).
      assert (W2 : tb_wf s') by (eapply tb_says_wf, (trun_says _ _ _ R2)).
      pose proof (tbuild_judge Ho W1) as J1. pose proof (tbuild_judge Ho W2) as J2.
      pose proof (sim_consistent Hsim) as Hc.
      destruct (tbuild ord s) as [t1|e1] eqn:B1, (tbuild ord s') as [t2|e2] eqn:B2; cbn [judge] in J1, J2.
      + destruct J1 as [-> K1], J2 as [-> K2]. rewrite (sim_thing ord K1 Hsim). reflexivity.
      + exfalso. destruct J1 as [_ K1]. apply Hc in K1. eapply defect_inconsistent; eauto.
      + exfalso. destruct J2 as [_ K1]. apply Hc in K1. eapply defect_inconsistent; eauto.
      + split; discriminate.
    - split; [split; discriminate|reflexivity].
  Qed.

  Lemma reordered_builds ord title x p p' (t : thing E X) :
    order_ok ord -> reordered p p' ->
    (thing_program ord title x p = Some (Ok t) <-> thing_program ord title x p' = Some (Ok t))
    /\ (thing_program ord title x p = None <-> thing_program ord title x p' = None).
  Proof.
    intros Ho H. induction H as [p|p o1 o2 q p' Hx H IH]; [split; reflexivity|].
    destruct (swap_builds title x p o1 o2 q t Ho Hx) as [Q1 Q2]. rewrite Q1, Q2. exact IH.
  Qed.

  Lemma affordances_exchangeable (o1 o2 : top E X) :
    declares_affordance o1 -> declares_affordance o2 -> exchangeable o1 o2.
  Proof. destruct o1; intros []; destruct o2; intros []; try exact I; cbn; repeat split; discriminate. Qed.

  Lemma affordances_any_order ord title x p l l' q (t : thing E X) :
    order_ok ord -> Forall (@declares_affordance E X) l -> Permutation l l' ->
    (thing_program ord title x (p ++ l ++ q) = Some (Ok t) <-> thing_program ord title x (p ++ l' ++ q) = Some (Ok t)).
  Proof.
    intros Ho Hf Hp. revert p. induction Hp as [|o l l' Hp IH|o1 o2 l|l l1 l2 H1 IH1 H2 IH2]; intros p.
    - reflexivity.
    - inversion Hf as [|? ? A B]; subst. specialize (IH B (p ++ [o])). rewrite <- !app_assoc in IH. exact IH.
    - inversion Hf as [|? ? A B]; subst. inversion B as [|? ? C D]; subst.
      exact (proj1 (swap_builds title x p o2 o1 (l ++ q) t Ho (affordances_exchangeable _ _ A C))).
    - rewrite (IH1 Hf p). apply IH2. eapply Permutation_Forall; eauto.
  Qed.
End Reorder.

(** The error is that of the declaration that comes first. *)
From Verif Require Import HList Protocol Samples.

Lemma reordered_errors :
  exists (p p' : list hop) e e',
    reordered p p' /\ run id_order p = Some (Err e) /\ run id_order p' = Some (Err e') /\ e <> e'.
Proof.
  set (bad := TProperty "b" tt tt (map (@PDs http_exts) bad_bounds) : hop).
  set (form := TProperty "f" tt tt [PDs (DFinish tt); PDs DBool; PIa (IForm no_method [FHref "/"; FSecurity "none"])] : hop).
  exists [TFinish; bad; form], [TFinish; form; bad], InvalidMinMax, (UndefinedSecurity "none").
  split; [apply (re_swap [TFinish] bad form []); [exact I|apply re_refl]|].
  split; [reflexivity|]. split; [reflexivity|discriminate].
Qed.
