(** * Facts about the acceptance of numeric bounds *)

From Coq Require Import String Bool ZArith QArith Permutation Lia Floats.SpecFloat List.
From Verif Require Import Base MinMax Json Serde Types DsBuilder Builder Spec SpecNum SpecCalls SpecThing
  DsFacts ConvFacts CheckFacts DsProgFacts ProgFacts SaysFacts BuildFacts ThingFacts NumFacts ProgramProps.
Import ListNotations.
Set Implicit Arguments.
Local Open Scope string_scope.
Local Open Scope list_scope.

Lemma ord_nil (ord : order) A : order_ok ord -> ord A [] = [].
Proof. intros H. apply Permutation_nil, Permutation_sym, H. Qed.

Section Family.
  Variable E : env.
  Variable X : exts.
  Variable ord : order.
  Hypothesis Hord : order_ok ord.
  Variables (title n : string).
  Variables (x : pty (x_t X)) (xi : pty (x_ia X)) (xp : pty (x_pa X)) (xd : pty (x_ds X)).
  Notation dsop := (dsop (pty (x_ds X)) (pty (x_as X)) (pty (x_os X))).
  Notation one := (@one_property E X title n x xi xp xd).

  Lemma one_property_outcome calls d :
    forallb (delegated X) calls = true -> dbuild (DFinish xd :: calls) = Some d -> ds_info d = no_info -> ds_children d = [] ->
    ((exists t, thing_program ord title x (one_property E X n xi xp xd calls) = Some (Ok t))
     <-> (forall s, ds_sub d = Some s -> accepted_bounds s)).
  Proof.
    intros Hg Hd Hi Hch. pose (u := {| up_ia := ia_new X xi; up_ds := d; up_observable := None; up_other := xp |}).
    assert (Hr : exists s, trun (one_property E X n xi xp xd calls) (thing_new E X title x) = Some s
      /\ body_of s = {| y_secdefs := []; y_schemas := []; y_forms := []; y_uris := [];
           y_properties := [(n, property_of u)];
           y_actions := []; y_events := []; y_links := []; y_titles := []; y_descriptions := [] |}).
    { unfold trun, one_property. cbn [orun tstep when_extended thing_new tb_extended obind].
      assert (Hp : prop_run xi xp (map PDs (DFinish xd :: calls)) = Some u).
      { clear - Hd Hg. unfold dbuild in Hd. destruct (drun _ dempty) as [s|] eqn:Es; [|discriminate].
        simpl in Hd. unfold prop_run.
        assert (H : forall q (s0 s1 : dstate _ _ _), forallb (delegated X) q = true -> drun q s0 = Some s1 ->
          orun (@pstep X) (map PDs q) {| pb_ia := ia_new X xi; pb_ds := s0; pb_observable := None; pb_other := xp |}
          = Some {| pb_ia := ia_new X xi; pb_ds := s1; pb_observable := None; pb_other := xp |}).
        { induction q as [|o q IH]; simpl; intros s0 s1 Hq H; [congruence|].
          apply andb_true_iff in Hq as [Hq1 Hq2]. rewrite Hq1.
          destruct (dstep o s0) as [s2|] eqn:E2; [|discriminate]. simpl in *. auto. }
        rewrite (H (DFinish xd :: calls) _ _ Hg Es). simpl. rewrite Hd. reflexivity. }
      rewrite Hp. eexists. split; reflexivity. }
    destruct Hr as (s & Er & Hb).
    pose proof (trun_says _ _ _ Er) as Hs. pose proof (tb_says_wf Hs) as Hw.
    pose proof (tbuild_judge Hord Hw) as Hj. rewrite Hb in Hj.
    assert (Hsub : forall e, sub_ds e d -> e = d).
    { intros e He. apply sub_inv in He as [->|(c & Hc & _)]; auto. rewrite Hch in Hc. destruct Hc. }
    unfold thing_program. rewrite Er. cbn [obind].
    transitivity (consistent (parsable E) (body_of s)); rewrite Hb.
    - destruct (tbuild ord s) as [t|e] eqn:Et.
      + destruct Hj as [_ Hc]. split; eauto.
      + split; [intros [t Ht]; discriminate|]. intros Hc. exfalso. eapply defect_inconsistent; eauto.
    - split.
      + intros Hc s' Es'. 
        assert (Hck : all_accepted d).
        { apply (co_bounds Hc). eapply chk_property with (a := property_of u); [left; reflexivity|reflexivity]. }
        eapply Hck; [constructor|exact Es'].
      + intros Ha.
        assert (Haff : forall k m i, affordance {| y_secdefs := []; y_schemas := []; y_forms := []; y_uris := [];
           y_properties := [(n, property_of u)];
           y_actions := []; y_events := []; y_links := []; y_titles := []; y_descriptions := [] |} k m i ->
           ia_forms i = [] /\ ia_uri i = None /\ ia_info i = no_info).
        { intros k m i [m' a H|m' a H|m' a H]; simpl in H; try contradiction.
          destruct H as [H|[]]. inversion H; subst. simpl. auto. }
        assert (Hform : forall c f, ~ form_at {| y_secdefs := []; y_schemas := []; y_forms := []; y_uris := [];
           y_properties := [(n, property_of u)];
           y_actions := []; y_events := []; y_links := []; y_titles := []; y_descriptions := [] |} c f).
        { intros c f [f' H|k m i f' H Hf]; [destruct H|]. apply Haff in H as (H & _). rewrite H in Hf. destruct Hf. }
        assert (Huri : forall d', ~ uri_variable {| y_secdefs := []; y_schemas := []; y_forms := []; y_uris := [];
           y_properties := [(n, property_of u)];
           y_actions := []; y_events := []; y_links := []; y_titles := []; y_descriptions := [] |} d').
        { intros d' [m H|k m i m' H Hf]; [destruct H|]. apply Haff in H as (_ & H & _). rewrite H in Hf. destruct Hf. }
        assert (Hchk : forall d', checked_schema {| y_secdefs := []; y_schemas := []; y_forms := []; y_uris := [];
           y_properties := [(n, property_of u)];
           y_actions := []; y_events := []; y_links := []; y_titles := []; y_descriptions := [] |} d' -> d' = d).
        { intros d' [m a H Hq|m a H Hq|m a H Hq|m a H Hq|m a H Hq|m a H Hq]; simpl in H; try contradiction.
          destruct H as [H|[]]. inversion H; subst. reflexivity. }
        constructor; simpl; try (constructor; fail); try (intros; exfalso; eapply Hform; eauto; fail);
          try (intros; contradiction).
        * intros d' Hd'. exfalso. eapply Huri; eauto.
        * constructor; [intros []|constructor].
        * intros d' Hd'. apply Hchk in Hd'. subst d'. intros e s' He Es'. apply Hsub in He. subst e. auto.
        * intros t Ht. exfalso. destruct Ht as [m Hm Ht|l hs Hl _ _]; [|destruct Hl].
          destruct Hm as [Hm|Hm|m' c Hm|k m' i Hm Hi'|d' Hm Hi'].
          -- simpl in Hm. subst m. destruct Ht.
          -- simpl in Hm. subst m. destruct Ht.
          -- destruct Hm.
          -- apply Haff in Hm as (_ & _ & Hm). rewrite Hm in Hi'. destruct Hi'; discriminate.
          -- destruct Hm as [Hm|m' a Hm _|Hm|m' Hm]; try (destruct Hm; fail).
             ++ apply Hchk in Hm. subst d'. destruct Hi' as (e & He & Hi'). apply Hsub in He. subst e.
                rewrite Hi in Hi'. destruct Hi'; discriminate.
             ++ eapply Huri; eauto.
  Qed.

  Notation prog := (one_property E X n xi xp xd).
  Notation builds p := (exists t, thing_program ord title x p = Some (Ok t)).

  Lemma number_accepted a b :
    builds (prog [DNumber; DNumMin a; DNumMax b]) <->
    same_kind a b /\ le_of f64_cmp (min_val a) (max_val b).
  Proof.
    rewrite one_property_outcome by reflexivity. simpl. split.
    - intros H. destruct (H _ eq_refl) as [(H1 & H2 & H3 & H4) H5]. split; [apply H5; reflexivity|].
      apply (H3 _ _ eq_refl eq_refl).
    - intros [H1 H2] s Hs. injection Hs as <-.
      assert (Hn : SFcompare (min_val a) (max_val b) <> None) by (destruct H2; unfold f64_cmp in *; congruence).
      rewrite SFcompare_None in Hn.
      split; [split; [|split; [|split]]|]; simpl.
      + intros a' Ea. injection Ea as <-. tauto.
      + intros a' Ea. injection Ea as <-. tauto.
      + intros a' b' Ea Eb. injection Ea as <-. injection Eb as <-. exact H2.
      + discriminate.
      + intros a' b' Ea Eb. injection Ea as <-. injection Eb as <-. exact H1.
  Qed.

  Lemma integer_accepted a b :
    builds (prog [DInteger; DIntMin a; DIntMax b]) <-> same_kind a b /\ (min_val a <= max_val b)%Z.
  Proof.
    rewrite one_property_outcome by reflexivity. simpl. split.
    - intros H. destruct (H _ eq_refl) as [H1 H5]. split; [apply H5; reflexivity|].
      apply (H1 _ _ eq_refl eq_refl).
    - intros [H1 H2] s Hs. injection Hs as <-.
      split; simpl; intros a' b' Ea Eb; injection Ea as <-; injection Eb as <-; auto.
  Qed.

  Lemma number_inclusive u v :
    f64_ok u = true -> f64_ok v = true -> f64_finite u = true -> f64_finite v = true ->
    (builds (prog [DNumber; DNumMin (MinIncl u); DNumMax (MaxIncl v)]) <->
     exists q, min_admits (MinIncl u) q /\ max_admits (MaxIncl v) q).
  Proof. intros. rewrite number_accepted, <- inclusive_iff by auto. simpl. tauto. Qed.

  Lemma number_exclusive u v :
    f64_ok u = true -> f64_ok v = true -> f64_finite u = true -> f64_finite v = true ->
    ((exists q, min_admits (MinExcl u) q /\ max_admits (MaxExcl v) q) <->
     builds (prog [DNumber; DNumMin (MinExcl u); DNumMax (MaxExcl v)]) /\ f64_eqb u v = false).
  Proof.
    intros. rewrite number_accepted, <- exclusive_iff by auto. simpl. unfold lt_of, le_of.
    destruct (f64_eqb u v) eqn:Ee.
    - apply f64_eqb_cmp in Ee. rewrite Ee. intuition congruence.
    - assert (f64_cmp u v <> Some Eq) by (intros Hx; apply f64_eqb_cmp in Hx; congruence). tauto.
  Qed.

  Lemma integer_inclusive u v :
    (builds (prog [DInteger; DIntMin (MinIncl u); DIntMax (MaxIncl v)]) <->
     exists k, zmin_admits (MinIncl u) k /\ zmax_admits (MaxIncl v) k).
  Proof.
    rewrite integer_accepted. simpl. split; [intros [_ H]; exists u; lia|].
    intros (k & H1 & H2). split; auto. lia.
  Qed.

  Lemma integer_exclusive u v :
    ((exists k, zmin_admits (MinExcl u) k /\ zmax_admits (MaxExcl v) k) <->
     builds (prog [DInteger; DIntMin (MinExcl u); DIntMax (MaxExcl v)]) /\ v <> u /\ v <> (u + 1)%Z).
  Proof.
    rewrite integer_accepted. simpl. split.
    - intros (k & H1 & H2). split; [split; auto; lia|lia].
    - intros ((_ & H) & H1 & H2). exists (u + 1)%Z. lia.
  Qed.

  Lemma number_mixed a b : ~ same_kind a b -> ~ builds (prog [DNumber; DNumMin a; DNumMax b]).
  Proof. rewrite number_accepted. tauto. Qed.
  Lemma integer_mixed a b : ~ same_kind a b -> ~ builds (prog [DInteger; DIntMin a; DIntMax b]).
  Proof. rewrite integer_accepted. tauto. Qed.
End Family.

(** ** No NaN in the bounds of a built Thing *)

Lemma bounds_not_nan E X ord title x p (t : thing E X) :
  order_ok ord -> thing_program ord title x p = Some (Ok t) ->
  forall d e k, checked_schema (thing_body t) d -> sub_ds e d -> ds_sub e = Some (SNumber k) ->
    (forall a, n_min k = Some a -> ~ is_nan (min_val a)) /\ (forall b, n_max k = Some b -> ~ is_nan (max_val b)).
Proof.
  intros Ho Ht d e k Hd He Ek. pose proof (built_bounds _ _ _ Ho Ht Hd He Ek) as H.
  destruct H as (H1 & H2 & _). auto.
Qed.
