(** * Exchanging what was built; forms and security of what was built *)

From Coq Require Import String Bool ZArith Permutation Lia List.
From Verif Require Import Base MinMax Json Serde Types DsBuilder Builder HList Ser De Protocol Samples SampleFacts
  Spec SpecCalls SpecThing SpecSerde SpecExt SpecDoc SpecMember SpecTyped SpecArgs DsFacts ConvFacts DsProgFacts
  ProgFacts SaysFacts ThingFacts OrderFacts ProgramProps ExtTypedFacts StableFacts KnownFacts ExactFacts SerdeSamples
  DocSamples Witnesses SerdeMore RoundTripThing DecodedFacts ExchangeMore ArgFacts.
Import ListNotations.
Set Implicit Arguments.
Local Open Scope string_scope.
Local Open Scope list_scope.

Definition tags_read (E : env) : Prop := forall s s', tag_parse E s = Some s' -> tag_ok E s' = true.
Definition dates_written (E : env) : Prop := forall s d, date_parse E s = Some d -> date_ok E d.

Lemma no_info_declared tg i : info_declared tg [] i -> i = no_info.
Proof.
  destruct i as [a b c d e]. intros [H1 H2 H3 H4 H5]. cbn in *. inversion H3; inversion H5; subst. reflexivity.
Qed.

Lemma lasto_nonempty A (l : list A) : lasto l = None <-> l = [].
Proof.
  split; [apply lasto_None|intros ->; reflexivity].
Qed.

Lemma omatch_some A B (R : A -> B -> Prop) a o : omatch R (Some a) o -> o <> None.
Proof. intros H. inversion H. discriminate. Qed.

(** Any call leaves a member. *)
Lemma info_declared_share tg p i o : info_declared tg p i -> In o p -> share i i.
Proof.
  intros [H1 H2 H3 H4 H5] Ho. unfold share.
  assert (forall B (f : info_op -> option B) b, f o = Some b -> In b (picks f p)) as Hin.
  { intros B f b Hb. apply picks_In. eauto. }
  assert (forall B (f : info_op -> option B) b, f o = Some b -> lasto (picks f p) <> None) as Hl.
  { intros B f b Hb Hn. apply lasto_nonempty in Hn. pose proof (Hin _ f b Hb) as H. rewrite Hn in H. destruct H. }
  destruct o as [s|s|l|s|l].
  - left. assert (i_attype i <> None) as H; [|auto]. rewrite H1. pose proof (Hin _ c_attype s eq_refl) as H.
    destruct (picks c_attype p); [destruct H|discriminate].
  - right. left. assert (i_title i <> None) as H; [|auto]. rewrite H2. apply (Hl _ c_title s eq_refl).
  - right. right. left. assert (i_titles i <> None) as H; [|auto]. pose proof (Hl _ c_titles l eq_refl) as H.
    destruct (lasto (picks c_titles p)); [|congruence]. eapply omatch_some; eauto.
  - right. right. right. left. assert (i_description i <> None) as H; [|auto]. rewrite H4.
    apply (Hl _ c_description s eq_refl).
  - right. right. right. right. assert (i_descriptions i <> None) as H; [|auto].
    pose proof (Hl _ c_descriptions l eq_refl) as H.
    destruct (lasto (picks c_descriptions p)); [|congruence]. eapply omatch_some; eauto.
Qed.

Lemma at_map P A (R : P -> A -> Prop) adds m n c : omap_says R adds m -> llook n adds = Some c ->
  exists ps a, m = Some ps /\ In (n, a) ps /\ R c a.
Proof.
  intros [[Hs H] _] Hc. specialize (H n). rewrite Hc in H. inversion H as [|? a Ha Hm]; subst.
  destruct m as [ps|]; [|discriminate]. exists ps, a. split; auto. split; auto. apply mlook_Some_In. auto.
Qed.

Lemma from_map P A (R : P -> A -> Prop) adds ps n a : omap_says R adds (Some ps) -> In (n, a) ps ->
  exists c, llook n adds = Some c /\ R c a.
Proof.
  intros [[Hs H] _] Ha. specialize (H n). cbn [olist] in *. rewrite (at_key Hs Ha) in H. apply omatch_r in H. exact H.
Qed.

Arguments at_map {P A R adds m n c} _ _.
Arguments from_map {P A R adds ps n a} _ _.

Section Built.
  Variable E : env.
  Variable X : exts.
  Variable ord : order.
  Hypothesis Hord : order_ok ord.
  Variable title : string.
  Variable x : pty (x_t X).
  Variable p : list (top E X).
  Variable t : thing E X.
  Hypothesis Ht : thing_program ord title x p = Some (Ok t).

  (** ** Titles *)

  Lemma built_untitled : ~ titles_property p <-> untitled t.
  Proof.
    pose proof (ts_properties (built_says Hord _ _ _ Ht)) as Hs. split.
    - intros Hn ps n a Hps Ha. rewrite Hps in Hs. destruct (from_map Hs Ha) as ([[xi xp] q] & Hc & Hp).
      destruct (ps_ds Hp) as [[Hi _ _ _ _ _ _ _ _ _ _]]. cbn [fst snd] in Hi.
      assert (picks (@d_info _ _ _) (picks (@p_ds X) q) = []) as He.
      { destruct (picks _ (picks _ _)) as [|o l] eqn:Hl; auto. exfalso. apply Hn. exists n, xi, xp, q, o.
        split; auto. assert (In o (o :: l)) as Ho by (left; auto). rewrite <- Hl in Ho.
        apply picks_In in Ho as (d & Hd & Hdo). apply picks_In in Hd as (c & Hc' & Hcd).
        destruct c; try discriminate Hcd. injection Hcd as ->. destruct d; try discriminate Hdo.
        injection Hdo as ->. exact Hc'. }
      rewrite He in Hi. eapply no_info_declared; eauto.
    - intros Hu (n & xi & xp & q & o & Hc & Ho). destruct (at_map Hs Hc) as (ps & a & Hps & Ha & Hp).
      destruct (ps_ds Hp) as [[Hi _ _ _ _ _ _ _ _ _ _]]. cbn [fst snd] in Hi.
      assert (share (ds_info (pa_ds a)) (ds_info (pa_ds a))) as Hsh.
      { eapply info_declared_share; [exact Hi|]. apply picks_In. exists (DInfo o). split; [|reflexivity].
        apply picks_In. exists (PDs (DInfo o)). auto. }
      rewrite (Hu _ _ _ Hps Ha) in Hsh. unfold share in Hsh. cbn in Hsh. tauto.
  Qed.

  Lemma built_unreadable j : titles_property p -> s_thing mk_text t = Some j -> d_thing E X j = None.
  Proof.
    intros (n & xi & xp & q & o & Hc & Ho).
    destruct (at_map (ts_properties (built_says Hord _ _ _ Ht)) Hc) as (ps & a & Hps & Ha & Hp).
    destruct (ps_ds Hp) as [[Hi _ _ _ _ _ _ _ _ _ _]]. cbn [fst snd] in Hi.
    eapply thing_unreadable; eauto. rewrite (ps_info Hp). eapply info_declared_share; [exact Hi|].
    apply picks_In. exists (DInfo o). split; [|reflexivity]. apply picks_In. exists (PDs (DInfo o)). auto.
  Qed.

  (** ** Exchange *)

  Lemma built_typed (T : xvalues X) : tags_read E -> args_typed T x p -> thing_typed T t.
  Proof. intros Htag Ha. apply fits_typed. eapply thing_of; [exact Htag|exact Ha|]. eapply built_says; eauto. Qed.

  Lemma built_ok (V : xvalues X) : tags_read E -> args_ok V x p -> thing_ok V distinct t.
  Proof. intros Htag Ha. apply fits_ok. eapply thing_of; [exact Htag|exact Ha|]. eapply built_says; eauto. Qed.

  Section Exchange.
    Variable K : xnames.
    Variables T V : xvalues X.
    Hypothesis HS : exts_sound K T V.
    Hypothesis Htag : tags_read E.

    Lemma built_value : args_ok V x p -> exists j, s_thing mk_value t = Some j /\ d_thing E X j = Some t.
    Proof. intros Ha. apply (ok_back HS). apply thing_distinct. apply built_ok; auto. Qed.

    Lemma built_text : args_ok V x p ->
      ((exists j, s_thing mk_text t = Some j /\ d_thing E X j = Some t) <-> ~ titles_property p).
    Proof.
      intros Ha. split.
      - intros (j & Hj & Hd) Hp. rewrite (built_unreadable Hp Hj) in Hd. discriminate.
      - intros Hn. apply built_untitled in Hn.
        eapply thing_rt with (custom := unlike_known);
          [left; reflexivity|apply (es_round HS)|apply (es_apart HS)|apply unlike_known_apart| |right; exact Hn].
        apply thing_distinct. apply built_ok; auto.
    Qed.

    Lemma built_exact : dates_written E -> args_typed T x p ->
      ((exists j, s_thing mk_value t = Some j /\ d_thing E X j = Some t) <-> thing_ok V distinct t).
    Proof. intros Hd Ha. apply (thing_value_exact HS Hd). apply built_typed; auto. Qed.
  End Exchange.

  (** ** Security and forms *)

  Lemma built_secured : t_security t <> [] <-> exists q, In (TSecurity q) p /\ In SRequired q.
  Proof.
    destruct (ts_security (built_says Hord _ _ _ Ht)) as (rs & Hrs & Es & _). rewrite Es. split.
    - intros H. destruct (filter _ rs) as [|r l] eqn:Hf; [contradiction H; reflexivity|].
      assert (In r (filter (fun r => snd (fst r)) rs)) as Hr by (rewrite Hf; left; auto).
      apply filter_In in Hr as [Hr Hreq]. destruct (from_call Hrs Hr) as (q & Hq & Hs).
      apply picks_In in Hq as (o & Ho & F). destruct o; try discriminate F. injection F as ->.
      exists q. split; auto. rewrite (se_required Hs) in Hreq.
      apply existsb_exists in Hreq as (c & Hc & Hcr). destruct c; try discriminate Hcr. exact Hc.
    - intros (q & Hq & Hr).
      destruct (@Forall2_In_l _ _ _ _ _ q Hrs) as (r & Hin & Hs). { apply picks_In. exists (TSecurity q). auto. }
      assert (In r (filter (fun r => snd (fst r)) rs)) as Hf.
      { apply filter_In. split; auto. rewrite (se_required Hs). apply existsb_exists. exists SRequired. auto. }
      destruct (filter _ rs); [destruct Hf|discriminate].
  Qed.

  Lemma forms_nonempty xi q (i : interaction X) tg : ia_says tg xi q i ->
    (ia_forms i <> [] <-> exists y c, In (IForm y c) q).
  Proof.
    intros H. pose proof (is_forms H) as Hf. split.
    - intros Hn. destruct (picks (@i_form X) q) as [|[y c] l] eqn:Hq.
      + inversion Hf. congruence.
      + exists y, c. assert (In (y, c) (picks (@i_form X) q)) as Hin by (rewrite Hq; left; auto).
        apply picks_In in Hin as (o & Ho & F). destruct o; try discriminate F. injection F as -> ->. exact Ho.
    - intros (y & c & Hin) Hn. rewrite Hn in Hf. inversion Hf as [Hq|].
      assert (In (y, c) (picks (@i_form X) q)) as H' by (apply picks_In; eexists; split; [exact Hin|reflexivity]).
      rewrite <- Hq in H'. destruct H'.
  Qed.

  Lemma built_formed : (forall i, affordance t i -> ia_forms i <> [])
    <-> (forall q, affordance_calls p q -> exists y c, In (IForm y c) q).
  Proof.
    pose proof (built_says Hord _ _ _ Ht) as Hs. split.
    - intros H q Hq. destruct Hq as [n xi xp q Hc|n xi xp q Hc|n xi xp q Hc].
      + destruct (at_map (ts_properties Hs) Hc) as (ps & a & Hps & Ha & Hp).
        apply (forms_nonempty (ps_ia Hp)). apply H. eapply af_property; eauto.
      + destruct (at_map (ts_actions Hs) Hc) as (ps & a & Hps & Ha & Hp).
        apply (forms_nonempty (as_ia Hp)). apply H. eapply af_action; eauto.
      + destruct (at_map (ts_events Hs) Hc) as (ps & a & Hps & Ha & Hp).
        apply (forms_nonempty (es_ia Hp)). apply H. eapply af_event; eauto.
    - intros H i Hi. destruct Hi as [ps n a Hps Ha|ps n a Hps Ha|ps n a Hps Ha].
      + pose proof (ts_properties Hs) as Hm. rewrite Hps in Hm. destruct (from_map Hm Ha) as ([[xi xp] q] & Hc & Hp).
        apply (forms_nonempty (ps_ia Hp)). apply H. eapply ac_property; eauto.
      + pose proof (ts_actions Hs) as Hm. rewrite Hps in Hm. destruct (from_map Hm Ha) as ([[xi xp] q] & Hc & Hp).
        apply (forms_nonempty (as_ia Hp)). apply H. eapply ac_action; eauto.
      + pose proof (ts_events Hs) as Hm. rewrite Hps in Hm. destruct (from_map Hm Ha) as ([[xi xp] q] & Hc & Hp).
        apply (forms_nonempty (es_ia Hp)). apply H. eapply ac_event; eauto.
  Qed.
End Built.
