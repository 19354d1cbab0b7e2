(** * Proofs for C54 *)

From Coq Require Import String Bool ZArith List.
From Verif Require Import Base MinMax Json Serde Types DsBuilder Builder SchemaStructs SchemaStructFacts SpecStruct
  Spec SpecCalls SpecThing DsProgFacts ProgFacts ThingFacts OrderFacts ProgramProps BuiltFacts.
Import ListNotations.
Set Implicit Arguments.

Section Facts.
  Variables DS AS OS : Type.
  Notation ds := (ds DS AS OS).
  Notation dsop := (dsop DS AS OS).

  Lemma is_schema_join i (r : partial_ds DS AS OS) d : is_schema i r d <-> d = join i r.
  Proof.
    split.
    - intros [H1 H2 H3 H4 H5 H6 H7 H8 H9 H10 H11]. destruct d as [i' [a b c e f g h] o s x]. cbn in *.
      unfold join. subst. reflexivity.
    - intros ->. constructor; reflexivity.
  Qed.

  Lemma about_text_setter (o : dsop) : about_text o <-> setter o = true.
  Proof.
    unfold about_text. split.
    - intros [(n & ->)|[(n & ->)|[(n & ->)|[(n & ->)|(n & ->)]]]]; reflexivity.
    - destruct o; try discriminate; intros _; eauto 6.
  Qed.

  Lemma about_text_exists (p : list dsop) : (exists o, In o p /\ about_text o) <-> existsb (@setter DS AS OS) p = true.
  Proof.
    rewrite existsb_exists. split; intros (o & Ho & H); exists o; (split; [exact Ho|]); apply about_text_setter; exact H.
  Qed.

  Lemma property_calls (p : list dsop) :
    (exists i r, pbuild2 p = Some (i, r)) <-> (exists d, dbuild2 p = Some d) /\ ~ exists o, In o p /\ about_text o.
  Proof.
    rewrite about_text_exists, dbuild2_dbuild. pose proof (pbuild2_dbuild p) as H. split.
    - intros (i & r & E). rewrite E in H. destruct (existsb (@setter DS AS OS) p); [discriminate H|].
      split; [|discriminate]. exists (join i r). symmetry. exact H.
    - intros [[d Hd] Hn]. destruct (existsb (@setter DS AS OS) p); [exfalso; auto|]. rewrite Hd in H.
      destruct (pbuild2 p) as [[i r]|]; [eauto|discriminate H].
  Qed.

  Lemma property_schema (p : list dsop) i r d :
    pbuild2 p = Some (i, r) -> dbuild2 p = Some d -> is_schema i r d.
  Proof.
    intros Hp Hd. rewrite dbuild2_dbuild in Hd. pose proof (pbuild2_dbuild p) as H. rewrite Hp in H.
    destruct (existsb (@setter DS AS OS) p); [discriminate H|]. rewrite Hd in H. apply is_schema_join. cbn in H. congruence.
  Qed.

  Lemma property_checks ord i (r : partial_ds DS AS OS) d : is_schema i r d -> partial_check ord r = check ord d.
  Proof. intros H. apply is_schema_join in H as ->. apply partial_check_join. Qed.
End Facts.

Section Things.
  Variable E : env.
  Variable X : exts.
  Variable ord : order.

  Lemma property_builds (u : uproperty2 X) d a :
    is_schema (u_info u) (u_schema u) d -> property_build2 E ord u = Ok a ->
    ds_build ord (tag_parse E) d = Ok (pa_ds a) /\ ia_info (pa_ia a) = ds_info (pa_ds a).
  Proof.
    intros H Hb. apply is_schema_join in H as ->. rewrite property_build2_merge in Hb.
    unfold property_build in Hb. cbn [merge_property up_ds] in Hb.
    destruct (ia_build _ _ _ _) as [ia|e] eqn:Hia; [|discriminate Hb]. cbn [rbind] in Hb.
    destruct (ds_build _ _ _) as [d'|e] eqn:Hd; [|discriminate Hb]. cbn [rbind] in Hb.
    injection Hb as <-. cbn. split; [reflexivity|].
    rewrite ds_build_join in Hd. unfold ia_build in Hia. cbn [ds_info join] in Hia.
    destruct (info_build _ _ (u_info u)) as [i'|e]; [|discriminate Hd]. cbn [rbind] in *.
    destruct (ia_uri_build _ _ _); [|discriminate Hia]. cbn [rbind] in Hia. injection Hia as <-.
    destruct (ropt _ (r_one_of _)); [|discriminate Hd]. cbn [rbind] in Hd.
    destruct (ropt _ (r_sub _)); [|discriminate Hd]. cbn [rbind] in Hd. injection Hd as <-. reflexivity.
  Qed.

  Lemma property_fails (u : uproperty2 X) d e :
    is_schema (u_info u) (u_schema u) d -> property_build2 E ord u = Err e ->
    ds_build ord (tag_parse E) d = Err e \/ @ia_uri_build E X ord (ib_uri (u_ia u)) = Err e.
  Proof.
    intros H Hb. apply is_schema_join in H as ->. rewrite property_build2_merge in Hb.
    unfold property_build, ia_build in Hb. cbn [merge_property up_ds up_ia ds_info join] in Hb.
    rewrite ds_build_join in *.
    destruct (info_build _ _ (u_info u)) as [i'|e']; [|left; cbn in Hb |- *; congruence]. cbn [rbind] in *.
    destruct (ia_uri_build _ _ _) as [x|e']; [|right; cbn in Hb; congruence]. cbn [rbind] in *.
    left. destruct (ropt _ (r_one_of _)); [|cbn in Hb |- *; congruence]. cbn [rbind] in *.
    destruct (ropt _ (r_sub _)); [|cbn in Hb |- *; congruence]. cbn [rbind] in *. discriminate Hb.
  Qed.

  (** ** Things *)

  Lemma prop_run_texts xi xp (q : list (pop X)) u o :
    prop_run xi xp q = Some u -> In (PDs o) q -> setter o = false.
  Proof.
    unfold prop_run. intros H Ho. destruct (orun _ q _) as [s|] eqn:Hr; [|discriminate H]. clear H.
    revert Hr. generalize {| pb_ia := ia_new X xi; pb_ds := dempty; pb_observable := None; pb_other := xp |}.
    induction q as [|c q IH]; intros s0 Hr; [destruct Ho|]. cbn [orun] in Hr.
    destruct Ho as [->|Ho].
    - cbn [pstep] in Hr. rewrite delegated_setter in Hr. destruct (setter o); [discriminate Hr|reflexivity].
    - destruct (pstep c s0) as [s1|]; [|discriminate Hr]. eapply IH; eauto.
  Qed.

  Lemma trun_property (p : list (top E X)) n xi xp q : In (TProperty n xi xp q) p ->
    forall s s', orun (@tstep E X) p s = Some s' -> exists u, prop_run xi xp q = Some u.
  Proof.
    induction p as [|c p IH]; intros Ho s s' Hr; [destruct Ho|]. cbn [orun] in Hr. destruct Ho as [->|Ho].
    - cbn [tstep] in Hr. destruct (prop_run xi xp q); [eauto|]. unfold when_extended in Hr. destruct (tb_extended s); discriminate Hr.
    - destruct (tstep c s) as [s1|]; [|discriminate Hr]. eapply IH; eauto.
  Qed.

  Lemma no_calls A B (f : A -> option B) (l : list A) : (forall a, In a l -> f a = None) -> lasto (picks f l) = None.
  Proof.
    intros H. replace (picks f l) with (@nil B); [reflexivity|]. symmetry. destruct (picks f l) as [|b l'] eqn:Hl; auto.
    exfalso. assert (In b (b :: l')) as Hb by (left; auto). rewrite <- Hl in Hb.
    apply picks_In in Hb as (a & Ha & Hf). rewrite (H a Ha) in Hf. discriminate.
  Qed.

  Lemma built_no_text title x (p : list (top E X)) t : order_ok ord ->
    thing_program ord title x p = Some (Ok t) ->
    forall ps n a, t_properties t = Some ps -> In (n, a) ps -> no_text (pa_ds a).
  Proof.
    intros Hord Ht ps n a Hps Ha.
    pose proof (ts_properties (built_says Hord _ _ _ Ht)) as Hs. rewrite Hps in Hs.
    destruct (from_map Hs Ha) as ([[xi xp] q] & Hc & Hp). destruct (ps_ds Hp) as [[_ _ _ _ _ _ _ _ _ _ Hsub]].
    cbn [fst snd] in Hsub.
    assert (forall o, In o (picks (@p_ds X) q) -> setter o = false) as Hq.
    { intros o Ho. apply picks_In in Ho as (c & Ho & Hco). destruct c; try discriminate Hco. injection Hco as ->.
      apply DsProgFacts.llook_In in Hc. apply picks_In in Hc as (c & Hc & Hcc). destruct c; try discriminate Hcc.
      injection Hcc as -> -> -> ->.
      unfold thing_program in Ht. destruct (trun p _) as [s|] eqn:Hr; [|discriminate Ht].
      destruct (trun_property _ _ _ _ _ Hc _ Hr) as [u Hu]. eapply prop_run_texts; eauto. }
    pose proof (sd_smin Hsub) as H1. pose proof (sd_smax Hsub) as H2. pose proof (sd_pattern Hsub) as H3.
    pose proof (sd_encoding Hsub) as H4. pose proof (sd_media Hsub) as H5.
    rewrite no_calls in H1, H2, H3, H4, H5 by (intros o Ho; apply Hq in Ho; destruct o; try discriminate Ho; reflexivity).
    unfold no_text. destruct (ds_sub (pa_ds a)) as [[| | | | |st|]|]; auto.
  Qed.

  Lemma prop_refines xi xp (p : list (pop X)) :
    match prop_run2 xi xp p, prop_run xi xp p with
    | Some u, Some v =>
        up_ia v = u_ia u /\ is_schema (u_info u) (u_schema u) (up_ds v) /\ up_observable v = u_observable u
        /\ up_other v = u_other u /\ property_build2 E ord u = property_build E ord v
    | None, None => True
    | _, _ => False
    end.
  Proof.
    rewrite <- prop_run2_merge. destruct (prop_run2 xi xp p) as [u|]; cbn [option_map]; auto.
    rewrite property_build2_merge. split; [reflexivity|]. split; [apply is_schema_join; reflexivity|]. auto.
  Qed.

  Lemma properties_refine defs (l : list (string * (pty (x_ia X) * pty (x_pa X) * list (pop X)))) us vs :
    Forall2 (fun c u => fst c = fst u
      /\ prop_run2 (fst (fst (snd c))) (snd (fst (snd c))) (snd (snd c)) = Some (snd u)) l us ->
    Forall2 (fun c v => fst c = fst v
      /\ prop_run (fst (fst (snd c))) (snd (fst (snd c))) (snd (snd c)) = Some (snd v)) l vs ->
    properties_build2 E ord defs us
    = affordances_build ord defs AProperty (@up_ia X) (fun p => [Some (up_ds p)]) (property_build E ord) vs.
  Proof.
    intros H2 H1. rewrite properties_build2_merge. f_equal. revert vs H1.
    induction H2 as [|c [n u] l us [Hn Hu] _ IH]; intros vs H1; inversion H1 as [|? [n' v] ? vs' [Hn' Hv] Hvs]; subst; auto.
    cbn [map fst snd] in *. rewrite (IH _ Hvs). rewrite <- prop_run2_merge, Hu in Hv. cbn in Hv. congruence.
  Qed.

End Things.

Lemma text_lost : exists (p : list (dsop unit unit unit)) d, dbuild2 p = Some d /\ ~ no_text d /\ pbuild2 p = None.
Proof.
  exists [DFinish tt; DString; DMinLength 3%Z]. eexists. split; [reflexivity|]. split; [|reflexivity].
  intros [H _]. discriminate H.
Qed.
