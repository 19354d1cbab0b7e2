(** * What is built from arguments within limits *)

From Coq Require Import String Bool ZArith Permutation Lia List.
From Verif Require Import Base MinMax Json Serde Types DsBuilder Builder Spec SpecCalls SpecThing SpecSerde SpecDoc
  SpecMember SpecTyped SpecArgs DsFacts ConvFacts DsProgFacts ProgFacts SaysFacts CleanFacts.
Import ListNotations.
Set Implicit Arguments.
Local Open Scope string_scope.
Local Open Scope list_scope.

Lemma from_call A B (R : A -> B -> Prop) l l' b (H : Forall2 R l l') : In b l' -> exists a, In a l /\ R a b.
Proof.
  induction H as [|x y l l' Hr _ IH]; intros [].
  - subst. exists x. split; [left|]; auto.
  - destruct IH as (a & Ha & H'); auto. exists a. split; [right|]; auto.
Qed.

Arguments from_call {A B R l l' b} H _.

Lemma at_key A k (v : A) m (Hs : msorted m) (Hin : In (k, v) m) : mlook k m = Some v.
Proof. apply In_mlook; auto. apply msorted_NoDup. auto. Qed.
Arguments at_key {A k v m} Hs Hin.

Lemma omatch_r A B (R : A -> B -> Prop) o b : omatch R o (Some b) -> exists a, o = Some a /\ R a b.
Proof. intros H. inversion H; subst. eauto. Qed.

Section Fits.
  Variable E : env.
  Variable X : exts.
  Variable L : limits E X.
  Notation V := (lm_ext L).
  Notation tg := (tag_parse E).
  Hypothesis Htags : forall s s', tag_parse E s = Some s' -> tag_ok E s' = true.

  Definition sub_fits (s : dsubx X) : Prop :=
    match s with
    | SArray _ mn mx o => all_some in_u32 mn /\ all_some in_u32 mx /\ v_as V o
    | SNumber n =>
        all_some (fun m => lm_float L (max_val m)) (n_max n)
        /\ all_some (fun m => lm_float L (min_val m)) (n_min n)
        /\ all_some (lm_float L) (n_mult n)
    | SInteger n =>
        all_some (fun m => in_i64 (max_val m)) (z_max n)
        /\ all_some (fun m => in_i64 (min_val m)) (z_min n)
        /\ all_some in_nz_u64 (z_mult n)
    | SObject ps _ o => all_some (@msorted _) ps /\ v_os V o
    | SString s => all_some in_u32 (s_min s) /\ all_some in_u32 (s_max s)
    | SBoolean | SNull => True
    end.

  Definition node_fits (d : dsx X) : Prop :=
    info_ok E (ds_info d)
    /\ all_some (lm_value L) (m_const (ds_misc d))
    /\ all_some (lm_value L) (m_default (ds_misc d))
    /\ all_some (Forall (lm_enum L)) (m_enum (ds_misc d))
    /\ all_some sub_fits (ds_sub d)
    /\ v_ds V (ds_other d).

  Definition schema_fits (d : dsx X) : Prop := forall e, sub_ds e d -> node_fits e.

  Definition form_fits (f : form X) : Prop :=
    f_op f <> OpCustom [] /\ all_some (fun r => v_er V (er_other r)) (f_response f) /\ v_f V (f_other f).

  Definition interaction_fits (i : interaction X) : Prop :=
    info_ok E (ia_info i) /\ Forall form_fits (ia_forms i) /\ all_some (map_ok schema_fits) (ia_uri i)
    /\ v_ia V (ia_other i).

  Definition property_fits (p : property X) : Prop :=
    interaction_fits (pa_ia p) /\ schema_fits (pa_ds p) /\ ia_info (pa_ia p) = ds_info (pa_ds p)
    /\ v_pa V (pa_other p).

  Definition action_fits (a : action X) : Prop :=
    interaction_fits (aa_ia a) /\ all_some schema_fits (aa_input a) /\ all_some schema_fits (aa_output a)
    /\ v_aa V (aa_other a).

  Definition event_fits (e : event X) : Prop :=
    interaction_fits (ea_ia e)
    /\ all_some schema_fits (ea_subscription e) /\ all_some schema_fits (ea_data e)
    /\ all_some schema_fits (ea_data_response e) /\ all_some schema_fits (ea_cancellation e)
    /\ v_ea V (ea_other e).

  Definition security_fits (s : security_scheme) : Prop :=
    all_some (tags_ok E) (ss_descriptions s)
    /\ forall scheme data, ss_subtype s = Unknown scheme data -> lm_custom L scheme data.

  Definition thing_fits (t : thing E X) : Prop :=
    value_typed (t_context t)
    /\ all_some (tags_ok E) (t_titles t) /\ all_some (tags_ok E) (t_descriptions t)
    /\ all_some (lm_date L) (t_created t) /\ all_some (lm_date L) (t_modified t)
    /\ all_some (map_ok property_fits) (t_properties t)
    /\ all_some (map_ok action_fits) (t_actions t)
    /\ all_some (map_ok event_fits) (t_events t)
    /\ all_some (Forall (link_ok E)) (t_links t)
    /\ all_some (Forall form_fits) (t_forms t)
    /\ map_ok security_fits (t_secdefs t)
    /\ all_some (map_ok schema_fits) (t_uri t)
    /\ all_some (map_ok schema_fits) (t_schemas t)
    /\ v_t V (t_other t).

  (** ** Schemas *)

  Lemma ml_tags adds m : ml_declared tg adds m -> tags_ok E m.
  Proof.
    intros [H1 _ H3]. split; auto. intros s Hs. unfold mkeys in Hs. apply in_map_iff in Hs as ([k v] & <- & Hin).
    destruct (H3 _ _ Hin) as (k0 & Hk & _). eapply Htags; eauto.
  Qed.

  Lemma oml_tags o m : omatch (ml_declared tg) o m -> all_some (tags_ok E) m.
  Proof. intros H x ->. apply omatch_r in H as (a & _ & H). eapply ml_tags; eauto. Qed.

  Lemma info_fits p i : info_declared tg p i -> info_ok E i.
  Proof.
    intros [_ _ H1 _ H2] m [Hm|Hm]; [apply (oml_tags H1 Hm)|apply (oml_tags H2 Hm)].
  Qed.

  Notation dsop := (dsop (pty (x_ds X)) (pty (x_as X)) (pty (x_os X))).
  Notation says := (@ds_says (pty (x_ds X)) (pty (x_as X)) (pty (x_os X)) tg).

  Lemma last_pick O B (f : O -> option B) p b : lasto (picks f p) = Some b -> exists o, In o p /\ f o = Some b.
  Proof. intros H. apply lasto_In, picks_In in H. exact H. Qed.

  Lemma arg_last B (f : dsop -> option B) (P : B -> Prop) p o : ds_args L p ->
    (forall c b, f c = Some b -> dsop_fits L c -> P b) -> o = lasto (picks f p) -> all_some P o.
  Proof.
    intros Hp Hf -> b Hb. apply last_pick in Hb as (c & Hc & Hb). eapply Hf; eauto. apply Hp. constructor. auto.
  Qed.

  Lemma args_closure p o q : ds_args L p -> In o p -> closure o = Some q -> ds_args L q.
  Proof. intros Hp Ho Hq c Hc. apply Hp. eapply calls_inside; eauto. Qed.

  Lemma child_says p (d c : dsx X) : ds_args L p -> says p d -> In c (ds_children d) ->
    exists q, says q c /\ ds_args L q.
  Proof.
    intros Hp [[_ _ _ _ _ _ (cs & Hcs & Hone) _ _ _ Hsub]] Hc. unfold ds_children in Hc.
    apply in_app_or in Hc as [Hc|Hc].
    - rewrite Hone in Hc. unfold nonempty in Hc.
      assert (In c cs) as Hin by (destruct cs; [destruct Hc|exact Hc]).
      destruct (from_call Hcs Hin) as (q & Hq & Hs). exists q. split; auto.
      apply picks_In in Hq as (o & Ho & Hoq). eapply args_closure; [exact Hp|exact Ho|].
      destruct o; try discriminate Hoq. exact Hoq.
    - destruct (ds_sub d) as [s|] eqn:Hs; [|destruct Hc]. destruct Hsub.
      destruct s as [[[e|l]|] mn mx o| | | |[ps|] r o| |]; cbn in Hc; try destruct Hc as [<-|[]]; try destruct Hc.
      + cbn in sd_elem. apply omatch_r in sd_elem as (q & Hq & Hqe). exists q. split; auto.
        apply last_pick in Hq as (x & Hx & Hxq). eapply args_closure; [exact Hp|exact Hx|].
        destruct x; try discriminate Hxq. exact Hxq.
      + cbn in sd_tuple. destruct (from_call sd_tuple Hc) as (q & Hq & Hqe). exists q. split; auto.
        apply picks_In in Hq as (x & Hx & Hxq). eapply args_closure; [exact Hp|exact Hx|].
        destruct x; try discriminate Hxq. exact Hxq.
      + apply in_map_iff in Hc as ([k c'] & <- & Hin). destruct sd_props as [Hsort Hl]. cbn in Hsort, Hl.
        specialize (Hl k). rewrite (at_key Hsort Hin) in Hl. apply omatch_r in Hl as (q & Hq & Hqe).
        exists q. split; auto. apply llook_In, picks_In in Hq as (x & Hx & Hxq).
        eapply args_closure; [exact Hp|exact Hx|]. destruct x; try discriminate Hxq. injection Hxq as _ <-. reflexivity.
  Qed.

  Lemma node_of p (d : dsx X) : ds_args L p -> says p d -> node_fits d.
  Proof.
    intros Hp [[H1 H2 H3 _ _ H6 _ _ _ H10 H11]].
    split; [eapply info_fits; eauto|].
    split; [eapply arg_last; [exact Hp| |exact H2]; intros [] b F; try discriminate F; injection F as <-; auto|].
    split; [eapply arg_last; [exact Hp| |exact H3]; intros [] b F; try discriminate F; injection F as <-; auto|].
    split; [|split].
    - intros l Hl. rewrite H6 in Hl. apply nonempty_Some in Hl as [<- _]. apply Forall_forall. intros v Hv.
      apply picks_In in Hv as (o & Ho & F). destruct o; try discriminate F. injection F as <-.
      apply (Hp (DEnum j)). constructor. auto.
    - intros s Hs. rewrite Hs in H11. destruct H11.
      destruct s as [it mn mx o| |n|n|ps r o|n|]; cbn in *; auto.
      + split; [eapply arg_last; [exact Hp| |exact sd_min_items]; intros [] b F; try discriminate F; injection F as <-; auto|].
        split; [eapply arg_last; [exact Hp| |exact sd_max_items]; intros [] b F; try discriminate F; injection F as <-; auto|].
        symmetry in sd_as. apply last_pick in sd_as as (c & Hc & F). destruct c; try discriminate F; injection F as <-;
          refine (Hp _ (calls_here _ _ Hc)).
      + split; [eapply arg_last; [exact Hp| |exact sd_nmax]; intros [] b F; try discriminate F; injection F as <-; auto|].
        split; [eapply arg_last; [exact Hp| |exact sd_nmin]; intros [] b F; try discriminate F; injection F as <-; auto|].
        eapply arg_last; [exact Hp| |exact sd_nmult]; intros [] b F; try discriminate F; injection F as <-; auto.
      + split; [eapply arg_last; [exact Hp| |exact sd_zmax]; intros [] b F; try discriminate F; injection F as <-; auto|].
        split; [eapply arg_last; [exact Hp| |exact sd_zmin]; intros [] b F; try discriminate F; injection F as <-; auto|].
        eapply arg_last; [exact Hp| |exact sd_zmult]; intros [] b F; try discriminate F; injection F as <-; auto.
      + split; [intros m ->; apply sd_props|].
        symmetry in sd_os. apply last_pick in sd_os as (c & Hc & F). destruct c; try discriminate F; injection F as <-;
          refine (Hp _ (calls_here _ _ Hc)).
      + split; [eapply arg_last; [exact Hp| |exact sd_smin]; intros [] b F; try discriminate F; injection F as <-; auto|].
        eapply arg_last; [exact Hp| |exact sd_smax]; intros [] b F; try discriminate F; injection F as <-; auto.
    - assert (In (ds_other d) (picks (@d_finish _ _ _) p)) as Ho by (rewrite H10; left; auto).
      apply picks_In in Ho as (c & Hc & F). destruct c; try discriminate F; injection F as <-;
          refine (Hp _ (calls_here _ _ Hc)).
  Qed.

  Lemma schema_of p (d : dsx X) : ds_args L p -> says p d -> schema_fits d.
  Proof.
    revert p. induction d as [d IH] using children_ind. intros p Hp Hs. apply everywhere_intro.
    - eapply node_of; eauto.
    - intros c Hc. destruct (@child_says _ _ _ Hp Hs Hc) as (q & Hq & Hqa). eapply IH; eauto.
  Qed.

  Lemma oschema_of (o : option (list dsop)) (d : option (dsx X)) :
    (forall q, o = Some q -> ds_args L q) -> omatch says o d -> all_some schema_fits d.
  Proof. intros Ho H x ->. apply omatch_r in H as (q & Hq & H). eapply schema_of; eauto. Qed.

  Lemma map_of P A (R : P -> A -> Prop) (Q : A -> Prop) adds m : map_says R adds m ->
    (forall k c a, In (k, c) adds -> R c a -> Q a) -> map_ok Q m.
  Proof.
    intros [Hs H] HQ. split; auto. intros k a Hin. specialize (H k). rewrite (at_key Hs Hin) in H.
    apply omatch_r in H as (c & Hc & HR). eapply HQ; eauto. apply llook_In. eauto.
  Qed.

  Lemma omap_of P A (R : P -> A -> Prop) (Q : A -> Prop) adds m : omap_says R adds m ->
    (forall k c a, In (k, c) adds -> R c a -> Q a) -> all_some (map_ok Q) m.
  Proof. intros [H _] HQ m' ->. eapply map_of; eauto. Qed.

  (** ** Forms and affordances *)

  Lemma form_of x p (f : form X) : form_args L x p -> @form_says X (x, p) f -> form_fits f.
  Proof.
    intros [Hx Hp] [H1 _ _ _ _ _ _ H8 _ H10]. cbn [fst snd] in *. split; [|split].
    - rewrite H1. destruct (picks _ p); discriminate.
    - intros r Hr. rewrite H8 in Hr. apply last_pick in Hr as (o & Ho & F). destruct o; try discriminate F.
      injection F as <-. eapply Hp; eauto.
    - rewrite H10. exact Hx.
  Qed.

  Lemma forms_of (cs : list (pty (x_f X) * list (fop X))) (l : list (form X)) :
    (forall y q, In (y, q) cs -> form_args L y q) -> Forall2 (@form_says X) cs l -> Forall form_fits l.
  Proof.
    intros Hc H. apply Forall_forall. intros f Hf. destruct (from_call H Hf) as ([y q] & Hq & Hs).
    eapply form_of; eauto.
  Qed.

  Lemma interaction_of x p (i : interaction X) : ia_args L x p -> info_ok E (ia_info i) -> ia_says tg x p i ->
    interaction_fits i.
  Proof.
    intros (Hx & Hf & Hu) Hi [H1 H2 H3]. split; [exact Hi|]. split; [|split].
    - eapply forms_of; [|exact H1]. intros y q Hq. apply picks_In in Hq as (o & Ho & F).
      destruct o; try discriminate F. injection F as <- <-. auto.
    - eapply omap_of; [exact H2|]. intros k q d Hq Hs. apply picks_In in Hq as (o & Ho & F).
      destruct o; try discriminate F. injection F as <- <-. eapply schema_of; eauto.
    - rewrite H3. exact Hx.
  Qed.

  Lemma property_of xi xp p (a : property X) : ia_args L xi (picks (@p_ia X) p) -> ds_args L (picks (@p_ds X) p) ->
    v_pa V xp -> property_says tg (xi, xp, p) a -> property_fits a.
  Proof.
    intros Hi Hd Hx [H1 H2 H3 _ H5]. cbn [fst snd] in *.
    assert (schema_fits (pa_ds a)) as Hs by (eapply schema_of; eauto).
    split; [|split; [auto|split; [auto|rewrite H5; auto]]].
    eapply interaction_of; eauto. rewrite H3. apply Hs, sub_self.
  Qed.

  Lemma action_of xi xa p (a : action X) : ia_args L xi (picks (@a_ia X) p) -> v_aa V xa ->
    (forall q, In (AInput q) p \/ In (AOutput q) p -> ds_args L q) ->
    action_says tg (xi, xa, p) a -> action_fits a.
  Proof.
    intros Hi Hx Hq [H1 H2 H3 H4 _ _ _ H8]. cbn [fst snd] in *.
    split; [eapply interaction_of; eauto; eapply info_fits; eauto|].
    split; [|split; [|rewrite H8; auto]].
    - eapply oschema_of; [|exact H3]. intros q F. apply last_pick in F as (o & Ho & F). destruct o; try discriminate F.
      injection F as <-. auto.
    - eapply oschema_of; [|exact H4]. intros q F. apply last_pick in F as (o & Ho & F). destruct o; try discriminate F.
      injection F as <-. auto.
  Qed.

  Lemma event_of xi xe p (a : event X) : ia_args L xi (picks (@e_ia X) p) -> v_ea V xe ->
    (forall q, In (ESubscription q) p \/ In (EData q) p \/ In (EDataResponse q) p \/ In (ECancellation q) p ->
       ds_args L q) ->
    event_says tg (xi, xe, p) a -> event_fits a.
  Proof.
    intros Hi Hx Hq [H1 H2 H3 H4 H5 H6 H7]. cbn [fst snd] in *.
    split; [eapply interaction_of; eauto; eapply info_fits; eauto|].
    split; [|split; [|split; [|split; [|rewrite H7; auto]]]].
    - eapply oschema_of; [|exact H3]. intros q F. apply last_pick in F as (o & Ho & F). destruct o; try discriminate F.
      injection F as <-. auto.
    - eapply oschema_of; [|exact H4]. intros q F. apply last_pick in F as (o & Ho & F). destruct o; try discriminate F.
      injection F as <-. auto.
    - eapply oschema_of; [|exact H5]. intros q F. apply last_pick in F as (o & Ho & F). destruct o; try discriminate F.
      injection F as <-. auto.
    - eapply oschema_of; [|exact H6]. intros q F. apply last_pick in F as (o & Ho & F). destruct o; try discriminate F.
      injection F as <-. auto.
  Qed.

  (** ** The thing *)

  Lemma security_of p r : sec_args L p -> sec_says tg p r -> security_fits (snd r).
  Proof.
    intros Hp [(c & key & Hc & Hs & _) _ _ _ H5 _]. split; [eapply oml_tags; eauto|].
    intros scheme data Hu.
    assert (In c p) as Hin.
    { assert (In c (picks w_choice p)) as F by (rewrite Hc; left; auto). apply picks_In in F as (o & Ho & F).
      destruct o; try discriminate F; injection F as <-; exact Ho. }
    destruct Hs; try discriminate Hu. injection Hu as <- <-. apply Hp. exact Hin.
  Qed.

  Lemma link_of p l : link_says tg p l -> link_ok E l.
  Proof.
    intros [_ _ _ _ _ (hs & H & Hn)] l' Hl. rewrite Hn in Hl. apply nonempty_Some in Hl as [<- _].
    apply Forall_forall. intros s Hs. destruct (from_call H Hs) as (k & _ & Hk). eapply Htags; eauto.
  Qed.

  Lemma str_typed s : value_typed (JStr s).
  Proof. split; constructor. Qed.

  Lemma context_of c j : context_is c j -> value_typed j.
  Proof.
    intros [s|l m Hm]; [apply str_typed|].
    assert (map_ok (fun j => exists v, j = JStr v) m) as [Hs Hv].
    { eapply map_of; [exact Hm|]. intros k v a _ ->. eauto. }
    split; constructor; auto; intros k a Hin; destruct (Hv _ _ Hin) as [v ->]; constructor.
  Qed.

  Lemma contexts_of (p : list (top E X)) j : context_says p j -> value_typed j.
  Proof.
    unfold context_says. destruct (picks _ p) as [|c cs]; [intros ->; apply str_typed|].
    intros (js & H & ->).
    assert (forall a, In a (JStr TD_CONTEXT_11 :: js) -> value_typed a) as G.
    { intros a [<-|Ha]; [apply str_typed|]. destruct (from_call H Ha) as (x & _ & Hx). eapply context_of; eauto. }
    split; constructor; intros a Ha; apply (G a Ha).
  Qed.

  Theorem thing_of title x p (t : thing E X) : args L x p -> thing_says title x p t -> thing_fits t.
  Proof.
    intros [Hx Hp] H. destruct H. unfold thing_fits.
    split; [eapply contexts_of; eauto|].
    split; [eapply oml_tags; eauto|]. split; [eapply oml_tags; eauto|].
    split.
    { intros d Hd. rewrite ts_created in Hd. apply last_pick in Hd as (o & Ho & F). destruct o; try discriminate F.
      injection F as <-. exact (Hp _ Ho). }
    split.
    { intros d Hd. rewrite ts_modified in Hd. apply last_pick in Hd as (o & Ho & F). destruct o; try discriminate F.
      injection F as <-. exact (Hp _ Ho). }
    split.
    { eapply omap_of; [exact ts_properties|]. intros k c a Hc Hs. apply picks_In in Hc as (o & Ho & F).
      destruct o; try discriminate F. injection F as <- <-. destruct (Hp _ Ho) as (A1 & A2 & A3).
      eapply property_of; eauto. }
    split.
    { eapply omap_of; [exact ts_actions|]. intros k c a Hc Hs. apply picks_In in Hc as (o & Ho & F).
      destruct o; try discriminate F. injection F as <- <-. destruct (Hp _ Ho) as (A1 & A2 & A3).
      eapply action_of; eauto. }
    split.
    { eapply omap_of; [exact ts_events|]. intros k c a Hc Hs. apply picks_In in Hc as (o & Ho & F).
      destruct o; try discriminate F. injection F as <- <-. destruct (Hp _ Ho) as (A1 & A2 & A3).
      eapply event_of; eauto. }
    split.
    { intros l Hl. destruct ts_links as (ls & Hls & Hn). rewrite Hn in Hl. apply nonempty_Some in Hl as [<- _].
      apply Forall_forall. intros k Hk. destruct (from_call Hls Hk) as (c & _ & Hc). eapply link_of; eauto. }
    split.
    { intros l Hl. destruct ts_forms as (ls & Hls & Hn). rewrite Hn in Hl. apply nonempty_Some in Hl as [<- _].
      eapply forms_of; [|exact Hls]. intros y q Hq. apply picks_In in Hq as (o & Ho & F).
      destruct o; try discriminate F. injection F as <- <-. exact (Hp _ Ho). }
    split.
    { destruct ts_security as (rs & Hrs & _ & _ & Hs & Hin). split; auto. intros k s Hks.
      apply Hin, in_map_iff in Hks as (r & [= <- <-] & Hr). destruct (from_call Hrs Hr) as (q & Hq & Hsq).
      eapply security_of; eauto. apply picks_In in Hq as (o & Ho & F). destruct o; try discriminate F.
      injection F as <-. exact (Hp _ Ho). }
    split.
    { eapply omap_of; [exact ts_uri|]. intros k c a Hc Hs. apply picks_In in Hc as (o & Ho & F).
      destruct o; try discriminate F. injection F as <- <-. eapply schema_of; eauto. exact (Hp _ Ho). }
    split.
    { eapply omap_of; [exact ts_schemas|]. intros k c a Hc Hs. apply picks_In in Hc as (o & Ho & F).
      destruct o; try discriminate F. injection F as <- <-. eapply schema_of; eauto. exact (Hp _ Ho). }
    rewrite ts_other. exact Hx.
  Qed.
End Fits.

(** ** The two kinds of limits *)

Lemma fits_ok E X (V : xvalues X) (t : thing E X) : thing_fits (ok_limits E V) t -> thing_ok V distinct t.
Proof. intros [H1 H2]. split; [apply H1|exact H2]. Qed.

Section Typed.
  Variable E : env.
  Variable X : exts.
  Variable T : xvalues X.
  Notation L := (typed_limits E T).

  Lemma all_mono A (P Q : A -> Prop) o : (forall a, P a -> Q a) -> all_some P o -> all_some Q o.
  Proof. intros H H' a Ha. auto. Qed.

  Lemma map_mono A (P Q : A -> Prop) m : (forall a, P a -> Q a) -> map_ok P m -> map_ok Q m.
  Proof. intros H [H1 H2]. split; eauto. Qed.

  Lemma maps_mono A (P Q : A -> Prop) m : (forall a, P a -> Q a) -> all_some (map_ok P) m -> all_some (map_ok Q) m.
  Proof. intros H. apply all_mono. intros a. apply map_mono. exact H. Qed.

  Lemma fits_schema d : schema_fits L d -> schema_typed E T d.
  Proof.
    intros H e He. destruct (H e He) as (H1 & H2 & H3 & H4 & H5 & H6).
    split; [exact H1|]. split; [exact H2|]. split; [exact H3|]. split; [exact H4|]. split; [|exact H6].
    revert H5. apply all_mono. intros []; cbn; auto.
  Qed.

  Lemma fits_form f : form_fits L f -> form_typed T f.
  Proof. intros (_ & H). exact H. Qed.

  Lemma fits_forms l : Forall (form_fits L) l -> Forall (form_typed T) l.
  Proof. apply Forall_impl, fits_form. Qed.

  Lemma fits_interaction i : interaction_fits L i -> interaction_typed E T i.
  Proof.
    intros (H1 & H2 & H3 & H4). split; [exact H1|]. split; [apply fits_forms; auto|]. split; [|exact H4].
    revert H3. apply maps_mono, fits_schema.
  Qed.

  Lemma fits_property p : property_fits L p -> property_typed E T p.
  Proof.
    intros (H1 & H2 & _ & H3). split; [apply fits_interaction; auto|]. split; [apply fits_schema; auto|exact H3].
  Qed.

  Lemma fits_action a : action_fits L a -> action_typed E T a.
  Proof.
    intros (H1 & H2 & H3 & H4). split; [apply fits_interaction; auto|].
    split; [revert H2; apply all_mono, fits_schema|]. split; [revert H3; apply all_mono, fits_schema|exact H4].
  Qed.

  Lemma fits_event e : event_fits L e -> event_typed E T e.
  Proof.
    intros (H1 & H2 & H3 & H4 & H5 & H6). split; [apply fits_interaction; auto|].
    split; [revert H2; apply all_mono, fits_schema|]. split; [revert H3; apply all_mono, fits_schema|].
    split; [revert H4; apply all_mono, fits_schema|]. split; [revert H5; apply all_mono, fits_schema|exact H6].
  Qed.

  Lemma fits_typed t : thing_fits L t -> thing_typed T t.
  Proof.
    intros (H1 & H2 & H3 & _ & _ & H6 & H7 & H8 & H9 & H10 & H11 & H12 & H13 & H14).
    split; [exact H1|]. split; [exact H2|]. split; [exact H3|].
    split; [revert H6; apply maps_mono, fits_property|]. split; [revert H7; apply maps_mono, fits_action|].
    split; [revert H8; apply maps_mono, fits_event|]. split; [exact H9|].
    split; [revert H10; apply all_mono, fits_forms|]. split; [exact H11|].
    split; [revert H12; apply maps_mono, fits_schema|]. split; [revert H13; apply maps_mono, fits_schema|exact H14].
  Qed.
End Typed.
