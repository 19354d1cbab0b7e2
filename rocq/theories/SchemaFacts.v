(** * Facts about every data schema that comes out of the data schema builder *)

From Coq Require Import String Bool ZArith Permutation Lia List.
From Verif Require Import Base MinMax Json Serde Types DsBuilder Builder Spec SpecCalls SpecThing
  DsFacts ConvFacts CheckFacts DsProgFacts ProgFacts SaysFacts BuildFacts ThingFacts.
Import ListNotations.
Set Implicit Arguments.
Local Open Scope string_scope.
Local Open Scope list_scope.

Section Schemas.
  Variables DS AS OS : Type.
  Notation ds := (ds DS AS OS).
  Notation dsop := (dsop DS AS OS).
  Notation dstate := (dstate DS AS OS).

  (** ** Read-only and write-only *)

  Definition rw_ok (d : ds) : Prop := ~ (m_ro (ds_misc d) = true /\ m_wo (ds_misc d) = true).

  Lemma built_rw (p : list dsop) d : dbuild p = Some d -> everywhere rw_ok d.
  Proof.
    apply (@build_everywhere DS AS OS (fun _ => True)); auto.
    intros s e Hs _ He. apply to_ds_eq in He as (_ & _ & _ & _ & _ & _ & _ & E8 & E9 & _); auto.
    unfold rw_ok. rewrite E8, E9. destruct (b_wrap s); intros [? ?]; discriminate.
  Qed.

  (** ** Specializations *)

  Lemma built_specialized (p : list dsop) d :
    dbuild p = Some d -> everywhere (fun e => specializations e = 1) d.
  Proof.
    apply (@build_everywhere DS AS OS (fun _ => True)); auto.
    intros s e Hs _ He. pose proof Hs as [h1 h2 h3 h4 h5].
    apply to_ds_eq in He as (_ & E2 & _ & _ & E5 & _ & E7 & _ & _ & _ & E11 & E12); auto.
    unfold specializations. rewrite E2, E5, E7, E11.
    destruct (b_kind s) as [|[[]|]|items x|[d0|] mn mx x|n|n|pr rq x|t| |]; simpl in *;
      try congruence; rewrite ?h2, ?h3, ?h4; simpl; auto.
    - destruct h2 as [h2 _]. destruct (b_const s); simpl; congruence.
    - destruct (b_enum s); simpl; congruence.
    - destruct (b_one_of s); simpl; congruence.
  Qed.

  (** ** Required members *)

  Definition req_ok (s : dstate) : Prop :=
    match b_kind s with
    | KObject ps req _ => forall k, In k req -> In k (map fst ps)
    | _ => True
    end.

  Lemma built_required (p : list dsop) d : dbuild p = Some d -> everywhere (@required_declared DS AS OS) d.
  Proof.
    apply (@build_everywhere DS AS OS req_ok).
    - exact I.
    - intros s e Hs Hi He. apply to_ds_eq in He as (_ & _ & _ & _ & _ & _ & _ & _ & _ & _ & E11 & _); auto.
      intros ps req o k. rewrite E11. unfold req_ok in Hi.
      destruct (b_kind s) as [|[[]|]|items x|[d0|] mn mx x|n|n|pr rq x|t| |]; simpl; try discriminate.
      intros Hq Hk. injection Hq as Hp Hr _.
      assert (Er : rq = req) by (destruct rq; simpl in Hr; congruence). subst rq.
      apply Hi in Hk as Hin. assert (Hne : pr <> []) by (intros ->; destruct Hin).
      exists (mof pr). destruct pr as [|a pr]; [congruence|]. simpl in Hp.
      assert (Hin' : In k (mkeys (mof (a :: pr)))) by (apply mkeys_mof; auto).
      unfold mkeys in Hin'. apply in_map_iff in Hin' as ([k' c] & Ek & Hin'). simpl in Ek. subst k'.
      exists c. auto.
    - intros o s s' Ho Hs Hi H. unfold req_ok in *.
      destruct o; simpl in Ho; try discriminate; simpl in H;
        unfold specialize, on_number, on_integer, on_string in H;
        repeat match goal with
        | H : (match ?x with _ => _ end) = Some _ |- _ => destruct x eqn:?; try discriminate
        | H : obind (match ?x with _ => _ end) _ = Some _ |- _ => destruct x eqn:?; simpl in H; try discriminate
        end; inv; simpl in *; auto;
        try (match goal with H : b_kind _ = _ |- _ => rewrite H in * end; auto; fail).
    - intros o e s s' Hs Hi H. unfold req_ok in *.
      destruct o; simpl in H; try discriminate; unfold specialize in H;
        repeat match goal with
        | H : (match ?x with _ => _ end) = Some _ |- _ => destruct x eqn:?; try discriminate
        | H : obind (match ?x with _ => _ end) _ = Some _ |- _ => destruct x eqn:?; simpl in H; try discriminate
        end; inv; simpl in *; auto;
        try (match goal with H : b_kind _ = _ |- _ => rewrite H in * end; auto; fail).
      intros k Hk. rewrite map_app. simpl. apply in_or_app.
      destruct required; auto. apply in_app_or in Hk as [Hk|[Hk|[]]]; auto. right. simpl. auto.
  Qed.

  (** ** Constants *)

  Lemma const_read_only (p : list dsop) d :
    dbuild p = Some d -> everywhere (fun e => m_const (ds_misc e) <> None -> m_ro (ds_misc e) = true) d.
  Proof.
    apply (@build_everywhere DS AS OS (fun _ => True)); auto.
    intros s e Hs _ He. pose proof Hs as [h1 h2 h3 h4 h5].
    apply to_ds_eq in He as (_ & E2 & _ & _ & _ & _ & _ & E8 & _); auto.
    rewrite E2, E8. destruct (b_kind s) as [|[[]|]|items x|[d0|] mn mx x|n|n|pr rq x|t| |]; simpl in *;
      try congruence. destruct h2 as [_ ->]. auto.
  Qed.

  Definition const_state (v : json) (s : dstate) : Prop :=
    b_kind s = KStateless None /\ b_const s = Some v /\ b_wrap s = WRO.

  Lemma const_step v o s s' : const_state v s -> dstep o s = Some s' -> const_state v s'.
  Proof.
    intros (Hk & Hc & Hw) H. destruct (child_of o) as [q|] eqn:Eo.
    - rewrite (dstep_child _ _ Eo) in H. destruct (dbuild q) as [d|]; [|discriminate]. simpl in H.
      destruct o; simpl in H; try discriminate; rewrite Hk in H; discriminate.
    - destruct o; simpl in Eo; try discriminate; simpl in H;
        unfold specialize, on_number, on_integer, on_string, can_rw in H; rewrite ?Hk, ?Hw in H; simpl in H;
        try discriminate; inv; repeat split; auto.
  Qed.

  Lemma const_run v q : forall s s', const_state v s -> drun q s = Some s' -> const_state v s'.
  Proof.
    induction q as [|o q IH]; simpl; intros s s' Hs H; [inv; auto|].
    destruct (dstep o s) as [s1|] eqn:E; [|discriminate]. simpl in H. eapply IH; [|exact H].
    eapply const_step; eauto.
  Qed.

  Lemma built_const (p q : list dsop) v d :
    dbuild (p ++ DConstant v :: q) = Some d ->
    m_const (ds_misc d) = Some v /\ m_ro (ds_misc d) = true /\ ds_sub d = None.
  Proof.
    unfold dbuild. rewrite drun_app. destruct (drun p dempty) as [s|] eqn:Ep; [|discriminate]. cbn [obind].
    cbn [drun]. destruct (dstep (DConstant v) s) as [s1|] eqn:E1; [|discriminate]. cbn [obind].
    destruct (drun q s1) as [s2|] eqn:E2; [|discriminate]. cbn [obind]. intros H.
    assert (H1 : const_state v s1).
    { simpl in E1. unfold specialize in E1. destruct (b_kind s); try discriminate.
      destruct (b_other s); try discriminate. destruct (b_wrap s); try discriminate.
      simpl in E1. inv. repeat split. }
    destruct (const_run q H1 E2) as (Hk & Hc & Hw).
    unfold to_ds, kind_to_ds in H. rewrite Hw, Hk, Hc in H. destruct (b_other s2); simpl in H; inv.
    repeat split.
  Qed.

  (** ** Flags *)

  Lemma built_flags (p : list dsop) d :
    dbuild p = Some d ->
    (In DReadOnly p -> m_ro (ds_misc d) = true) /\ (In DWriteOnly p -> m_wo (ds_misc d) = true).
  Proof.
    intros H. apply build_declared in H. split; intros Hin.
    - rewrite (dd_ro H). apply existsb_exists. exists DReadOnly. auto.
    - rewrite (dd_wo H). apply existsb_exists. exists DWriteOnly. auto.
  Qed.
End Schemas.

(** ** Every schema of a built Thing *)

Section Things.
  Variable E : env.
  Variable X : exts.
  Notation dsx := (dsx X).

  (** The schema came out of the data schema builder. *)
  Definition made (d : dsx) : Prop := exists q, dbuild q = Some d.
  Definition omade (o : option dsx) : Prop := forall d, o = Some d -> made d.
  Definition mmade (m : amap dsx) : Prop := forall k d, In (k, d) m -> made d.

  Lemma mmade_insert k d m : made d -> mmade m -> mmade (minsert k d m).
  Proof. intros Hd Hm k' d' Hin. apply minsert_In in Hin as [[_ ->]|Hin]; eauto. Qed.

  Lemma omade_last ps o : last_built (X := X) ps o -> omade o.
  Proof. intros H. destruct H; intros e He; inv. eexists; eauto. Qed.

  Lemma ia_step_made o (s s' : ia_b X) : mmade (ib_uri s) -> ia_step o s = Some s' -> mmade (ib_uri s').
  Proof.
    intros Hs H. destruct o as [xf q|n q]; simpl in H.
    - destruct (form_run xf q); simpl in H; inv. auto.
    - destruct (dbuild q) as [d|] eqn:Ed; simpl in H; inv. simpl. apply mmade_insert; auto. exists q; auto.
  Qed.

  Definition up_made (u : uproperty X) : Prop := mmade (ib_uri (up_ia u)) /\ made (up_ds u).
  Definition ab_made (a : action_b X) : Prop :=
    mmade (ib_uri (ab_ia a)) /\ omade (ab_input a) /\ omade (ab_output a).
  Definition eb_made (a : event_b X) : Prop :=
    mmade (ib_uri (eb_ia a)) /\ omade (eb_subscription a) /\ omade (eb_data a)
    /\ omade (eb_data_response a) /\ omade (eb_cancellation a).

  Lemma prop_run_made xi xp p u : prop_run xi xp p = Some u -> up_made u.
  Proof.
    unfold prop_run. intros H.
    destruct (orun (@pstep X) p _) as [s|] eqn:Es in H; [|discriminate]. simpl in H.
    destruct (to_ds (pb_ds s)) as [d|] eqn:Ed; [|discriminate]. simpl in H. inv.
    pose proof (pb_steps _ _ _ Es) as [h1 h2 h3 h4]. split; simpl.
    - clear Ed h1 h2 h3 h4. revert p s Es. apply (@orun_inv _ _ (@pstep X) _ (fun _ s => mmade (ib_uri (pb_ia s)))).
      + intros k d' [].
      + intros p o s s' Hs H. destruct o as [o|o|b]; simpl in H.
        * destruct (if delegated X o then dstep o (pb_ds s) else None); simpl in H; inv; auto.
        * destruct (ia_step o (pb_ia s)) as [i|] eqn:Ei; simpl in H; inv. simpl. eapply ia_step_made; eauto.
        * inv. auto.
    - exists (picks (@p_ds X) p). unfold dbuild. rewrite h2. exact Ed.
  Qed.

  Lemma action_run_made xi xa p a : action_run xi xa p = Some a -> ab_made a.
  Proof.
    intros H. pose proof (ab_steps _ _ _ H) as [h1 h2 h3 h4 h5 h6 h7 h8].
    split; [|split; eapply omade_last; eauto]. clear - H.
    revert p a H. apply (@orun_inv _ _ (@astep X) _ (fun _ s => mmade (ib_uri (ab_ia s)))).
    - intros k d' [].
    - intros p o s s' Hs H. destruct o; simpl in H; inv; auto.
      + destruct (ia_step o (ab_ia s)) as [i|] eqn:Ei; simpl in H; inv. simpl. eapply ia_step_made; eauto.
      + destruct (dbuild p0); simpl in H; inv. auto.
      + destruct (dbuild p0); simpl in H; inv. auto.
  Qed.

  Lemma event_run_made xi xe p a : event_run xi xe p = Some a -> eb_made a.
  Proof.
    intros H. pose proof (eb_steps _ _ _ H) as [h1 h2 h3 h4 h5 h6 h7].
    split; [|split; [|split; [|split]]; eapply omade_last; eauto]. clear - H.
    revert p a H. apply (@orun_inv _ _ (@estep X) _ (fun _ s => mmade (ib_uri (eb_ia s)))).
    - intros k d' [].
    - intros p o s s' Hs H. destruct o; simpl in H; inv; auto.
      + destruct (ia_step o (eb_ia s)) as [i|] eqn:Ei; simpl in H; inv. simpl. eapply ia_step_made; eauto.
      + destruct (dbuild p0); simpl in H; inv. auto.
      + destruct (dbuild p0); simpl in H; inv. auto.
      + destruct (dbuild p0); simpl in H; inv. auto.
      + destruct (dbuild p0); simpl in H; inv. auto.
  Qed.

  Record tb_made (s : tstate E X) : Prop := {
    tm_schemas : mmade (tb_schemas s);
    tm_uri : mmade (olist (tb_uri s));
    tm_properties : forall k u, In (k, u) (tb_properties s) -> up_made u;
    tm_actions : forall k u, In (k, u) (tb_actions s) -> ab_made u;
    tm_events : forall k u, In (k, u) (tb_events s) -> eb_made u;
  }.

  Lemma In_snoc A (a b : A) l : In a (l ++ [b]) -> In a l \/ a = b.
  Proof. intros H. apply in_app_or in H as [H|[H|[]]]; auto. Qed.

  Lemma tstep_made o (s s' : tstate E X) : tb_made s -> tstep o s = Some s' -> tb_made s'.
  Proof.
    intros [h1 h2 h3 h4 h5] H.
    destruct o; cbn [tstep] in H; unfold when_extended in H;
      try (destruct (tb_extended s); [|discriminate]); inv; try (constructor; simpl; auto; fail).
    - destruct (String.eqb s0 TD_CONTEXT_11); inv; constructor; simpl; auto.
    - destruct (link_run p); simpl in H; inv. constructor; simpl; auto.
    - destruct (sec_run p) as [[[n b] sc]|]; simpl in H; inv. destruct b; constructor; simpl; auto.
    - destruct (tb_extended s); inv. constructor; simpl; auto.
    - destruct (form_run x p); simpl in H; inv. constructor; simpl; auto.
    - destruct (dbuild p) as [d|] eqn:Ed; simpl in H; inv. constructor; simpl; auto.
      apply mmade_insert; [exists p; auto|]. destruct (tb_uri s); auto.
    - destruct (prop_run xi xp p) as [u|] eqn:Ed; simpl in H; inv. constructor; simpl; auto.
      intros k u' Hin. apply In_snoc in Hin as [Hin|Hin]; eauto. inversion Hin; subst. eapply prop_run_made; eauto.
    - destruct (action_run xi xa p) as [u|] eqn:Ed; simpl in H; inv. constructor; simpl; auto.
      intros k u' Hin. apply In_snoc in Hin as [Hin|Hin]; eauto. inversion Hin; subst. eapply action_run_made; eauto.
    - destruct (event_run xi xe p) as [u|] eqn:Ed; simpl in H; inv. constructor; simpl; auto.
      intros k u' Hin. apply In_snoc in Hin as [Hin|Hin]; eauto. inversion Hin; subst. eapply event_run_made; eauto.
    - destruct (dbuild p) as [d|] eqn:Ed; simpl in H; inv. constructor; simpl; auto.
      apply mmade_insert; auto. exists p; auto.
  Qed.

  Lemma trun_made title x p s : trun p (thing_new E X title x) = Some s -> tb_made s.
  Proof.
    revert p s. apply (@orun_inv _ _ (@tstep E X) _ (fun _ s => tb_made s)).
    - constructor; simpl; try (intros ? ? []; fail).
    - intros p o s s' Hs H. eapply tstep_made; eauto.
  Qed.

  Lemma body_made s d : tb_made s -> schema_in (body_of s) d -> made d.
  Proof.
    intros [h1 h2 h3 h4 h5] Hd.
    assert (Hu : uri_variable (body_of s) d -> made d).
    { intros [n Hn|k m i n Ha Hn]; [eapply h2; eauto|].
      destruct Ha as [m a Ha|m a Ha|m a Ha]; simpl in Ha; apply in_map_iff in Ha as ([k u] & Eu & Hin);
        inversion Eu; subst; simpl in Hn; rewrite olist_nonempty in Hn.
      - apply h3 in Hin as [Hm _]. eapply Hm; eauto.
      - apply h4 in Hin as [Hm _]. eapply Hm; eauto.
      - apply h5 in Hin as [Hm _]. eapply Hm; eauto. }
    destruct Hd as [Hd|n a Ha Ed|Hd|n Hd]; auto.
    - destruct Hd as [n a Ha Ed|n a Ha Ed|n a Ha Ed|n a Ha Ed|n a Ha Ed|n a Ha Ed]; simpl in Ha;
        apply in_map_iff in Ha as ([k u] & Eu & Hin); inversion Eu; subst; try simpl in Ed.
      + apply h3 in Hin as [_ Hm]. auto.
      + apply h4 in Hin as (_ & Hm & _). auto.
      + apply h4 in Hin as (_ & _ & Hm). auto.
      + apply h5 in Hin as (_ & Hm & _). auto.
      + apply h5 in Hin as (_ & _ & Hm & _). auto.
      + apply h5 in Hin as (_ & _ & _ & _ & Hm). auto.
    - simpl in Ha. apply in_map_iff in Ha as ([k u] & Eu & Hin); inversion Eu; subst; simpl in Ed.
      apply h5 in Hin as (_ & _ & _ & Hm & _). auto.
    - eapply h1; eauto.
  Qed.

  (** Every schema of a built Thing is a builder result with its tags recorded. *)
  Lemma built_made ord title x (p : list (top E X)) t d' :
    order_ok ord -> thing_program ord title x p = Some (Ok t) -> schema_in (thing_body t) d' ->
    exists q d, dbuild q = Some d /\ d' = ds_tagged (tag_parse E) ord d.
  Proof.
    intros Ho Ht Hd. unfold thing_program in Ht. destruct (trun p _) as [s|] eqn:Er; [|discriminate].
    simpl in Ht. pose proof (trun_says _ _ _ Er) as Hs. pose proof (tb_says_wf Hs) as Hw.
    pose proof (tbuild_judge Ho Hw) as Hj. injection Ht as Ht. rewrite Ht in Hj. destruct Hj as [-> Hc].
    apply (@schema_inv E X ord s) in Hd as (d & Hd & ->).
    destruct (body_made (trun_made _ _ _ Er) Hd) as (q & Hq). eauto.
  Qed.

  (** A property of builder results that recording tags does not change. *)
  Lemma built_schemas (P : dsx -> Prop) ord title x (p : list (top E X)) t :
    (forall q d, dbuild q = Some d -> everywhere P d) ->
    (forall d, P d -> P (ds_tagged (tag_parse E) ord d)) ->
    order_ok ord -> thing_program ord title x p = Some (Ok t) ->
    forall d e, schema_in (thing_body t) d -> sub_ds e d -> P e.
  Proof.
    intros HP Htag Ho Ht d e Hd He. destruct (built_made _ _ _ Ho Ht Hd) as (q & d0 & Hq & ->).
    apply sub_tagged_inv in He as (e0 & He & ->). apply Htag. eapply HP; eauto.
  Qed.

  Section Tagged.
    Variable TG : string -> option string.
    Variable ord : order.

    Lemma misc_tagged (d : dsx) : ds_misc (ds_tagged TG ord d) = ds_misc d.
    Proof. destruct d. rewrite ds_tagged_eq. reflexivity. Qed.

    Lemma specializations_tagged (d : dsx) : specializations (ds_tagged TG ord d) = specializations d.
    Proof.
      destruct d as [i m o s x]. rewrite ds_tagged_eq. unfold specializations. simpl.
      destruct o, s; reflexivity.
    Qed.

    Lemma required_tagged (d : dsx) : required_declared d -> required_declared (ds_tagged TG ord d).
    Proof.
      destruct d as [i m o s x]. rewrite ds_tagged_eq. intros H ps req o' k. simpl.
      destruct s as [[[[e|l]|] mn mx a| |n|n|[pm|] r a|t| ]|]; simpl; intros Eq Hk; try discriminate;
        injection Eq as Ep Er Eo.
      - destruct (H (Some pm) req a k) as (m' & c & Em & Hin); auto; [simpl; congruence|].
        injection Em as Em. subst m'. eexists; exists (ds_tagged TG ord c). split; [symmetry; exact Ep|].
        unfold mmap. apply in_map_iff. exists (k, c). auto.
      - destruct (H None req a k) as (m' & c & Em & Hin); auto; [simpl; congruence|discriminate].
    Qed.
  End Tagged.
End Things.
