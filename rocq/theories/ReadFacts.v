(** * What is read has the invariants of the types *)

From Coq Require Import String Bool ZArith Lia List.
From Coq Require Import Floats.SpecFloat.
From Verif Require Import Base MinMax Json Serde Types HList Protocol DsBuilder Builder Spec SpecThing SpecSerde SpecExt SpecDoc
  SpecMember SpecTyped DsFacts Ser De SerdeFacts RoundTrip RoundTripDs FloatFacts ProtocolFacts CanonFacts DecodedFacts
  ExtTypedFacts ExactFacts ExchangeMore Equal SpecEqual EqualFacts SpecRead.
Import ListNotations.
Set Implicit Arguments.
Local Open Scope string_scope.
Local Open Scope list_scope.

Lemma canon_document j : document j -> document (canon j).
Proof.
  induction j using json_ind'; intros Hd; try exact Hd.
  - apply document_arr. intros v Hv. apply in_map_iff in Hv as (w & <- & Hw).
    apply H; auto. eapply doc_in_arr; eauto.
  - rewrite canon_obj. apply document_obj. intros k v Hv. apply In_mof in Hv.
    unfold cmap in Hv. apply in_map_iff in Hv as ([k' w] & He & Hw). injection He as <- <-.
    eapply H; eauto. eapply doc_in_obj; eauto.
Qed.

Lemma value_read j v : document j -> d_value j = Some v -> value_typed v.
Proof. intros Hd H. injection H as <-. split; [apply canon_document|apply canon_value]; auto. Qed.

Section Read.
  Variable E : env.
  Variable X : exts.
  Variable T : xvalues X.
  Hypothesis HT : exts_read_typed T.
  Notation dsx := (dsx X).

  (** Nested schemas are read from nested values. *)
  Lemma sub_children_read rec es (s : dsubx X) c : sub_body rec es = Some s -> In c (sub_children s) ->
    exists v, rec v = Some c /\ (docs es -> document v) /\ forall n, below n es -> jdepth v < n.
  Proof.
    unfold sub_body. intros H Hc. apply obind_inv in H as (k & Hk & H).
    assert (Hin : forall k v, In (k, v) (without ["type"] es) -> In (k, v) es) by (intros k0 v0 Hv; apply without_In in Hv; auto).
    set (es' := without ["type"] es) in *. clearbody es'.
    destruct k.
    - binds H. injection H as <-. cbn in Hc. destruct x as [[d|l]|]; cbn in Hc; [| |contradiction].
      + destruct Hc as [<-|[]]. destruct (opt_inv B eq_refl) as (v & Hv & _ & Hx).
        unfold d_boxed in Hx. destruct (rec v) eqn:Er; [|destruct (d_list rec v); discriminate].
        injection Hx as ->. exists v. split; [auto|]. split; [intros Hd; eapply Hd; eauto|].
        intros n Hb. eapply Hb. eauto.
      + destruct (opt_inv B eq_refl) as (v & Hv & _ & Hx).
        unfold d_boxed in Hx. destruct (rec v) eqn:Er; [discriminate|].
        destruct (d_list rec v) as [l'|] eqn:El; [|discriminate]. injection Hx as ->.
        destruct (list_inv El) as (js & -> & Hj). destruct (Hj c Hc) as (w & Hw & Hdw).
        exists w. split; [auto|]. split.
        * intros Hd. eapply doc_in_arr; [eapply Hd; eauto|exact Hw].
        * intros n Hb. apply Hin, Hb in Hv. apply jdepth_arr in Hw. lia.
    - injection H as <-. destruct Hc.
    - destruct (d_number es'); [|discriminate]. injection H as <-. destruct Hc.
    - destruct (d_integer es'); [|discriminate]. injection H as <-. destruct Hc.
    - binds H. injection H as <-. cbn in Hc. destruct x as [ps|]; cbn in Hc; [|contradiction].
      apply in_map_iff in Hc as ([k c0] & E0 & Hc). cbn in E0. subst c0.
      destruct (opt_inv B eq_refl) as (v & Hv & _ & Hx). apply map_inv in Hx as [_ (es2 & -> & Hm)].
      destruct (Hm k c Hc) as (w & Hw & Hdw). exists w. split; [auto|]. split.
      + intros Hd. eapply doc_in_obj; [eapply Hd; eauto|exact Hw].
      + intros n Hb. apply Hin, Hb in Hv. apply jdepth_obj in Hw. lia.
    - destruct (d_string es'); [|discriminate]. injection H as <-. destruct Hc.
    - injection H as <-. destruct Hc.
  Qed.

  Lemma children_read j (d c : dsx) : d_ds E X j = Some d -> In c (ds_children d) ->
    exists v, d_ds E X v = Some c /\ (document j -> document v) /\ jdepth v < jdepth j.
  Proof.
    intros H Hc. destruct j as [| | | | | |es]; try discriminate. rewrite d_ds_obj in H.
    unfold ds_body in H. binds H. injection H as <-. unfold ds_children in Hc. cbn [ds_one_of ds_sub] in Hc.
    apply in_app_or in Hc as [Hc|Hc].
    - destruct x1 as [l|]; [|destruct Hc].
      destruct (opt_inv B1 eq_refl) as (v & Hv & _ & Hx). apply list_inv in Hx as (js & -> & Hj).
      destruct (Hj c Hc) as (w & Hw & Hdw). exists w. split; [auto|]. split.
      + intros Hd. rewrite document_obj in Hd. eapply doc_in_arr; [eapply Hd; eauto|exact Hw].
      + apply jdepth_obj in Hv. apply jdepth_arr in Hw. lia.
    - destruct (sub_body _ (without ds_keys es)) as [s|] eqn:Es; [|destruct Hc].
      destruct (sub_children_read _ _ _ Es Hc) as (v & Hv & Hd & Hb). exists v. split; [auto|]. split.
      + intros Hj. apply Hd, docs_without, document_obj. auto.
      + apply Hb. apply below_without. intros k w Hw. apply jdepth_obj in Hw. lia.
  Qed.

  Lemma misc_read es m : docs es -> d_misc es = Some m ->
    all_some value_typed (m_const m) /\ all_some value_typed (m_default m)
    /\ all_some (Forall value_typed) (m_enum m).
  Proof.
    intros Hd. unfold d_misc. intros H. binds H. injection H as <-. cbn [m_const m_default m_enum].
    split; [|split].
    - eapply opt_all; [exact B|]. intros v a Hin _. apply value_read. eauto.
    - eapply opt_all; [exact B0|]. intros v a Hin _. apply value_read. eauto.
    - eapply opt_all; [exact B2|]. intros v l Hin _ Hl. apply Forall_forall. intros a Ha.
      destruct (list_inv Hl) as (js & -> & Hj). destruct (Hj a Ha) as (w & Hw & Hdw).
      eapply value_read; [|exact Hdw]. eapply doc_in_arr; eauto.
  Qed.

  Lemma node_read j (d : dsx) : document j -> d_ds E X j = Some d -> node_typed E T d.
  Proof.
    intros Hd H. pose proof (ds_decoded _ (proj1 HT) Hd H (@sub_self _ _ _ d)) as (H1 & _ & _ & _ & H5 & H6).
    destruct j as [| | | | | |es]; try discriminate. rewrite d_ds_obj in H. rewrite document_obj in Hd.
    unfold ds_body in H. binds H. injection H as <-. cbn [ds_info ds_misc ds_sub ds_other] in *.
    destruct (misc_read Hd B0) as (M1 & M2 & M3).
    unfold node_typed. cbn [ds_info ds_misc ds_sub ds_other].
    split; [exact H1|]. split; [exact M1|]. split; [exact M2|]. split; [exact M3|]. split; [|exact H6].
    intros s Hs. specialize (H5 s Hs). destruct s; cbn in *; tauto.
  Qed.

  Lemma schema_read_n n : forall j (d : dsx), jdepth j < n -> document j -> d_ds E X j = Some d -> schema_typed E T d.
  Proof.
    induction n as [|n IH]; intros j d Hn Hd H; [lia|].
    apply everywhere_intro; [eapply node_read; eauto|]. intros c Hc.
    destruct (children_read _ _ H Hc) as (v & Hv & Hdv & Hlt). apply (IH v); auto. lia.
  Qed.

  Lemma schema_read j (d : dsx) : document j -> d_ds E X j = Some d -> schema_typed E T d.
  Proof. apply schema_read_n with (S (jdepth j)). lia. Qed.

  Lemma schemas_read j m : document j -> d_dsmap E X j = Some m -> schemas_typed E T m.
  Proof.
    intros Hd H. eapply map_decoded; [exact Hd|exact H|]. intros k v a _. apply schema_read.
  Qed.

  Lemma security_read j s : document j -> d_security E j = Some s -> security_typed E s.
  Proof.
    intros Hd H. destruct j as [| | | | | |es]; try discriminate. rewrite document_obj in Hd.
    unfold d_security, d_flat, security_body in H. binds H. injection H as <-. split.
    - cbn [ss_descriptions]. eapply opt_all; [exact B1|]. intros v a _ _ Ha. eapply multilang_decoded; eauto.
    - cbn [ss_subtype]. intros scheme data ->. unfold d_subtype in B3. destruct (d_known _); [discriminate|].
      unfold d_unknown in B3. binds B3. injection B3 as <- <-.
      apply (@value_read (JObj (without ["scheme"] (without security_keys es)))); [|reflexivity].
      apply document_obj, docs_without, docs_without. auto.
  Qed.

  Lemma form_read j f : document j -> d_form X j = Some f -> form_typed T f.
  Proof.
    intros Hd H. destruct j as [| | | | | |es]; try discriminate. rewrite document_obj in Hd.
    unfold d_form, d_flat, form_body in H. binds H. injection H as <-. split; cbn [f_response f_other].
    - eapply opt_all; [eassumption|]. intros v r Hin _ Hr. specialize (Hd _ _ Hin).
      destruct v as [| | | | | |es']; try discriminate. rewrite document_obj in Hd.
      unfold d_exp_resp, d_flat, exp_resp_body in Hr. binds Hr. injection Hr as <-. cbn [er_other].
      eapply (proj2 HT); [|eassumption]. apply document_obj, docs_without. auto.
    - apply (rk_f (proj1 HT)) with (2 := B8). apply document_obj, docs_without; auto.
  Qed.

  Lemma forms_read j l : document j -> d_list (d_form X) j = Some l -> Forall (form_typed T) l.
  Proof.
    intros Hd H. apply Forall_forall. intros f Hf. apply list_inv in H as (js & -> & Hj).
    destruct (Hj f Hf) as (v & Hv & Hdv). eapply form_read; [eapply doc_in_arr; eauto|exact Hdv].
  Qed.

  Lemma interaction_read es i : docs es -> interaction_body E X es = Some i -> interaction_typed E T i.
  Proof.
    intros Hd H. unfold interaction_body in H. binds H. injection H as <-.
    unfold interaction_typed. cbn [ia_info ia_forms ia_uri ia_other].
    split; [eapply info_decoded; eauto|]. split; [|split].
    - apply req_inv in B0 as (v & Hin & Hv). eapply forms_read; [|exact Hv]. eapply Hd; eauto.
    - eapply opt_all; [exact B1|]. intros v a Hin _. apply schemas_read. eapply Hd; eauto.
    - apply (rk_ia (proj1 HT)) with (2 := B2). apply document_obj, docs_without; auto.
  Qed.

  Lemma property_read j p : document j -> d_property E X j = Some p -> property_typed E T p.
  Proof.
    intros Hd H. destruct j as [| | | | | |es]; try discriminate. rewrite document_obj in Hd.
    unfold d_property, d_flat, property_body in H. binds H. injection H as <-.
    assert (Hd' := docs_without property_keys Hd).
    unfold property_typed. cbn [pa_ia pa_ds pa_other] in *.
    split; [eapply interaction_read; eauto|]. split.
    - eapply schema_read; [|exact B1]. apply document_obj; auto.
    - apply (rk_pa (proj1 HT)) with (2 := B2). apply document_obj; auto.
  Qed.

  Lemma action_read j a : document j -> d_action E X j = Some a -> action_typed E T a.
  Proof.
    intros Hd H. destruct j as [| | | | | |es]; try discriminate. rewrite document_obj in Hd.
    unfold d_action, d_flat, action_body in H. binds H. injection H as <-.
    assert (Hd' := docs_without action_keys Hd).
    unfold action_typed. cbn [aa_ia aa_input aa_output aa_other] in *.
    split; [eapply interaction_read; eauto|]. split; [|split].
    - eapply opt_all; [exact B|]. intros v d Hin _. apply schema_read. eapply Hd; eauto.
    - eapply opt_all; [exact B0|]. intros v d Hin _. apply schema_read. eapply Hd; eauto.
    - apply (rk_aa (proj1 HT)) with (2 := B5). apply document_obj; auto.
  Qed.

  Lemma event_read j e : document j -> d_event E X j = Some e -> event_typed E T e.
  Proof.
    intros Hd H. destruct j as [| | | | | |es]; try discriminate. rewrite document_obj in Hd.
    unfold d_event, d_flat, event_body in H. binds H. injection H as <-.
    assert (Hd' := docs_without event_keys Hd).
    unfold event_typed. cbn [ea_ia ea_subscription ea_data ea_data_response ea_cancellation ea_other] in *.
    split; [eapply interaction_read; eauto|].
    split; [eapply opt_all; [exact B|]; intros v d Hin _; apply schema_read; eapply Hd; eauto|].
    split; [eapply opt_all; [exact B0|]; intros v d Hin _; apply schema_read; eapply Hd; eauto|].
    split; [eapply opt_all; [exact B1|]; intros v d Hin _; apply schema_read; eapply Hd; eauto|].
    split; [eapply opt_all; [exact B2|]; intros v d Hin _; apply schema_read; eapply Hd; eauto|].
    apply (rk_ea (proj1 HT)) with (2 := B4). apply document_obj; auto.
  Qed.

  Theorem thing_read j (t : thing E X) : document j -> d_thing E X j = Some t -> thing_typed T t.
  Proof.
    intros Hd H. destruct j as [| | | | | |es]; try discriminate. rewrite document_obj in Hd.
    unfold d_thing, d_flat, De.thing_body in H. binds H. injection H as <-.
    unfold thing_typed. cbn [t_context t_titles t_descriptions t_created t_modified t_properties t_actions t_events
      t_links t_forms t_secdefs t_uri t_schemas t_other].
    split. { apply dflt_inv in B as [->|(v & Hin & Hv)]; [|eapply value_read; eauto].
             split; constructor. }
    split. { eapply opt_all; [exact B3|]. intros v a _ _. apply multilang_decoded. }
    split. { eapply opt_all; [exact B5|]. intros v a _ _. apply multilang_decoded. }
    split. { eapply opt_all; [exact B11|]. intros v m Hin _ Hv.
      eapply map_decoded; [eapply Hd; eauto|exact Hv|]. intros k w a _. apply property_read. }
    split. { eapply opt_all; [exact B12|]. intros v m Hin _ Hv.
      eapply map_decoded; [eapply Hd; eauto|exact Hv|]. intros k w a _. apply action_read. }
    split. { eapply opt_all; [exact B13|]. intros v m Hin _ Hv.
      eapply map_decoded; [eapply Hd; eauto|exact Hv|]. intros k w a _. apply event_read. }
    split. { eapply opt_all; [exact B14|]. intros v a _ _ Ha. apply Forall_forall. intros l Hl.
      apply list_inv in Ha as (js & -> & Hj). destruct (Hj l Hl) as (w & _ & Hw). eapply link_decoded; eauto. }
    split. { eapply opt_all; [exact B15|]. intros v m Hin _ Hv. eapply forms_read; [eapply Hd; eauto|exact Hv]. }
    split. { apply req_inv in B17 as (v & Hin & Hv).
      eapply map_decoded; [eapply Hd; eauto|exact Hv|]. intros k w a _. apply security_read. }
    split. { eapply opt_all; [exact B18|]. intros v a Hin _. apply schemas_read. eapply Hd; eauto. }
    split. { eapply opt_all; [exact B20|]. intros v a Hin _. apply schemas_read. eapply Hd; eauto. }
    apply (rk_t (proj1 HT)) with (2 := B21). apply document_obj, docs_without; auto.
  Qed.

  (** Every schema of a Thing is read from some part of the document. *)
  Definition was_read (d : dsx) : Prop := exists v, document v /\ d_ds E X v = Some d.

  Lemma opt_was_read k es o : docs es -> opt k (d_ds E X) es = Some o -> forall d, o = Some d -> was_read d.
  Proof. intros Hd H d ->. destruct (opt_inv H eq_refl) as (v & Hin & _ & Hv). exists v. eauto. Qed.

  Lemma map_was_read A (R : A -> Prop) (f : json -> option A) k es o : docs es ->
    (forall v a, document v -> f v = Some a -> R a) ->
    opt k (d_map f) es = Some o -> forall n a, In (n, a) (olist o) -> R a.
  Proof.
    intros Hd Hf H n a Hin. apply in_olist in Hin as (m & -> & Hin).
    destruct (opt_inv H eq_refl) as (v & Hv & _ & Hm). specialize (Hd _ _ Hv).
    apply map_inv in Hm as [_ (es' & -> & Hm)]. destruct (Hm _ _ Hin) as (w & Hw & Hwa).
    eapply Hf; [|exact Hwa]. eapply doc_in_obj; eauto.
  Qed.

  Lemma interaction_was_read es i : docs es -> interaction_body E X es = Some i ->
    forall n d, In (n, d) (olist (ia_uri i)) -> was_read d.
  Proof.
    intros Hd H. unfold interaction_body in H. binds H. injection H as <-. cbn [ia_uri].
    eapply map_was_read; [exact Hd| |exact B1]. intros v a Hv Ha. exists v. auto.
  Qed.

  Definition uris_read (i : interaction X) : Prop := forall n d, In (n, d) (olist (ia_uri i)) -> was_read d.

  Lemma property_was_read j p : document j -> d_property E X j = Some p ->
    uris_read (pa_ia p) /\ was_read (pa_ds p).
  Proof.
    intros Hd H. destruct j as [| | | | | |es]; try discriminate. rewrite document_obj in Hd.
    unfold d_property, d_flat, property_body in H. binds H. injection H as <-.
    assert (Hd' := docs_without property_keys Hd). cbn [pa_ia pa_ds]. split.
    - intros n d. eapply interaction_was_read; eauto.
    - exists (JObj (without property_keys es)). split; auto. apply document_obj. auto.
  Qed.

  Lemma action_was_read j a : document j -> d_action E X j = Some a ->
    uris_read (aa_ia a) /\ (forall d, aa_input a = Some d -> was_read d)
    /\ (forall d, aa_output a = Some d -> was_read d).
  Proof.
    intros Hd H. destruct j as [| | | | | |es]; try discriminate. rewrite document_obj in Hd.
    unfold d_action, d_flat, action_body in H. binds H. injection H as <-.
    assert (Hd' := docs_without action_keys Hd). cbn [aa_ia aa_input aa_output].
    split; [intros n d; eapply interaction_was_read; eauto|]. split; [apply (opt_was_read _ Hd B)|apply (opt_was_read _ Hd B0)].
  Qed.

  Lemma event_was_read j e : document j -> d_event E X j = Some e ->
    uris_read (ea_ia e) /\ (forall d, ea_subscription e = Some d -> was_read d)
    /\ (forall d, ea_data e = Some d -> was_read d) /\ (forall d, ea_data_response e = Some d -> was_read d)
    /\ (forall d, ea_cancellation e = Some d -> was_read d).
  Proof.
    intros Hd H. destruct j as [| | | | | |es]; try discriminate. rewrite document_obj in Hd.
    unfold d_event, d_flat, event_body in H. binds H. injection H as <-.
    assert (Hd' := docs_without event_keys Hd).
    cbn [ea_ia ea_subscription ea_data ea_data_response ea_cancellation].
    split; [intros n d; eapply interaction_was_read; eauto|]. split; [|split; [|split]];
      [apply (opt_was_read _ Hd B)|apply (opt_was_read _ Hd B0)|apply (opt_was_read _ Hd B1)|apply (opt_was_read _ Hd B2)].
  Qed.

  Lemma schema_was_read j (t : thing E X) d : document j -> d_thing E X j = Some t ->
    schema_in (SpecThing.thing_body t) d -> was_read d.
  Proof.
    intros Hd H. destruct j as [| | | | | |es]; try discriminate. rewrite document_obj in Hd.
    unfold d_thing, d_flat, De.thing_body in H. binds H. injection H as <-.
    assert (Hp := @map_was_read _ _ _ _ _ _ Hd property_was_read B11).
    assert (Ha := @map_was_read _ _ _ _ _ _ Hd action_was_read B12).
    assert (He := @map_was_read _ _ _ _ _ _ Hd event_was_read B13).
    assert (Hu := @map_was_read _ was_read _ _ _ _ Hd (fun v a Hv Ha => ex_intro _ v (conj Hv Ha)) B18).
    assert (Hs := @map_was_read _ was_read _ _ _ _ Hd (fun v a Hv Ha => ex_intro _ v (conj Hv Ha)) B20).
    clear - Hp Ha He Hu Hs.
    intros [[n a Hin Hx|n a Hin Hx|n a Hin Hx|n a Hin Hx|n a Hin Hx|n a Hin Hx]|n a Hin Hx|[n Hin|k m i n Haff Hin]|n Hin];
      cbn in *.
    - rewrite <- Hx. apply (Hp n a Hin).
    - destruct (Ha n a Hin) as (_ & G1 & G2). exact (G1 d Hx).
    - destruct (Ha n a Hin) as (_ & G1 & G2). exact (G2 d Hx).
    - destruct (He n a Hin) as (_ & G1 & G2 & G3 & G4). exact (G1 d Hx).
    - destruct (He n a Hin) as (_ & G1 & G2 & G3 & G4). exact (G2 d Hx).
    - destruct (He n a Hin) as (_ & G1 & G2 & G3 & G4). exact (G4 d Hx).
    - destruct (He n a Hin) as (_ & G1 & G2 & G3 & G4). exact (G3 d Hx).
    - apply (Hu n d Hin).
    - destruct Haff as [q a Hq|q a Hq|q a Hq]; cbn in Hq.
      + apply (proj1 (Hp q a Hq) n d Hin).
      + apply (proj1 (Ha q a Hq) n d Hin).
      + apply (proj1 (He q a Hq) n d Hin).
    - apply (Hs n d Hin).
  Qed.

  Theorem thing_read_finite j (t : thing E X) : document j -> d_thing E X j = Some t -> numbers_finite t.
  Proof.
    intros Hd H d e n x Hs He Hn Hx. destruct (schema_was_read Hd H Hs) as (v & Hv & Hr).
    destruct (ds_decoded _ (proj1 HT) Hv Hr He) as (_ & _ & _ & _ & H5 & _). destruct (H5 _ Hn) as (G1 & G2 & G3).
    destruct Hx as [Hx|[Hx|[Hx|[Hx|Hx]]]]; [apply (G3 _ Hx)|apply (G1 _ Hx)|apply (G1 _ Hx)|apply (G2 _ Hx)|apply (G2 _ Hx)].
  Qed.

  Lemma finite_without (t : thing E X) : numbers_finite t -> without_nan t.
  Proof. intros H d e n x Hs He Hn Hx ->. specialize (H d e n _ Hs He Hn Hx). discriminate. Qed.

  (** A Thing that is read is equal to itself. *)
  Theorem read_equal (D : date E -> date E) (Q : eqs E X) : eqs_exact D Q ->
    forall j (t : thing E X), document j -> d_thing E X j = Some t -> thing_eqb Q t t = true.
  Proof.
    intros HQ j t Hd H. apply (equal_refl HQ (thing_read Hd H)), finite_without.
    eapply thing_read_finite; eauto.
  Qed.

  (** ** Reading again, exactly *)

  Lemma ok_survives (V : xvalues X) custom (t : thing E X) : thing_ok V custom t -> forms_survive V t.
  Proof.
    intros (_ & _ & _ & _ & _ & H1 & H2 & H3 & _ & H4 & _) c f Hf.
    assert (Hform : form_ok V f).
    { destruct Hf as [f Hin|k n i f Ha Hin].
      - apply in_olist in Hin as (l & Hl & Hin). specialize (H4 l Hl). rewrite Forall_forall in H4. auto.
      - assert (Forall (form_ok V) (ia_forms i)) as Hi.
        { destruct Ha as [n a Ha|n a Ha|n a Ha]; apply in_olist in Ha as (l & Hl & Ha).
          - apply (proj2 (H1 l Hl) n a Ha).
          - apply (proj2 (H2 l Hl) n a Ha).
          - apply (proj2 (H3 l Hl) n a Ha). }
        rewrite Forall_forall in Hi. auto. }
    destruct Hform as (G1 & G2 & _). auto.
  Qed.

  Variable K : xnames.
  Variable V : xvalues X.
  Hypothesis HS : exts_sound K T V.
  Hypothesis Hdates : forall s d, date_parse E s = Some d -> date_ok E d.

  Theorem read_again j (t : thing E X) : clean j -> d_thing E X j = Some t ->
    ((exists j', s_thing mk_value t = Some j' /\ d_thing E X j' = Some t) <-> forms_survive V t).
  Proof.
    intros Hj H. split.
    - intros Hback. apply (thing_value_exact HS Hdates (thing_read (proj1 Hj) H)) in Hback.
      eapply ok_survives; eauto.
    - apply (thing_again HS Hdates Hj H).
  Qed.

  Theorem read_again_text j (t : thing E X) : clean j -> d_thing E X j = Some t ->
    ((exists j', s_thing mk_text t = Some j' /\ no_repeats j' /\ d_thing E X j' = Some t)
     <-> forms_survive V t /\ untitled t).
  Proof.
    intros Hj H. rewrite (thing_text_exact HS Hdates (thing_read (proj1 Hj) H)).
    rewrite <- (thing_value_exact HS Hdates (thing_read (proj1 Hj) H)), (read_again Hj H). tauto.
  Qed.
End Read.

(** ** The extensions of the crate *)

Lemma http_read_typed : exts_read_typed http_typed.
Proof.
  split; [split; apply any_reads_ok|]. intros es a _ H. cbn in H. binds H. injection H as <-. cbn.
  eapply opt_all; [eassumption|]. intros v n _ _. apply d_u64_range.
Qed.

Lemma coap_read_typed : exts_read_typed coap_typed.
Proof.
  split; [apply coap_read_ok|]. intros es a _ H. cbn in H. binds H. injection H as <-.
  eapply opt_all; [eassumption|]. intros v n _ _. apply d_u16_range.
Qed.

Lemma mqtt_read_typed : exts_read_typed mqtt_typed.
Proof. split; [apply mqtt_read_ok|apply any_reads_ok]. Qed.

Lemma both_read_typed X X' (T : xvalues X) (T' : xvalues X') :
  exts_read_typed T -> exts_read_typed T' -> exts_read_typed (both_values T T').
Proof. intros [H1 H2] [H1' H2']. split; [apply both_read_ok; auto|apply cons_reads_ok; auto]. Qed.

Lemma crate_read_typed :
  exts_read_typed http_typed /\ exts_read_typed coap_typed /\ exts_read_typed mqtt_typed
  /\ forall X X' (T : xvalues X) (T' : xvalues X'),
       exts_read_typed T -> exts_read_typed T' -> exts_read_typed (both_values T T').
Proof. exact (conj http_read_typed (conj coap_read_typed (conj mqtt_read_typed both_read_typed))). Qed.
