(** * Where the floats of a written Thing come from *)

From Coq Require Import String Bool ZArith Lia List.
From Verif Require Import Base MinMax Json Serde Types Spec DsFacts SpecThing SpecSerde SpecDoc SpecTyped SpecNum SpecEqual SpecRead Ser De SerdeFacts CanonFacts
  RoundTrip RoundTripDs RoundTripTd RoundTripThing ProtocolFacts MemberFacts CleanFacts HList Protocol SpecExt SpecMember
  JsonText SpecJsonText JsonTextFacts SpecNest NestFacts SpecBuiltText SpecThing.
Import ListNotations.
Set Implicit Arguments.
Local Open Scope string_scope.
Local Open Scope list_scope.

Section Floats.
  Variable E : env.
  Variable X : exts.
  Variable mk : entries -> json.
  Variable Q : f64 -> Prop.
  Hypothesis Hw : json_writer mk.
  Hypothesis HX : exts_no_float X.

  (** All floats are in [Q]. *)
  Definition fine (j : json) : Prop := forall x, float_in x j -> Q x.
  Definition fines (es : entries) : Prop := forall k j, In (k, j) es -> fine j.

  Lemma fine_str s : fine (JStr s).
  Proof. intros x H. inversion H. Qed.

  Lemma fine_int z : fine (JInt z).
  Proof. intros x H. inversion H. Qed.

  Lemma fine_bool b : fine (JBool b).
  Proof. intros x H. inversion H. Qed.

  Lemma fine_null : fine JNull.
  Proof. intros x H. inversion H. Qed.

  Lemma fines_nil : fines [].
  Proof. intros k j []. Qed.

  Lemma fines_app es es' : fines es -> fines es' -> fines (es ++ es').
  Proof. intros H H' k v Hin. apply in_app_or in Hin as [Hin|Hin]; eauto. Qed.

  Lemma fines_fld k j : fine j -> fines (fld k j).
  Proof. intros H k' v [[= <- <-]|[]]. exact H. Qed.

  Lemma fines_ofld A k (f : A -> json) o : (forall a, o = Some a -> fine (f a)) -> fines (ofld k f o).
  Proof. intros H. destruct o; [apply fines_fld; auto|apply fines_nil]. Qed.

  Lemma fine_mk es : fines es -> fine (mk es).
  Proof.
    intros H x Hx. destruct Hw as [->| ->]; inversion Hx as [| |k j es' Hin Hj]; subst; [|apply In_mof in Hin]; eapply H; eauto.
  Qed.

  Lemma fine_arr l : (forall j, In j l -> fine j) -> fine (JArr l).
  Proof. intros H x Hx. inversion Hx as [|j l' Hin Hj|]. subst. eapply H; eauto. Qed.

  Lemma fine_list A (f : A -> json) l : (forall a, In a l -> fine (f a)) -> fine (s_list f l).
  Proof. intros H. apply fine_arr. intros j Hj. apply in_map_iff in Hj as (a & <- & Ha). auto. Qed.

  Lemma fine_oom A (f : A -> json) l : (forall a, In a l -> fine (f a)) -> fine (s_oom f l).
  Proof.
    intros H. destruct l as [|a [|b l]]; [apply fine_arr; intros j []|cbn; apply H; left; auto|].
    apply (@fine_list A f (a :: b :: l)). auto.
  Qed.

  Lemma fine_strs l : fine (s_oom JStr l).
  Proof. apply fine_oom. intros. apply fine_str. Qed.

  Lemma fine_str_list l : fine (s_list JStr l).
  Proof. apply fine_list. intros. apply fine_str. Qed.

  Lemma fine_map A (f : A -> json) m : (forall k a, In (k, a) m -> fine (f a)) -> fine (s_map mk f m).
  Proof.
    intros H. apply fine_mk. intros k j Hj. unfold mmap in Hj. apply in_map_iff in Hj as ([k' a] & [= <- <-] & Ha). eauto.
  Qed.

  Lemma fine_f64 x : Q x -> fine (s_f64 x).
  Proof.
    intros H y Hy. unfold s_f64 in Hy. destruct (f64_finite x); inversion Hy; subst; auto.
  Qed.

  Lemma fine_value j : fine j -> fine (ser_value mk j).
  Proof.
    induction j as [| | | | |l IH|es IH] using json_ind'; auto; intros H.
    - cbn [ser_value]. apply fine_arr. intros j Hj. apply in_map_iff in Hj as (a & <- & Ha). apply IH; auto.
      intros x Hx. apply H. eapply fi_arr; eauto.
    - cbn [ser_value]. apply fine_mk. intros k j Hj. apply in_map_iff in Hj as ([k' v] & [= <- <-] & Hv). cbn [snd].
      eapply IH; eauto. intros x Hx. apply H. eapply fi_obj; eauto.
  Qed.

  Lemma fines_piece p a : writes_no_float p -> fines (p_ser p mk a).
  Proof. intros H m j Hj x Hx. destruct (H mk a m j x Hw Hj Hx). Qed.

  Lemma fine_multilang m : fine (s_multilang mk m).
  Proof. apply fine_map. intros. apply fine_str. Qed.

  Ltac fines1 :=
    first [ apply fines_nil | apply fines_fld | apply fines_app
          | apply fines_ofld; let a := fresh "a" in let Ha := fresh "Ha" in intros a Ha ].
  Ltac leaf := first [ apply fine_str | apply fine_int | apply fine_bool | apply fine_null | apply fine_strs | apply fine_str_list
                     | apply fine_multilang ].
  Ltac fl := repeat first [ leaf | fines1 ].

  Lemma fines_info i : fines (info_es mk i).
  Proof. unfold info_es. fl. Qed.

  Definition calm (d : dsx X) : Prop :=
    forall e, sub_ds e d -> (forall j, m_const (ds_misc e) = Some j -> fine j)
      /\ (forall j, m_default (ds_misc e) = Some j -> fine j)
      /\ (forall l j, m_enum (ds_misc e) = Some l -> In j l -> fine j)
      /\ (forall n x, ds_sub e = Some (SNumber n) -> number_in n x -> Q x).

  Lemma fines_number n : (forall x, number_in n x -> Q x) -> fines (number_es n).
  Proof.
    intros H. unfold number_es. repeat apply fines_app.
    - destruct (n_max n) as [[x|x]|] eqn:Em; cbn [max_es]; fl; apply fine_f64, H; unfold number_in; auto.
    - destruct (n_min n) as [[x|x]|] eqn:Em; cbn [min_es]; fl; apply fine_f64, H; unfold number_in; auto 6.
    - fl. apply fine_f64, H. unfold number_in. auto.
  Qed.

  Lemma fines_integer n : fines (integer_es n).
  Proof. unfold integer_es. destruct (z_max n) as [[?|?]|], (z_min n) as [[?|?]|]; cbn [max_es min_es]; fl. Qed.

  Lemma fines_string n : fines (string_es n).
  Proof. unfold string_es. fl. Qed.

  Lemma fines_ds (d : dsx X) : calm d -> fines (ds_es mk d).
  Proof.
    induction d as [d IH] using children_ind. intros Hc.
    assert (Hch : forall c, In c (ds_children d) -> fine (s_ds mk c)).
    { intros c Hin. apply fine_mk, IH; auto. intros e He. apply Hc. eapply sub_child; eauto. }
    destruct (Hc d (sub_self _)) as (C1 & C2 & C3 & C4).
    rewrite ds_es_eq. apply fines_app; [apply fines_info|]. apply fines_app.
    { unfold misc1_es. fl; apply fine_value; auto. }
    apply fines_app.
    { fl. apply (@fine_list _ (s_ds mk)). intros c Hin. apply Hch. unfold ds_children. rewrite Ha.
      apply in_or_app. left. exact Hin. }
    apply fines_app.
    { unfold misc2_es. fl. apply fine_list. intros j Hj. apply fine_value. eapply C3; eauto. }
    apply fines_app; [|apply fines_piece, (nf_ds HX)].
    destruct (ds_sub d) as [s|] eqn:Es; [|apply fines_nil].
    assert (Hsc : forall c, In c (sub_children s) -> fine (s_ds mk c)).
    { intros c Hin. apply Hch. unfold ds_children. rewrite Es. apply in_or_app. right. exact Hin. }
    cbn [subo_es]. destruct s as [items mn mx o| |m|m|ps r o|m|].
    - rewrite sub_array_eq. fl; [|apply fines_piece, (nf_as HX)].
      destruct a as [c|l]; simpl in *; subst items.
      + apply Hsc. left; auto.
      + apply (@fine_list _ (s_ds mk) l). intros c Hin. apply Hsc. exact Hin.
    - fl.
    - change (sub_es mk (SNumber m)) with (fld "type" (JStr "number") ++ number_es m). apply fines_app; [fl|apply fines_number; eauto].
    - change (sub_es mk (SInteger m)) with (fld "type" (JStr "integer") ++ integer_es m). apply fines_app; [fl|apply fines_integer].
    - rewrite sub_object_eq. fl; [|apply fines_piece, (nf_os HX)].
      apply fine_map; auto. intros n' c Hin. apply Hsc. subst ps. simpl. apply in_map_iff. exists (n', c). auto.
    - change (sub_es mk (SString m)) with (fld "type" (JStr "string") ++ string_es m). apply fines_app; [fl|apply fines_string].
    - fl.
  Qed.

  Lemma fine_ds d : calm d -> fine (s_ds mk d).
  Proof. intros H. apply fine_mk, fines_ds, H. Qed.

  Lemma fine_dsmap m : (forall n d, In (n, d) m -> calm d) -> fine (s_dsmap mk m).
  Proof. intros H. apply fine_map; auto. intros n d Hd. apply fine_ds. eauto. Qed.

  Lemma fines_form (f : form X) : fines (form_es mk f).
  Proof.
    unfold form_es. repeat apply fines_app; fl; try apply fines_piece, (nf_f HX).
    - unfold op_es. destruct (f_op f) as [|[|o l]]; fl. cbn [s_ops]. apply fine_list. intros. apply fine_str.
    - unfold s_exp_resp. apply fine_mk; auto. unfold exp_resp_es. fl. apply fines_piece, (nf_er HX).
    - apply fine_oom. intros r _. apply fine_mk; auto. unfold add_resp_es. destruct (ar_success r); fl.
  Qed.

  Lemma fine_forms (l : list (form X)) : fine (s_list (s_form mk) l).
  Proof. apply fine_list. intros f _. apply fine_mk, fines_form. Qed.

  Lemma fines_interaction (i : interaction X) : (forall n d, In (n, d) (olist (ia_uri i)) -> calm d) -> fines (interaction_es mk i).
  Proof.
    intros H. unfold interaction_es. apply fines_app; [apply fines_info|]. apply fines_app.
    { fl. apply fine_forms. }
    apply fines_app; [|apply fines_piece, (nf_ia HX)].
    fl. apply fine_dsmap. rewrite Ha in H. exact H.
  Qed.

  Lemma fine_security s j : (forall scheme es n v, ss_subtype s = Unknown scheme (JObj es) -> In (n, v) es -> fine v) ->
    s_security mk s = Some j -> fine j.
  Proof.
    intros Hv H. unfold s_security in H. apply option_map_inv in H as (es & H & ->).
    unfold security_es in H. apply obind_inv in H as (sub & Hs & H). apply some_inj in H as <-.
    apply fine_mk; auto. fl.
    unfold subtype_es in Hs. destruct (ss_subtype s) as [kn|scheme data] eqn:Es.
    - injection Hs as <-. destruct kn as [| |[l|l]|b|q b|b|i|o|b]; cbn [known_es]; unfold loc_name_es; fl.
    - apply obind_inv in Hs as (des & Hd & Hs). apply some_inj in Hs as <-. fl.
      destruct data as [| | | | | |des']; try discriminate; apply some_inj in Hd as <-; [fl|].
      intros n v Hin. apply in_map_iff in Hin as ([n' v'] & [= <- <-] & Hin). cbn [snd].
      apply fine_value. exact (Hv _ _ _ _ eq_refl Hin).
  Qed.

  Lemma fine_secdefs m j : (forall n s scheme es n' v, In (n, s) m -> ss_subtype s = Unknown scheme (JObj es) -> In (n', v) es -> fine v) ->
    s_secdefs mk m = Some j -> fine j.
  Proof.
    intros Hv H. unfold s_secdefs in H. apply option_map_inv in H as (es & H & ->).
    apply fine_mk; auto. revert es H.
    induction m as [|[n s] m IH]; intros es H; cbn in H.
    - injection H as <-. apply fines_nil.
    - apply obind_inv in H as ([n' j] & Hj & H). apply obind_inv in H as (es' & Hes & H). apply some_inj in H as <-.
      apply option_map_inv in Hj as (j' & Hj & [= -> ->]).
      intros n2 j2 [[= <- <-]|Hin].
      + eapply fine_security; [|exact Hj]. intros. eapply Hv; [left; reflexivity| |]; eauto.
      + eapply IH; eauto. intros. eapply Hv; [right| |]; eauto.
  Qed.

  Lemma fine_thing (t : thing E X) j :
    (forall d e n x, schema_in (thing_body t) d -> sub_ds e d -> ds_sub e = Some (SNumber n) -> number_in n x -> Q x) ->
    (forall v, value_in t v -> fine v) ->
    s_thing mk t = Some j -> fine j.
  Proof.
    intros Hn Hv H.
    assert (HF : forall d, schema_in (thing_body t) d -> calm d).
    { intros d Hd e He. repeat split; intros; [apply Hv; eapply vi_const|apply Hv; eapply vi_default|apply Hv; eapply vi_enum|]; eauto. }
    assert (HU : forall kd n i, affordance (thing_body t) kd n i -> fines (interaction_es mk i)).
    { intros kd n i Hi. apply fines_interaction. intros n' d Hd. apply HF. apply in_uri. eapply uri_aff; eauto. }
    unfold s_thing in H. apply option_map_inv in H as (es & H & ->).
    unfold thing_es in H. apply obind_inv in H as (c & Hc & H). apply obind_inv in H as (m & Hm & H).
    apply obind_inv in H as (s & Hs & H). apply some_inj in H as <-.
    assert (HD : forall n o es, @date_es E n o = Some es -> fines es).
    { intros n o es0 Hd. unfold date_es in Hd. destruct o as [d|]; [|injection Hd as <-; fl].
      apply option_map_inv in Hd as (s' & _ & ->). fl. }
    apply fine_secdefs in Hs.
    2:{ intros n0 s0 scheme es n' v H1 H2 H3. apply Hv. eapply vi_scheme; eauto. }
    apply fine_mk; auto.
    repeat apply fines_app; fl; eauto; try apply fines_piece, (nf_t HX).
    - apply fine_value, Hv. apply vi_context. reflexivity.
    - apply fine_mk; auto. unfold version_es. fl. destruct (v_model a); fl.
    - apply fine_map; auto. intros n p Hp. apply fine_mk; auto. unfold property_es.
      assert (Hin : In (n, p) (y_properties (thing_body t))) by (cbn; rewrite Ha; exact Hp).
      apply fines_app; [eapply HU; eapply aff_property; eauto|]. apply fines_app.
      + apply fines_ds, HF, in_checked. eapply chk_property; eauto.
      + fl. apply fines_piece, (nf_pa HX).
    - apply fine_map; auto. intros n p Hp. apply fine_mk; auto. unfold action_es.
      assert (Hin : In (n, p) (y_actions (thing_body t))) by (cbn; rewrite Ha; exact Hp).
      apply fines_app; [eapply HU; eapply aff_action; eauto|].
      fl; [apply fine_ds, HF, in_checked; eapply chk_input; eauto|apply fine_ds, HF, in_checked; eapply chk_output; eauto|].
      apply fines_piece, (nf_aa HX).
    - apply fine_map; auto. intros n p Hp. apply fine_mk; auto. unfold event_es.
      assert (Hin : In (n, p) (y_events (thing_body t))) by (cbn; rewrite Ha; exact Hp).
      apply fines_app; [eapply HU; eapply aff_event; eauto|].
      fl; [apply fine_ds, HF, in_checked; eapply chk_subscription; eauto|apply fine_ds, HF, in_checked; eapply chk_data; eauto
             |apply fine_ds, HF; eapply in_response; eauto|apply fine_ds, HF, in_checked; eapply chk_cancellation; eauto|].
      apply fines_piece, (nf_ea HX).
    - apply fine_list. intros l _. apply fine_mk; auto. unfold link_es. fl.
    - apply fine_forms.
    - apply fine_dsmap. intros n d Hd. apply HF, in_uri. eapply uri_thing. cbn. rewrite Ha. exact Hd.
    - apply fine_dsmap. intros n d Hd. apply HF. eapply in_definitions. cbn. rewrite Ha. exact Hd.
  Qed.
End Floats.

Lemma thing_floats E X mk (t : thing E X) j x : json_writer mk -> exts_no_float X -> s_thing mk t = Some j -> float_in x j ->
  (exists d e n, schema_in (thing_body t) d /\ sub_ds e d /\ ds_sub e = Some (SNumber n) /\ number_in n x)
  \/ (exists v, value_in t v /\ float_in x v).
Proof.
  intros Hw HX Hj. revert x. eapply (@fine_thing E X mk (fun x => _ \/ _)); eauto.
  - intros d e n x H1 H2 H3 H4. left. exists d, e, n. auto.
  - intros v Hv x Hx. right. exists v. auto.
Qed.
