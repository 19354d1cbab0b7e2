(** * Writing, reading, writing again *)

From Coq Require Import String Bool ZArith Lia List.
From Verif Require Import Base MinMax Json Serde Types HList Protocol Spec SpecThing SpecSerde SpecExt SpecDoc
  SpecTyped Ser De SerdeFacts RoundTrip RoundTripDs RoundTripTd RoundTripThing ExtFacts ProtocolFacts MemberFacts
  CanonFacts DecodedFacts CleanFacts ExtTypedFacts.
Import ListNotations.
Set Implicit Arguments.
Local Open Scope string_scope.
Local Open Scope list_scope.

(** Every member named [k] has a value in [P]. *)
Definition says (k : string) (P : json -> Prop) (es : entries) : Prop := forall v, In (k, v) es -> P v.

Lemma says_nil k P : says k P [].
Proof. intros v []. Qed.
Lemma says_app k P es es' : says k P es -> says k P es' -> says k P (es ++ es').
Proof. intros H H' v Hin. apply in_app_or in Hin as [Hin|Hin]; auto. Qed.
Lemma says_fld k (P : json -> Prop) j : P j -> says k P (fld k j).
Proof. intros H v [[= <-]|[]]. exact H. Qed.
Lemma says_other k k' P j : String.eqb k k' = false -> says k P (fld k' j).
Proof. intros H v [[= -> <-]|[]]. rewrite String.eqb_refl in H. discriminate H. Qed.
Lemma says_ofld A k (P : json -> Prop) (f : A -> json) o : (forall a, o = Some a -> P (f a)) -> says k P (ofld k f o).
Proof. intros H. destruct o; [apply says_fld; auto|apply says_nil]. Qed.
Lemma says_oother A k k' P (f : A -> json) o : String.eqb k k' = false -> says k P (ofld k' f o).
Proof. intros H. destruct o; [apply says_other; auto|apply says_nil]. Qed.
Lemma says_sub k P es es' : (forall v, In (k, v) es' -> In (k, v) es) -> says k P es -> says k P es'.
Proof. intros H H' v Hin. auto. Qed.

Lemma says_writer mk es es' k P : json_writer mk -> mk es = JObj es' -> says k P es -> says k P es'.
Proof.
  intros [->| ->] [= <-] H v Hin; auto. apply H. apply In_mof in Hin. exact Hin.
Qed.

Lemma NoDup_app_disjoint A (l l' : list A) a : NoDup (l ++ l') -> In a l -> In a l' -> False.
Proof.
  induction l as [|b l IH]; simpl; intros H [].
  - subst. intros Ha. inversion H; subst. apply H2. apply in_or_app; auto.
  - inversion H; subst. auto.
Qed.

Lemma writer_obj mk es : json_writer mk -> exists es', mk es = JObj es'.
Proof. intros [->| ->]; eexists; reflexivity. Qed.

Ltac says1 :=
  first
    [ apply says_nil
    | apply says_app
    | apply says_other; reflexivity
    | apply says_oother; reflexivity
    | apply says_fld
    | apply says_ofld; let a := fresh "a" in let Ha := fresh "Ha" in intros a Ha ].

Section Stable.
  Variable E : env.
  Variable X : exts.
  Variable K : xnames.
  Variables T V : xvalues X.
  Hypothesis HS : exts_sound K T V.
  Variable mk : entries -> json.
  Hypothesis Hw : json_writer mk.

  Let HT := es_clean HS.
  Let HK := es_apart HS.

  Lemma says_piece p Kp ok a k P : writes_clean p Kp ok -> ok a -> disjoint Kp td_names -> In k td_names ->
    says k P (p_ser p mk a).
  Proof.
    intros H Ha Hd Hk v Hin. destruct (Hd k); auto. apply (wc_names H a Hw Ha).
    apply in_map_iff. exists (k, v). auto.
  Qed.

  (** ** Forms *)

  Lemma exp_resp_back r r' : v_er T (er_other r) ->
    d_exp_resp X (s_exp_resp X mk r) = Some r' -> v_er V (er_other r').
  Proof.
    intros Ht H. unfold s_exp_resp in H.
    pose proof (wc_er HT) as Hc.
    destruct (wc_names Hc _ Hw Ht) as [Hn Hi].
    assert (disjoint (k_er K) ["contentType"]) as Hd.
    { intros k Hk F. apply (na_er HK Hk). revert F. apply incl_td. reflexivity. }
    destruct (@writer_get mk (exp_resp_es X mk r)
                (["contentType"] ++ map fst (p_ser (x_er X) mk (er_other r))) Hw) as (es & Hes & HG).
    { unfold exp_resp_es. apply within_app; [apply within_fld|]. apply within_incl; auto. apply incl_refl. }
    { apply disjoint_NoDup; auto; [repeat constructor; auto|].
      intros k Hk F. exact (Hd k (Hi k Hk) F). }
    rewrite Hes in H. unfold d_exp_resp, d_flat, exp_resp_body in H. binds H. injection H as <-. cbn [er_other].
    eapply (es_back HS); [exact Hw|exact Ht| |eassumption].
    intros k Hk. rewrite get_without, (proj2 (smem_false k _)) by (intros F; exact (Hd k Hk F)).
    rewrite HG. unfold exp_resp_es. rewrite get_app, get_fld.
    destruct (String.eqb k "contentType") eqn:Ek; auto. apply String.eqb_eq in Ek. subst k.
    destruct (Hd _ Hk). left; auto.
  Qed.

  Lemma form_back f f' : form_typed T f -> d_form X (s_form mk f) = Some f' -> form_rest V f'.
  Proof.
    intros [Hr Hf] H. unfold s_form in H. destruct (writer_obj (form_es mk f) Hw) as (es & He). rewrite He in H.
    unfold d_form, d_flat, form_body in H. binds H. injection H as <-.
    unfold form_rest. cbn [f_op f_response].
    assert (forall k P, In k td_names -> says k P (p_ser (x_f X) mk (f_other f))) as Hp.
    { intros k P Hk. apply (@says_piece _ _ _ _ _ _ (wc_f HT) Hf (na_f HK) Hk). }
    split.
    - apply dflt_inv in B as [->|(v & Hin & Hv)]; [discriminate|].
      revert v Hin Hv.
      change (says "op" (fun v => d_ops v = Some x -> x <> OpCustom []) es).
      eapply says_writer; [exact Hw|exact He|]. unfold form_es.
      repeat (apply says_app; [try says1|]); [|apply Hp; apply smem_In; reflexivity].
      destruct (f_op f) as [|l] eqn:Ef; cbn [op_es]; [apply says_nil|]. apply says_fld.
      destruct l as [|o l]; [simpl; intros [= <-]; discriminate|].
      rewrite d_ops_rt by discriminate. intros [= <-]. discriminate.
    - intros r ->. destruct (opt_inv B6 eq_refl) as (v & Hin & _ & Hv).
      revert v Hin Hv.
      change (says "response" (fun v => d_exp_resp X v = Some r -> v_er V (er_other r)) es).
      eapply says_writer; [exact Hw|exact He|]. unfold form_es.
      apply says_app. { destruct (f_op f); [apply says_nil|apply says_other; reflexivity]. }
      repeat (apply says_app; [says1|]); [|apply Hp; apply smem_In; reflexivity].
      apply exp_resp_back. apply Hr. auto.
  Qed.

  Definition forms_of (l : list (form X)) (v : json) : Prop := v = s_list (s_form mk) l.

  Lemma forms_back l l' v : Forall (form_typed T) l -> forms_of l v -> d_list (d_form X) v = Some l' ->
    forall f, In f l' -> form_rest V f.
  Proof.
    intros Hl -> H f Hf. apply list_inv in H as (js & Hjs & Hin). injection Hjs as <-.
    destruct (Hin f Hf) as (w & Hw' & Hd). apply in_map_iff in Hw' as (g & <- & Hg).
    rewrite Forall_forall in Hl. eapply form_back; eauto.
  Qed.

  Lemma interaction_forms es l i : Forall (form_typed T) l -> says "forms" (forms_of l) es ->
    interaction_body E X es = Some i -> forall f, In f (ia_forms i) -> form_rest V f.
  Proof.
    intros Hl Hs H. unfold interaction_body in H. binds H. injection H as <-. cbn [ia_forms].
    apply req_inv in B0 as (v & Hin & Hv). eapply forms_back; eauto.
  Qed.

  Lemma says_interaction i l : interaction_typed E T i -> l = ia_forms i ->
    says "forms" (forms_of l) (interaction_es mk i).
  Proof.
    intros (_ & _ & _ & Ho) ->. unfold interaction_es, info_es.
    repeat apply says_app; try says1; [reflexivity|].
    apply (@says_piece _ _ _ _ _ _ (wc_ia HT) Ho (na_ia HK)). apply smem_In. reflexivity.
  Qed.

  Lemma says_max A (f : A -> json) o P : says "forms" P (max_es f o).
  Proof. destruct o as [[a|a]|]; says1. Qed.
  Lemma says_min A (f : A -> json) o P : says "forms" P (min_es f o).
  Proof. destruct o as [[a|a]|]; says1. Qed.

  Lemma ds_no_forms d P : node_typed E T d -> says "forms" P (ds_es mk d).
  Proof.
    intros (_ & _ & _ & _ & Hs & Ho). rewrite ds_es_eq.
    assert (In "forms" td_names) as Hin by (apply smem_In; reflexivity).
    apply says_app; [unfold info_es; repeat says1|].
    apply says_app; [unfold misc1_es; repeat says1|].
    apply says_app; [repeat says1|].
    apply says_app; [unfold misc2_es; repeat says1|].
    apply says_app; [|apply (@says_piece _ _ _ _ _ _ (wc_ds HT) Ho (na_ds HK) Hin)].
    destruct (ds_sub d) as [s|]; [|apply says_nil]. specialize (Hs s eq_refl). cbn [subo_es].
    destruct s as [items mn mx o| |n|n|ps r o|s|].
    - rewrite sub_array_eq. repeat (apply says_app; [says1|]).
      apply (@says_piece _ _ _ _ _ _ (wc_as HT) (proj2 (proj2 Hs)) (na_as HK) Hin).
    - says1.
    - apply says_app; [says1|]. unfold number_es.
      apply says_app; [apply says_max|]. apply says_app; [apply says_min|says1].
    - apply says_app; [says1|]. unfold integer_es.
      apply says_app; [apply says_max|]. apply says_app; [apply says_min|says1].
    - rewrite sub_object_eq. repeat (apply says_app; [says1|]).
      apply (@says_piece _ _ _ _ _ _ (wc_os HT) (proj2 Hs) (na_os HK) Hin).
    - apply says_app; [says1|]. unfold string_es. repeat says1.
    - says1.
  Qed.

  Lemma says_without k P ks es : says k P es -> says k P (without ks es).
  Proof. apply says_sub. intros v. apply without_In. Qed.

  Lemma property_back p p' : property_typed E T p -> d_property E X (s_property mk p) = Some p' ->
    forall f, In f (ia_forms (pa_ia p')) -> form_rest V f.
  Proof.
    intros (Hi & Hd & Ho) H. unfold s_property in H. destruct (writer_obj (property_es mk p) Hw) as (es & He).
    rewrite He in H. unfold d_property, d_flat, property_body in H. binds H. injection H as <-. cbn [pa_ia].
    eapply interaction_forms; [|apply says_without|eassumption]; [apply Hi|].
    eapply says_writer; [exact Hw|exact He|]. unfold property_es.
    apply says_app; [apply says_interaction; auto|].
    apply says_app; [apply ds_no_forms; apply Hd, sub_self|].
    apply says_app; [says1|]. apply (@says_piece _ _ _ _ _ _ (wc_pa HT) Ho (na_pa HK)). apply smem_In; reflexivity.
  Qed.

  Lemma action_back a a' : action_typed E T a -> d_action E X (s_action mk a) = Some a' ->
    forall f, In f (ia_forms (aa_ia a')) -> form_rest V f.
  Proof.
    intros (Hi & _ & _ & Ho) H. unfold s_action in H. destruct (writer_obj (action_es mk a) Hw) as (es & He).
    rewrite He in H. unfold d_action, d_flat, action_body in H. binds H. injection H as <-. cbn [aa_ia].
    eapply interaction_forms; [|apply says_without|eassumption]; [apply Hi|].
    eapply says_writer; [exact Hw|exact He|]. unfold action_es.
    apply says_app; [apply says_interaction; auto|].
    repeat (apply says_app; [says1|]). apply (@says_piece _ _ _ _ _ _ (wc_aa HT) Ho (na_aa HK)). apply smem_In; reflexivity.
  Qed.

  Lemma event_back e e' : event_typed E T e -> d_event E X (s_event mk e) = Some e' ->
    forall f, In f (ia_forms (ea_ia e')) -> form_rest V f.
  Proof.
    intros (Hi & _ & _ & _ & _ & Ho) H. unfold s_event in H. destruct (writer_obj (event_es mk e) Hw) as (es & He).
    rewrite He in H. unfold d_event, d_flat, event_body in H. binds H. injection H as <-. cbn [ea_ia].
    eapply interaction_forms; [|apply says_without|eassumption]; [apply Hi|].
    eapply says_writer; [exact Hw|exact He|]. unfold event_es.
    apply says_app; [apply says_interaction; auto|].
    repeat (apply says_app; [says1|]). apply (@says_piece _ _ _ _ _ _ (wc_ea HT) Ho (na_ea HK)). apply smem_In; reflexivity.
  Qed.

  Lemma map_back A (P Q : A -> Prop) (s : A -> json) (d : json -> option A) m m' v :
    (forall k a, In (k, a) m -> P a) -> (forall a a', P a -> d (s a) = Some a' -> Q a') ->
    v = s_map mk s m -> d_map d v = Some m' -> forall k a, In (k, a) m' -> Q a.
  Proof.
    intros Hm Hb -> H k a Hin. apply map_inv in H as [_ (es & He & Hes)].
    destruct (Hes k a Hin) as (v & Hv & Hd). unfold s_map in He.
    assert (In (k, v) (mmap s m)) as Hv'.
    { destruct Hw as [Hm'|Hm']; rewrite Hm' in He; injection He as <-; auto. apply In_mof in Hv. auto. }
    unfold mmap in Hv'. apply in_map_iff in Hv' as ([k' b] & [= <- <-] & Hb'). eauto.
  Qed.

  Lemma thing_back (t t' : thing E X) j : thing_typed T t -> s_thing mk t = Some j -> d_thing E X j = Some t' ->
    forall c f, form_at (SpecThing.thing_body t') c f -> form_rest V f.
  Proof.
    intros (_ & _ & _ & Hpr & Hac & Hev & _ & Hfo & _ & _ & _ & Ho) Hj H.
    unfold s_thing in Hj. apply option_map_inv in Hj as (es0 & He0 & ->). unfold thing_es in He0.
    apply obind_inv in He0 as (cr & Hcr & He0). apply date_es_eq in Hcr as ->.
    apply obind_inv in He0 as (mo & Hmo & He0). apply date_es_eq in Hmo as ->.
    apply obind_inv in He0 as (sd & Hsd & He0). apply some_inj in He0.
    destruct (writer_obj es0 Hw) as (es & He). rewrite He in H.
    assert (forall k P, says k P es0 -> says k P es) as Hsays by (intros k P; eapply says_writer; eauto).
    assert (forall k P, In k td_names -> says k P (p_ser (x_t X) mk (t_other t))) as Hp.
    { intros k P Hk. apply (@says_piece _ _ _ _ _ _ (wc_t HT) Ho (na_t HK) Hk). }
    unfold d_thing, d_flat, De.thing_body in H.
    assert (says "properties" (fun v => exists m, t_properties t = Some m /\ v = s_map mk (s_property mk) m) es) as S1.
    { apply Hsays. subst es0. repeat (apply says_app; [says1; eauto|]). apply Hp. apply smem_In; reflexivity. }
    assert (says "actions" (fun v => exists m, t_actions t = Some m /\ v = s_map mk (s_action mk) m) es) as S2.
    { apply Hsays. subst es0. repeat (apply says_app; [says1; eauto|]). apply Hp. apply smem_In; reflexivity. }
    assert (says "events" (fun v => exists m, t_events t = Some m /\ v = s_map mk (s_event mk) m) es) as S3.
    { apply Hsays. subst es0. repeat (apply says_app; [says1; eauto|]). apply Hp. apply smem_In; reflexivity. }
    assert (says "forms" (fun v => exists l, t_forms t = Some l /\ v = s_list (s_form mk) l) es) as S4.
    { apply Hsays. subst es0. repeat (apply says_app; [says1; eauto|]). apply Hp. apply smem_In; reflexivity. }
    binds H. injection H as <-.
    intros c f [f' Hf|k n i f' Ha Hf]; cbn in Hf.
    - destruct x15 as [l|]; [|destruct Hf].
      destruct (opt_inv B15 eq_refl) as (v & Hin & _ & Hv). destruct (S4 v Hin) as (l0 & Hl0 & Hv0).
      eapply forms_back; [exact (Hfo _ Hl0)|exact Hv0|exact Hv|exact Hf].
    - destruct Ha as [n a Ha|n a Ha|n a Ha]; cbn in Ha.
      + destruct x11 as [l|]; [|destruct Ha].
        destruct (opt_inv B11 eq_refl) as (v & Hin & _ & Hv). destruct (S1 v Hin) as (m & Hm & Hv0).
        eapply (@map_back _ (property_typed E T) (fun p => forall f, In f (ia_forms (pa_ia p)) -> form_rest V f));
          [apply (Hpr _ Hm)|apply property_back|exact Hv0|exact Hv|exact Ha|exact Hf].
      + destruct x12 as [l|]; [|destruct Ha].
        destruct (opt_inv B12 eq_refl) as (v & Hin & _ & Hv). destruct (S2 v Hin) as (m & Hm & Hv0).
        eapply (@map_back _ (action_typed E T) (fun p => forall f, In f (ia_forms (aa_ia p)) -> form_rest V f));
          [apply (Hac _ Hm)|apply action_back|exact Hv0|exact Hv|exact Ha|exact Hf].
      + destruct x13 as [l|]; [|destruct Ha].
        destruct (opt_inv B13 eq_refl) as (v & Hin & _ & Hv). destruct (S3 v Hin) as (m & Hm & Hv0).
        eapply (@map_back _ (event_typed E T) (fun p => forall f, In f (ia_forms (ea_ia p)) -> form_rest V f));
          [apply (Hev _ Hm)|apply event_back|exact Hv0|exact Hv|exact Ha|exact Hf].
  Qed.
End Stable.

(** ** Things *)

Section Exchange.
  Variable E : env.
  Variable X : exts.
  Variable K : xnames.
  Variables T V : xvalues X.
  Hypothesis HS : exts_sound K T V.
  Hypothesis Hdates : forall s d, date_parse E s = Some d -> date_ok E d.

  Lemma value_clean (t : thing E X) j : thing_typed T t -> s_thing mk_value t = Some j -> clean j.
  Proof.
    intros Ht. apply (thing_clean (or_intror eq_refl) (es_clean HS) (es_round HS) (es_apart HS)) with
      (custom := unlike_known); auto.
  Qed.

  (** What has been written and read once is a Thing that survives. *)
  Lemma written_ok (t t' : thing E X) j : thing_typed T t -> s_thing mk_value t = Some j ->
    d_thing E X j = Some t' -> thing_ok V unlike_known t'.
  Proof.
    intros Ht Hj H. destruct (value_clean Ht Hj) as [Hd Hn].
    eapply (thing_decoded (es_read HS)); eauto.
    eapply thing_back; [exact HS|right; reflexivity|exact Ht|exact Hj|exact H].
  Qed.

  Lemma ok_back (t : thing E X) : thing_ok V unlike_known t ->
    exists j, s_thing mk_value t = Some j /\ d_thing E X j = Some t.
  Proof.
    intros Ht. apply (thing_rt (or_intror eq_refl) (es_round HS) (es_apart HS) unlike_known_apart Ht).
    left; reflexivity.
  Qed.

  (** The Things that survive. *)
  Theorem value_exact (t : thing E X) : thing_typed T t ->
    ((exists j, s_thing mk_value t = Some j /\ d_thing E X j = Some t) <-> thing_ok V unlike_known t).
  Proof.
    intros Ht. split; [|apply ok_back]. intros (j & Hj & H). eapply written_ok; eauto.
  Qed.

  Theorem second_round (t t' : thing E X) j : thing_typed T t -> s_thing mk_value t = Some j ->
    d_thing E X j = Some t' -> exists j', s_thing mk_value t' = Some j' /\ d_thing E X j' = Some t'.
  Proof. intros Ht Hj H. apply ok_back. eapply written_ok; eauto. Qed.

  (** ** Text *)

  Lemma no_repeats_untitled (t : thing E X) j : thing_ok V unlike_known t ->
    s_thing mk_text t = Some j -> no_repeats j -> untitled t.
  Proof.
    intros Hok Hj Hn ps k p Hps Hin. unfold s_thing in Hj.
    rewrite (thing_es_eq (or_introl eq_refl) unlike_known_apart Hok) in Hj. cbn [option_map] in Hj.
    apply some_inj in Hj as <-.
    apply no_repeats_obj in Hn as [_ Hn].
    assert (no_repeats (s_map mk_text (s_property mk_text) ps)) as Hm.
    { apply (Hn "properties"). apply in_or_app. left. unfold thing_own. rewrite Hps. cbn [ofld].
      repeat (apply in_or_app; first [left; left; reflexivity|right]). }
    apply no_repeats_obj in Hm as [_ Hm].
    assert (no_repeats (s_property mk_text p)) as Hp.
    { apply (Hm k). unfold mmap. apply in_map_iff. exists (k, p). auto. }
    apply no_repeats_obj in Hp as [Hp _].
    rewrite property_es_eq in Hp. unfold prop_once in Hp. rewrite ds_es_eq in Hp.
    destruct Hok as (_ & _ & _ & _ & _ & Hpr & _). destruct (Hpr _ Hps) as [_ Hall].
    destruct (Hall _ _ Hin) as (_ & _ & Hi & _). rewrite Hi in Hp.
    set (i := ds_info (pa_ds p)) in *. clearbody i. clear -Hp.
    assert (forall q, In q (map fst (info_es mk_text i)) -> False) as F.
    { intros q Hq. rewrite map_app in Hp. eapply NoDup_app_disjoint; [exact Hp|exact Hq|].
      rewrite !map_app. apply in_or_app. right. apply in_or_app. right. apply in_or_app. left.
      apply in_or_app. left. exact Hq. }
    destruct i as [[a|] [b|] [c|] [d|] [e|]]; unfold info_es in F; cbn in F; try reflexivity;
      exfalso; eapply F; left; reflexivity.
  Qed.

  Theorem text_exact (t : thing E X) : thing_typed T t ->
    ((exists j, s_thing mk_text t = Some j /\ no_repeats j /\ d_thing E X j = Some t)
     <-> thing_ok V unlike_known t /\ untitled t).
  Proof.
    intros Ht. split.
    - intros (j & Hj & Hn & H).
      assert (thing_ok V unlike_known t) as Hok.
      { eapply (thing_decoded (es_read HS)); eauto.
        - exact (thing_document (or_introl eq_refl) (es_clean HS) (es_round HS) (es_apart HS) Ht Hj).
        - eapply thing_back; [exact HS|left; reflexivity|exact Ht|exact Hj|exact H]. }
      split; auto. eapply no_repeats_untitled; eauto.
    - intros [Hok Hu].
      destruct (thing_rt (or_introl eq_refl) (es_round HS) (es_apart HS) unlike_known_apart Hok (or_intror Hu))
        as (j & Hj & H).
      exists j. split; auto. split; auto.
      apply (thing_clean (or_introl eq_refl) (es_clean HS) (es_round HS) (es_apart HS)) with
        (custom := unlike_known) (t := t); auto.
  Qed.
End Exchange.

