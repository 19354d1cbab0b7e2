(** * A bare value and a one-element array are read alike *)

From Coq Require Import String Bool ZArith Lia List.
From Verif Require Import Base MinMax Json Serde Types SpecSerde SpecDoc SpecMember Ser De SerdeFacts
  RoundTrip RoundTripDs RoundTripTd GrownFacts ProtocolFacts MemberFacts.
Import ListNotations.
Set Implicit Arguments.
Local Open Scope string_scope.
Local Open Scope list_scope.

(** ** Objects that agree outside the members [S] *)

Definition agree (S : list string) (es es' : entries) : Prop :=
  forall L, disjoint L S -> only L es = only L es'.

Lemma only_app L es es' : only L (es ++ es') = only L es ++ only L es'.
Proof. unfold only. apply filter_app. Qed.

Lemma agree_one k v v' es1 es2 : agree [k] (es1 ++ (k, v) :: es2) (es1 ++ (k, v') :: es2).
Proof.
  intros L HL. rewrite !only_app. simpl. destruct (smem k L) eqn:H; auto.
  apply smem_In in H. destruct (HL k H). left. auto.
Qed.

Lemma agree_more S S' es es' : agree S es es' -> incl S S' -> agree S' es es'.
Proof. intros H Hi L HL. apply H. intros k Hk Hk'. apply (HL k Hk). auto. Qed.

Lemma agree_get S es es' k : agree S es es' -> smem k S = false -> get k es = get k es'.
Proof.
  intros H Hk. apply smem_false in Hk.
  assert (only [k] es = only [k] es') as Ho.
  { apply H. intros k' [<-|[]]. auto. }
  eapply only_get; [exact Ho|left; auto].
Qed.

Lemma without_only_comm L ks es : only L (without ks es) = without ks (only L es).
Proof.
  unfold only, without. induction es as [|[k v] es IH]; simpl; auto.
  destruct (smem k ks) eqn:H1, (smem k L) eqn:H2; simpl; rewrite ?H1, ?H2; simpl; rewrite ?IH; auto.
Qed.

Lemma agree_without S ks es es' : agree S es es' -> agree S (without ks es) (without ks es').
Proof. intros H L HL. rewrite !without_only_comm. rewrite (H L HL). reflexivity. Qed.

Lemma opt_without A k (d : json -> option A) ks es : smem k ks = false -> opt k d (without ks es) = opt k d es.
Proof. intros H. unfold opt. rewrite get_without, H. reflexivity. Qed.

Lemma opt_place A (d : json -> option A) k v v' es1 es2 :
  v <> JNull -> v' <> JNull -> d v = d v' ->
  opt k d (es1 ++ (k, v) :: es2) = opt k d (es1 ++ (k, v') :: es2).
Proof.
  intros Hv Hv' Hd. unfold opt. rewrite !get_app, !get_cons, String.eqb_refl.
  destruct (get k es1) as [|w [|w' l]]; simpl.
  - destruct (get k es2); [|destruct v, v'; reflexivity].
    rewrite Hd. destruct v, v'; try congruence; reflexivity.
  - destruct w; reflexivity.
  - destruct w; reflexivity.
Qed.

Lemma req_place A (d : json -> option A) k v v' es1 es2 :
  d v = d v' -> req k d (es1 ++ (k, v) :: es2) = req k d (es1 ++ (k, v') :: es2).
Proof.
  intros Hd. unfold req. rewrite !get_app, !get_cons, String.eqb_refl.
  destruct (get k es1) as [|w [|w' l]]; simpl; auto. destruct (get k es2); auto.
Qed.

Lemma dflt_place A (d : json -> option A) k a v v' es1 es2 :
  d v = d v' -> dflt k a d (es1 ++ (k, v) :: es2) = dflt k a d (es1 ++ (k, v') :: es2).
Proof.
  intros Hd. unfold dflt. rewrite !get_app, !get_cons, String.eqb_refl.
  destruct (get k es1) as [|w [|w' l]]; simpl; auto. destruct (get k es2); auto.
Qed.

(** ** One value *)

Lemma oom_bare A (d : json -> option A) v :
  bare v -> d (JArr [v]) = None -> d_oom d v = d_oom d (JArr [v]).
Proof.
  intros [_ Hv] Ha. unfold d_oom. rewrite Ha. simpl. destruct (d v) eqn:E; simpl; auto.
  destruct v; auto. destruct (Hv l); auto.
Qed.

Lemma add_resp_one v : bare v -> d_add_resp (JArr [v]) = None.
Proof.
  intros [Hn Hv]. unfold d_add_resp, d_struct. simpl. unfold sq_dflt, sq_opt. simpl.
  destruct v; simpl; auto.
Qed.

Lemma ops_bare v : bare v -> d_ops v = d_ops (JArr [v]).
Proof.
  intros Hb. unfold d_ops at 2. rewrite <- (oom_bare d_op Hb) by reflexivity.
  destruct Hb as [Hn _]. unfold d_ops. destruct v; auto. congruence.
Qed.

Lemma omap_all_place A B (f : A -> option B) l1 a a' l2 :
  f a = f a' -> omap_all f (l1 ++ a :: l2) = omap_all f (l1 ++ a' :: l2).
Proof. intros H. induction l1; simpl; rewrite ?H, ?IHl1; auto. Qed.

Lemma list_place A (d : json -> option A) v v' l1 l2 :
  d v = d v' -> d_list d (JArr (l1 ++ v :: l2)) = d_list d (JArr (l1 ++ v' :: l2)).
Proof. intros H. simpl. apply omap_all_place. auto. Qed.

Lemma map_place A (d : json -> option A) k v v' es1 es2 :
  d v = d v' -> d_map d (JObj (es1 ++ (k, v) :: es2)) = d_map d (JObj (es1 ++ (k, v') :: es2)).
Proof. intros H. simpl. f_equal. apply omap_all_place. simpl. rewrite H. auto. Qed.

Lemma respelt_not_null d v v' : respelt d v v' -> v <> JNull /\ v' <> JNull.
Proof. induction 1; try (split; discriminate). auto. Qed.

Ltac same_step Hg :=
  match goal with
  | |- obind ?a _ = obind ?a _ => destruct a; [cbn [obind]|reflexivity]
  | H : ?a = ?b |- obind ?a _ = obind ?b _ => rewrite H; destruct b; [cbn [obind]|reflexivity]
  | |- obind (opt ?k ?d ?es) _ = obind (opt ?k ?d ?es') _ =>
      rewrite (opt_reads k d es es') by (apply (agree_get k Hg); reflexivity);
      destruct (opt k d es'); [cbn [obind]|reflexivity]
  | |- obind (req ?k ?d ?es) _ = obind (req ?k ?d ?es') _ =>
      rewrite (req_reads k d es es') by (apply (agree_get k Hg); reflexivity);
      destruct (req k d es'); [cbn [obind]|reflexivity]
  | |- obind (dflt ?k ?a ?d ?es) _ = obind (dflt ?k ?a ?d ?es') _ =>
      rewrite (dflt_reads k a d es es') by (apply (agree_get k Hg); reflexivity);
      destruct (dflt k a d es'); [cbn [obind]|reflexivity]
  end.

Section Respell.
  Variable E : env.
  Variable X : exts.
  Variable K : xnames.
  Hypothesis HX : exts_read_only X K.
  Hypothesis HK : names_apart K.

  Lemma agree_ext p L S ks es es' : reads_only p L -> disjoint L td_names -> incl S td_names ->
    agree S es es' -> p_de p (without ks es) = p_de p (without ks es').
  Proof.
    intros Hr HL HS H. apply Hr. apply (agree_without ks H).
    intros k Hk Hk'. apply (HL k Hk). auto.
  Qed.

  Lemma info_same S es es' : agree S es es' -> disjoint S ["title"; "titles"; "description"; "descriptions"] ->
    opt "@type" (d_oom d_str) es = opt "@type" (d_oom d_str) es' -> d_info E es = d_info E es'.
  Proof.
    intros H HS Ht. unfold d_info. rewrite Ht.
    assert (forall k, In k ["title"; "titles"; "description"; "descriptions"] -> get k es = get k es') as Hg.
    { intros k Hk. eapply agree_get; eauto. apply smem_false. intros F. apply (HS k F). auto. }
    same_step H.
    rewrite (opt_reads "title" d_str es es'), (opt_reads "titles" (d_multilang E) es es'),
      (opt_reads "description" d_str es es'), (opt_reads "descriptions" (d_multilang E) es es')
      by (apply Hg; apply smem_In; reflexivity).
    reflexivity.
  Qed.

  Definition ds_special := ["@type"; "oneOf"; "items"; "properties"; "forms"; "uriVariables"].

  Record ds_agree (es es' : entries) : Prop := {
    da_rest : agree ds_special es es';
    da_type : opt "@type" (d_oom d_str) es = opt "@type" (d_oom d_str) es';
    da_one_of : opt "oneOf" (d_list (d_ds E X)) es = opt "oneOf" (d_list (d_ds E X)) es';
    da_items : opt "items" (d_boxed (d_ds E X)) es = opt "items" (d_boxed (d_ds E X)) es';
    da_props : opt "properties" (d_map (d_ds E X)) es = opt "properties" (d_map (d_ds E X)) es';
  }.

  Lemma ds_agree_without ks es es' : disjoint ds_special ks -> ds_agree es es' ->
    ds_agree (without ks es) (without ks es').
  Proof.
    intros Hd [H1 H2 H3 H4 H5].
    assert (forall k, In k ds_special -> smem k ks = false) as Hs.
    { intros k Hk. apply smem_false. exact (Hd k Hk). }
    constructor; [apply agree_without; auto|..];
      rewrite !opt_without by (apply Hs; apply smem_In; reflexivity); auto.
  Qed.

  Lemma agree_first S ks es es' : agree S es es' -> disjoint ks S -> first_of ks es = first_of ks es'.
  Proof. intros H Hd. eapply only_first; [exact (H _ Hd)|]. apply incl_refl. Qed.

  Ltac apart := let k := fresh in let Hk := fresh in let Hk' := fresh in
    intros k Hk Hk'; simpl in Hk; repeat (destruct Hk as [<-|Hk]; [apply smem_In in Hk'; discriminate|]);
    destruct Hk.

  Lemma sub_same es es' : ds_agree es es' -> sub_body (d_ds E X) es = sub_body (d_ds E X) es'.
  Proof.
    intros [H1 H2 H3 H4 H5]. unfold sub_body. same_step H1. rename s into k.
    pose proof (@agree_without _ ["type"] _ _ H1) as Hc.
    destruct k; auto.
    - rewrite !(opt_without "items") by reflexivity. same_step Hc. same_step Hc. same_step Hc.
      rewrite (agree_ext array_keys (ro_as HX) (na_as HK) (inclb_ok ds_special td_names eq_refl) Hc). reflexivity.
    - unfold d_number, d_max, d_min.
      rewrite !(@agree_first _ ["maximum"; "exclusiveMaximum"] _ _ Hc) by apart.
      rewrite !(@agree_first _ ["minimum"; "exclusiveMinimum"] _ _ Hc) by apart.
      f_equal. same_step Hc. reflexivity.
    - unfold d_integer, d_max, d_min.
      rewrite !(@agree_first _ ["maximum"; "exclusiveMaximum"] _ _ Hc) by apart.
      rewrite !(@agree_first _ ["minimum"; "exclusiveMinimum"] _ _ Hc) by apart.
      f_equal. same_step Hc. reflexivity.
    - rewrite !(opt_without "properties") by reflexivity. same_step Hc. same_step Hc.
      rewrite (agree_ext object_keys (ro_os HX) (na_os HK) (inclb_ok ds_special td_names eq_refl) Hc). reflexivity.
    - f_equal. unfold d_string. repeat same_step Hc. reflexivity.
  Qed.

  Lemma ds_same es es' : ds_agree es es' -> d_ds E X (JObj es) = d_ds E X (JObj es').
  Proof.
    intros Ha. rewrite !d_ds_obj. unfold ds_body. pose proof Ha as [H1 H2 H3 H4 H5].
    rewrite (info_same H1) by (try exact H2; apart). same_step H1.
    assert (d_misc es = d_misc es') as Hm by (unfold d_misc; repeat same_step H1; reflexivity).
    rewrite Hm. same_step H1. same_step H1.
    rewrite (agree_ext ds_keys (ro_ds HX) (na_ds HK) (inclb_ok ds_special td_names eq_refl) H1). same_step H1.
    f_equal. f_equal. apply sub_same.
    (* "oneOf" and "@type" are gone *)
    constructor.
    - apply agree_without; auto.
    - unfold opt. rewrite !get_without. reflexivity.
    - unfold opt. rewrite !get_without. reflexivity.
    - rewrite !opt_without by reflexivity. auto.
    - rewrite !opt_without by reflexivity. auto.
  Qed.

  Record ia_agree (es es' : entries) : Prop := {
    ia_rest : agree ds_special es es';
    ia_type : opt "@type" (d_oom d_str) es = opt "@type" (d_oom d_str) es';
    ia_form : req "forms" (d_list (d_form X)) es = req "forms" (d_list (d_form X)) es';
    ia_vars : opt "uriVariables" (d_dsmap E X) es = opt "uriVariables" (d_dsmap E X) es';
  }.

  Lemma req_without A k (d : json -> option A) ks es :
    smem k ks = false -> req k d (without ks es) = req k d es.
  Proof. intros H. unfold req. rewrite get_without, H. reflexivity. Qed.

  Lemma ia_agree_without ks es es' : disjoint ds_special ks -> ia_agree es es' ->
    ia_agree (without ks es) (without ks es').
  Proof.
    intros Hd [H1 H2 H3 H4].
    assert (forall k, In k ds_special -> smem k ks = false) as Hs.
    { intros k Hk. apply smem_false. exact (Hd k Hk). }
    constructor; [apply agree_without; auto|..];
      rewrite ?opt_without, ?req_without by (apply Hs; apply smem_In; reflexivity); auto.
  Qed.

  Lemma interaction_same es es' : ia_agree es es' -> interaction_body E X es = interaction_body E X es'.
  Proof.
    intros [H1 H2 H3 H4]. unfold interaction_body.
    rewrite (info_same H1) by (try exact H2; apart). same_step H1. same_step H1. same_step H1.
    rewrite (agree_ext interaction_keys (ro_ia HX) (na_ia HK) (inclb_ok ds_special td_names eq_refl) H1).
    reflexivity.
  Qed.

  Lemma property_same es es' : ia_agree es es' -> ds_agree es es' ->
    d_property E X (JObj es) = d_property E X (JObj es').
  Proof.
    intros Hi Hd. unfold d_property, d_flat, property_body. pose proof (ia_rest Hi) as H1.
    same_step H1.
    rewrite (@interaction_same _ _ (@ia_agree_without property_keys _ _ ltac:(apart) Hi)). same_step H1.
    rewrite (@ds_same _ _ (@ds_agree_without property_keys _ _ ltac:(apart) Hd)). same_step H1.
    rewrite (agree_ext property_keys (ro_pa HX) (na_pa HK) (inclb_ok ds_special td_names eq_refl) H1).
    reflexivity.
  Qed.

  Definition action_special := ds_special ++ ["input"; "output"].
  Definition event_special := ds_special ++ ["subscription"; "data"; "data_response"; "cancellation"].

  (** Like [ia_agree], after the affordance's own members are gone. *)
  Lemma ia_agree_less S ks es es' : agree S es es' -> incl S (ds_special ++ ks) -> disjoint ds_special ks ->
    opt "@type" (d_oom d_str) es = opt "@type" (d_oom d_str) es' ->
    req "forms" (d_list (d_form X)) es = req "forms" (d_list (d_form X)) es' ->
    opt "uriVariables" (d_dsmap E X) es = opt "uriVariables" (d_dsmap E X) es' ->
    ia_agree (without ks es) (without ks es').
  Proof.
    intros H Hi Hd H2 H3 H4.
    assert (forall k, In k ds_special -> smem k ks = false) as Hs.
    { intros k Hk. apply smem_false. exact (Hd k Hk). }
    constructor; [|rewrite ?opt_without, ?req_without by (apply Hs; apply smem_In; reflexivity); auto..].
    intros L HL. rewrite !without_only_comm.
    assert (forall es, without ks (only L es) = without ks (only (filter (fun k => negb (smem k ks)) L) es)) as Hf.
    { clear. intros es. unfold only, without. induction es as [|[k v] es IH]; simpl; auto.
      destruct (smem k L) eqn:H1, (smem k ks) eqn:H2;
        destruct (smem k (filter (fun k => negb (smem k ks)) L)) eqn:H3; simpl; rewrite ?H2; simpl; auto.
      - f_equal. auto.
      - apply smem_false in H3. destruct H3. apply filter_In. rewrite H2. split; auto. apply smem_In; auto.
      - apply smem_In, filter_In in H3 as [H3 _]. apply smem_false in H1. tauto. }
    rewrite Hf, (Hf es'). f_equal. apply H. intros k Hk HkS. apply filter_In in Hk as [Hk Hn].
    apply Hi, in_app_iff in HkS as [HkS|HkS]; [exact (HL k Hk HkS)|].
    apply smem_In in HkS. rewrite HkS in Hn. discriminate.
  Qed.

  Lemma action_same es es' : agree action_special es es' ->
    opt "@type" (d_oom d_str) es = opt "@type" (d_oom d_str) es' ->
    req "forms" (d_list (d_form X)) es = req "forms" (d_list (d_form X)) es' ->
    opt "uriVariables" (d_dsmap E X) es = opt "uriVariables" (d_dsmap E X) es' ->
    opt "input" (d_ds E X) es = opt "input" (d_ds E X) es' ->
    opt "output" (d_ds E X) es = opt "output" (d_ds E X) es' ->
    d_action E X (JObj es) = d_action E X (JObj es').
  Proof.
    intros H1 H2 H3 H4 H5 H6. unfold d_action, d_flat, action_body. do 5 same_step H1.
    rewrite (@interaction_same _ _ (@ia_agree_less _ action_keys _ _ H1 ltac:(apply inclb_ok; reflexivity) ltac:(apart) H2 H3 H4)).
    same_step H1.
    rewrite (agree_ext action_keys (ro_aa HX) (na_aa HK) (inclb_ok action_special td_names eq_refl) H1).
    reflexivity.
  Qed.

  Lemma event_same es es' : agree event_special es es' ->
    opt "@type" (d_oom d_str) es = opt "@type" (d_oom d_str) es' ->
    req "forms" (d_list (d_form X)) es = req "forms" (d_list (d_form X)) es' ->
    opt "uriVariables" (d_dsmap E X) es = opt "uriVariables" (d_dsmap E X) es' ->
    opt "subscription" (d_ds E X) es = opt "subscription" (d_ds E X) es' ->
    opt "data" (d_ds E X) es = opt "data" (d_ds E X) es' ->
    opt "data_response" (d_ds E X) es = opt "data_response" (d_ds E X) es' ->
    opt "cancellation" (d_ds E X) es = opt "cancellation" (d_ds E X) es' ->
    d_event E X (JObj es) = d_event E X (JObj es').
  Proof.
    intros H1 H2 H3 H4 H5 H6 H7 H8. unfold d_event, d_flat, event_body. do 4 same_step H1.
    rewrite (@interaction_same _ _ (@ia_agree_less _ event_keys _ _ H1 ltac:(apply inclb_ok; reflexivity) ltac:(apart) H2 H3 H4)).
    same_step H1.
    rewrite (agree_ext event_keys (ro_ea HX) (na_ea HK) (inclb_ok event_special td_names eq_refl) H1).
    reflexivity.
  Qed.

  Definition thing_special :=
    ["@type"; "security"; "profile"; "properties"; "actions"; "events"; "links"; "forms"; "uriVariables";
     "schemaDefinitions"].

  Lemma thing_same es es' : agree thing_special es es' ->
    opt "@type" (d_oom d_str) es = opt "@type" (d_oom d_str) es' ->
    req "security" (d_oom d_str) es = req "security" (d_oom d_str) es' ->
    opt "profile" (d_oom d_str) es = opt "profile" (d_oom d_str) es' ->
    opt "properties" (d_map (d_property E X)) es = opt "properties" (d_map (d_property E X)) es' ->
    opt "actions" (d_map (d_action E X)) es = opt "actions" (d_map (d_action E X)) es' ->
    opt "events" (d_map (d_event E X)) es = opt "events" (d_map (d_event E X)) es' ->
    opt "links" (d_list (d_link E)) es = opt "links" (d_list (d_link E)) es' ->
    opt "forms" (d_list (d_form X)) es = opt "forms" (d_list (d_form X)) es' ->
    opt "uriVariables" (d_dsmap E X) es = opt "uriVariables" (d_dsmap E X) es' ->
    opt "schemaDefinitions" (d_dsmap E X) es = opt "schemaDefinitions" (d_dsmap E X) es' ->
    d_thing E X (JObj es) = d_thing E X (JObj es').
  Proof.
    intros H. intros. unfold d_thing, d_flat, thing_body. do 22 same_step H.
    rewrite (agree_ext thing_keys (ro_t HX) (na_t HK) (inclb_ok thing_special td_names eq_refl) H). reflexivity.
  Qed.

  Lemma form_same es es' : agree ["op"; "security"; "scopes"; "additionalResponses"] es es' ->
    dflt "op" OpDefault d_ops es = dflt "op" OpDefault d_ops es' ->
    opt "security" (d_oom d_str) es = opt "security" (d_oom d_str) es' ->
    opt "scopes" (d_oom d_str) es = opt "scopes" (d_oom d_str) es' ->
    opt "additionalResponses" (d_oom d_add_resp) es = opt "additionalResponses" (d_oom d_add_resp) es' ->
    d_form X (JObj es) = d_form X (JObj es').
  Proof.
    intros H. intros. unfold d_form, d_flat, form_body. do 9 same_step H.
    rewrite (agree_ext form_keys (ro_f HX) (na_f HK) (inclb_ok ["op"; "security"; "scopes"; "additionalResponses"] td_names eq_refl) H). reflexivity.
  Qed.

  Lemma link_same es es' : agree ["hreflang"] es es' ->
    opt "hreflang" (d_oom (d_langtag E)) es = opt "hreflang" (d_oom (d_langtag E)) es' ->
    d_link E (JObj es) = d_link E (JObj es').
  Proof. intros H. intros. unfold d_link, d_struct. do 6 same_step H. reflexivity. Qed.

  (** [j] and [j'] are read alike as [d]. *)
  Fixpoint alike (d : doc_kind) (j j' : json) : Prop :=
    match d with
    | DThing => d_thing E X j = d_thing E X j'
    | DProperty => d_property E X j = d_property E X j'
    | DAction => d_action E X j = d_action E X j'
    | DEvent => d_event E X j = d_event E X j'
    | DForm => d_form X j = d_form X j'
    | DLink => d_link E j = d_link E j'
    | DSchema => d_ds E X j = d_ds E X j' /\ d_list (d_ds E X) j = d_list (d_ds E X) j'
    | DMap d => exists es1 k v v' es2, j = JObj (es1 ++ (k, v) :: es2) /\ j' = JObj (es1 ++ (k, v') :: es2)
                                       /\ alike d v v'
    | DList d => exists l1 v v' l2, j = JArr (l1 ++ v :: l2) /\ j' = JArr (l1 ++ v' :: l2) /\ alike d v v'
    | DOneOrMany d =>
        alike d j j'
        \/ exists l1 v v' l2, j = JArr (l1 ++ v :: l2) /\ j' = JArr (l1 ++ v' :: l2) /\ alike d v v'
    | DVersion | DExpResp | DAddResp | DLeaf => j = j'
    end.

  Lemma alike_list d A (dd : json -> option A) j j' : (forall v v', alike d v v' -> dd v = dd v') ->
    alike (DList d) j j' -> d_list dd j = d_list dd j'.
  Proof. intros H (l1 & v & v' & l2 & -> & -> & Ha). apply list_place. auto. Qed.

  Lemma alike_map d A (dd : json -> option A) j j' : (forall v v', alike d v v' -> dd v = dd v') ->
    alike (DMap d) j j' -> d_map dd j = d_map dd j'.
  Proof. intros H (l1 & k & v & v' & l2 & -> & -> & Ha). apply map_place. auto. Qed.

  Lemma ds_arr l : d_ds E X (JArr l) = None.
  Proof. reflexivity. Qed.

  Lemma alike_boxed j j' : alike (DOneOrMany DSchema) j j' ->
    d_boxed (d_ds E X) j = d_boxed (d_ds E X) j'.
  Proof.
    intros [[H H']|(l1 & v & v' & l2 & -> & -> & [H _])]; unfold d_boxed.
    - rewrite H, H'. reflexivity.
    - rewrite !ds_arr. rewrite (@list_place _ (d_ds E X) v v'); auto.
  Qed.

  Ltac here H := first [apply opt_place; [tauto|tauto|]|apply req_place|apply dflt_place]; exact H.
  Ltac elsewhere Hag :=
    first [apply opt_reads|apply req_reads|apply dflt_reads]; apply (agree_get _ Hag); reflexivity.
  Ltac wider Hag := refine (agree_more Hag _); apply inclb_ok; reflexivity.

  Lemma respelt_alike d j j' : respelt d j j' -> alike d j j'.
  Proof.
    induction 1 as [d k v es1 es2 Hk Hb|d k v v' es1 es2 Hs Hr IH|d k v v' es1 es2 Hr IH
                   |d v v' l1 l2 Hr IH|d v v' Hr IH|d v v' l1 l2 Hr IH].
    - pose proof (@agree_one k v (JArr [v]) es1 es2) as Hag.
      assert (v <> JNull /\ JArr [v] <> JNull) as Hnn by (split; [apply Hb|discriminate]).
      pose proof (@oom_bare _ d_str v Hb eq_refl) as Ho.
      destruct d; cbn [one_or_many_members] in Hk; try contradiction; cbn [alike].
      + destruct Hk as [<-|[<-|[<-|[]]]]; apply thing_same; first [wider Hag|here Ho|elsewhere Hag].
      + destruct Hk as [<-|[]]. apply property_same; constructor;
          first [wider Hag|here Ho|elsewhere Hag].
      + destruct Hk as [<-|[]]. apply action_same; first [wider Hag|here Ho|elsewhere Hag].
      + destruct Hk as [<-|[]]. apply event_same; first [wider Hag|here Ho|elsewhere Hag].
      + pose proof (ops_bare Hb) as Hop.
        pose proof (@oom_bare _ d_add_resp v Hb (add_resp_one Hb)) as Hr.
        destruct Hk as [<-|[<-|[<-|[<-|[]]]]]; apply form_same;
          first [wider Hag|here Hop|here Ho|here Hr|elsewhere Hag].
      + pose proof (@oom_bare _ (d_langtag E) v Hb eq_refl) as Hl. destruct Hk as [<-|[]].
        apply link_same; first [wider Hag|here Hl|elsewhere Hag].
      + destruct Hk as [<-|[]]. split; [|reflexivity]. apply ds_same; constructor;
          first [wider Hag|here Ho|elsewhere Hag].
    - pose proof (@agree_one k v v' es1 es2) as Hag. pose proof (respelt_not_null Hr) as Hnn. clear Hr.
      assert (forall v v', alike DSchema v v' -> d_ds E X v = d_ds E X v') as Hds by (intros ? ? []; auto).
      unfold member_kind in IH.
      match type of IH with alike (lookup_kind ?k ?l) _ _ =>
        destruct (@lookup_kind_In k l) as [H|H]; generalize dependent (lookup_kind k l); intros kd IH H end;
        [rewrite H in IH; cbn [alike] in IH; subst v'; destruct d; try discriminate Hs; cbn [alike]; auto|].
      destruct d; try discriminate Hs; cbn [alike]; cbn [In app schema_members interaction_members] in H;
        repeat (destruct H as [H|H]; [injection H as <- <-|]); try destruct H;
        try (cbn [alike] in IH; subst v'; reflexivity).
      + (* properties *) apply (@alike_map _ _ (d_property E X)) in IH; [|auto].
        apply thing_same; first [wider Hag|here IH|elsewhere Hag].
      + apply (@alike_map _ _ (d_action E X)) in IH; [|auto].
        apply thing_same; first [wider Hag|here IH|elsewhere Hag].
      + apply (@alike_map _ _ (d_event E X)) in IH; [|auto].
        apply thing_same; first [wider Hag|here IH|elsewhere Hag].
      + apply (@alike_list _ _ (d_link E)) in IH; [|auto].
        apply thing_same; first [wider Hag|here IH|elsewhere Hag].
      + apply (@alike_list _ _ (d_form X)) in IH; [|auto].
        apply thing_same; first [wider Hag|here IH|elsewhere Hag].
      + apply (@alike_map _ _ (d_ds E X)) in IH; [|auto].
        apply thing_same; first [wider Hag|here IH|elsewhere Hag].
      + apply (@alike_map _ _ (d_ds E X)) in IH; [|auto].
        apply thing_same; first [wider Hag|here IH|elsewhere Hag].
      + (* property *) apply (@alike_list _ _ (d_form X)) in IH; [|auto].
        apply property_same; constructor; first [wider Hag|here IH|elsewhere Hag].
      + apply (@alike_map _ _ (d_ds E X)) in IH; [|auto].
        apply property_same; constructor; first [wider Hag|here IH|elsewhere Hag].
      + apply (@alike_list _ _ (d_ds E X)) in IH; [|auto].
        apply property_same; constructor; first [wider Hag|here IH|elsewhere Hag].
      + apply alike_boxed in IH.
        apply property_same; constructor; first [wider Hag|here IH|elsewhere Hag].
      + apply (@alike_map _ _ (d_ds E X)) in IH; [|auto].
        apply property_same; constructor; first [wider Hag|here IH|elsewhere Hag].
      + (* action *) apply Hds in IH. apply action_same; first [wider Hag|here IH|elsewhere Hag].
      + apply Hds in IH. apply action_same; first [wider Hag|here IH|elsewhere Hag].
      + apply (@alike_list _ _ (d_form X)) in IH; [|auto].
        apply action_same; first [wider Hag|here IH|elsewhere Hag].
      + apply (@alike_map _ _ (d_ds E X)) in IH; [|auto].
        apply action_same; first [wider Hag|here IH|elsewhere Hag].
      + (* event *) apply Hds in IH. apply event_same; first [wider Hag|here IH|elsewhere Hag].
      + apply Hds in IH. apply event_same; first [wider Hag|here IH|elsewhere Hag].
      + apply Hds in IH. apply event_same; first [wider Hag|here IH|elsewhere Hag].
      + apply Hds in IH. apply event_same; first [wider Hag|here IH|elsewhere Hag].
      + apply (@alike_list _ _ (d_form X)) in IH; [|auto].
        apply event_same; first [wider Hag|here IH|elsewhere Hag].
      + apply (@alike_map _ _ (d_ds E X)) in IH; [|auto].
        apply event_same; first [wider Hag|here IH|elsewhere Hag].
      + (* form *) destruct IH as [IH|(l1 & w & w' & l2 & -> & -> & IH)]; cbn [alike] in IH; subst; reflexivity.
      + (* schema *) apply (@alike_list _ _ (d_ds E X)) in IH; [|auto].
        split; [|reflexivity]. apply ds_same; constructor; first [wider Hag|here IH|elsewhere Hag].
      + apply alike_boxed in IH.
        split; [|reflexivity]. apply ds_same; constructor; first [wider Hag|here IH|elsewhere Hag].
      + apply (@alike_map _ _ (d_ds E X)) in IH; [|auto].
        split; [|reflexivity]. apply ds_same; constructor; first [wider Hag|here IH|elsewhere Hag].
    - cbn [alike]. exists es1, k, v, v', es2. auto.
    - cbn [alike]. exists l1, v, v', l2. auto.
    - left. auto.
    - right. exists l1, v, v', l2. auto.
  Qed.
End Respell.

(** ** Security schemes *)

Lemma without_cons ks k v es :
  without ks ((k, v) :: es) = if smem k ks then without ks es else (k, v) :: without ks es.
Proof. unfold without. simpl. destruct (smem k ks); reflexivity. Qed.

Lemma known_respelt k v es1 es2 : In k ["oneOf"; "allOf"; "scopes"] -> bare v ->
  d_known (es1 ++ (k, v) :: es2) = d_known (es1 ++ (k, JArr [v]) :: es2).
Proof.
  intros Hk Hb. pose proof (@agree_one k v (JArr [v]) es1 es2) as Hag.
  pose proof (@oom_bare _ d_str v Hb eq_refl) as Ho.
  assert (v <> JNull /\ JArr [v] <> JNull) as Hnn by (split; [apply Hb|discriminate]).
  assert (agree ["oneOf"; "allOf"; "scopes"] (es1 ++ (k, v) :: es2) (es1 ++ (k, JArr [v]) :: es2)) as Hag'.
  { refine (agree_more Hag _). intros k' [<-|[]]. auto. }
  assert (d_combo (without ["scheme"] (es1 ++ (k, v) :: es2))
          = d_combo (without ["scheme"] (es1 ++ (k, JArr [v]) :: es2))) as Hc.
  { assert (smem k ["scheme"] = false) as Hn
      by (apply smem_false; intros [<-|[]]; apply smem_In in Hk; discriminate).
    rewrite !without_app, !without_cons, Hn.
    destruct (without ["scheme"] es1) as [|[k1 v1] [|e1 c1]]; simpl.
    - destruct (without ["scheme"] es2); [|reflexivity]. unfold d_combo. rewrite Ho. reflexivity.
    - destruct (without ["scheme"] es2); reflexivity.
    - reflexivity. }
  assert (opt "scopes" (d_oom d_str) (without ["scheme"] (es1 ++ (k, v) :: es2))
          = opt "scopes" (d_oom d_str) (without ["scheme"] (es1 ++ (k, JArr [v]) :: es2))) as Hs.
  { rewrite !opt_without by reflexivity. destruct Hk as [<-|[<-|[<-|[]]]].
    - apply opt_reads, (agree_get _ Hag); reflexivity.
    - apply opt_reads, (agree_get _ Hag); reflexivity.
    - apply opt_place; tauto. }
  revert Hc Hs Hag'. clear. unfold entries.
  generalize (es1 ++ (k, v) :: es2) (es1 ++ (k, JArr [v]) :: es2). intros es es' Hc Hs Hag.
  unfold d_known. same_step Hag.
  pose proof (@agree_without _ ["scheme"] _ _ Hag) as Hw. revert Hc Hs Hw.
  generalize (without ["scheme"] es) (without ["scheme"] es'). clear. intros c c' Hc Hs Hw.
  destruct s; auto; unfold d_loc_name, d_bearer, d_oauth2.
  - rewrite Hc. reflexivity.
  - f_equal. repeat same_step Hw. reflexivity.
  - same_step Hw. f_equal. repeat same_step Hw. reflexivity.
  - f_equal. repeat same_step Hw. reflexivity.
  - f_equal. apply opt_reads, (agree_get _ Hw). reflexivity.
  - f_equal. repeat same_step Hw. reflexivity.
  - f_equal. repeat same_step Hw. reflexivity.
Qed.

Lemma security_respelt E k v es1 es2 s kn : In k ["@type"; "oneOf"; "allOf"; "scopes"] -> bare v ->
  ss_subtype s = Known kn ->
  (d_security E (JObj (es1 ++ (k, v) :: es2)) = Some s
   <-> d_security E (JObj (es1 ++ (k, JArr [v]) :: es2)) = Some s).
Proof.
  intros Hk Hb Hs. unfold d_security, d_flat, security_body.
  assert (v <> JNull /\ JArr [v] <> JNull) as Hnn by (split; [apply Hb|discriminate]).
  pose proof (@agree_one k v (JArr [v]) es1 es2) as Hag.
  assert (agree ["@type"; "oneOf"; "allOf"; "scopes"] (es1 ++ (k, v) :: es2) (es1 ++ (k, JArr [v]) :: es2)) as Hag'.
  { refine (agree_more Hag _). intros k' [<-|[]]. auto. }
  assert (opt "@type" (d_oom d_str) (es1 ++ (k, v) :: es2)
          = opt "@type" (d_oom d_str) (es1 ++ (k, JArr [v]) :: es2)) as Ht.
  { destruct Hk as [<-|[<-|[<-|[<-|[]]]]].
    - apply opt_place; try tauto. apply oom_bare; auto.
    - apply opt_reads, (agree_get _ Hag); reflexivity.
    - apply opt_reads, (agree_get _ Hag); reflexivity.
    - apply opt_reads, (agree_get _ Hag); reflexivity. }
  assert (d_known (without security_keys (es1 ++ (k, v) :: es2))
          = d_known (without security_keys (es1 ++ (k, JArr [v]) :: es2))) as Hkn.
  { rewrite !without_app, !without_cons. destruct (smem k security_keys) eqn:Hm; [reflexivity|].
    apply known_respelt; auto. destruct Hk as [<-|Hk]; [discriminate Hm|exact Hk]. }
  assert (forall kn, d_subtype (without security_keys (es1 ++ (k, v) :: es2)) = Some (Known kn)
          <-> d_subtype (without security_keys (es1 ++ (k, JArr [v]) :: es2)) = Some (Known kn)) as Hsub.
  { intros kn'. unfold d_subtype. rewrite Hkn. destruct (d_known (without _ (es1 ++ (k, JArr [v]) :: es2))).
    { split; exact (fun H => H). }
    unfold d_unknown. split; intros H; apply obind_inv in H as (? & _ & H); discriminate. }
  revert Hsub Hag' Ht. clear Hkn Hag. unfold entries.
  generalize (es1 ++ (k, v) :: es2) (es1 ++ (k, JArr [v]) :: es2). intros es es' Hsub Hag Ht.
  rewrite Ht.
  rewrite (opt_reads "description" d_str es es') by (apply (agree_get _ Hag); reflexivity).
  rewrite (opt_reads "descriptions" (d_multilang E) es es') by (apply (agree_get _ Hag); reflexivity).
  rewrite (opt_reads "proxy" d_str es es') by (apply (agree_get _ Hag); reflexivity).
  destruct (opt "@type" (d_oom d_str) es') as [a|]; [cbn [obind]|split; discriminate].
  destruct (opt "description" d_str es') as [b|]; [cbn [obind]|split; discriminate].
  destruct (opt "descriptions" (d_multilang E) es') as [c|]; [cbn [obind]|split; discriminate].
  destruct (opt "proxy" d_str es') as [d|]; [cbn [obind]|split; discriminate].
  specialize (Hsub kn).
  split; intros H; apply obind_inv in H as (x & H1 & H2); injection H2 as <-; cbn in Hs; subst x;
    (rewrite (proj1 Hsub) by exact H1) || (rewrite (proj2 Hsub) by exact H1); reflexivity.
Qed.

(** ** Writing *)

Lemma one_or_many_bare A (f : A -> json) l : (forall a, bare (f a)) ->
  (bare (one_or_many f l) <-> length l = 1).
Proof.
  intros Hf. destruct l as [|a [|b l]]; simpl; split; intros H; auto; try discriminate.
  - destruct H as [_ H]. destruct (H []); auto.
  - destruct H as [_ H]. exfalso. eapply H. reflexivity.
Qed.
