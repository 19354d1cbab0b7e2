(** * Facts about single members *)

From Coq Require Import String Bool ZArith Permutation Lia List.
From Verif Require Import Base MinMax Json Serde Types SpecSerde SpecDoc SpecMember Ser De SerdeFacts
  RoundTrip RoundTripDs RoundTripTd GrownFacts DecodedFacts.
Import ListNotations.
Set Implicit Arguments.
Local Open Scope string_scope.
Local Open Scope list_scope.

(** ** Missing members *)

Lemma absent_get k es : absent k es <-> get k es = [].
Proof. unfold absent. symmetry. apply get_nil_iff. Qed.

Lemma absent_without k ks es : absent k es -> absent k (without ks es).
Proof.
  unfold absent. intros H Hin. apply H. apply in_map_iff in Hin as ([k' v] & <- & Hin).
  apply filter_In in Hin as [Hin _]. apply in_map_iff. exists (k', v). auto.
Qed.

Lemma req_absent A k (d : json -> option A) es : absent k es -> req k d es = None.
Proof. intros H. apply absent_get in H. unfold req. rewrite H. reflexivity. Qed.

Lemma opt_absent A k (d : json -> option A) es : absent k es -> opt k d es = Some None.
Proof. intros H. apply absent_get in H. unfold opt. rewrite H. reflexivity. Qed.

Lemma dflt_absent A k a (d : json -> option A) es : absent k es -> dflt k a d es = Some a.
Proof. intros H. apply absent_get in H. unfold dflt. rewrite H. reflexivity. Qed.

Lemma opt_fails A k (d : json -> option A) es v :
  In (k, v) es -> v <> JNull -> d v = None -> opt k d es = None.
Proof.
  intros Hin Hv Hd. apply get_In in Hin. unfold opt.
  destruct (get k es) as [|w [|w' l]]; [destruct Hin| |destruct w; reflexivity].
  destruct Hin as [->|[]]. rewrite Hd. destruct v; try reflexivity. congruence.
Qed.

Lemma req_fails A k (d : json -> option A) es v : In (k, v) es -> d v = None -> req k d es = None.
Proof.
  intros Hin Hd. apply get_In in Hin. unfold req.
  destruct (get k es) as [|w [|w' l]]; auto. destruct Hin as [->|[]]. auto.
Qed.

Lemma omap_all_fails A B (f : A -> option B) l a : In a l -> f a = None -> omap_all f l = None.
Proof.
  induction l as [|b l IH]; simpl; intros Hin Hf; [destruct Hin|].
  destruct Hin as [->|Hin]; [rewrite Hf; auto|]. rewrite IH by auto. destruct (f b); auto.
Qed.

Lemma map_fails A (d : json -> option A) es k v : In (k, v) es -> d v = None -> d_map d (JObj es) = None.
Proof.
  intros Hin Hd. simpl. rewrite (@omap_all_fails _ _ _ es (k, v)); auto. simpl. rewrite Hd. reflexivity.
Qed.

Lemma list_fails A (d : json -> option A) l v : In v l -> d v = None -> d_list d (JArr l) = None.
Proof. intros Hin Hd. simpl. eapply omap_all_fails; eauto. Qed.

Ltac none H :=
  repeat match goal with
  | |- obind ?o _ = None => first [rewrite H; reflexivity | destruct o; [cbn [obind]|reflexivity]]
  end.

Lemma lookup_kind_In k l : lookup_kind k l = DLeaf \/ In (k, lookup_kind k l) l.
Proof.
  induction l as [|[k' d] l IH]; simpl; auto.
  destruct (String.eqb_spec k k') as [->|]; [right; left; auto|]. destruct IH; auto.
Qed.

Section Lacks.
  Variable E : env.
  Variable X : exts.

  (** Reading as [d] fails. *)
  Fixpoint fails (d : doc_kind) (j : json) : Prop :=
    match d with
    | DThing => d_thing E X j = None
    | DProperty => d_property E X j = None
    | DAction => d_action E X j = None
    | DEvent => d_event E X j = None
    | DForm => d_form X j = None
    | DLink => d_link E j = None
    | DVersion => d_version j = None
    | DExpResp => d_exp_resp X j = None
    | DMap d => exists es k v, j = JObj es /\ In (k, v) es /\ fails d v
    | DList d => exists l v, j = JArr l /\ In v l /\ fails d v
    | DSchema | DAddResp | DOneOrMany _ | DLeaf => False
    end.

  Lemma lacks_not_null d j : lacks d j -> j <> JNull.
  Proof. destruct 1; discriminate. Qed.


  Lemma interaction_fails es :
    req "forms" (d_list (d_form X)) es = None -> interaction_body E X es = None.
  Proof.
    intros H. unfold interaction_body. destruct (d_info E es); [cbn [obind]|reflexivity].
    rewrite H. reflexivity.
  Qed.

  Lemma lacks_fails d j : lacks d j -> fails d j.
  Proof.
    induction 1 as [d k es Hk Ha|d k v es Hs Hin Hl IH|d k v es Hin Hl IH|d v l Hin Hl IH].
    - destruct d; cbn [mandatory fails] in *; try contradiction.
      + unfold d_thing, d_flat, thing_body.
        destruct Hk as [<-|[<-|[<-|[]]]];
          [pose proof (req_absent d_str Ha) as H|pose proof (req_absent (d_oom d_str) Ha) as H
          |pose proof (req_absent (d_map (d_security E)) Ha) as H]; none H.
      + destruct Hk as [<-|[]]. unfold d_property, d_flat, property_body.
        pose proof (interaction_fails _ (req_absent (d_list (d_form X)) (absent_without property_keys Ha))) as H.
        none H.
      + destruct Hk as [<-|[]]. unfold d_action, d_flat, action_body.
        pose proof (interaction_fails _ (req_absent (d_list (d_form X)) (absent_without action_keys Ha))) as H.
        none H.
      + destruct Hk as [<-|[]]. unfold d_event, d_flat, event_body.
        pose proof (interaction_fails _ (req_absent (d_list (d_form X)) (absent_without event_keys Ha))) as H.
        none H.
      + destruct Hk as [<-|[]]. unfold d_form, d_flat, form_body.
        pose proof (req_absent d_str Ha) as H. none H.
      + destruct Hk as [<-|[]]. unfold d_link, d_struct.
        pose proof (req_absent d_str Ha) as H. none H.
      + destruct Hk as [<-|[]]. unfold d_exp_resp, d_flat, exp_resp_body.
        pose proof (req_absent d_str Ha) as H. none H.
      + destruct Hk as [<-|[]]. unfold d_version, d_struct.
        pose proof (req_absent d_str Ha) as H. none H.
    - assert (Hv := lacks_not_null Hl). clear Hl.
      assert (HL : forall A (dd : json -> option A) j, (exists l w, j = JArr l /\ In w l /\ dd w = None) ->
                d_list dd j = None)
        by (intros A dd j (l & w & -> & Hw & Hd); eapply list_fails; eauto).
      assert (HM : forall A (dd : json -> option A) j, (exists m k w, j = JObj m /\ In (k, w) m /\ dd w = None) ->
                d_map dd j = None)
        by (intros A dd j (m & k0 & w & -> & Hw & Hd); eapply map_fails; eauto).
      unfold member_kind in IH.
      match type of IH with fails (lookup_kind ?k ?l) _ =>
        destruct (@lookup_kind_In k l) as [H|H]; generalize dependent (lookup_kind k l); intros kd IH H end;
        [rewrite H in IH; destruct IH|].
      destruct d; try discriminate Hs; cbn [fails]; cbn [In app schema_members interaction_members] in H;
        repeat (destruct H as [H|H]; [injection H as <- <-|]);
        try destruct H; cbn [fails] in IH;
        try (match type of IH with False => destruct IH end);
        try (destruct IH as (? & ? & ? & ? & ? & Hf); contradiction Hf);
        try (destruct IH as (? & ? & ? & ? & Hf); contradiction Hf).
      all: try (unfold d_thing, d_flat, thing_body).
      + pose proof (opt_fails _ _ _ Hin Hv IH) as H. none H.
      + apply HM in IH. pose proof (opt_fails _ _ _ Hin Hv IH) as H. none H.
      + apply HM in IH. pose proof (opt_fails _ _ _ Hin Hv IH) as H. none H.
      + apply HM in IH. pose proof (opt_fails _ _ _ Hin Hv IH) as H. none H.
      + apply HL in IH. pose proof (opt_fails _ _ _ Hin Hv IH) as H. none H.
      + apply HL in IH. pose proof (opt_fails _ _ _ Hin Hv IH) as H. none H.
      + apply HL in IH.
        assert (Hin' : In ("forms", v) (without property_keys es)) by (apply filter_In; auto).
        pose proof (interaction_fails _ (req_fails _ _ _ _ Hin' IH)) as H.
        unfold d_property, d_flat, property_body. none H.
      + apply HL in IH.
        assert (Hin' : In ("forms", v) (without action_keys es)) by (apply filter_In; auto).
        pose proof (interaction_fails _ (req_fails _ _ _ _ Hin' IH)) as H.
        unfold d_action, d_flat, action_body. none H.
      + apply HL in IH.
        assert (Hin' : In ("forms", v) (without event_keys es)) by (apply filter_In; auto).
        pose proof (interaction_fails _ (req_fails _ _ _ _ Hin' IH)) as H.
        unfold d_event, d_flat, event_body. none H.
      + pose proof (opt_fails _ _ _ Hin Hv IH) as H. unfold d_form, d_flat, form_body. none H.
    - cbn [fails]. eauto 6.
    - cbn [fails]. eauto 6.
  Qed.
End Lacks.

(** ** Defaults *)

Lemma opt_default A k (d : json -> option A) es o : opt k d es = Some o -> none_without es k o.
Proof. intros H Ha. rewrite (opt_absent d Ha) in H. congruence. Qed.

Lemma dflt_default A k a (d : json -> option A) es o : dflt k a d es = Some o -> absent k es -> o = a.
Proof. intros H Ha. rewrite (dflt_absent a d Ha) in H. congruence. Qed.

Lemma none_without_less ks es k A (o : option A) : none_without (without ks es) k o -> none_without es k o.
Proof. intros H Ha. apply H. apply absent_without. exact Ha. Qed.

Ltac default1 :=
  match goal with
  | H : opt ?k _ ?es = Some _ |- none_without ?es ?k _ => exact (@opt_default _ _ _ _ _ H)
  | H : dflt ?k _ _ ?es = Some _ |- false_without ?es ?k _ => exact (@dflt_default _ _ _ _ _ _ H)
  | H : dflt ?k _ _ ?es = Some _ |- absent ?k ?es -> _ => exact (@dflt_default _ _ _ _ _ _ H)
  | H : opt ?k _ (without _ ?es) = Some _ |- none_without ?es ?k _ =>
      exact (@none_without_less _ _ _ _ _ (@opt_default _ _ _ _ _ H))
  | H : dflt ?k _ _ (without _ ?es) = Some _ |- absent ?k ?es -> _ =>
      let Ha := fresh in intros Ha; exact (@dflt_default _ _ _ _ _ _ H (@absent_without _ _ _ Ha))
  end.

Ltac conj := repeat match goal with |- _ /\ _ => split end.
Ltac defaults H := binds H; injection H as <-; cbn [subtype_defaults]; conj; try default1.

Lemma option_map_inv A B (f : A -> B) o b : option_map f o = Some b -> exists a, o = Some a /\ b = f a.
Proof. destruct o; simpl; intros H; inversion H; eauto. Qed.

Section Defaults.
  Variable E : env.
  Variable X : exts.

  Lemma info_dflt es i : d_info E es = Some i -> info_defaults es i.
  Proof. unfold d_info, info_defaults. intros H. defaults H. Qed.

  Lemma info_dflt_less ks es i : info_defaults (without ks es) i -> info_defaults es i.
  Proof.
    intros (H1 & H2 & H3 & H4 & H5).
    unfold info_defaults; conj; eapply none_without_less; eassumption.
  Qed.

  Lemma misc_dflt es m : d_misc es = Some m ->
    none_without es "const" (m_const m) /\ none_without es "default" (m_default m)
    /\ none_without es "unit" (m_unit m) /\ none_without es "enum" (m_enum m)
    /\ none_without es "format" (m_format m)
    /\ false_without es "readOnly" (m_ro m) /\ false_without es "writeOnly" (m_wo m).
  Proof. unfold d_misc. intros H. defaults H. Qed.

  Lemma ds_dflt es d : d_ds E X (JObj es) = Some d -> schema_defaults es d.
  Proof.
    rewrite d_ds_obj. unfold ds_body. intros H. binds H. injection H as <-.
    apply misc_dflt in B0 as (M1 & M2 & M3 & M4 & M5 & M6 & M7).
    split; [exact (@info_dflt _ _ B)|]. conj; auto; try default1.
    intros Ha. unfold sub_body. rewrite (req_absent _ (absent_without _ Ha)). reflexivity.
  Qed.

  Lemma first_absent k1 k2 es : absent k1 es -> absent k2 es -> first_of [k1; k2] es = None.
  Proof. intros H1 H2. apply absent_get in H1, H2. apply first_of_none; auto. Qed.

  Lemma max_dflt A (d : json -> option A) ks es :
    absent "maximum" es -> absent "exclusiveMaximum" es -> d_max d (without ks es) = None.
  Proof.
    intros H1 H2. unfold d_max. rewrite first_absent by (apply absent_without; auto). reflexivity.
  Qed.

  Lemma min_dflt A (d : json -> option A) ks es :
    absent "minimum" es -> absent "exclusiveMinimum" es -> d_min d (without ks es) = None.
  Proof.
    intros H1 H2. unfold d_min. rewrite first_absent by (apply absent_without; auto). reflexivity.
  Qed.

  Lemma subtype_less ks es (s : dsubx X) : subtype_defaults (without ks es) s -> subtype_defaults es s.
  Proof.
    pose proof (fun k => @absent_without k ks es) as Hw.
    destruct s; cbn; unfold bounds_without, none_without; intros H; intuition.
  Qed.

  Lemma sub_dflt es s : sub_body (d_ds E X) es = Some s -> subtype_defaults es s.
  Proof.
    unfold sub_body. intros H. binds H. destruct x; unfold d_number, d_integer, d_string in H.
    - defaults H.
    - injection H as <-. exact I.
    - apply option_map_inv in H as (n & H & ->). binds H. injection H as <-. cbn [subtype_defaults n_max n_min n_mult z_max z_min z_mult].
      unfold bounds_without. conj; try default1; [apply max_dflt|apply min_dflt].
    - apply option_map_inv in H as (n & H & ->). binds H. injection H as <-. cbn [subtype_defaults n_max n_min n_mult z_max z_min z_mult].
      unfold bounds_without. conj; try default1; [apply max_dflt|apply min_dflt].
    - defaults H.
    - apply option_map_inv in H as (n & H & ->). binds H. injection H as <-. cbn [subtype_defaults]. conj; default1.
    - injection H as <-. exact I.
  Qed.

  Lemma ds_sub_dflt es d s : d_ds E X (JObj es) = Some d -> ds_sub d = Some s -> subtype_defaults es s.
  Proof.
    rewrite d_ds_obj. unfold ds_body. intros H Hs. binds H. injection H as <-. cbn in Hs.
    apply sub_dflt in Hs. eapply subtype_less. exact Hs.
  Qed.

  Lemma place_dflt es l b ks : d_loc_name l (without ks es) = Some b -> place_defaults es l b.
  Proof. unfold d_loc_name. intros H. unfold place_defaults. defaults H. Qed.

  Lemma known_dflt es k : d_known es = Some k -> known_defaults es k.
  Proof.
    unfold d_known. intros H. binds H. destruct x; binds H.
    - injection H as <-. exact I.
    - injection H as <-. exact I.
    - apply option_map_inv in H as (n & H & ->). exact I.
    - apply option_map_inv in H as (n & H & ->). eapply place_dflt; eauto.
    - apply option_map_inv in H as (n & H & ->). eapply place_dflt; eauto.
    - apply option_map_inv in H as (n & H & ->). unfold d_bearer in H. cbn [known_defaults]. defaults H.
    - apply option_map_inv in H as (n & H & ->). cbn [known_defaults]. default1.
    - apply option_map_inv in H as (n & H & ->). unfold d_oauth2 in H. cbn [known_defaults]. defaults H.
    - apply option_map_inv in H as (n & H & ->). eapply place_dflt; eauto.
  Qed.

  Lemma known_less ks es k : known_defaults (without ks es) k -> known_defaults es k.
  Proof.
    pose proof (fun k => @absent_without k ks es) as Hw.
    destruct k; cbn; unfold place_defaults, none_without; intros H; intuition.
  Qed.

  Lemma security_dflt es s : d_security E (JObj es) = Some s -> security_defaults es s.
  Proof.
    unfold d_security, d_flat, security_body, security_defaults. intros H. defaults H.
    cbn. intros k ->. apply (@known_less security_keys). apply known_dflt.
    unfold d_subtype in B3. destruct (d_known _); [congruence|].
    unfold d_unknown in B3. binds B3. discriminate.
  Qed.

  Lemma link_dflt es l : d_link E (JObj es) = Some l -> link_defaults es l.
  Proof. unfold d_link, d_struct, link_defaults. intros H. defaults H. Qed.

  Lemma add_resp_dflt es r : d_add_resp (JObj es) = Some r -> add_resp_defaults es r.
  Proof. unfold d_add_resp, d_struct, add_resp_defaults. intros H. defaults H. Qed.

  Lemma version_dflt es v : d_version (JObj es) = Some v -> none_without es "model" (v_model v).
  Proof. unfold d_version, d_struct. intros H. defaults H. Qed.

  Lemma form_dflt es f : d_form X (JObj es) = Some f -> form_defaults es f.
  Proof. unfold d_form, d_flat, form_body, form_defaults. intros H. defaults H. Qed.

  Lemma interaction_dflt ks es i :
    interaction_body E X (without ks es) = Some i -> interaction_defaults es i.
  Proof.
    unfold interaction_body, interaction_defaults. intros H. defaults H.
    eapply info_dflt_less. apply info_dflt. eauto.
  Qed.

  Lemma property_dflt es p : d_property E X (JObj es) = Some p -> property_defaults es p.
  Proof.
    unfold d_property, d_flat, property_body, property_defaults. intros H. defaults H.
    - eapply interaction_dflt; eauto.
    - apply ds_dflt in B1. destruct B1 as (H1 & H2 & H3 & H4 & H5 & H6 & H7 & H8 & H9 & H10).
      pose proof (fun k => @absent_without k property_keys es) as Hw.
      split; [eapply info_dflt_less; exact H1|].
      unfold none_without, false_without in *. cbn. conj; auto.
  Qed.

  Lemma action_dflt es a : d_action E X (JObj es) = Some a -> action_defaults es a.
  Proof.
    unfold d_action, d_flat, action_body, action_defaults. intros H. defaults H.
    eapply interaction_dflt; eauto.
  Qed.

  Lemma event_dflt es e : d_event E X (JObj es) = Some e -> event_defaults es e.
  Proof.
    unfold d_event, d_flat, event_body, event_defaults. intros H. defaults H.
    eapply interaction_dflt; eauto.
  Qed.

  Lemma thing_dflt es t : d_thing E X (JObj es) = Some t -> thing_defaults es t.
  Proof. unfold d_thing, d_flat, thing_body, thing_defaults. intros H. defaults H. Qed.
End Defaults.
