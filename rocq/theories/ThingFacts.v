(** * Facts about built Things: consistency, declared content, independence of map order *)

From Coq Require Import String Bool ZArith Permutation Lia List.
From Verif Require Import Base MinMax Json Serde Types DsBuilder Builder Spec SpecCalls SpecThing
  DsFacts ConvFacts CheckFacts DsProgFacts ProgFacts SaysFacts BuildFacts.
Import ListNotations.
Set Implicit Arguments.
Local Open Scope string_scope.
Local Open Scope list_scope.

(** ** Defects are inconsistencies *)

Lemma defect_inconsistent E X (y : body X) e : defect E y e -> ~ consistent (parsable E) y.
Proof.
  intros Hd Hc. destruct e; cbn [defect] in Hd.
  - apply twice_not_NoDup in Hd. apply Hd, (co_secdefs Hc).
  - destruct Hd as (f & Hf & Ho). exact (co_thing_ops Hc Hf Ho).
  - destruct Hd as (f & l & Hf & Ho & Hin & Hn). apply Hn. eapply (co_ops Hc); eauto.
  - destruct Hd as (c & f & l & Hf & Hs & Hin & Hn). apply Hn. eapply (co_security Hc); eauto.
  - destruct Hd as (d & e' & s & Hk & Hs & Es & Hb). eapply defect_not_accepted; eauto.
    eapply (co_bounds Hc); eauto.
  - destruct Hd as (d & e' & s & Hk & Hs & Es & Hb). eapply defect_not_accepted; eauto.
    eapply (co_bounds Hc); eauto.
  - apply twice_not_NoDup in Hd. apply Hd. destruct t; apply Hc.
  - destruct Hd as (d & e' & s & Hk & Hs & Es & Hb). eapply defect_not_accepted; eauto.
    eapply (co_bounds Hc); eauto.
  - destruct Hd as [(f & l & r & Hf & Ha & Hr & Hs & Hn)|(k & s & Hk & Hs & Hn)]; apply Hn.
    + eapply (co_responses Hc); eauto.
    + eapply (co_combo Hc); eauto.
  - destruct Hd as (d & Hu & Ha). eapply (co_uris Hc); eauto.
  - destruct Hd as (Ht & En). eapply (co_tags Hc); eauto.
  - destruct Hd as (l & z & Hl & Hz & Hr). apply Hr. eapply (co_links Hc); eauto.
  - destruct Hd.
Qed.

(** ** Recording the tags of a schema *)

Section DsTagged.
  Variable TG : string -> option string.
  Variable ord : order.
  Hypothesis Hord : order_ok ord.
  Variables DS AS OS : Type.
  Notation ds := (ds DS AS OS).
  Notation ds_tagged := (@ds_tagged TG ord DS AS OS).
  Notation sub_tagged := (@sub_tagged TG ord DS AS OS).
  Notation ml_tagged := (ml_tagged TG ord).
  Notation info_tagged := (info_tagged TG ord).

  Lemma ml_tagged_In k v m :
    In (k, v) (ml_tagged m) -> exists k0, In (k0, v) m /\ k = retag TG k0.
  Proof.
    unfold ConvFacts.ml_tagged. intros H. apply In_mof in H.
    apply in_map_iff in H as ([k0 v0] & Ek & Hin). apply order_In in Hin; auto.
    simpl in Ek. inversion Ek; subst. eauto.
  Qed.

  Lemma ml_tagged_keys k m : In k (mkeys (ml_tagged m)) <-> exists k0, In k0 (mkeys m) /\ k = retag TG k0.
  Proof.
    unfold ConvFacts.ml_tagged. rewrite mkeys_mof, map_map. simpl. rewrite in_map_iff. split.
    - intros (kv & <- & Hin). apply order_In in Hin; auto. exists (fst kv). split; auto. apply in_map; auto.
    - intros (k0 & Hin & ->). unfold mkeys in Hin. apply in_map_iff in Hin as (kv & <- & Hin).
      exists kv. split; auto. apply order_In; auto.
  Qed.

  Lemma retag_parsed k : TG k <> None -> TG k = Some (retag TG k).
  Proof. unfold retag. destruct (TG k); congruence. Qed.

  Lemma ml_tagged_says adds m :
    (forall k, In k (mkeys m) -> TG k <> None) ->
    ml_declared Some adds m -> ml_declared TG adds (ml_tagged m).
  Proof.
    intros Ht [h1 h2 h3]. constructor.
    - apply msorted_mof.
    - intros k v Hk. destruct (h2 _ _ Hk) as (k0 & E0 & Hin). inversion E0; subst k0.
      exists (retag TG k). split; [apply retag_parsed; auto|]. apply ml_tagged_keys. eauto.
    - intros k' v Hin. apply ml_tagged_In in Hin as (k0 & Hin & ->).
      destruct (h3 _ _ Hin) as (k & E0 & Hk). inversion E0; subst k0.
      exists k. split; auto. apply retag_parsed, Ht. unfold mkeys. apply in_map_iff. exists (k, v); auto.
  Qed.

  Lemma oml_tagged_says adds o :
    (forall m k, o = Some m -> In k (mkeys m) -> TG k <> None) ->
    omatch (ml_declared Some) adds o -> omatch (ml_declared TG) adds (option_map ml_tagged o).
  Proof. intros Ht H. destruct H; constructor. apply ml_tagged_says; eauto. Qed.

  Lemma info_tagged_says p i :
    (forall k, info_tag i k -> TG k <> None) ->
    info_declared Some p i -> info_declared TG p (info_tagged i).
  Proof.
    intros Ht [h1 h2 h3 h4 h5]. constructor; simpl; auto; apply oml_tagged_says; auto;
      intros m k Em Hk; apply Ht; exists m; split; auto; unfold info_map; auto.
  Qed.

  Lemma omatch_tagged (R R' : list (dsop DS AS OS) -> ds -> Prop) q o :
    (forall q d, o = Some d -> R q d -> R' q (ds_tagged d)) ->
    omatch R q o -> omatch R' q (option_map ds_tagged o).
  Proof. intros H Ho. destruct Ho; constructor; auto. Qed.

  Lemma Forall2_tagged (R R' : list (dsop DS AS OS) -> ds -> Prop) qs l :
    (forall q d, In d l -> R q d -> R' q (ds_tagged d)) ->
    Forall2 R qs l -> Forall2 R' qs (map ds_tagged l).
  Proof. intros H F. induction F; simpl; constructor; simpl in *; auto. Qed.

  Lemma sub_tagged_declared (R R' : list (dsop DS AS OS) -> ds -> Prop) p s :
    (forall c q, In c (match s with Some s => sub_children s | None => [] end) -> R q c -> R' q (ds_tagged c)) ->
    sub_declared R p s -> sub_declared R' p (option_map sub_tagged s).
  Proof.
    intros H Hd. destruct Hd.
    assert (Ht : sub_tuple (option_map sub_tagged s) = map ds_tagged (sub_tuple s))
      by (destruct s as [[[[e|l]|] mn mx a| |n|n|[ps|] r a|t| ]|]; reflexivity).
    assert (He : sub_elem (option_map sub_tagged s) = option_map ds_tagged (sub_elem s))
      by (destruct s as [[[[e|l]|] mn mx a| |n|n|[ps|] r a|t| ]|]; reflexivity).
    assert (Hp : sub_props (option_map sub_tagged s) = mmap ds_tagged (sub_props s))
      by (destruct s as [[[[e|l]|] mn mx a| |n|n|[ps|] r a|t| ]|]; reflexivity).
    constructor;
      try (destruct s as [[[[e|l]|] mn mx a| |n|n|[ps|] r a|t| ]|]; assumption).
    - rewrite Ht. eapply Forall2_tagged; [|eassumption]. intros q d Hin. apply H.
      destruct s as [[[[e|l]|] mn mx a| |n|n|[ps|] r a|t| ]|]; simpl in *; tauto.
    - rewrite He. eapply omatch_tagged; [|eassumption]. intros q d Ed. apply H.
      destruct s as [[[[e|l]|] mn mx a| |n|n|[ps|] r a|t| ]|]; simpl in *; try discriminate.
      inversion Ed; auto.
    - rewrite Hp. destruct sd_props as [h1 h2]. split; [apply msorted_mmap; auto|].
      intros k. rewrite mlook_mmap. eapply omatch_tagged; [|apply h2]. intros q d Ed. apply H.
      apply mlook_Some_In in Ed.
      destruct s as [[[[e|l]|] mn mx a| |n|n|[ps|] r a|t| ]|]; simpl in *; try tauto.
      apply in_map_iff. exists (k, d); auto.
  Qed.

  Lemma ds_tagged_says (d : ds) : forall p,
    (forall k, ds_tag d k -> TG k <> None) ->
    ds_says Some p d -> ds_says TG p (ds_tagged d).
  Proof.
    induction d as [i m o s x IHo IHs] using ds_ind'. intros p Ht [H]. constructor.
    rewrite ds_tagged_eq. destruct H as [h1 h2 h3 h4 h5 h6 (cs & h7 & h7') h8 h9 h10 h11].
    constructor; simpl in *; auto.
    - apply info_tagged_says; auto. intros k Hk. apply Ht, ds_tag_or. auto.
    - exists (map ds_tagged cs). split; [|rewrite h7'; destruct cs; reflexivity].
      eapply Forall2_tagged; [|exact h7]. intros q d Hin Hq.
      assert (Eo : o = Some cs) by (destruct cs; [destruct Hin|auto]).
      eapply (IHo cs d); auto. intros k Hk. apply Ht, ds_tag_or. eauto 8.
    - eapply sub_tagged_declared; [|exact h11]. intros c q Hin Hq.
      destruct s as [s'|]; [|destruct Hin].
      eapply (IHs s' c); auto. intros k Hk. apply Ht, ds_tag_or. eauto 8.
  Qed.

  (** ** Nested schemas of a schema with recorded tags *)

  Lemma children_tagged (d : ds) : ds_children (ds_tagged d) = map ds_tagged (ds_children d).
  Proof.
    destruct d as [i m o s x]. rewrite ds_tagged_eq. unfold ds_children. simpl. rewrite map_app. f_equal.
    - destruct o; reflexivity.
    - destruct s as [[[[e|l]|] mn mx a| |n|n|[ps|] r a|t| ]|]; simpl; auto.
      unfold mmap. rewrite !map_map. reflexivity.
  Qed.

  Lemma sub_tagged_inv (d : ds) : forall e', sub_ds e' (ds_tagged d) -> exists e, sub_ds e d /\ e' = ds_tagged e.
  Proof.
    induction d as [i m o s x IHo IHs] using ds_ind'. intros e' He.
    apply sub_inv in He as [->|(c & Hc & He)]; [exists (mkDs i m o s x); split; auto; constructor|].
    rewrite children_tagged in Hc. apply in_map_iff in Hc as (c0 & <- & Hc).
    assert (exists e, sub_ds e c0 /\ e' = ds_tagged e) as (e & Hs & ->).
    { unfold ds_children in Hc. simpl in Hc. apply in_app_or in Hc as [Hc|Hc].
      - destruct o as [l|]; [|destruct Hc]. eapply (IHo l); eauto.
      - destruct s as [s'|]; [|destruct Hc]. eapply (IHs s'); eauto. }
    exists e. split; auto. eapply sub_child; eauto.
  Qed.

  Lemma accepted_tagged s : accepted_bounds (sub_tagged s) <-> accepted_bounds s.
  Proof. destruct s as [[[e|l]|] mn mx a| |n|n|[ps|] r a|t| ]; reflexivity. Qed.

  Lemma all_accepted_tagged (d : ds) : all_accepted d -> all_accepted (ds_tagged d).
  Proof.
    intros H e' s' He Es. apply sub_tagged_inv in He as (e & He & ->).
    destruct e as [i m o s x] eqn:Ee. rewrite ds_tagged_eq in Es. simpl in Es.
    destruct s as [s|]; [|discriminate]. inversion Es; subst. apply accepted_tagged. eapply H; eauto.
  Qed.

  Lemma aggregate_tagged (d : ds) : is_aggregate (ds_tagged d) -> is_aggregate d.
  Proof.
    destruct d as [i m o s x]. rewrite ds_tagged_eq. unfold is_aggregate. simpl.
    destruct s as [[[[e|l]|] mn mx a| |n|n|[ps|] r a|t| ]|]; simpl;
      intros [(i' & mn' & mx' & o' & H)|(p' & r' & o' & H)]; try discriminate;
      ((left; repeat eexists; fail) || (right; repeat eexists; fail)).
  Qed.

  Lemma info_map_tagged i m' : info_map (info_tagged i) m' -> exists m, info_map i m /\ m' = ml_tagged m.
  Proof.
    unfold info_map, ConvFacts.info_tagged. simpl. intros [H|H];
      [destruct (i_titles i) as [m|]|destruct (i_descriptions i) as [m|]]; inversion H; subst; eauto.
  Qed.

  Lemma ds_map_tagged (d : ds) m' : ds_map (ds_tagged d) m' -> exists m, ds_map d m /\ m' = ml_tagged m.
  Proof.
    intros (e' & He & Hm). apply sub_tagged_inv in He as (e & He & ->).
    destruct e as [i mi o s x] eqn:Ee. rewrite ds_tagged_eq in Hm. simpl in Hm.
    apply info_map_tagged in Hm as (m & Hm & ->). exists m. split; auto.
    exists e. subst e. auto.
  Qed.
End DsTagged.

Section Thing.
  Variable E : env.
  Variable X : exts.
  Notation dsx := (dsx X).
  Notation TG := (tag_parse E).
  Variable ord : order.
  Hypothesis Hord : order_ok ord.
  Notation ds_tagged := (@ds_tagged TG ord (pty (x_ds X)) (pty (x_as X)) (pty (x_os X))).
  Notation tags T := (forall t, T t -> TG t <> None).

  (** ** Success means consistency *)

  Lemma tbuild_judge (s : tstate E X) :
    tb_wf s -> judge (consistent (parsable E) (body_of s)) (defect E (body_of s)) (thing_of ord s) (tbuild ord s).
  Proof.
    intros Hwf. eapply judge_ext; [|apply tbuild_steps; auto].
    intros ((H1 & H1') & H2 & H3 & H4 & _ & H6 & H7 & (H8 & H8') & (H9 & H9') & (H10 & H10') & H11 & H12 & H13 & _).
    assert (Haff : forall k n i, affordance (body_of s) k n i ->
              ia_ok s k i /\ tags (ia_tag i)).
    { intros k n i Ha. destruct Ha as [n a Ha|n a Ha|n a Ha]; simpl in Ha;
        apply in_map_iff in Ha as ([n' u] & Eu & Hin); inversion Eu; subst; clear Eu.
      - destruct (H8' _ _ Hin) as (Hi & _ & Ht). split; [exact Hi|]. intros t Hta. apply Ht. left. exact Hta.
      - destruct (H9' _ _ Hin) as (Hi & _ & Ht). split; [exact Hi|]. intros t Hta. apply Ht. left. exact Hta.
      - destruct (H10' _ _ Hin) as (Hi & _ & Ht). split; [exact Hi|]. intros t Hta. apply Ht. left. exact Hta. }
    assert (Hforms : forall f, In f (y_forms (body_of s)) ->
              form_sec s f /\ (f_op f <> OpDefault /\ form_ops CtxThing f) /\ form_resp s f /\ True).
    { intros f Hf. simpl in Hf. destruct (tb_forms s) as [fs|]; [|destruct Hf]. eapply H4; eauto. }
    assert (Hat : forall c f, form_at (body_of s) c f -> form_sec s f /\ form_ops c f).
    { intros c f Hf. destruct Hf as [f Hf|k n i f Ha Hf].
      - apply Hforms in Hf. tauto.
      - apply Haff in Ha as [[Ha _] _]. apply Ha in Hf. tauto. }
    assert (Hthing : forall f, form_at (body_of s) CtxThing f -> In f (y_forms (body_of s))).
    { intros f Hf. inversion Hf as [f' Hf' Ec Ef|k n i f' Ha Hf' Ec Ef]; subst; auto. destruct k; discriminate. }
    assert (Hchk : forall d, checked_schema (body_of s) d -> all_accepted d /\ tags (ds_tag d)).
    { intros d Hd. destruct Hd as [n a Ha Ed|n a Ha Ed|n a Ha Ed|n a Ha Ed|n a Ha Ed|n a Ha Ed]; simpl in Ha;
        apply in_map_iff in Ha as ([n' u] & Eu & Hin); inversion Eu; subst; clear Eu; simpl in *.
      - destruct (H8' _ _ Hin) as (_ & Hd & Ht). split; [apply Hd; auto|].
        intros t Hta. apply Ht. right. exact Hta.
      - destruct (H9' _ _ Hin) as (_ & Hd & Ht). split; [apply Hd; auto|].
        intros t Hta. apply Ht. right. left. exists d. auto.
      - destruct (H9' _ _ Hin) as (_ & Hd & Ht). split; [apply Hd; auto|].
        intros t Hta. apply Ht. right. right. exists d. auto.
      - destruct (H10' _ _ Hin) as (_ & Hd & Ht). split; [apply Hd; auto|].
        intros t Hta. apply Ht. right. left. exists d. auto.
      - destruct (H10' _ _ Hin) as (_ & Hd & Ht). split; [apply Hd; auto|].
        intros t Hta. apply Ht. right. right. left. exists d. auto.
      - destruct (H10' _ _ Hin) as (_ & Hd & Ht). split; [apply Hd; auto 6|].
        intros t Hta. apply Ht. right. right. right. left. exists d. auto. }
    assert (Huri : forall d, uri_variable (body_of s) d -> ~ is_aggregate d /\ tags (ds_tag d)).
    { intros d Hd. destruct Hd as [n Hin|k m i n Ha Hin].
      - split; [eapply H6; eauto|]. intros t Ht. simpl in Hin. destruct (tb_uri s) as [m|]; [|destruct Hin].
        eapply H7; eauto. exists n, d. auto.
      - apply Haff in Ha as [[_ Ha] Ht]. split; [eapply Ha; eauto|]. intros t Htd. apply Ht. right.
        exists n, d. auto. }
    assert (Hall : forall d, schema_in (body_of s) d -> tags (ds_tag d)).
    { intros d Hd. destruct Hd as [Hd|n a Ha Ed|Hd|n Hd].
      - apply Hchk; auto.
      - simpl in Ha. apply in_map_iff in Ha as ([n' u] & Eu & Hin). inversion Eu; subst; clear Eu. simpl in *.
        destruct (H10' _ _ Hin) as (_ & _ & Ht). intros t Hta. apply Ht. right. right. right. right. exists d. auto.
      - apply Huri; auto.
      - intros t Ht. apply H3. exists n, d. auto. }
    constructor; auto.
    - intros c f l n Hf. apply Hat in Hf as [Hf _]. apply Hf.
    - intros f Hf. apply Hthing, Hforms in Hf. tauto.
    - intros c f l o Hf. apply Hat in Hf as [_ Hf]. apply Hf.
    - intros f l r n Hf. apply Hthing, Hforms in Hf. apply Hf.
    - intros d Hd. apply Huri; auto.
    - simpl. rewrite map_fst_named. auto.
    - simpl. rewrite map_fst_named. auto.
    - simpl. rewrite map_fst_named. auto.
    - intros d Hd. apply Hchk; auto.
    - intros t Ht. destruct Ht as [m Hm Ht|l hs Hl Eh Ht].
      + destruct Hm as [Em|Em|n c Hc Em|k n i Ha Hi|d Hd Hm].
        * simpl in Em. destruct (tb_titles s) as [m'|]; simpl in Em; subst m; [|destruct Ht].
          apply (H12 m' eq_refl); auto.
        * simpl in Em. destruct (tb_descriptions s) as [m'|]; simpl in Em; subst m; [|destruct Ht].
          apply (H13 m' eq_refl); auto.
        * apply (H1' _ _ Hc). exists m. auto.
        * apply Haff in Ha as [_ Ha]. apply Ha. left. exists m. auto.
        * eapply Hall; eauto. exists m. auto.
      + simpl in Hl. apply in_map_iff in Hl as (lb & <- & Hl).
        destruct (tb_links s) as [ls|]; [|destruct Hl]. apply (H11 _ eq_refl _ Hl). exists hs. auto.
    - intros l z Hl Ez. simpl in Hl. apply in_map_iff in Hl as (lb & <- & Hl).
      destruct (tb_links s) as [ls|]; [|destruct Hl]. eapply (H11 _ eq_refl _ Hl); eauto.
  Qed.

  (** ** What the built Thing holds *)

  Lemma map_says_tagged (adds : list (string * list (dsop (pty (x_ds X)) (pty (x_as X)) (pty (x_os X))))) m :
    tags (@uri_tag X m) ->
    map_says (@ds_says _ _ _ Some) adds m -> map_says (@ds_says _ _ _ TG) adds (mmap ds_tagged m).
  Proof.
    intros Ht [h1 h2]. split; [apply msorted_mmap; auto|]. intros k. rewrite mlook_mmap.
    specialize (h2 k). inversion h2 as [e1 e2|q d Hd e1 e2]; simpl; constructor.
    apply ds_tagged_says; auto. intros t Htd. apply Ht. exists k, d. split; auto.
    apply mlook_Some_In. auto.
  Qed.

  Lemma omap_says_tagged (adds : list (string * list (dsop (pty (x_ds X)) (pty (x_as X)) (pty (x_os X))))) m :
    tags (@uri_tag X (olist m)) ->
    omap_says (@ds_says _ _ _ Some) adds m -> omap_says (@ds_says _ _ _ TG) adds (option_map (mmap ds_tagged) m).
  Proof.
    intros Ht [h1 h2]. split.
    - replace (olist (option_map (mmap ds_tagged) m)) with (mmap ds_tagged (olist m)) by (destruct m; reflexivity).
      apply map_says_tagged; auto.
    - rewrite <- h2. destruct m; simpl; split; intros Hx; (discriminate Hx || reflexivity).
  Qed.

  Lemma ia_tagged_says x p (i : interaction X) :
    tags (ia_tag i) -> ia_says Some x p i -> ia_says TG x p (ia_tagged E ord i).
  Proof.
    intros Ht [h1 h2 h3]. constructor; simpl; auto. apply omap_says_tagged; auto.
    intros t Htd. apply Ht. right. auto.
  Qed.

  Lemma ods_tagged_says q (o : option dsx) :
    tags (ods_tag o) -> omatch (@ds_says _ _ _ Some) q o -> omatch (@ds_says _ _ _ TG) q (option_map ds_tagged o).
  Proof.
    intros Ht H. destruct H as [|q d Hd]; simpl; constructor. apply ds_tagged_says; auto.
    intros t Htd. apply Ht. exists d. auto.
  Qed.

  Lemma property_tagged_says c (a : property X) :
    tags (property_tag a) -> property_says Some c a -> property_says TG c (property_tagged E ord a).
  Proof.
    intros Ht [h1 h2 h3 h4 h5]. constructor; simpl; auto.
    - apply ia_tagged_says; auto. intros t Hta. apply Ht. left. auto.
    - apply ds_tagged_says; auto. intros t Hta. apply Ht. right. auto.
    - rewrite h3. destruct (pa_ds a). rewrite ds_tagged_eq. reflexivity.
  Qed.

  Lemma action_tagged_says c (a : action X) :
    tags (action_tag a) -> action_says Some c a -> action_says TG c (action_tagged E ord a).
  Proof.
    intros Ht [h1 h2 h3 h4 h5 h6 h7 h8]. constructor; simpl; auto.
    - apply ia_tagged_says; auto. intros t Hta. apply Ht. left. auto.
    - apply info_tagged_says; auto. intros t Hta. apply Ht. left. left. auto.
    - apply ods_tagged_says; auto. intros t Hta. apply Ht. right. left. auto.
    - apply ods_tagged_says; auto. intros t Hta. apply Ht. right. right. auto.
  Qed.

  Lemma event_tagged_says c (a : event X) :
    tags (event_tag a) -> event_says Some c a -> event_says TG c (event_tagged E ord a).
  Proof.
    intros Ht [h1 h2 h3 h4 h5 h6 h7]. unfold event_tag in Ht. constructor; simpl; auto.
    - apply ia_tagged_says; auto.
    - apply info_tagged_says; auto. intros t Hta. apply Ht. left. left. auto.
    - apply ods_tagged_says; auto.
    - apply ods_tagged_says; auto.
    - apply ods_tagged_says; auto 8.
    - apply ods_tagged_says; auto 8.
  Qed.

  Lemma link_tagged_says c l :
    tags (link_tag l) -> link_says Some c l -> link_says TG c (link_tagged E l).
  Proof.
    intros Ht [h1 h2 h3 h4 h5 (hs & h6 & h6')]. constructor; simpl; auto.
    exists (map (retag TG) hs). split; [|rewrite h6'; destruct hs; reflexivity].
    apply Forall2_map_r.
    assert (Hh : forall k, In k hs -> TG k <> None).
    { intros k Hk. apply Ht. exists hs. split; auto. rewrite h6'. destruct hs; [destruct Hk|reflexivity]. }
    clear -h6 Hh. induction h6 as [|k k' l l' Ek _ IH]; constructor; simpl in *; auto.
    inversion Ek; subst. apply retag_parsed. auto.
  Qed.

  Lemma sec_tagged_says c n b (sc : security_scheme) :
    tags (sec_tag sc) -> sec_says Some c (n, b, sc) -> sec_says TG c (n, b, sec_tagged E ord sc).
  Proof.
    intros Ht [h1 h2 h3 h4 h5 h6]. constructor; simpl in *; auto. apply oml_tagged_says; auto.
    intros m k Em Hk. apply Ht. exists m. auto.
  Qed.

  (** Maps collected from calls with distinct names. *)
  Lemma named_keys P A (R : P -> A -> Prop) l l' : Forall2 (named R) l l' -> map fst l = map fst l'.
  Proof. intros F. induction F as [|a b l l' [e _] _ IH]; simpl; congruence. Qed.

  Lemma named_look P A (R : P -> A -> Prop) l l' k :
    Forall2 (named R) l l' -> omatch R (llook k l) (llook k l').
  Proof.
    intros F. induction F as [|[k1 a] [k2 b] l l' [e H] _ IH]; simpl; [constructor|].
    simpl in e. subst k2. destruct IH; [|constructor; auto].
    destruct (String.eqb k k1); constructor; auto.
  Qed.

  Lemma llook_named A B (f : A -> B) l k : llook k (map (named_of f) l) = option_map f (llook k l).
  Proof.
    induction l as [|[k' a] l IH]; simpl; auto. rewrite IH. destruct (llook k l); simpl; auto.
    destruct (String.eqb k k'); auto.
  Qed.

  Lemma mof_nil_iff A (l : list (string * A)) : mof l = [] <-> l = [].
  Proof.
    split; intros H; [|subst; reflexivity]. destruct l as [|[k v] l]; auto. exfalso.
    assert (Hin : In k (mkeys (mof ((k, v) :: l)))) by (apply mkeys_mof; simpl; auto).
    rewrite H in Hin. destruct Hin.
  Qed.

  Lemma the_map_says P A B (R : P -> B -> Prop) (g : A -> B) adds (l : list (string * A)) :
    Forall2 (named (fun c a => R c (g a))) adds l -> omap_says R adds (the_map g l).
  Proof.
    intros F. split.
    - replace (olist (the_map g l)) with (mof (map (named_of g) l)) by (destruct l; reflexivity).
      split; [apply msorted_mof|]. intros k. rewrite mlook_mof, llook_named.
      destruct (named_look k F); constructor; auto.
    - destruct F; simpl; split; intros H0; (discriminate H0 || reflexivity).
  Qed.

  Lemma Forall2_In_mono A B (R R' : A -> B -> Prop) l l' :
    (forall a b, In b l' -> R a b -> R' a b) -> Forall2 R l l' -> Forall2 R' l l'.
  Proof. intros H F. induction F; constructor; simpl in *; auto. Qed.

  Lemma context_value_says (c : string + list (string * string)) :
    context_is c (context_json ord (context_call c)).
  Proof.
    destruct c as [t|l]; simpl; constructor. split; [apply msorted_mof|].
    intros k. rewrite mof_order by (auto; apply msorted_mof).
    rewrite mlook_mmap, mlook_mof. destruct (llook k l); constructor; auto.
  Qed.

  (** What the built Thing holds is what was declared. *)
  Lemma thing_of_says title x p (s : tstate E X) :
    tb_says title x p s -> consistent (parsable E) (body_of s) -> thing_says title x p (thing_of ord s).
  Proof.
    intros Hs Hc.
    pose proof (co_tags Hc) as Htags.
    destruct Hs as [h1 h2 h3 h4 h5 h6 h7 h8 h9 h10 h11 h12 h13 h14 h15 h16 h17 h18 h19 h20 h21 h22].
    assert (Hia : forall k n i, affordance (body_of s) k n i -> tags (ia_tag i)).
    { intros k n i Ha t Ht. apply Htags. eapply uri_tag_in; eauto. }
    assert (Hchk : forall d, schema_in (body_of s) d -> tags (ds_tag d)).
    { intros d Hd t (m & Hm & Ht). apply Htags. eapply tag_map; [eapply lm_schema|]; eauto. }
    constructor; simpl; auto.
    - unfold context_says, the_context. rewrite h1.
      destruct (picks (@t_of_context E X) p) as [|c cs]; [reflexivity|]. simpl map.
      exists (map (fun c => context_json ord (context_call c)) (c :: cs)). split.
      + apply Forall2_map_r. generalize (c :: cs). intros l. induction l; constructor; auto.
        apply context_value_says.
      + simpl. rewrite map_map. reflexivity.
    - apply oml_tagged_says; auto. intros m k Em Hk. apply Htags.
      eapply tag_map; [apply lm_title|eauto]. simpl. rewrite Em. auto.
    - apply oml_tagged_says; auto. intros m k Em Hk. apply Htags.
      eapply tag_map; [apply lm_description|eauto]. simpl. rewrite Em. auto.
    - apply the_map_says. eapply Forall2_In_mono; [|exact h13]. intros [n c] [n' u] Hin [e [Hp _]].
      simpl in *. split; auto. simpl. apply property_tagged_says; auto.
      apply aff_p in Hin. intros t [Ht|Ht].
      + apply (Hia _ _ _ (aff_property _ _ _ Hin)). auto.
      + apply (Hchk (up_ds u)); auto. apply in_checked. eapply chk_property; eauto.
    - apply the_map_says. eapply Forall2_In_mono; [|exact h14]. intros [n c] [n' u] Hin [e [Hp _]].
      simpl in *. split; auto. simpl. apply action_tagged_says; auto.
      apply aff_a in Hin. intros t [Ht|[(d & Ed & Ht)|(d & Ed & Ht)]].
      + apply (Hia _ _ _ (aff_action _ _ _ Hin)). auto.
      + apply (Hchk d); auto. apply in_checked. eapply chk_input; eauto.
      + apply (Hchk d); auto. apply in_checked. eapply chk_output; eauto.
    - apply the_map_says. eapply Forall2_In_mono; [|exact h15]. intros [n c] [n' u] Hin [e [Hp _]].
      simpl in *. split; auto. simpl. apply event_tagged_says; auto.
      apply aff_e in Hin. intros t [Ht|[(d & Ed & Ht)|[(d & Ed & Ht)|[(d & Ed & Ht)|(d & Ed & Ht)]]]].
      + apply (Hia _ _ _ (aff_event _ _ _ Hin)). auto.
      + apply (Hchk d); auto. apply in_checked. eapply chk_subscription; eauto.
      + apply (Hchk d); auto. apply in_checked. eapply chk_data; eauto.
      + apply (Hchk d); auto. apply in_checked. eapply chk_cancellation; eauto.
      + apply (Hchk d); auto. eapply in_response; eauto.
    - destruct h16 as (ls & Hls & El). exists (map (fun l => link_tagged E (link_of l)) ls). split.
      + apply Forall2_map_r. eapply Forall2_In_mono; [|exact Hls]. intros c l Hin [Hl _].
        apply link_tagged_says; auto. intros t (hs & Eh & Ht). apply Htags.
        eapply tag_link; eauto. simpl. apply in_map. rewrite El, olist_nonempty. auto.
      + rewrite El, nonempty_map. reflexivity.
    - destruct h19 as (rs & Hrs & E1 & E2).
      exists (map (fun r => (fst r, sec_tagged E ord (snd r))) rs).
      assert (Hkeys : map (fun r : string * bool * security_scheme => fst (fst r))
                        (map (fun r => (fst r, sec_tagged E ord (snd r))) rs) = secnames (body_of s)).
      { unfold secnames. simpl. rewrite E2, !map_map. reflexivity. }
      split; [|split; [|split; [|split]]].
      + apply Forall2_map_r. eapply Forall2_In_mono; [|exact Hrs]. intros c [[n b] sc] Hin Hr. simpl.
        apply sec_tagged_says; auto. intros t (m & Em & Ht). apply Htags.
        eapply tag_map; [eapply lm_security|]; eauto. simpl. rewrite E2. apply in_map_iff.
        exists (n, b, sc). eauto.
      + rewrite E1. clear. induction rs as [|[[n b] sc] rs IH]; simpl; auto. destruct b; simpl; congruence.
      + rewrite Hkeys. apply (co_secdefs Hc).
      + apply msorted_mof.
      + intros k sc. unfold the_defs. rewrite In_mof_iff by (rewrite map_fst_named; apply (co_secdefs Hc)).
        rewrite E2, !map_map. simpl. reflexivity.
    - destruct h18 as (m & [g1 g2 g3] & Em). rewrite Em. apply omap_says_tagged.
      + rewrite olist_nonempty. intros t (k & d & Hin & Ht). apply (Hchk d); auto. apply in_uri.
        eapply uri_thing. simpl. rewrite Em, olist_nonempty. eauto.
      + apply dsmap_olist. constructor; auto.
    - rewrite h20. reflexivity.
    - destruct h21 as [g1 g2 g3]. split.
      + rewrite olist_nonempty. apply map_says_tagged; auto.
        intros t (k & d & Hin & Ht). apply (Hchk d); auto. eapply in_definitions; eauto.
      + rewrite g3. unfold the_schemas. destruct (tb_schemas s); simpl; split; intros Hx; (discriminate Hx || reflexivity).
  Qed.

  (** ** The built Thing is consistent *)

  Section Transfer.
    Variable s : tstate E X.
    Hypothesis Hc : consistent (parsable E) (body_of s).
    Notation y := (body_of s).
    Notation y' := (thing_body (thing_of ord s)).

    Lemma olist_the_map A B (g : A -> B) l : olist (the_map g l) = mof (map (named_of g) l).
    Proof. destruct l; reflexivity. Qed.

    Lemma named_named A B C (f : A -> B) (g : B -> C) l :
      map (named_of g) (map (named_of f) l) = map (named_of (fun a => g (f a))) l.
    Proof. rewrite map_map. reflexivity. Qed.

    Lemma body_properties : y_properties y' = mof (map (named_of (property_tagged E ord)) (y_properties y)).
    Proof. simpl. rewrite olist_the_map, named_named. reflexivity. Qed.
    Lemma body_actions : y_actions y' = mof (map (named_of (action_tagged E ord)) (y_actions y)).
    Proof. simpl. rewrite olist_the_map, named_named. reflexivity. Qed.
    Lemma body_events : y_events y' = mof (map (named_of (event_tagged E ord)) (y_events y)).
    Proof. simpl. rewrite olist_the_map, named_named. reflexivity. Qed.
    Lemma body_schemas : y_schemas y' = mmap ds_tagged (y_schemas y).
    Proof. simpl. apply olist_nonempty. Qed.
    Lemma body_uris : y_uris y' = mmap ds_tagged (y_uris y).
    Proof. simpl. destruct (tb_uri s); reflexivity. Qed.
    Lemma body_links : y_links y' = map (link_tagged E) (y_links y).
    Proof. simpl. destruct (tb_links s); simpl; rewrite ?map_map; reflexivity. Qed.

    Lemma In_named_mof A B (g : A -> B) n b (l : list (string * A)) :
      In (n, b) (mof (map (named_of g) l)) -> exists a, In (n, a) l /\ b = g a.
    Proof.
      intros H. apply In_mof in H. apply in_map_iff in H as ([n' a] & Ea & Hin). inversion Ea; subst. eauto.
    Qed.

    Lemma keys_named_mof A B (g : A -> B) n (l : list (string * A)) :
      In n (map fst (mof (map (named_of g) l))) <-> In n (map fst l).
    Proof.
      change (map fst (mof (map (named_of g) l))) with (mkeys (mof (map (named_of g) l))).
      rewrite mkeys_mof, map_fst_named. reflexivity.
    Qed.

    Lemma In_mmap A B (g : A -> B) n b (m : amap A) : In (n, b) (mmap g m) -> exists a, In (n, a) m /\ b = g a.
    Proof. intros H. apply in_map_iff in H as ([n' a] & Ea & Hin). inversion Ea; subst. eauto. Qed.

    Lemma secnames_iff n : In n (secnames y') <-> In n (secnames y).
    Proof. apply keys_named_mof. Qed.

    Lemma NoDup_mof A (l : list (string * A)) : NoDup (map fst (mof l)).
    Proof. apply (msorted_NoDup (mof l)), msorted_mof. Qed.

    Lemma affordance_inv k n i' :
      affordance y' k n i' -> exists i, affordance y k n i /\ i' = ia_tagged E ord i.
    Proof.
      intros Ha. destruct Ha as [n a Ha|n a Ha|n a Ha].
      - rewrite body_properties in Ha. apply In_named_mof in Ha as (a0 & Ha & ->).
        exists (pa_ia a0). split; auto. constructor; auto.
      - rewrite body_actions in Ha. apply In_named_mof in Ha as (a0 & Ha & ->).
        exists (aa_ia a0). split; auto. constructor; auto.
      - rewrite body_events in Ha. apply In_named_mof in Ha as (a0 & Ha & ->).
        exists (ea_ia a0). split; auto. constructor; auto.
    Qed.

    Lemma form_at_inv c f : form_at y' c f -> form_at y c f.
    Proof.
      intros Hf. destruct Hf as [f Hf|k n i f Ha Hf]; [constructor; exact Hf|].
      apply affordance_inv in Ha as (i0 & Ha & ->). econstructor; eauto.
    Qed.

    Lemma uri_inv d' : uri_variable y' d' -> exists d, uri_variable y d /\ d' = ds_tagged d.
    Proof.
      intros Hd. destruct Hd as [n Hin|k m i n Ha Hin].
      - rewrite body_uris in Hin. apply In_mmap in Hin as (d & Hin & ->). exists d. split; auto.
        eapply uri_thing; eauto.
      - apply affordance_inv in Ha as (i0 & Ha & ->). simpl in Hin.
        destruct (ia_uri i0) as [u|] eqn:Eu; [|destruct Hin]. simpl in Hin.
        apply In_mmap in Hin as (d & Hin & ->). exists d. split; auto.
        eapply uri_aff; eauto. rewrite Eu. eauto.
    Qed.

    Lemma omap_inv A B (g : A -> B) o b : option_map g o = Some b -> exists a, o = Some a /\ b = g a.
    Proof. destruct o; simpl; intros H; inversion H; eauto. Qed.

    Lemma checked_inv d' : checked_schema y' d' -> exists d, checked_schema y d /\ d' = ds_tagged d.
    Proof.
      intros Hd. destruct Hd as [n a Ha Ed|n a Ha Ed|n a Ha Ed|n a Ha Ed|n a Ha Ed|n a Ha Ed].
      - rewrite body_properties in Ha. apply In_named_mof in Ha as (a0 & Ha & ->).
        simpl in Ed. exists (pa_ds a0). split; auto. eapply chk_property; eauto.
      - rewrite body_actions in Ha. apply In_named_mof in Ha as (a0 & Ha & ->).
        apply omap_inv in Ed as (d & Ed & ->). exists d. split; auto. eapply chk_input; eauto.
      - rewrite body_actions in Ha. apply In_named_mof in Ha as (a0 & Ha & ->).
        apply omap_inv in Ed as (d & Ed & ->). exists d. split; auto. eapply chk_output; eauto.
      - rewrite body_events in Ha. apply In_named_mof in Ha as (a0 & Ha & ->).
        apply omap_inv in Ed as (d & Ed & ->). exists d. split; auto. eapply chk_subscription; eauto.
      - rewrite body_events in Ha. apply In_named_mof in Ha as (a0 & Ha & ->).
        apply omap_inv in Ed as (d & Ed & ->). exists d. split; auto. eapply chk_data; eauto.
      - rewrite body_events in Ha. apply In_named_mof in Ha as (a0 & Ha & ->).
        apply omap_inv in Ed as (d & Ed & ->). exists d. split; auto. eapply chk_cancellation; eauto.
    Qed.

    Lemma schema_inv d' : schema_in y' d' -> exists d, schema_in y d /\ d' = ds_tagged d.
    Proof.
      intros Hd. destruct Hd as [Hd|n a Ha Ed|Hd|n Hd].
      - apply checked_inv in Hd as (d & Hd & ->). exists d. split; auto. constructor; auto.
      - rewrite body_events in Ha. apply In_named_mof in Ha as (a0 & Ha & ->).
        apply omap_inv in Ed as (d & Ed & ->). exists d. split; auto. eapply in_response; eauto.
      - apply uri_inv in Hd as (d & Hd & ->). exists d. split; auto. apply in_uri; auto.
      - rewrite body_schemas in Hd. apply In_mmap in Hd as (d & Hd & ->). exists d. split; auto.
        eapply in_definitions; eauto.
    Qed.

    Lemma ml_tagged_nil : ml_tagged TG ord [] = [].
    Proof.
      unfold ml_tagged. pose proof (Hord (A := string) []) as H. apply Permutation_sym, Permutation_nil in H.
      rewrite H. reflexivity.
    Qed.

    Lemma lang_map_inv m' : lang_map_in y' m' -> exists m, lang_map_in y m /\ m' = ml_tagged TG ord m.
    Proof.
      intros Hm. destruct Hm as [Em|Em|n c Hn Em|k n i Ha Hi|d Hd Hm].
      - exists (y_titles y). split; [constructor; auto|]. subst m'. simpl.
        destruct (tb_titles s); simpl; rewrite ?ml_tagged_nil; auto.
      - exists (y_descriptions y). split; [apply lm_description; auto|]. subst m'. simpl.
        destruct (tb_descriptions s); simpl; rewrite ?ml_tagged_nil; auto.
      - apply In_named_mof in Hn as (c0 & Hn & ->). apply omap_inv in Em as (m & Em & ->).
        exists m. split; auto. eapply lm_security; eauto.
      - apply affordance_inv in Ha as (i0 & Ha & ->). apply info_map_tagged in Hi as (m & Hi & ->).
        exists m. split; auto. eapply lm_affordance; eauto.
      - apply schema_inv in Hd as (d0 & Hd & ->). apply ds_map_tagged in Hm as (m & Hm & ->).
        exists m. split; auto. eapply lm_schema; eauto.
    Qed.

    Lemma tag_inv t' : tag_in y' t' -> exists t, tag_in y t /\ t' = retag TG t.
    Proof.
      intros Ht. destruct Ht as [m' Hm Ht|l hs Hl Eh Ht].
      - apply lang_map_inv in Hm as (m & Hm & ->). apply ml_tagged_keys in Ht as (t & Ht & ->); auto.
        exists t. split; auto. eapply tag_map; eauto.
      - rewrite body_links in Hl. apply in_map_iff in Hl as (l0 & <- & Hl). simpl in Eh.
        apply omap_inv in Eh as (hs0 & Eh & ->). apply in_map_iff in Ht as (t & <- & Ht).
        exists t. split; auto. eapply tag_link; eauto.
    Qed.

    Lemma thing_consistent : consistent (parsed E) y'.
    Proof.
      constructor.
      - apply NoDup_mof.
      - intros k c n Hk Hcn. apply secnames_iff. apply In_named_mof in Hk as (c0 & Hk & ->).
        eapply (co_combo Hc); [exact Hk|exact Hcn].
      - intros c f l n Hf El Hin. apply secnames_iff. apply form_at_inv in Hf. eapply (co_security Hc); eauto.
      - intros f Hf. apply form_at_inv in Hf. apply (co_thing_ops Hc); auto.
      - intros c f l o Hf. apply form_at_inv in Hf. apply (co_ops Hc); auto.
      - intros f l r n Hf Ha Hr Er. apply form_at_inv in Hf. rewrite body_schemas.
        change (In n (mkeys (mmap ds_tagged (y_schemas y)))). rewrite mkeys_mmap.
        eapply (co_responses Hc); eauto.
      - intros d Hd. apply uri_inv in Hd as (d0 & Hd & ->). intros Ha. apply aggregate_tagged in Ha.
        eapply (co_uris Hc); eauto.
      - rewrite body_properties. apply NoDup_mof.
      - rewrite body_actions. apply NoDup_mof.
      - rewrite body_events. apply NoDup_mof.
      - intros d Hd. apply checked_inv in Hd as (d0 & Hd & ->). apply all_accepted_tagged.
        apply (co_bounds Hc); auto.
      - intros t' Ht. apply tag_inv in Ht as (t & Ht & ->). exists t. apply retag_parsed. apply (co_tags Hc); auto.
      - intros l z Hl Ez. rewrite body_links in Hl. apply in_map_iff in Hl as (l0 & <- & Hl). simpl in *.
        eapply (co_links Hc); eauto.
    Qed.
  End Transfer.

  (** ** Programs *)

  Theorem program_judge title x (p : list (top E X)) r :
    thing_program ord title x p = Some r ->
    exists s, tb_says title x p s /\
      judge (consistent (parsable E) (body_of s)) (defect E (body_of s)) (thing_of ord s) r.
  Proof.
    unfold thing_program. destruct (trun p _) as [s|] eqn:Er; [|discriminate]. simpl.
    intros Hr. inversion Hr; subst. apply trun_says in Er. exists s. split; auto.
    apply tbuild_judge. eapply tb_says_wf; eauto.
  Qed.
End Thing.
