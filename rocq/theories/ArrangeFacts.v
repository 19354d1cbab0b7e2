(** * The order of hash maps in documents *)

From Coq Require Import String Bool ZArith Lia Permutation List.
From Verif Require Import Base MinMax Json Serde Types DsBuilder HList Ser De Protocol Spec SpecSerde SpecExt SpecDoc SpecMember SpecTyped
  SpecText TextFacts RoundTripDs SpecShuffle ShuffleFacts SpecArrange SpecThing.
Import ListNotations.
Set Implicit Arguments.
Local Open Scope string_scope.
Local Open Scope list_scope.

(** ** Entries *)

Lemma sim_app_l a b b' : sim b b' -> sim (a ++ b) (a ++ b').
Proof.
  induction 1 as [es|x y z H1 IH1 H2 IH2|es1 kv kv' es2 Hr|es1 k v v' es2 H].
  - apply sim_refl.
  - eapply sim_trans; eauto.
  - rewrite !app_assoc. apply sim_swap. exact Hr.
  - rewrite !app_assoc. apply sim_member. exact H.
Qed.

Lemma sim_app_r a a' b : sim a a' -> sim (a ++ b) (a' ++ b).
Proof.
  induction 1 as [es|x y z H1 IH1 H2 IH2|es1 kv kv' es2 Hr|es1 k v v' es2 H].
  - apply sim_refl.
  - eapply sim_trans; eauto.
  - rewrite <- !app_assoc. apply sim_swap. exact Hr.
  - rewrite <- !app_assoc. apply (sim_member es1 k _ H).
Qed.

Lemma sim_app a a' b b' : sim a a' -> sim b b' -> sim (a ++ b) (a' ++ b').
Proof. intros H H'. eapply sim_trans; [apply sim_app_r, H|apply sim_app_l, H']. Qed.

Lemma sim_one k v v' : shuffled v v' -> sim [(k, v)] [(k, v')].
Proof. intros H. apply (sim_member [] k [] H). Qed.

Lemma sim_fld k v v' : shuffled v v' -> sim (fld k v) (fld k v').
Proof. apply sim_one. Qed.

Lemma sim_ofld A k (f : A -> json) R o o' : opt_rel R o o' -> (forall a a', o = Some a -> R a a' -> shuffled (f a) (f a')) ->
  sim (ofld k f o) (ofld k f o').
Proof. intros H Hf. destruct H as [|a a' H]; cbn; [apply sim_refl|apply sim_one, Hf; [reflexivity|exact H]]. Qed.

Lemma obj_shuffled es es' : sim es es' -> shuffled (mk_text es) (mk_text es').
Proof. apply sim_shuffled. Qed.

Lemma arr_shuffled l l' : Forall2 shuffled l l' -> shuffled (JArr l) (JArr l').
Proof.
  intros H. change (shuffled (JArr ([] ++ l)) (JArr ([] ++ l'))). generalize (@nil json).
  induction H as [|v v' l l' Hv Hl IH]; intros p; [apply sh_refl|].
  eapply sh_trans; [apply sh_item, Hv|].
  replace (p ++ v' :: l) with ((p ++ [v']) ++ l) by (rewrite <- app_assoc; reflexivity).
  replace (p ++ v' :: l') with ((p ++ [v']) ++ l') by (rewrite <- app_assoc; reflexivity). apply IH.
Qed.

Lemma list_shuffled A (f : A -> json) R l l' : Forall2 R l l' -> (forall a a', In a l -> R a a' -> shuffled (f a) (f a')) ->
  shuffled (JArr (map f l)) (JArr (map f l')).
Proof.
  intros H Hf. apply arr_shuffled. induction H as [|a a' l l' Ha Hl IH]; cbn; constructor.
  - apply Hf; [left; reflexivity|exact Ha].
  - apply IH. intros b b' Hb. apply Hf. right. exact Hb.
Qed.

(** ** Maps *)

Lemma perm_sim (es es' : entries) : Permutation es es' -> NoDup (map fst es) ->
  (forall k v, In (k, v) es -> ~ numeric v) -> sim es es'.
Proof.
  induction 1 as [|[k v] es es' H IH|[k v] [k' v'] es|es1 es2 es3 H1 IH1 H2 IH2]; intros Hn Hv.
  - apply sim_refl.
  - inversion Hn; subst. apply (@sim_app_l [(k, v)]). apply IH; [assumption|]. intros. eapply Hv. right. eassumption.
  - inversion Hn as [|? ? Hk Hn']; subst. apply (@sim_swap [] (k', v') (k, v) es). split; cbn.
    + intros ->. apply Hk. left. reflexivity.
    + intros _. split; [apply (Hv k'); left; reflexivity|apply (Hv k); right; left; reflexivity].
  - eapply sim_trans; [apply IH1; assumption|]. apply IH2.
    + eapply Permutation_NoDup; [apply Permutation_map, H1|exact Hn].
    + intros k v Hin. apply (Hv k). eapply Permutation_in; [apply Permutation_sym, H1|exact Hin].
Qed.

Definition entry_rel {A} (R : A -> A -> Prop) (kv kv' : string * A) : Prop := fst kv = fst kv' /\ R (snd kv) (snd kv').

Lemma entry_keys A R (m m' : amap A) : Forall2 (entry_rel R) m m' -> map fst m' = map fst m.
Proof. induction 1 as [|kv kv' m m' [H _] _ IH]; cbn; congruence. Qed.

Lemma values_sim A (f : A -> json) R (m m' : amap A) : Forall2 (entry_rel R) m m' ->
  (forall k a a', In (k, a) m -> R a a' -> shuffled (f a) (f a')) -> sim (mmap f m) (mmap f m').
Proof.
  induction 1 as [|[k a] [k' a'] m m' [Hk Ha] Hm IH]; intros H; [apply sim_refl|]. cbn in Hk, Ha. subst k'.
  apply (@sim_app [(k, f a)] [(k, f a')] (mmap f m) (mmap f m')).
  - apply sim_one, (H k); [left; reflexivity|exact Ha].
  - apply IH. intros k' b b' Hb. apply (H k'). right. exact Hb.
Qed.

Lemma map_shuffled A (f : A -> json) R (m m' : amap A) : map_rel R m m' -> msorted m ->
  (forall a, ~ numeric (f a)) -> (forall k a a', In (k, a) m -> R a a' -> shuffled (f a) (f a')) ->
  shuffled (s_map mk_text f m) (s_map mk_text f m').
Proof.
  intros [m1 H1 H2] Hm Hf H. apply obj_shuffled. eapply sim_trans; [apply (values_sim f H1 H)|]. apply perm_sim.
  - unfold mmap. apply Permutation_map, H2.
  - unfold mmap. rewrite map_map. cbn. change (NoDup (map fst m1)). rewrite (entry_keys H1). exact (msorted_NoDup _ Hm).
  - intros k v Hin. unfold mmap in Hin. apply in_map_iff in Hin as (kv & Q & _). injection Q as _ <-. apply Hf.
Qed.

Lemma lang_shuffled m m' : lang_rel m m' -> msorted m -> shuffled (s_multilang mk_text m) (s_multilang mk_text m').
Proof.
  intros H Hm. apply obj_shuffled, perm_sim.
  - unfold mmap. apply Permutation_map, H.
  - unfold mmap. rewrite map_map. exact (msorted_NoDup _ Hm).
  - intros k v Hin. unfold mmap in Hin. apply in_map_iff in Hin as (kv & Q & _). injection Q as _ <-. intros [].
Qed.

Section Order.
  Variable E : env.
  Variable X : exts.
  Variable T : xvalues X.

  Lemma info_sim i i' : info_rel i i' -> info_ok E i -> sim (info_es mk_text i) (info_es mk_text i').
  Proof.
    intros (R1 & R2 & R3 & R4 & R5) H. unfold info_es. rewrite R1, R2, R4.
    apply sim_app_l, sim_app_l. apply sim_app.
    - apply (sim_ofld _ _ R3). intros m m' Hm Hr. apply (lang_shuffled Hr). apply (H m). left. exact Hm.
    - apply sim_app_l. apply (sim_ofld _ _ R5). intros m m' Hm Hr. apply (lang_shuffled Hr). apply (H m). right. exact Hm.
  Qed.

  Lemma ds_sim (d : dsx X) : forall d', ds_rel d d' -> schema_typed E T d -> sim (ds_es mk_text d) (ds_es mk_text d').
  Proof.
    induction d as [i m o s x IHo IHs] using ds_ind'. intros d' Hr Hd.
    inversion Hr as [i0 i' m0 l0 l' s0 s' o0 Ri Rl Rs]; subst.
    pose proof (Hd _ (sub_self _)) as (Hi & _ & _ & _ & Hs & _). cbn [ds_info ds_sub] in Hi, Hs.
    rewrite !ds_es_eq. cbn [ds_info ds_misc ds_one_of ds_sub ds_other].
    apply sim_app; [apply (info_sim Ri Hi)|]. apply sim_app_l. apply sim_app.
    { apply (@sim_ofld _ "oneOf" (fun l => JArr (map (fun d => mk_text (ds_es mk_text d)) l)) _ _ _ Rl).
      intros l l1 El Hl. apply (@list_shuffled _ (fun d => mk_text (ds_es mk_text d)) _ _ _ Hl). intros c c' Hc Rc. apply obj_shuffled.
      apply (IHo l c El Hc _ Rc). intros e He. apply Hd. eapply sub_one_of; [exact El|exact Hc|exact He]. }
    apply sim_app_l, sim_app_r. destruct Rs as [|s s' Rs]; [apply sim_refl|]. specialize (Hs s eq_refl).
    specialize (fun c => IHs s c eq_refl). cbn [subo_es].
    destruct Rs as [items items' mn mx a Rb|ps ps' r a Rp|s]; [| |apply sim_refl].
    - rewrite !sub_array_eq. apply sim_app_l, sim_app_r.
      apply (@sim_ofld _ "items" (@boxed_js X mk_text) _ _ _ Rb).
      intros b b' Ei Hb. subst items. destruct Hb as [c c' Rc|l l1 Rl1]; cbn [boxed_js sub_children] in *.
      + apply obj_shuffled. apply IHs; [left; reflexivity|exact Rc|]. intros e He. apply Hd. eapply sub_item; [reflexivity|exact He].
      + apply (@list_shuffled _ (fun d => mk_text (ds_es mk_text d)) _ _ _ Rl1). intros c c' Hc Rc. apply obj_shuffled.
        apply IHs; [exact Hc|exact Rc|]. intros e He. apply Hd. eapply sub_items; [reflexivity|exact Hc|exact He].
    - rewrite !sub_object_eq. apply sim_app_l, sim_app_r. cbn [subtype_typed] in Hs.
      apply (@sim_ofld _ "properties" (@s_dsmap X mk_text) _ _ _ Rp).
      intros m1 m2 Em Rm. subst ps. apply (map_shuffled (s_ds mk_text) Rm).
      + apply (proj1 Hs). reflexivity.
      + intros c [].
      + intros k c c' Hc Rc. apply obj_shuffled. apply IHs; [|exact Rc|].
        * cbn. apply in_map_iff. exists (k, c). split; [reflexivity|exact Hc].
        * intros e He. apply Hd. eapply sub_prop; [reflexivity|exact Hc|exact He].
  Qed.

  Lemma ds_shuffled (d d' : dsx X) : ds_rel d d' -> schema_typed E T d -> shuffled (s_ds mk_text d) (s_ds mk_text d').
  Proof. intros R H. apply obj_shuffled, (ds_sim R H). Qed.

  Lemma dso_sim k (o o' : option (dsx X)) : opt_rel (@ds_rel X) o o' -> (forall d, o = Some d -> schema_typed E T d) ->
    sim (ofld k (s_ds mk_text) o) (ofld k (s_ds mk_text) o').
  Proof. intros R H. apply (sim_ofld _ _ R). intros d d' Hd Rd. apply (ds_shuffled Rd). apply H, Hd. Qed.

  Lemma dsmap_shuffled (m m' : amap (dsx X)) : map_rel (@ds_rel X) m m' -> schemas_typed E T m ->
    shuffled (s_dsmap mk_text m) (s_dsmap mk_text m').
  Proof.
    intros R [H1 H2]. apply (map_shuffled (s_ds mk_text) R); [exact H1|intros c []|].
    intros k c c' Hc Rc. apply (ds_shuffled Rc). exact (H2 k c Hc).
  Qed.

  Lemma dsmapo_sim k (o o' : option (amap (dsx X))) : opt_rel (map_rel (@ds_rel X)) o o' ->
    (forall m, o = Some m -> schemas_typed E T m) -> sim (ofld k (s_dsmap mk_text) o) (ofld k (s_dsmap mk_text) o').
  Proof. intros R H. apply (sim_ofld _ _ R). intros m m' Hm Rm. apply (dsmap_shuffled Rm). apply H, Hm. Qed.

  Lemma interaction_sim (i i' : interaction X) : interaction_rel i i' -> interaction_typed E T i ->
    sim (interaction_es mk_text i) (interaction_es mk_text i').
  Proof.
    intros (R1 & R2 & R3 & R4) (H1 & _ & H3 & _). unfold interaction_es. rewrite R2, R4.
    apply sim_app; [apply (info_sim R1 H1)|]. apply sim_app_l, sim_app_r. apply (dsmapo_sim _ R3 H3).
  Qed.

  Lemma property_shuffled (p p' : property X) : property_rel p p' -> property_typed E T p ->
    shuffled (s_property mk_text p) (s_property mk_text p').
  Proof.
    intros (R1 & R2 & R3 & R4) (H1 & H2 & _). apply obj_shuffled. unfold property_es. rewrite R3, R4.
    apply sim_app; [apply (interaction_sim R1 H1)|]. apply sim_app_r. apply (ds_sim R2 H2).
  Qed.

  Lemma action_shuffled (a a' : action X) : action_rel a a' -> action_typed E T a ->
    shuffled (s_action mk_text a) (s_action mk_text a').
  Proof.
    intros (R1 & R2 & R3 & R4 & R5 & R6 & R7) (H1 & H2 & H3 & _). apply obj_shuffled. unfold action_es. rewrite R4, R5, R6, R7.
    apply sim_app; [apply (interaction_sim R1 H1)|].
    apply sim_app; [apply (dso_sim _ R2 H2)|]. apply sim_app_r. apply (dso_sim _ R3 H3).
  Qed.

  Lemma event_shuffled (e e' : event X) : event_rel e e' -> event_typed E T e ->
    shuffled (s_event mk_text e) (s_event mk_text e').
  Proof.
    intros (R1 & R2 & R3 & R4 & R5 & R6) (H1 & H2 & H3 & H4 & H5 & _). apply obj_shuffled. unfold event_es. rewrite R6.
    apply sim_app; [apply (interaction_sim R1 H1)|].
    apply sim_app; [apply (dso_sim _ R2 H2)|]. apply sim_app; [apply (dso_sim _ R3 H3)|].
    apply sim_app; [apply (dso_sim _ R4 H4)|]. apply sim_app_r. apply (dso_sim _ R5 H5).
  Qed.

  (** ** Security definitions *)

  (** Both fail, or both results are related *)
  Definition both {A} (R : A -> A -> Prop) (o o' : option A) : Prop :=
    match o, o' with Some a, Some a' => R a a' | None, None => True | _, _ => False end.

  Lemma security_both s s' : security_rel s s' -> security_typed E s ->
    both shuffled (s_security mk_text s) (s_security mk_text s').
  Proof.
    intros (R1 & R2 & R3 & R4 & R5) [H _]. unfold s_security, security_es. rewrite R1, R2, R4, R5.
    destruct (subtype_es mk_text (ss_subtype s)) as [sub|]; [|exact I]. cbn [obind option_map both].
    apply obj_shuffled. apply sim_app_l, sim_app_l, sim_app_r. apply (sim_ofld _ _ R3).
    intros m m' Hm Rm. apply (lang_shuffled Rm). apply H, Hm.
  Qed.

  Definition sec_entry (kv : string * security_scheme) : option (string * json) :=
    option_map (fun j => (fst kv, j)) (s_security mk_text (snd kv)).

  Lemma entries_perm (m m' : list (string * security_scheme)) : Permutation m m' ->
    both (@Permutation _) (omap_all sec_entry m) (omap_all sec_entry m').
  Proof.
    induction 1 as [|a m m' H IH|a b m|m1 m2 m3 H1 IH1 H2 IH2]; cbn [omap_all].
    - constructor.
    - destruct (sec_entry a); [|exact I]. destruct (omap_all _ m), (omap_all _ m'); cbn in *; try contradiction; [|exact I].
      constructor. exact IH.
    - destruct (sec_entry a), (sec_entry b); cbn; try exact I; destruct (omap_all _ m); cbn; try exact I. constructor.
    - destruct (omap_all _ m1), (omap_all _ m2), (omap_all _ m3); cbn in *; try contradiction; try exact I.
      eapply perm_trans; eauto.
  Qed.

  Lemma entries_keys m es : omap_all sec_entry m = Some es -> map fst es = map fst m.
  Proof.
    revert es. induction m as [|[k s] m IH]; cbn [omap_all]; intros es H; [injection H as <-; reflexivity|].
    unfold sec_entry in H at 1. cbn [fst snd] in H. destruct (s_security mk_text s) as [j|]; [|discriminate]. cbn [option_map obind] in H.
    destruct (omap_all sec_entry m) as [es'|]; [|discriminate]. injection H as <-. cbn. f_equal. apply IH. reflexivity.
  Qed.

  Lemma entries_objects m es : omap_all sec_entry m = Some es -> forall k v, In (k, v) es -> ~ numeric v.
  Proof.
    revert es. induction m as [|[k s] m IH]; cbn [omap_all]; intros es H; [injection H as <-; intros ? ? []|].
    unfold sec_entry in H at 1. cbn [fst snd] in H. unfold s_security in H at 1.
    destruct (security_es mk_text s) as [e|]; [|discriminate]. cbn [option_map obind] in H.
    destruct (omap_all sec_entry m) as [es'|]; [|discriminate]. injection H as <-.
    intros k' v [Q|Q]; [injection Q as _ <-; intros []|]. eapply IH; [reflexivity|exact Q].
  Qed.

  Lemma entries_values m m' : Forall2 (entry_rel security_rel) m m' -> (forall k s, In (k, s) m -> security_typed E s) ->
    both sim (omap_all sec_entry m) (omap_all sec_entry m').
  Proof.
    induction 1 as [|[k s] [k' s'] m m' [Hk Rs] Hm IH]; intros H; cbn [omap_all]; [apply sim_refl|]. cbn in Hk, Rs. subst k'.
    assert (Hs := security_both Rs (H k s (or_introl eq_refl))). unfold sec_entry at 1 3. cbn [fst snd].
    destruct (s_security mk_text s) as [j|], (s_security mk_text s') as [j'|]; cbn in Hs; try contradiction; [|exact I].
    cbn [option_map obind]. specialize (IH (fun k s h => H k s (or_intror h))).
    destruct (omap_all sec_entry m) as [es|], (omap_all sec_entry m') as [es'|]; cbn in IH; try contradiction; [|exact I].
    cbn. apply (@sim_app [(k, j)] [(k, j')] es es'); [apply sim_one, Hs|exact IH].
  Qed.

  Lemma secdefs_both m m' : map_rel security_rel m m' -> map_ok (security_typed E) m ->
    both shuffled (s_secdefs mk_text m) (s_secdefs mk_text m').
  Proof.
    intros [m1 R1 R2] [H1 H2]. unfold s_secdefs.
    change (fun kv => option_map (fun j => (fst kv, j)) (s_security mk_text (snd kv))) with sec_entry.
    assert (HA := entries_values R1 H2). assert (HB := entries_perm R2).
    destruct (omap_all sec_entry m) as [es|] eqn:E1, (omap_all sec_entry m1) as [es'|] eqn:E2; cbn in HA; try contradiction;
      destruct (omap_all sec_entry m') as [es''|] eqn:E3; cbn in HB; try contradiction; [|exact I].
    cbn. apply obj_shuffled. eapply sim_trans; [exact HA|]. apply perm_sim; [exact HB| |eapply entries_objects; eauto].
    rewrite (entries_keys _ E2), (entry_keys R1). exact (msorted_NoDup _ H1).
  Qed.

  (** ** Things *)

  Lemma thing_both (t t' : thing E X) : rearranged t t' -> thing_typed T t -> both shuffled (s_thing mk_text t) (s_thing mk_text t').
  Proof.
    intros R (_ & H2 & H3 & H4 & H5 & H6 & _ & _ & H9 & H10 & H11 & _). unfold s_thing, thing_es.
    rewrite (ra_context R), (ra_id R), (ra_attype R), (ra_title R), (ra_description R), (ra_version R), (ra_created R),
      (ra_modified R), (ra_support R), (ra_base R), (ra_links R), (ra_forms R), (ra_security R), (ra_profile R), (ra_other R).
    destruct (date_es E "created" (t_created t)) as [c|]; [|exact I].
    destruct (date_es E "modified" (t_modified t)) as [mo|]; [|exact I]. cbn [obind].
    assert (HS := secdefs_both (ra_secdefs R) H9).
    destruct (s_secdefs mk_text (t_secdefs t)) as [sd|], (s_secdefs mk_text (t_secdefs t')) as [sd'|];
      cbn in HS; try contradiction; [|exact I].
    cbn [obind option_map both]. apply obj_shuffled.
    do 4 apply sim_app_l.
    apply sim_app; [apply (sim_ofld _ _ (ra_titles R)); intros m m' Hm Rm; apply (lang_shuffled Rm); apply (H2 m Hm)|].
    apply sim_app_l.
    apply sim_app; [apply (sim_ofld _ _ (ra_descriptions R)); intros m m' Hm Rm; apply (lang_shuffled Rm); apply (H3 m Hm)|].
    do 5 apply sim_app_l.
    apply sim_app.
    { apply (sim_ofld _ _ (ra_properties R)). intros m m' Hm Rm. destruct (H4 m Hm) as [M1 M2].
      apply (map_shuffled (s_property mk_text) Rm); [exact M1|intros a []|].
      intros k p p' Hp Rp. apply (property_shuffled Rp). exact (M2 k p Hp). }
    apply sim_app.
    { apply (sim_ofld _ _ (ra_actions R)). intros m m' Hm Rm. destruct (H5 m Hm) as [M1 M2].
      apply (map_shuffled (s_action mk_text) Rm); [exact M1|intros a []|].
      intros k p p' Hp Rp. apply (action_shuffled Rp). exact (M2 k p Hp). }
    apply sim_app.
    { apply (sim_ofld _ _ (ra_events R)). intros m m' Hm Rm. destruct (H6 m Hm) as [M1 M2].
      apply (map_shuffled (s_event mk_text) Rm); [exact M1|intros a []|].
      intros k p p' Hp Rp. apply (event_shuffled Rp). exact (M2 k p Hp). }
    do 3 apply sim_app_l. apply sim_app; [apply sim_fld, HS|].
    apply sim_app; [apply (dsmapo_sim _ (ra_uri R) H10)|]. apply sim_app_l. apply sim_app_r.
    apply (dsmapo_sim _ (ra_schemas R) H11).
  Qed.
End Order.
