(** The result of a build does not depend on the order in which hash maps are visited. *)
From Coq Require Import String Bool ZArith Permutation Lia List.
From Verif Require Import Base MinMax Json Serde Types DsBuilder Builder Spec SpecCalls SpecThing
  DsFacts ConvFacts CheckFacts DsProgFacts ProgFacts SaysFacts BuildFacts ThingFacts.
Import ListNotations.
Set Implicit Arguments.
Local Open Scope string_scope.
Local Open Scope list_scope.

(** ** Independence of map order *)

Lemma mof_functional A (l l' : list (string * A)) :
  (forall k v v', In (k, v) l -> In (k, v') l -> v = v') -> Permutation l l' -> mof l = mof l'.
Proof.
  intros Hf Hp. apply mext; auto using msorted_mof. intros k. rewrite !mlook_mof.
  destruct (llook k l) as [v|] eqn:H1, (llook k l') as [v'|] eqn:H2; auto.
  - apply llook_In in H1. apply llook_In in H2. f_equal. apply (Hf k); auto.
    eapply Permutation_in; [apply Permutation_sym|]; eauto.
  - exfalso. apply llook_In in H1. apply llook_None in H2. apply H2. apply in_map_iff. exists (k, v). split; auto.
    eapply Permutation_in; eauto.
  - exfalso. apply llook_In in H2. apply llook_None in H1. apply H1. apply in_map_iff. exists (k, v'). split; auto.
    eapply Permutation_in; [apply Permutation_sym|]; eauto.
Qed.

Section Order.
  Variable E : env.
  Variable X : exts.
  Notation TG := (tag_parse E).
  Variables ord1 ord2 : order.
  Hypothesis Hord1 : order_ok ord1.
  Hypothesis Hord2 : order_ok ord2.

  (** Tags of the map that are recorded as the same tag have the same text. *)
  Definition no_clash (m : multilang) : Prop :=
    forall k v k' v', In (k, v) m -> In (k', v') m -> TG k = TG k' -> v = v'.

  Definition good_map (m : multilang) : Prop :=
    msorted m /\ no_clash m /\ forall k, In k (mkeys m) -> TG k <> None.

  Lemma ml_order m : good_map m -> ml_tagged TG ord1 m = ml_tagged TG ord2 m.
  Proof.
    intros (Hs & Hn & Ht). unfold ml_tagged. apply mof_functional.
    - intros k v v' H H'. apply in_map_iff in H as ([k1 v1] & E1 & H). apply in_map_iff in H' as ([k2 v2] & E2 & H').
      injection E1 as E1 <-. injection E2 as E2 <-. simpl in *.
      apply (Permutation_in _ (Hord1 m)) in H. apply (Permutation_in _ (Hord1 m)) in H'.
      apply (Hn _ _ _ _ H H').
      rewrite (retag_parsed TG k1), (retag_parsed TG k2); [congruence|apply Ht, (in_map fst _ _ H')|apply Ht, (in_map fst _ _ H)].
    - apply Permutation_map. eapply perm_trans; [apply Hord1|apply Permutation_sym, Hord2].
  Qed.

  Lemma oml_order o : (forall m, o = Some m -> good_map m) ->
    option_map (ml_tagged TG ord1) o = option_map (ml_tagged TG ord2) o.
  Proof. destruct o as [m|]; simpl; auto. intros H. rewrite ml_order; auto. Qed.

  Lemma info_order i : (forall m, info_map i m -> good_map m) -> info_tagged TG ord1 i = info_tagged TG ord2 i.
  Proof.
    intros H. unfold info_tagged. rewrite (@oml_order (i_titles i)), (@oml_order (i_descriptions i)); auto;
      intros m Em; apply H; unfold info_map; auto.
  Qed.

  Lemma ds_order DS AS OS (d : ds DS AS OS) :
    (forall m, ds_map d m -> good_map m) -> ds_tagged TG ord1 d = ds_tagged TG ord2 d.
  Proof.
    induction d as [i m o s x IHo IHs] using ds_ind'. intros H. rewrite !ds_tagged_eq.
    assert (Hch : forall c lm, In c (ds_children (mkDs i m o s x)) -> ds_map c lm -> good_map lm).
    { intros c lm Hc (e & He & Hi). apply H. exists e. split; auto. eapply sub_child; eauto. }
    f_equal.
    - apply info_order. intros lm Hm. apply H. exists (mkDs i m o s x). split; auto. constructor.
    - destruct o as [l|]; simpl; auto. f_equal. apply map_ext_in. intros c Hc.
      eapply IHo; eauto. intros lm. apply Hch. unfold ds_children. simpl. apply in_or_app; auto.
    - destruct s as [s'|]; simpl; auto. f_equal.
      assert (Hs : forall c, In c (sub_children s') -> ds_tagged TG ord1 c = ds_tagged TG ord2 c).
      { intros c Hc. eapply IHs; eauto. intros lm. apply Hch. unfold ds_children. simpl. apply in_or_app; auto. }
      destruct s' as [[[e|l]|] mn mx a| |n|n|[ps|] r a|t| ]; simpl in *; auto.
      + rewrite Hs; auto.
      + do 3 f_equal. apply map_ext_in. auto.
      + do 2 f_equal. unfold mmap. apply map_ext_in. intros [k c] Hc. f_equal. apply Hs.
        apply in_map_iff. exists (k, c); auto.
  Qed.

  Section State.
    Variable s : tstate E X.
    Variable title : string.
    Variable x : pty (x_t X).
    Variable p : list (top E X).
    Hypothesis Hsays : tb_says title x p s.
    Hypothesis Hwf : tb_wf s.
    Hypothesis Hc : consistent (parsable E) (body_of s).
    Hypothesis Hn : forall m, lang_map_in (body_of s) m -> no_clash m.

    Lemma good_maps m : lang_map_in (body_of s) m -> msorted m -> good_map m.
    Proof.
      intros Hm Hs. split; [|split]; auto. intros k Hk. apply (co_tags Hc). eapply tag_map; eauto.
    Qed.

    Lemma ds_maps d : schema_in (body_of s) d -> ds_wf d -> forall m, ds_map d m -> good_map m.
    Proof.
      intros Hd Hw m Hm. apply good_maps; [eapply lm_schema; eauto|].
      destruct Hm as (e & He & Hi). destruct (Hw e He) as [[H1 H2] _]. destruct Hi; auto.
    Qed.

    Lemma uris_order (m : amap (dsx X)) :
      (forall k d, In (k, d) m -> schema_in (body_of s) d /\ ds_wf d) ->
      mmap (@ds_tagged TG ord1 (pty (x_ds X)) (pty (x_as X)) (pty (x_os X))) m
      = mmap (@ds_tagged TG ord2 (pty (x_ds X)) (pty (x_as X)) (pty (x_os X))) m.
    Proof.
      intros H. unfold mmap. apply map_ext_in. intros [k d] Hin. f_equal. apply ds_order.
      destruct (H _ _ Hin). apply ds_maps; auto.
    Qed.

    Lemma ods_order (o : option (dsx X)) :
      (forall d, o = Some d -> schema_in (body_of s) d) -> o_wf o ->
      option_map (@ds_tagged TG ord1 (pty (x_ds X)) (pty (x_as X)) (pty (x_os X))) o
      = option_map (@ds_tagged TG ord2 (pty (x_ds X)) (pty (x_as X)) (pty (x_os X))) o.
    Proof.
      destruct o as [d|]; simpl; auto. intros H Hw. f_equal. apply ds_order. apply ds_maps; auto.
    Qed.

    Lemma ia_order k n i (ib : ia_b X) :
      affordance (body_of s) k n (ia_of i ib) -> ib_wf ib -> info_wf i ->
      ia_tagged E ord1 (ia_of i ib) = ia_tagged E ord2 (ia_of i ib).
    Proof.
      intros Ha [Hs Hw] [Hi1 Hi2]. unfold ia_tagged. simpl. f_equal.
      - apply info_order. intros m Hm. apply good_maps; [eapply lm_affordance; eauto|].
        destruct Hm; auto.
      - destruct (ib_uri ib) as [|kv m] eqn:Eu; [reflexivity|]. simpl nonempty. simpl option_map. f_equal.
        apply (@uris_order (kv :: m)). intros k' d Hin. split; [|eapply Hw; eauto].
        apply in_uri. eapply uri_aff; eauto. simpl. rewrite Eu. simpl. eauto.
    Qed.

    Lemma the_map_order A B (f g : A -> B) l :
      (forall n a, In (n, a) l -> f a = g a) -> the_map f l = the_map g l.
    Proof.
      intros H. unfold the_map. destruct l as [|kv l]; [reflexivity|]. simpl nonempty. simpl option_map.
      do 2 f_equal. apply (@map_ext_in _ _ (named_of f) (named_of g) (kv :: l)).
      intros [n a] Hin. unfold named_of. simpl. f_equal. eauto.
    Qed.

    Lemma context_order (l : list (string + list (string * string))) :
      map (context_json ord1) (map context_call l) = map (context_json ord2) (map context_call l).
    Proof.
      rewrite !map_map. apply map_ext. intros [t|adds]; simpl; auto.
      rewrite !mof_order by (auto; apply msorted_mof). reflexivity.
    Qed.

    Lemma the_context_order : the_context ord1 s = the_context ord2 s.
    Proof.
      unfold the_context. rewrite (tbs_context Hsays).
      destruct (picks (@t_of_context E X) p) as [|c cs]; [reflexivity|].
      change (JArr (map (context_json ord1) (map context_call (inl TD_CONTEXT_11 :: c :: cs)))
              = JArr (map (context_json ord2) (map context_call (inl TD_CONTEXT_11 :: c :: cs)))).
      f_equal.
      apply (context_order (inl TD_CONTEXT_11 :: c :: cs)).
    Qed.

    Lemma titles_order :
      option_map (ml_tagged TG ord1) (tb_titles s) = option_map (ml_tagged TG ord2) (tb_titles s).
    Proof.
      apply oml_order. intros m Em. apply good_maps; [|eapply (tw_titles Hwf); eauto].
      apply lm_title. simpl. rewrite Em. auto.
    Qed.

    Lemma descriptions_order :
      option_map (ml_tagged TG ord1) (tb_descriptions s) = option_map (ml_tagged TG ord2) (tb_descriptions s).
    Proof.
      apply oml_order. intros m Em. apply good_maps; [|eapply (tw_descriptions Hwf); eauto].
      apply lm_description. simpl. rewrite Em. auto.
    Qed.

    Lemma properties_order :
      the_map (fun u => property_tagged E ord1 (property_of u)) (tb_properties s)
      = the_map (fun u => property_tagged E ord2 (property_of u)) (tb_properties s).
    Proof.
      apply the_map_order. intros n u Hin. destruct (tw_properties Hwf _ _ Hin) as [Hi Hd].
      apply aff_p in Hin. unfold property_tagged. f_equal.
      - apply (@ia_order AProperty n (ds_info (up_ds u)) (up_ia u)); auto.
        + apply (aff_property _ _ _ Hin).
        + apply (Hd (up_ds u)). constructor.
      - apply ds_order. apply ds_maps; auto. apply in_checked. eapply chk_property; eauto.
    Qed.

    Lemma actions_order :
      the_map (fun u => action_tagged E ord1 (action_of u)) (tb_actions s)
      = the_map (fun u => action_tagged E ord2 (action_of u)) (tb_actions s).
    Proof.
      apply the_map_order. intros n u Hin. destruct (tw_actions Hwf _ _ Hin) as (Hi & Hb & H1 & H2).
      apply aff_a in Hin. unfold action_tagged. f_equal.
      - apply (@ia_order AAction n (ab_info u) (ab_ia u)); auto. apply (aff_action _ _ _ Hin).
      - apply ods_order; auto. intros d Ed. apply in_checked. eapply chk_input; eauto.
      - apply ods_order; auto. intros d Ed. apply in_checked. eapply chk_output; eauto.
    Qed.

    Lemma events_order :
      the_map (fun u => event_tagged E ord1 (event_of u)) (tb_events s)
      = the_map (fun u => event_tagged E ord2 (event_of u)) (tb_events s).
    Proof.
      apply the_map_order. intros n u Hin. destruct (tw_events Hwf _ _ Hin) as (Hi & Hb & H1 & H2 & H3 & H4).
      apply aff_e in Hin. unfold event_tagged. f_equal.
      - apply (@ia_order AEvent n (eb_info u) (eb_ia u)); auto. apply (aff_event _ _ _ Hin).
      - apply ods_order; auto. intros d Ed. apply in_checked. eapply chk_subscription; eauto.
      - apply ods_order; auto. intros d Ed. apply in_checked. eapply chk_data; eauto.
      - apply ods_order; auto. intros d Ed. eapply in_response; eauto.
      - apply ods_order; auto. intros d Ed. apply in_checked. eapply chk_cancellation; eauto.
    Qed.

    Lemma defs_order : the_defs ord1 s = the_defs ord2 s.
    Proof.
      unfold the_defs. f_equal. apply map_ext_in. intros [n c] Hin. unfold named_of. simpl. f_equal.
      unfold sec_tagged. f_equal. apply oml_order. intros m Em. apply good_maps.
      - eapply lm_security; eauto.
      - eapply (tw_secdefs Hwf); eauto.
    Qed.

    Lemma uri_order :
      option_map (mmap (@ds_tagged TG ord1 (pty (x_ds X)) (pty (x_as X)) (pty (x_os X)))) (tb_uri s)
      = option_map (mmap (@ds_tagged TG ord2 (pty (x_ds X)) (pty (x_as X)) (pty (x_os X)))) (tb_uri s).
    Proof.
      destruct (tb_uri s) as [m|] eqn:Eu; [|reflexivity]. simpl. f_equal. apply uris_order. intros k d Hin. split.
      - apply in_uri. eapply uri_thing. simpl. rewrite Eu. simpl. eauto.
      - destruct (tw_uri Hwf Eu). eauto.
    Qed.

    Lemma schemas_order : the_schemas ord1 s = the_schemas ord2 s.
    Proof.
      unfold the_schemas. apply uris_order. intros k d Hin. split.
      - eapply in_definitions; eauto.
      - destruct (tw_schemas Hwf). eauto.
    Qed.

    Lemma thing_of_order : thing_of ord1 s = thing_of ord2 s.
    Proof.
      unfold thing_of. rewrite the_context_order, titles_order, descriptions_order, properties_order,
        actions_order, events_order, defs_order, uri_order, schemas_order. reflexivity.
    Qed.
  End State.
End Order.
