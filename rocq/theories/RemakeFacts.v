(** * Every Thing that is [thing_made] is built by some program *)

From Coq Require Import String Bool ZArith Lia Permutation List.
From Verif Require Import Base MinMax Json Serde Types DsBuilder Builder Spec SpecCalls SpecThing SpecMade SpecGrammar
  DsFacts ConvFacts DsProgFacts ProgFacts SaysFacts ProgramProps CleanFacts ReorderFacts MadeFacts MakeFacts BuildFacts ThingFacts
  ThingMadeFacts.
Import ListNotations.
Set Implicit Arguments.
Local Open Scope string_scope.
Local Open Scope list_scope.

(** ** Values the tag parser leaves as they are *)

Section Fixed.
  Variable E : env.
  Variable X : exts.
  Variable ord : order.
  Hypothesis Hord : order_ok ord.
  Notation TG := (tag_parse E).
  Notation made := (schema_made any_tag).

  Definition stays (s : string) : Prop := TG s = Some s.

  Lemma retag_stays s : stays s -> retag TG s = s.
  Proof. unfold stays, retag. intros ->. reflexivity. Qed.

  Lemma map_stays A (f : A -> A) l : (forall a, In a l -> f a = a) -> map f l = l.
  Proof. induction l as [|a l IH]; cbn; intros H; [reflexivity|]. rewrite H, IH; auto. Qed.

  Lemma mmap_stays A (f : A -> A) (m : amap A) : (forall n a, In (n, a) m -> f a = a) -> mmap f m = m.
  Proof. intros H. apply map_stays. intros [n a] Hin. cbn. rewrite (H _ _ Hin). reflexivity. Qed.

  Lemma ml_stays m : msorted m -> (forall s, In s (mkeys m) -> stays s) -> ml_tagged TG ord m = m.
  Proof.
    intros Hm H. unfold ml_tagged. rewrite map_stays.
    - apply mof_Permutation; auto.
    - intros [k v] Hin. cbn. rewrite retag_stays; auto. apply H.
      apply (Permutation_in _ (Hord m)) in Hin. apply (in_map fst) in Hin. exact Hin.
  Qed.

  Lemma info_stays i : info_made any_tag i -> (forall s, info_tag i s -> stays s) -> info_tagged TG ord i = i.
  Proof.
    intros [_ Hm] H. destruct i as [a t ts d ds]. unfold info_tagged. cbn in *.
    assert (forall m, info_map (Build_info a t ts d ds) m -> ml_tagged TG ord m = m) as G.
    { intros m Hi. apply ml_stays; [apply (Hm m Hi)|]. intros s Hs. apply H. exists m. auto. }
    destruct ts as [ts|], ds as [ds|]; cbn; rewrite ?(G ts), ?(G ds); try reflexivity; try (left; reflexivity); right; reflexivity.
  Qed.

  Lemma ds_stays (d : dsx X) : made d -> (forall s, ds_tag d s -> stays s) -> ds_tagged TG ord d = d.
  Proof.
    induction d as [i m o s x IHo IHs] using ds_ind'. intros Hd Ht. rewrite ds_tagged_eq.
    assert (forall c, In c (ds_children (mkDs i m o s x)) -> made c) as Hc1.
    { intros c Hc e He. apply Hd. eapply sub_child; eauto. }
    assert (forall c, In c (ds_children (mkDs i m o s x)) -> forall s, ds_tag c s -> stays s) as Hc2.
    { intros c Hc s0 (lm & (e & He & Hi) & Hs). apply Ht. exists lm. split; auto. exists e. split; auto. eapply sub_child; eauto. }
    unfold ds_children in Hc1, Hc2. cbn in Hc1, Hc2.
    rewrite info_stays.
    - f_equal.
      + destruct o as [l|]; [|reflexivity]. cbn. f_equal. apply map_stays. intros c Hc.
        apply (IHo l c eq_refl Hc); [apply Hc1|apply Hc2]; apply in_or_app; left; exact Hc.
      + destruct s as [[[[c|l]|] mn mx a| |n|n|[ps|] r a|t|]|]; try reflexivity; cbn; do 2 f_equal.
        * do 2 f_equal. apply (IHs _ _ eq_refl); [left; reflexivity| |]; [apply Hc1|apply Hc2]; apply in_or_app; right; left; reflexivity.
        * do 2 f_equal. apply map_stays. intros c Hc.
          apply (IHs _ _ eq_refl); [exact Hc| |]; [apply Hc1|apply Hc2]; apply in_or_app; right; exact Hc.
        * f_equal. apply mmap_stays. intros k c Hc. apply (in_map snd) in Hc.
          apply (IHs _ _ eq_refl); [exact Hc| |]; [apply Hc1|apply Hc2]; apply in_or_app; right; exact Hc.
    - exact (nm_info (Hd _ (sub_self _))).
    - intros s0 (lm & Hi & Hs). apply Ht. exists lm. split; auto. eexists. split; [apply sub_self|exact Hi].
  Qed.

  Lemma ods_stays (o : option (dsx X)) : schema_opt o -> (forall s, ods_tag o s -> stays s) ->
    option_map (@ds_tagged TG ord _ _ _) o = o.
  Proof.
    intros Ho H. destruct o as [d|]; [|reflexivity]. cbn. rewrite ds_stays; auto.
    - intros s Hs. apply H. exists d. auto.
  Qed.

  Lemma uri_stays (o : option (amap (dsx X))) : map_made made o -> (forall s, @uri_tag X (olist o) s -> stays s) ->
    option_map (mmap (@ds_tagged TG ord _ _ _)) o = o.
  Proof.
    intros [_ Ho] H. destruct o as [m|]; [|reflexivity]. cbn. f_equal. apply mmap_stays. intros n d Hd.
    destruct (Ho m eq_refl) as [_ Hm]. apply ds_stays; [exact (Hm _ _ Hd)|]. intros s Hs. apply H. exists n, d. auto.
  Qed.

  Lemma ia_stays (i : interaction X) : interaction_made i -> (forall s, ia_tag i s -> stays s) -> ia_tagged E ord i = i.
  Proof.
    intros [H1 _ H2] H. destruct i as [i f u x]. unfold ia_tagged. cbn in *. f_equal.
    - apply info_stays; auto. intros s Hs. apply H. left. exact Hs.
    - apply uri_stays; auto. intros s Hs. apply H. right. exact Hs.
  Qed.

  Lemma sec_stays c : scheme_made c -> (forall s, sec_tag c s -> stays s) -> sec_tagged E ord c = c.
  Proof.
    intros [_ Hm _ _] H. destruct c as [a d [m|] p k]; [|reflexivity]. unfold sec_tagged. cbn in *.
    rewrite ml_stays; [reflexivity|apply Hm; reflexivity|]. intros s Hs. apply H. exists m. auto.
  Qed.

  Lemma property_stays (a : property X) : property_made a -> (forall s, property_tag a s -> stays s) -> property_tagged E ord a = a.
  Proof.
    intros [H1 H2 _ _] H. destruct a as [i d o x]. unfold property_tagged. cbn in *. f_equal.
    - apply ia_stays; auto. intros s Hs. apply H. left. exact Hs.
    - apply ds_stays; auto. intros s Hs. apply H. right. exact Hs.
  Qed.

  Lemma action_stays (a : action X) : action_made a -> (forall s, action_tag a s -> stays s) -> action_tagged E ord a = a.
  Proof.
    intros [H1 H2 H3] H. destruct a as [i d o b1 b2 b3 x]. unfold action_tagged. cbn in *. f_equal.
    - apply ia_stays; auto. intros s Hs. apply H. left. exact Hs.
    - apply ods_stays; auto. intros s Hs. apply H. right. left. exact Hs.
    - apply ods_stays; auto. intros s Hs. apply H. right. right. exact Hs.
  Qed.

  Lemma event_stays (a : event X) : event_made a -> (forall s, event_tag a s -> stays s) -> event_tagged E ord a = a.
  Proof.
    intros [H1 H2 H3 H4 H5] H. destruct a as [i d1 d2 d3 d4 x]. unfold event_tagged. cbn in *. f_equal.
    - apply ia_stays; auto. intros s Hs. apply H. left. exact Hs.
    - apply ods_stays; auto. intros s Hs. apply H. right. left. exact Hs.
    - apply ods_stays; auto. intros s Hs. apply H. right. right. left. exact Hs.
    - apply ods_stays; auto. intros s Hs. apply H. right. right. right. right. exact Hs.
    - apply ods_stays; auto. intros s Hs. apply H. right. right. right. left. exact Hs.
  Qed.

  Lemma link_stays l : (forall hs s, l_hreflang l = Some hs -> In s hs -> stays s) -> link_tagged E l = l.
  Proof.
    intros H. destruct l as [h t r a z [hs|]]; [|reflexivity]. unfold link_tagged. cbn in *.
    rewrite map_stays; [reflexivity|]. intros s Hs. apply retag_stays. eapply H; eauto.
  Qed.
End Fixed.

(** ** The program *)

Section Remake.
  Variable E : env.
  Variable X : exts.
  Variable ord : order.
  Hypothesis Hord : order_ok ord.
  Notation TG := (tag_parse E).
  Notation made := (schema_made any_tag).
  Notation dsop := (dsop (pty (x_ds X)) (pty (x_as X)) (pty (x_os X))).
  Notation top := (top E X).
  Notation tstate := (tstate E X).
  Notation run := (orun (@tstep E X)).

  Definition scalar_calls (t : thing E X) : list top :=
    TFinish :: call (fun v => TId v) (t_id t) ++ call (fun v => TDescription v) (t_description t)
    ++ call (fun v => TVersion v) (t_version t) ++ call (fun v => TCreated v) (t_created t)
    ++ call (fun v => TModified v) (t_modified t) ++ call (fun v => TSupport v) (t_support t)
    ++ call (fun v => TBase v) (t_base t) ++ call (fun v => TTitles v) (t_titles t)
    ++ call (fun v => TDescriptions v) (t_descriptions t).

  Definition scalar_state (t : thing E X) : tstate :=
    {| tb_context := [CtxSimple TD_CONTEXT_11]; tb_id := t_id t; tb_attype := None; tb_title := t_title t;
       tb_titles := t_titles t; tb_description := t_description t; tb_descriptions := t_descriptions t;
       tb_version := t_version t; tb_created := t_created t; tb_modified := t_modified t; tb_support := t_support t;
       tb_base := t_base t; tb_properties := []; tb_actions := []; tb_events := []; tb_links := None; tb_forms := None;
       tb_uri := None; tb_security := []; tb_secdefs := []; tb_profile := []; tb_schemas := [];
       tb_other := t_other t; tb_extended := true |}.

  Lemma stage_scalars t : thing_made t -> run (scalar_calls t) (thing_new E X (t_title t) (t_other t)) = Some (scalar_state t).
  Proof.
    intros Ht. pose proof (tm_titles Ht) as H1. pose proof (tm_descriptions Ht) as H2. unfold langs_made in H1, H2. clear Ht.
    assert (forall m, t_titles t = Some m -> ml_of m = m) as G1 by (intros m Hm; apply mof_sorted; auto).
    assert (forall m, t_descriptions t = Some m -> ml_of m = m) as G2 by (intros m Hm; apply mof_sorted; auto). clear H1 H2.
    unfold scalar_calls, scalar_state.
    destruct (t_id t), (t_description t), (t_version t), (t_created t), (t_modified t), (t_support t), (t_base t);
    destruct (t_titles t) as [m|], (t_descriptions t) as [m'|]; cbn; unfold set_tb_titles, set_tb_descriptions; cbn;
      rewrite ?(G1 _ eq_refl), ?(G2 _ eq_refl); reflexivity.
  Qed.

  (** Elements added to a member of the state *)
  Lemma stage A (get : tstate -> A) (upd : tstate -> A -> tstate) B (mk : list B -> A) os (l : list B) s :
    (forall s, upd s (get s) = s) -> get s = mk [] ->
    Forall2 (fun o b => forall v, tstep o (upd s (mk v)) = Some (upd s (mk (v ++ [b])))) os l ->
    run os s = Some (upd s (mk l)).
  Proof.
    intros H1 H2 H. rewrite <- (H1 s) at 1. rewrite H2.
    apply (@run_adds _ _ _ (@tstep E X) (fun v => upd s (mk v)) os l H []).
  Qed.

  Lemma Forall2_self A B (P : B -> A -> Prop) (f : A -> B) l : (forall a, In a l -> P (f a) a) -> Forall2 P (map f l) l.
  Proof. induction l; cbn; constructor; auto. Qed.

  Lemma stage_attype s l : tb_attype s = None ->
    run (map (fun v => TAttype v) l) s = Some (set_tb_attype s (nonempty l)).
  Proof.
    intros H. apply (@stage _ (@tb_attype E X) (@set_tb_attype E X) _ (@nonempty _)); auto; [intros []; reflexivity|].
    apply Forall2_self. intros v _ w. cbn. unfold set_tb_attype. cbn. rewrite opush_nonempty. reflexivity.
  Qed.

  Lemma stage_profile s l : tb_profile s = [] -> run (map (fun v => TProfile v) l) s = Some (set_tb_profile s l).
  Proof.
    intros H. apply (@stage _ (@tb_profile E X) (@set_tb_profile E X) _ (fun l => l)); auto; [intros []; reflexivity|].
    apply Forall2_self. reflexivity.
  Qed.

  Lemma stage_links s ls : tb_links s = None ->
    run (map (fun l => TLinkWith (link_calls l)) ls) s = Some (set_tb_links s (nonempty (map raw_link ls))).
  Proof.
    intros H. apply (@stage _ (@tb_links E X) (@set_tb_links E X) _ (fun l => nonempty (map raw_link l))); auto; [intros []; reflexivity|].
    apply Forall2_self. intros l _ w. cbn [tstep]. rewrite link_made. cbn. unfold set_tb_links. cbn.
    rewrite opush_nonempty, map_app. reflexivity.
  Qed.

  Lemma stage_forms s fs : tb_extended s = true -> tb_forms s = None -> (forall f, In f fs -> form_made f) ->
    run (map (fun f => TForm (f_other f) (form_calls f)) fs) s = Some (set_tb_forms s (nonempty fs)).
  Proof.
    intros Hx H Hf. apply (@stage _ (@tb_forms E X) (@set_tb_forms E X) _ (@nonempty _)); auto; [intros []; reflexivity|].
    apply Forall2_self. intros f Hin w. cbn [tstep]. unfold when_extended.
    change (tb_extended (set_tb_forms s (nonempty w))) with (tb_extended s). rewrite Hx, (form_built (Hf _ Hin)). cbn.
    unfold set_tb_forms. cbn. rewrite opush_nonempty. reflexivity.
  Qed.

  Lemma stage_uri s m : tb_extended s = true -> tb_uri s = None -> map_made made m ->
    exists os, run os s = Some (set_tb_uri s m).
  Proof.
    intros Hx H Hm. destruct (schemas_made Hm) as (qs & Hqs & Es). exists (map (fun q => TUri (fst q) (snd q)) qs).
    rewrite (@stage _ (@tb_uri E X) (@set_tb_uri E X) _ (fun l => nonempty (mof l)) _ (olist m)); auto; [|intros []; reflexivity|].
    - f_equal. f_equal. transitivity (nonempty (olist m)); [f_equal; exact Es|]. apply (kept (proj1 Hm)).
    - assert (forall ms : list (string * dsx X), Forall2 (fun q nd => fst q = fst nd /\ dbuild (snd q) = Some (snd nd)) qs ms ->
        Forall2 (fun o b => forall v, tstep o (set_tb_uri s ((fun v => nonempty (mof v)) v)) = Some (set_tb_uri s ((fun v => nonempty (mof v)) (v ++ [b])))) (map (fun q => TUri (fst q) (snd q)) qs) ms) as G;
        [|exact (G _ Hqs)].
      clear Es Hm Hqs. intros ms Hqs. induction Hqs as [|q [n d] qs l [H1 H2] _ IH]; cbn [map]; constructor; auto.
      intros w. cbn [tstep fst snd] in *. unfold when_extended. change (tb_extended (set_tb_uri s (nonempty (mof w)))) with (tb_extended s).
      rewrite Hx, H2, mof_snoc, H1. cbn [obind]. change (tb_uri (set_tb_uri s (nonempty (mof w)))) with (nonempty (mof w)).
      transitivity (Some (set_tb_uri s (Some (minsert n d (mof w))))).
      + destruct (mof w); reflexivity.
      + do 2 f_equal. assert (forall A (l : list A), l <> [] -> Some l = nonempty l) as G by (intros A [|] Hn; [contradiction Hn|]; reflexivity).
        apply G, minsert_not_nil.
  Qed.

  Lemma stage_schemas s m : tb_extended s = true -> tb_schemas s = [] -> map_made made m ->
    exists os, run os s = Some (set_tb_schemas s (olist m)).
  Proof.
    intros Hx H Hm. destruct (schemas_made Hm) as (qs & Hqs & Es). exists (map (fun q => TSchema (fst q) (snd q)) qs).
    rewrite (@stage _ (@tb_schemas E X) (@set_tb_schemas E X) _ (fun l => mof l) _ (olist m)); auto; [|intros []; reflexivity|].
    - f_equal. f_equal. exact Es.
    - assert (forall ms : list (string * dsx X), Forall2 (fun q nd => fst q = fst nd /\ dbuild (snd q) = Some (snd nd)) qs ms ->
        Forall2 (fun o b => forall v, tstep o (set_tb_schemas s ((fun v => mof v) v)) = Some (set_tb_schemas s ((fun v => mof v) (v ++ [b])))) (map (fun q => TSchema (fst q) (snd q)) qs) ms) as G;
        [|exact (G _ Hqs)].
      clear Es Hm Hqs. intros ms Hqs. induction Hqs as [|q [n d] qs l [H1 H2] _ IH]; cbn [map]; constructor; auto.
      intros w. cbn [tstep fst snd] in *. unfold when_extended. change (tb_extended (set_tb_schemas s (mof w))) with (tb_extended s).
      rewrite Hx, H2, mof_snoc, H1. reflexivity.
  Qed.

  Lemma stage_named A R (get : tstate -> list (string * R)) upd (mk : string -> A -> top -> Prop) (raw : A -> R) (m : option (amap A)) s :
    (forall s, upd s (get s) = s) -> get s = [] ->
    (forall n a, In (n, a) (olist m) -> exists o : top, forall v, tstep o (upd s v) = Some (upd s (v ++ [(n, raw a)]))) ->
    exists os, run os s = Some (upd s (map (named_of raw) (olist m))).
  Proof.
    intros H1 H2 H.
    destruct (@each top _ (fun o na => forall v, tstep o (upd s v) = Some (upd s (v ++ [named_of raw na]))) (olist m)) as [os Hos].
    { intros [n a] Hin. destruct (H _ _ Hin) as [o Ho]. exists o. exact Ho. }
    exists os. apply (@stage _ get upd _ (fun l => map (named_of raw) l)); auto.
    clear -Hos. induction Hos as [|o b os l Ho _ IH]; constructor; auto. intros v. rewrite Ho, map_app. reflexivity.
  Qed.

  Lemma stage_properties s m : tb_extended s = true -> tb_properties s = [] -> map_made (@property_made X) m ->
    exists os, run os s = Some (set_tb_properties s (map (named_of (@raw_property X)) (olist m))).
  Proof.
    intros Hx H [_ Hm]. apply (@stage_named _ _ (@tb_properties E X) (@set_tb_properties E X) (fun _ _ _ => True)); auto; [intros []; reflexivity|].
    intros n a Hin. destruct m as [m|]; [|destruct Hin]. destruct (Hm m eq_refl) as [_ Hm'].
    destruct (property_built (Hm' _ _ Hin)) as [p Hp]. exists (TProperty n (ia_other (pa_ia a)) (pa_other a) p). intros v.
    cbn [tstep]. unfold when_extended. change (tb_extended (set_tb_properties s v)) with (tb_extended s). rewrite Hx, Hp. reflexivity.
  Qed.

  Lemma stage_actions s m : tb_extended s = true -> tb_actions s = [] -> map_made (@action_made X) m ->
    exists os, run os s = Some (set_tb_actions s (map (named_of (@raw_action X)) (olist m))).
  Proof.
    intros Hx H [_ Hm]. apply (@stage_named _ _ (@tb_actions E X) (@set_tb_actions E X) (fun _ _ _ => True)); auto; [intros []; reflexivity|].
    intros n a Hin. destruct m as [m|]; [|destruct Hin]. destruct (Hm m eq_refl) as [_ Hm'].
    destruct (action_built (Hm' _ _ Hin)) as [p Hp]. exists (TAction n (ia_other (aa_ia a)) (aa_other a) p). intros v.
    cbn [tstep]. unfold when_extended. change (tb_extended (set_tb_actions s v)) with (tb_extended s). rewrite Hx, Hp. reflexivity.
  Qed.

  Lemma stage_events s m : tb_extended s = true -> tb_events s = [] -> map_made (@event_made X) m ->
    exists os, run os s = Some (set_tb_events s (map (named_of (@raw_event X)) (olist m))).
  Proof.
    intros Hx H [_ Hm]. apply (@stage_named _ _ (@tb_events E X) (@set_tb_events E X) (fun _ _ _ => True)); auto; [intros []; reflexivity|].
    intros n a Hin. destruct m as [m|]; [|destruct Hin]. destruct (Hm m eq_refl) as [_ Hm'].
    destruct (event_built (Hm' _ _ Hin)) as [p Hp]. exists (TEvent n (ia_other (ea_ia a)) (ea_other a) p). intros v.
    cbn [tstep]. unfold when_extended. change (tb_extended (set_tb_events s v)) with (tb_extended s). rewrite Hx, Hp. reflexivity.
  Qed.

  Lemma stage_context s js : tb_context s = [CtxSimple TD_CONTEXT_11] -> (forall c, In c js -> context_entry c) ->
    exists os cs, run os s = Some (set_tb_context s (CtxSimple TD_CONTEXT_11 :: cs)) /\ map (context_json ord) cs = js.
  Proof.
    intros H Hj.
    destruct (@each (top * context) _ (fun oc j => (forall s, tstep (fst oc) s = Some (set_tb_context s (tb_context s ++ [snd oc])))
      /\ context_json ord (snd oc) = j) js) as [ocs Hocs].
    { intros j Hin. destruct (Hj _ Hin) as [(v & -> & Hv)|(m & -> & Hm)].
      - exists (TContext v, CtxSimple v). split; [|reflexivity]. intros s0. cbn.
        destruct (String.eqb v TD_CONTEXT_11) eqn:Ev; [apply String.eqb_eq in Ev; contradiction|reflexivity].
      - exists (TContextMap m, CtxMap (mof m)). split; [reflexivity|]. cbn. rewrite (mof_sorted _ Hm). f_equal. apply mof_order; auto. }
    exists (map fst ocs), (map snd ocs). split.
    - apply (@stage _ (@tb_context E X) (@set_tb_context E X) _ (fun l => CtxSimple TD_CONTEXT_11 :: l)); auto; [intros []; reflexivity|].
      clear -Hocs. induction Hocs as [|[o c] j ocs js [H1 _] _ IH]; cbn [map]; constructor; auto. intros v. cbn [fst snd] in *. rewrite H1. reflexivity.
    - clear -Hocs. induction Hocs as [|[o c] j ocs js [_ H1] _ IH]; cbn [map] in *; congruence.
  Qed.

  Lemma stage_security s (rs : list (string * bool * security_scheme)) : tb_security s = [] -> tb_secdefs s = [] ->
    (forall n r c, In (n, r, c) rs -> scheme_made c) ->
    run (map (fun r => TSecurity (sec_calls (fst (fst r)) (snd (fst r)) (snd r))) rs) s
    = Some (set_tb_secdefs (set_tb_security s (map (fun r => fst (fst r)) (filter (fun r => snd (fst r)) rs)))
              (map (fun r => (fst (fst r), snd r)) rs)).
  Proof.
    intros H1 H2 H.
    replace s with (set_tb_secdefs (set_tb_security s []) []) at 1 by (destruct s; cbn in *; subst; reflexivity).
    apply (@run_adds _ _ _ (@tstep E X) (fun rs => set_tb_secdefs (set_tb_security s (map (fun r => fst (fst r)) (filter (fun r => snd (fst r)) rs)))
              (map (fun r => (fst (fst r), snd r)) rs)) (map (fun r => TSecurity (sec_calls (fst (fst r)) (snd (fst r)) (snd r))) rs) rs) with (pre := []).
    apply Forall2_self. intros [[n r] c] Hin v. cbn [tstep fst snd]. rewrite (scheme_built n r (H _ _ _ Hin)).
    cbn [obind]. rewrite filter_app, !map_app. destruct r; cbn; rewrite ?app_nil_r; reflexivity.
  Qed.

  (** The schemes: the required ones first *)
  Lemma NoDup_both A (l l' : list A) : NoDup l -> NoDup l' -> (forall a, In a l -> ~ In a l') -> NoDup (l ++ l').
  Proof.
    induction 1 as [|a l Ha _ IH]; cbn; intros H' Hd; auto. constructor; [|apply IH; auto].
    rewrite in_app_iff. intros [F|F]; [exact (Ha F)|]. exact (Hd a (or_introl eq_refl) F).
  Qed.

  Lemma schemes_order (sec : list string) (m : amap security_scheme) : NoDup sec -> incl sec (mkeys m) -> msorted m ->
    exists rs : list (string * bool * security_scheme),
      map (fun r => fst (fst r)) (filter (fun r => snd (fst r)) rs) = sec
      /\ Permutation (map (fun r => (fst (fst r), snd r)) rs) m.
  Proof.
    intros Hn Hi Hm. apply msorted_NoDup in Hm. destruct (@required_entries _ m sec) as (l & El & Hl).
    { intros k Hk. apply Hi in Hk. apply in_map_iff in Hk as ([k' c] & <- & Hc). exists c. exact Hc. }
    set (rest := filter (fun kv : string * security_scheme => if in_dec string_dec (fst kv) sec then false else true) m).
    exists (map (fun kv => (fst kv, true, snd kv)) l ++ map (fun kv => (fst kv, false, snd kv)) rest). split.
    - rewrite filter_app, map_app.
      assert (forall l : list (string * security_scheme), filter (fun r => snd (fst r)) (map (fun kv => (fst kv, true, snd kv)) l)
        = map (fun kv => (fst kv, true, snd kv)) l) as G1 by (induction l0; cbn; congruence).
      assert (forall l : list (string * security_scheme), filter (fun r => snd (fst r)) (map (fun kv => (fst kv, false, snd kv)) l) = []) as G2
        by (induction l0; cbn; congruence).
      rewrite G1, G2, map_map, app_nil_r. exact El.
    - rewrite map_app, !map_map. cbn.
      assert (forall l : list (string * security_scheme), map (fun kv => (fst kv, snd kv)) l = l) as G by (induction l0 as [|[]]; cbn; congruence).
      rewrite !G. apply NoDup_Permutation.
      + apply NoDup_both.
        * apply NoDup_map_inv with (f := fst). rewrite El. exact Hn.
        * apply NoDup_filter. apply NoDup_map_inv with (f := fst). exact Hm.
        * intros [n c] H1 H2. apply filter_In in H2 as [_ H2]. cbn in H2. destruct (in_dec string_dec n sec) as [|F]; [discriminate|].
          apply F. rewrite <- El. apply (in_map fst) in H1. exact H1.
      + eapply NoDup_map_inv with (f := fst). exact Hm.
      + intros [n c]. rewrite in_app_iff. split.
        * intros [H|H]; [exact (Hl _ _ H)|]. apply filter_In in H. tauto.
        * intros H. destruct (in_dec string_dec n sec) as [F|F].
          -- left. rewrite <- El in F. apply in_map_iff in F as ([n' c'] & Ec & F). cbn in Ec. subst n'.
             replace c with c'; auto. pose proof (Hl _ _ F) as G'.
             apply (In_mlook _ _ _ Hm) in G'. apply (In_mlook _ _ _ Hm) in H. congruence.
          -- right. apply filter_In. split; auto. cbn. destruct (in_dec string_dec n sec); [contradiction|reflexivity].
  Qed.

  (** ** The Thing built *)

  Lemma map_again A R (g : R -> A) (raw : A -> R) (P : A -> Prop) (o : option (amap A)) : map_made P o ->
    (forall n a, In (n, a) (olist o) -> g (raw a) = a) -> the_map g (map (named_of raw) (olist o)) = o.
  Proof.
    intros [H1 H2] H. destruct o as [m|]; [|reflexivity]. destruct (H2 m eq_refl) as [Hs _]. cbn [olist] in *.
    unfold the_map. transitivity (option_map (fun l => mof (map (named_of g) l)) (Some (map (named_of raw) m))).
    - destruct m; [contradiction H1; reflexivity|reflexivity].
    - cbn. f_equal. rewrite map_map. rewrite map_stays; [apply mof_sorted; auto|].
      intros [n a] Hin. unfold named_of. cbn. rewrite (H _ _ Hin). reflexivity.
  Qed.

  Lemma thing_remade (t : thing E X) : tags_stable E -> thing_made t -> exists p, thing_program ord (t_title t) (t_other t) p = Some (Ok t).
  Proof.
    intros Hst Ht. pose proof (tm_fits Ht) as Hco.
    assert (forall s, tag_in (thing_body t) s -> stays E s) as Htag.
    { intros s Hs. destruct (co_tags Hco Hs) as [k Hk]. exact (Hst _ _ Hk). }
    (* what follows the first entry of the context *)
    assert (exists js, (forall c, In c js -> context_entry c)
              /\ t_context t = match js with [] => JStr TD_CONTEXT_11 | _ => JArr (JStr TD_CONTEXT_11 :: js) end) as (js & Hjs & Ejs).
    { destruct (tm_context Ht) as [->|(js & Hn & -> & Hjs)].
      - exists []. split; [intros c []|reflexivity].
      - exists js. split; auto. destruct js; [contradiction Hn; reflexivity|reflexivity]. }
    destruct (tm_security Ht) as [Hnd Hincl]. destruct (tm_secdefs Ht) as [Hsd Hsm].
    destruct (schemes_order _ Hnd Hincl Hsd) as (rs & Ers & Prs).
    set (s1 := scalar_state t).
    destruct (@stage_context s1 js eq_refl Hjs) as (o2 & cs & R2 & Ecs).
    set (s2 := set_tb_context s1 (CtxSimple TD_CONTEXT_11 :: cs)) in *.
    pose proof (@stage_attype s2 (olist (t_attype t)) eq_refl) as R3. rewrite (kept (tm_attype Ht)) in R3.
    set (s3 := set_tb_attype s2 (t_attype t)) in *.
    pose proof (@stage_profile s3 (olist (t_profile t)) eq_refl) as R4.
    set (s4 := set_tb_profile s3 (olist (t_profile t))) in *.
    pose proof (@stage_links s4 (olist (t_links t)) eq_refl) as R5.
    set (s5 := set_tb_links s4 (nonempty (map raw_link (olist (t_links t))))) in *.
    pose proof (@stage_forms s5 (olist (t_forms t)) eq_refl eq_refl (proj2 (tm_forms Ht))) as R6. rewrite (kept (proj1 (tm_forms Ht))) in R6.
    set (s6 := set_tb_forms s5 (t_forms t)) in *.
    destruct (@stage_uri s6 (t_uri t) eq_refl eq_refl (tm_uri Ht)) as (o7 & R7).
    set (s7 := set_tb_uri s6 (t_uri t)) in *.
    destruct (@stage_schemas s7 (t_schemas t) eq_refl eq_refl (tm_schemas Ht)) as (o8 & R8).
    set (s8 := set_tb_schemas s7 (olist (t_schemas t))) in *.
    assert (forall n r c, In (n, r, c) rs -> scheme_made c) as Hrs.
    { intros n r c Hin. apply (in_map (fun r => (fst (fst r), snd r))) in Hin. apply (Permutation_in _ Prs) in Hin. exact (Hsm _ _ Hin). }
    pose proof (@stage_security s8 rs eq_refl eq_refl Hrs) as R9. rewrite Ers in R9.
    set (s9 := set_tb_secdefs (set_tb_security s8 (t_security t)) (map (fun r => (fst (fst r), snd r)) rs)) in *.
    destruct (@stage_properties s9 (t_properties t) eq_refl eq_refl (tm_properties Ht)) as (o10 & R10).
    set (s10 := set_tb_properties s9 (map (named_of (@raw_property X)) (olist (t_properties t)))) in *.
    destruct (@stage_actions s10 (t_actions t) eq_refl eq_refl (tm_actions Ht)) as (o11 & R11).
    set (s11 := set_tb_actions s10 (map (named_of (@raw_action X)) (olist (t_actions t)))) in *.
    destruct (@stage_events s11 (t_events t) eq_refl eq_refl (tm_events Ht)) as (o12 & R12).
    set (s12 := set_tb_events s11 (map (named_of (@raw_event X)) (olist (t_events t)))) in *.
    match type of R3 with run ?p3 _ = _ => match type of R4 with run ?p4 _ = _ => match type of R5 with run ?p5 _ = _ =>
      match type of R6 with run ?p6 _ = _ => match type of R9 with run ?p9 _ = _ =>
      exists (scalar_calls t ++ o2 ++ p3 ++ p4 ++ p5 ++ p6 ++ o7 ++ o8 ++ p9 ++ o10 ++ o11 ++ o12);
      assert (trun (scalar_calls t ++ o2 ++ p3 ++ p4 ++ p5 ++ p6 ++ o7 ++ o8 ++ p9 ++ o10 ++ o11 ++ o12)
                (thing_new E X (t_title t) (t_other t)) = Some s12) as Hrun
      end end end end end.
    { unfold trun. rewrite (run_app _ _ _ _ (stage_scalars Ht)), (run_app _ _ _ _ R2), (run_app _ _ _ _ R3), (run_app _ _ _ _ R4),
        (run_app _ _ _ _ R5), (run_app _ _ _ _ R6), (run_app _ _ _ _ R7), (run_app _ _ _ _ R8), (run_app _ _ _ _ R9),
        (run_app _ _ _ _ R10), (run_app _ _ _ _ R11). exact R12. }
    unfold thing_program. rewrite Hrun. cbn [obind]. f_equal.
    pose proof (tb_says_wf (trun_says _ _ _ Hrun)) as Hwf. clear Hrun R2 R3 R4 R5 R6 R7 R8 R9 R10 R11 R12.
    pose proof (tbuild_judge Hord Hwf) as J.
    (* the members *)
    assert (map (named_of (@ProgFacts.property_of X)) (tb_properties s12) = olist (t_properties t)) as Ep.
    { change (tb_properties s12) with (map (named_of (@raw_property X)) (olist (t_properties t))). rewrite map_map. apply map_stays.
      intros [n a] Hin. unfold named_of. cbn [fst snd]. f_equal. apply raw_property_of.
      destruct (tm_properties Ht) as [_ Hm]. destruct (t_properties t) as [m|]; [|destruct Hin]. destruct (Hm m eq_refl) as [_ Hm']. exact (Hm' _ _ Hin). }
    assert (map (named_of (@ProgFacts.action_of X)) (tb_actions s12) = olist (t_actions t)) as Ea.
    { change (tb_actions s12) with (map (named_of (@raw_action X)) (olist (t_actions t))). rewrite map_map. apply map_stays.
      intros [n a] Hin. unfold named_of. cbn [fst snd]. f_equal. apply raw_action_of.
      destruct (tm_actions Ht) as [_ Hm]. destruct (t_actions t) as [m|]; [|destruct Hin]. destruct (Hm m eq_refl) as [_ Hm']. exact (Hm' _ _ Hin). }
    assert (map (named_of (@ProgFacts.event_of X)) (tb_events s12) = olist (t_events t)) as Ee.
    { change (tb_events s12) with (map (named_of (@raw_event X)) (olist (t_events t))). rewrite map_map. apply map_stays.
      intros [n a] Hin. unfold named_of. cbn [fst snd]. f_equal. apply raw_event_of.
      destruct (tm_events Ht) as [_ Hm]. destruct (t_events t) as [m|]; [|destruct Hin]. destruct (Hm m eq_refl) as [_ Hm']. exact (Hm' _ _ Hin). }
    assert (forall l, In l (olist (t_links t)) -> ProgFacts.link_of (raw_link l) = l) as Hl
      by (intros l Hin; apply raw_link_of, (proj2 (tm_links Ht)), Hin).
    assert (map ProgFacts.link_of (olist (tb_links s12)) = olist (t_links t)) as El.
    { change (tb_links s12) with (nonempty (map raw_link (olist (t_links t)))). rewrite olist_nonempty, map_map. apply map_stays. exact Hl. }
    assert (consistent (parsable E) (body_of s12)) as Hc.
    { assert (consistent (parsable E) (thing_body t)) as Hc0.
      { destruct Hco as [g1 g2 g3 g4 g5 g6 g7 g8 g9 g10 g11 g12 g13]. constructor; auto.
        intros s Hs. unfold parsable. pose proof (Htag _ Hs) as F. unfold stays in F. rewrite F. discriminate. }
      refine (consistent_perm _ _ _ _ _ _ _ _ _ _ _ Hc0); try reflexivity.
      - apply Permutation_sym. exact Prs.
      - cbn [body_of y_properties thing_body]. rewrite Ep. apply Permutation_refl.
      - cbn [body_of y_actions thing_body]. rewrite Ea. apply Permutation_refl.
      - cbn [body_of y_events thing_body]. rewrite Ee. apply Permutation_refl.
      - exact El. }
    destruct (tbuild ord s12) as [t'|e] eqn:Eb; cbn in J; [|exfalso; exact (@defect_inconsistent E X (body_of s12) e J Hc)].
    destruct J as [-> _]. f_equal. clear Eb Hc.
    (* member by member *)
    assert (forall n a, In (n, a) (olist (t_properties t)) -> property_tagged E ord (ProgFacts.property_of (raw_property a)) = a) as Hp1.
    { intros n a Hin.
      assert (property_made a) as Ha by (destruct (tm_properties Ht) as [_ Hm]; destruct (t_properties t) as [m|]; [|destruct Hin]; destruct (Hm m eq_refl) as [_ Hm']; exact (Hm' _ _ Hin)).
      rewrite (raw_property_of Ha). apply property_stays; auto. intros s Hs. apply Htag.
      destruct Hs as [[(m & Hi & Hs)|(k & d & Hd & (m & Hi & Hs))]|(m & Hi & Hs)]; apply tag_map with m; auto.
      - eapply lm_affordance; [eapply aff_property; exact Hin|exact Hi].
      - eapply lm_schema; [|exact Hi]. apply in_uri. eapply uri_aff; [eapply aff_property; exact Hin|exact Hd].
      - eapply lm_schema; [|exact Hi]. apply in_checked. eapply chk_property; [exact Hin|reflexivity]. }
    assert (forall n a, In (n, a) (olist (t_actions t)) -> action_tagged E ord (ProgFacts.action_of (raw_action a)) = a) as Ha1.
    { intros n a Hin.
      assert (action_made a) as Ha by (destruct (tm_actions Ht) as [_ Hm]; destruct (t_actions t) as [m|]; [|destruct Hin]; destruct (Hm m eq_refl) as [_ Hm']; exact (Hm' _ _ Hin)).
      rewrite (raw_action_of Ha). apply action_stays; auto. intros s Hs. apply Htag.
      destruct Hs as [[(m & Hi & Hs)|(k & d & Hd & (m & Hi & Hs))]|[(d & Hd & (m & Hi & Hs))|(d & Hd & (m & Hi & Hs))]]; apply tag_map with m; auto.
      - eapply lm_affordance; [eapply aff_action; exact Hin|exact Hi].
      - eapply lm_schema; [|exact Hi]. apply in_uri. eapply uri_aff; [eapply aff_action; exact Hin|exact Hd].
      - eapply lm_schema; [|exact Hi]. apply in_checked. eapply chk_input; [exact Hin|exact Hd].
      - eapply lm_schema; [|exact Hi]. apply in_checked. eapply chk_output; [exact Hin|exact Hd]. }
    assert (forall n a, In (n, a) (olist (t_events t)) -> event_tagged E ord (ProgFacts.event_of (raw_event a)) = a) as He1.
    { intros n a Hin.
      assert (event_made a) as Ha by (destruct (tm_events Ht) as [_ Hm]; destruct (t_events t) as [m|]; [|destruct Hin]; destruct (Hm m eq_refl) as [_ Hm']; exact (Hm' _ _ Hin)).
      rewrite (raw_event_of Ha). apply event_stays; auto. intros s Hs. apply Htag.
      destruct Hs as [[(m & Hi & Hs)|(k & d & Hd & (m & Hi & Hs))]|[(d & Hd & (m & Hi & Hs))|[(d & Hd & (m & Hi & Hs))|[(d & Hd & (m & Hi & Hs))|(d & Hd & (m & Hi & Hs))]]]]; apply tag_map with m; auto.
      - eapply lm_affordance; [eapply aff_event; exact Hin|exact Hi].
      - eapply lm_schema; [|exact Hi]. apply in_uri. eapply uri_aff; [eapply aff_event; exact Hin|exact Hd].
      - eapply lm_schema; [|exact Hi]. apply in_checked. eapply chk_subscription; [exact Hin|exact Hd].
      - eapply lm_schema; [|exact Hi]. apply in_checked. eapply chk_data; [exact Hin|exact Hd].
      - eapply lm_schema; [|exact Hi]. apply in_checked. eapply chk_cancellation; [exact Hin|exact Hd].
      - eapply lm_schema; [|exact Hi]. eapply in_response; [exact Hin|exact Hd]. }
    pose proof (map_again (fun u => property_tagged E ord (ProgFacts.property_of u)) (@raw_property X) (tm_properties Ht) Hp1) as M1.
    pose proof (map_again (fun u => action_tagged E ord (ProgFacts.action_of u)) (@raw_action X) (tm_actions Ht) Ha1) as M2.
    pose proof (map_again (fun u => event_tagged E ord (ProgFacts.event_of u)) (@raw_event X) (tm_events Ht) He1) as M3.
    assert (the_context ord s12 = t_context t) as M4.
    { rewrite Ejs. change (the_context ord s12) with (match CtxSimple TD_CONTEXT_11 :: cs with [CtxSimple t] => JStr t | l => JArr (map (context_json ord) l) end).
      rewrite <- Ecs. destruct cs; reflexivity. }
    assert (option_map (ml_tagged TG ord) (t_titles t) = t_titles t) as M5.
    { destruct (t_titles t) as [m|] eqn:Em; [|reflexivity]. cbn. f_equal. apply ml_stays; auto; [exact (tm_titles Ht Em)|].
      intros s Hs. apply Htag. apply tag_map with m; auto. apply lm_title. cbn. rewrite Em. reflexivity. }
    assert (option_map (ml_tagged TG ord) (t_descriptions t) = t_descriptions t) as M6.
    { destruct (t_descriptions t) as [m|] eqn:Em; [|reflexivity]. cbn. f_equal. apply ml_stays; auto; [exact (tm_descriptions Ht Em)|].
      intros s Hs. apply Htag. apply tag_map with m; auto. apply lm_description. cbn. rewrite Em. reflexivity. }
    assert (option_map (map (fun l => link_tagged E (ProgFacts.link_of l))) (nonempty (map raw_link (olist (t_links t)))) = t_links t) as M7.
    { transitivity (nonempty (map (fun l => link_tagged E (ProgFacts.link_of l)) (map raw_link (olist (t_links t))))).
      - destruct (olist (t_links t)); reflexivity.
      - rewrite map_map, map_stays; [apply kept, (proj1 (tm_links Ht))|]. intros l Hin. rewrite (Hl _ Hin). apply link_stays.
        intros hs s Eh Hs. apply Htag. eapply tag_link; [exact Hin|exact Eh|exact Hs]. }
    assert (mof (map (named_of (sec_tagged E ord)) (map (fun r => (fst (fst r), snd r)) rs)) = t_secdefs t) as M8.
    { rewrite (map_stays (named_of (sec_tagged E ord))).
      - apply mof_Permutation; auto.
      - intros [n c] Hin. apply (Permutation_in _ Prs) in Hin. unfold named_of. cbn. f_equal. apply sec_stays; [exact Hord|exact (Hsm _ _ Hin)|].
        intros s (m & Em & Hs). apply Htag. apply tag_map with m; auto. eapply lm_security; [exact Hin|exact Em]. }
    assert (option_map (mmap (@ds_tagged TG ord _ _ _)) (t_uri t) = t_uri t) as M9.
    { apply uri_stays; [exact Hord|exact (tm_uri Ht)|]. intros s (k & d & Hd & (m & Hi & Hs)). apply Htag. apply tag_map with m; auto.
      eapply lm_schema; [|exact Hi]. apply in_uri. eapply uri_thing. exact Hd. }
    assert (nonempty (mmap (@ds_tagged TG ord _ _ _) (olist (t_schemas t))) = t_schemas t) as M10.
    { rewrite mmap_stays; [apply (kept (proj1 (tm_schemas Ht)))|]. intros n d Hin.
      destruct (tm_schemas Ht) as [_ Hm]. apply ds_stays; [exact Hord| |].
      - destruct (t_schemas t) as [m|]; [|destruct Hin]. destruct (Hm m eq_refl) as [_ Hm']. exact (Hm' _ _ Hin).
      - intros s (m & Hi & Hs). apply Htag. apply tag_map with m; auto. eapply lm_schema; [|exact Hi]. eapply in_definitions. exact Hin. }
    pose proof (kept (tm_profile Ht)) as M11.
    clear - M1 M2 M3 M4 M5 M6 M7 M8 M9 M10 M11.
    unfold thing_of. rewrite M4.
    change (tb_titles s12) with (t_titles t). rewrite M5.
    change (tb_descriptions s12) with (t_descriptions t). rewrite M6.
    change (tb_properties s12) with (map (named_of (@raw_property X)) (olist (t_properties t))). rewrite M1.
    change (tb_actions s12) with (map (named_of (@raw_action X)) (olist (t_actions t))). rewrite M2.
    change (tb_events s12) with (map (named_of (@raw_event X)) (olist (t_events t))). rewrite M3.
    change (tb_links s12) with (nonempty (map raw_link (olist (t_links t)))). rewrite M7.
    change (the_defs ord s12) with (mof (map (named_of (sec_tagged E ord)) (map (fun r => (fst (fst r), snd r)) rs))). rewrite M8.
    change (tb_uri s12) with (t_uri t). rewrite M9.
    assert (nonempty (the_schemas ord s12) = t_schemas t) as M12 by exact M10. rewrite M12.
    change (tb_profile s12) with (olist (t_profile t)). rewrite M11.
    clear. destruct t; reflexivity.
  Qed.

  Lemma things_exact (t : thing E X) : tags_stable E ->
    (exists title x p, thing_program ord title x p = Some (Ok t)) <-> thing_made t.
  Proof.
    intros Hst. split.
    - intros (title & x & p & Hp). exact (@built_thing_made E X ord title x p t Hord Hp).
    - intros Ht. destruct (thing_remade Hst Ht) as [p Hp]. eauto.
  Qed.
End Remake.
