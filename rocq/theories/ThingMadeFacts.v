(** * Exactly which Things can be built *)

From Coq Require Import String Bool ZArith Lia Permutation List.
From Verif Require Import Base MinMax Json Serde Types DsBuilder Builder Spec SpecCalls SpecThing SpecMade SpecGrammar
  DsFacts ConvFacts DsProgFacts ProgFacts SaysFacts BuildFacts ThingFacts SchemaFacts OrderFacts ProgramProps CleanFacts
  ArgFacts GrammarFacts ReorderFacts MadeFacts.
Import ListNotations.
Set Implicit Arguments.
Local Open Scope string_scope.
Local Open Scope list_scope.

(** ** Only these *)

Lemma omap_made P A (R : P -> A -> Prop) (Q : A -> Prop) adds (m : option (amap A)) :
  omap_says R adds m ->
  (forall k c a, In (k, c) adds -> R c a -> In (k, a) (olist m) -> Q a) ->
  map_made Q m.
Proof.
  intros [[Hs Hl] Hn] HQ. split.
  - intros ->. destruct adds as [|[k c] adds].
    + destruct Hn as [_ Hn]. discriminate (Hn eq_refl).
    + pose proof (Hl k) as H. cbn [olist mlook] in H.
      destruct (llook k ((k, c) :: adds)) as [c'|] eqn:El; [inversion H|].
      apply (@llook_None _ k ((k, c) :: adds)) in El. apply El. left. reflexivity.
  - intros m' ->. cbn [olist] in *. split; auto. intros n a Hin. pose proof (Hl n) as H.
    rewrite (at_key Hs Hin) in H. apply omatch_r in H as (c & Hc & HR). eapply HQ; eauto.
    apply DsProgFacts.llook_In. exact Hc.
Qed.

Section Tagged.
  Variable TG : string -> option string.
  Variable ord : order.
  Variables DS AS OS : Type.

  Lemma node_tagged (d : ds DS AS OS) : node_made any_tag d -> node_made any_tag (ds_tagged TG ord d).
  Proof.
    intros [h1 h2 h3 h4 h5 h6 h7 h8 h9 [h10 h10'] h11].
    destruct d as [i m o s x]. rewrite ds_tagged_eq. cbn in *. constructor; cbn; auto.
    - unfold specializations in *. cbn in *. destruct o, s; exact h1.
    - intros H. apply h4. destruct o; [discriminate|exact H].
    - destruct o as [[|]|]; cbn in *; congruence.
    - intros ps r o' Hs. destruct s as [[[[e|l]|] mn mx a| |n|n|[pm|] rr a|t| ]|]; cbn in Hs; try discriminate Hs;
        injection Hs as <- <- <-; destruct (h7 _ _ _ eq_refl) as [G1 G2]; split; auto.
      destruct pm; [contradiction G1; reflexivity|discriminate].
    - intros ps r o' k Hs Hk. destruct s as [[[[e|l]|] mn mx a| |n|n|[pm|] rr a|t| ]|]; cbn in Hs; try discriminate Hs;
        injection Hs as <- -> <-; destruct (h8 _ _ _ k eq_refl Hk) as (m' & c & Hm & Hc); [|discriminate Hm].
      injection Hm as <-. exists (mmap (ds_tagged TG ord (OS:=OS)) pm), (ds_tagged TG ord c). split; auto.
      unfold mmap. apply in_map_iff. exists (k, c). auto.
    - intros l mn mx o' Hs. destruct s as [[[[e|l']|] mn' mx' a| |n|n|[pm|] rr a|t| ]|]; cbn in Hs; try discriminate Hs.
      injection Hs as _ <- <- _. eapply h9. reflexivity.
    - constructor; cbn; auto. intros m' Hm. apply info_map_tagged in Hm as (m0 & _ & ->).
      split; [apply msorted_mof|intros; exact I].
    - intros m' r o' Hs. destruct s as [[[[e|l]|] mn mx a| |n|n|[pm|] rr a|t| ]|]; cbn in Hs; try discriminate Hs.
      injection Hs as <- _ _. apply msorted_mmap. eapply h11. reflexivity.
  Qed.
End Tagged.

Section Things.
  Variable E : env.
  Variable X : exts.
  Notation dsop := (dsop (pty (x_ds X)) (pty (x_as X)) (pty (x_os X))).

  Lemma says_form x p (f : form X) : form_says (x, p) f -> form_made f.
  Proof.
    intros [h1 h2 h3 h4 h5 h6 h7 h8 (rs & _ & h9) h10]. cbn [fst snd] in *. constructor; unfold not_empty.
    - rewrite h1. destruct (picks _ p); discriminate.
    - rewrite h6. apply nonempty_not_nil.
    - rewrite h7. apply nonempty_not_nil.
    - rewrite h9. apply nonempty_not_nil.
  Qed.

  Lemma says_info tg p i : info_declared tg p i -> info_made any_tag i.
  Proof.
    intros Hi. constructor.
    - rewrite (id_attype Hi). apply nonempty_not_nil.
    - intros m Hm. destruct Hi as [_ _ H1 _ H2]. split; [|intros; exact I].
      destruct Hm as [Hm|Hm]; rewrite Hm in *; [apply omatch_r in H1 as (? & _ & G)|apply omatch_r in H2 as (? & _ & G)];
        apply G.
  Qed.

  Lemma says_ia tg x p (i : interaction X) : ia_says tg x p i -> info_made any_tag (ia_info i) ->
    (forall n d, In (n, d) (olist (ia_uri i)) -> schema_made any_tag d) -> interaction_made i.
  Proof.
    intros [h1 h2 h3] Hi Hu. constructor; auto.
    - intros f Hf. destruct (from_call h1 Hf) as ([xf q] & _ & Hq). eapply says_form; eauto.
    - eapply omap_made; eauto.
  Qed.

  Lemma says_scheme tg p r : sec_says tg p r -> scheme_made (snd r).
  Proof.
    intros [(c & key & _ & Hs & _) _ h3 _ h5 _]. constructor.
    - unfold not_empty. rewrite h3. apply nonempty_not_nil.
    - intros m Hm. rewrite Hm in h5. apply omatch_r in h5 as (? & _ & H). apply H.
    - intros i Hi. rewrite Hi in Hs. inversion Hs. reflexivity.
    - intros a Ha. rewrite Ha in Hs. inversion Hs. cbn. apply nonempty_not_nil.
  Qed.

  (** A schema made without the calls of string schemas *)
  Lemma no_string_calls tg (p : list dsop) d s : ds_says tg p d -> (forall o, In o p -> belongs CString o = false) ->
    ds_sub d = Some (SString s) -> s = no_limits.
  Proof.
    intros [[_ _ _ _ _ _ _ _ _ _ Hs]] Hp Hd. rewrite Hd in Hs.
    assert (forall B (f : dsop -> option B), (forall o b, f o = Some b -> belongs CString o = true) -> lasto (picks f p) = None) as H.
    { intros B f Hf. destruct (lasto (picks f p)) eqn:El; [|reflexivity].
      apply last_pick in El as (o & Ho & Hb). apply Hf in Hb. rewrite (Hp _ Ho) in Hb. discriminate Hb. }
    destruct s as [a b c e m]. unfold no_limits.
    pose proof (sd_smin Hs) as G1. pose proof (sd_smax Hs) as G2. pose proof (sd_pattern Hs) as G3.
    pose proof (sd_encoding Hs) as G4. pose proof (sd_media Hs) as G5. cbn in G1, G2, G3, G4, G5.
    rewrite H in G1, G2, G3, G4, G5; subst; try reflexivity; intros [] ? F; try discriminate F; reflexivity.
  Qed.

  Lemma built_thing_made ord title x p (t : thing E X) :
    order_ok ord -> thing_program ord title x p = Some (Ok t) -> thing_made t.
  Proof.
    intros Ho Ht. pose proof (built_says Ho _ _ _ Ht) as Hs. pose proof (built_consistent Ho _ _ _ Ht) as Hc.
    assert (forall d, schema_in (thing_body t) d -> schema_made any_tag d) as Hd.
    { intros d Hd e He. refine (@built_schemas E X (node_made any_tag) ord title x p t _ _ Ho Ht d e Hd He).
      - intros q d0 Hq. exact (MadeFacts.built_made _ Hq).
      - intros d0. apply node_tagged. }
    destruct (proj1 (thing_grammar ord title x p) (ex_intro _ _ Ht)) as [_ Hfits].
    assert (forall k n i, affordance (thing_body t) k n i -> forall m d, In (m, d) (olist (ia_uri i)) -> schema_made any_tag d) as Hu.
    { intros k n i Hi m d Hin. apply Hd, in_uri. eapply uri_aff; eauto. }
    constructor; auto.
    - (* context *)
      pose proof (ts_context Hs) as G. unfold context_says in G.
      destruct (picks (@t_of_context E X) p) as [|c0 cs0] eqn:Ep; [left; exact G|]. right.
      destruct G as (js & G1 & G2). exists js. split; [inversion G1; discriminate|]. split; auto.
      intros j Hj. destruct (from_call G1 Hj) as (c & Hcin & Hcj). rewrite <- Ep in Hcin.
      apply picks_In in Hcin as (o & _ & Hoc). destruct o; cbn in Hoc; try discriminate Hoc.
      + destruct (String.eqb s TD_CONTEXT_11) eqn:Es; [discriminate|]. injection Hoc as <-. inversion Hcj; subst.
        left. exists s. split; auto. intros ->. rewrite String.eqb_refl in Es. discriminate Es.
      + injection Hoc as <-. inversion Hcj as [|l m [Hm Hl]]; subst. right.
        exists (map (fun kv => (fst kv, match snd kv with JStr s => s | _ => "" end)) m). split.
        * f_equal. rewrite map_map. rewrite <- (map_id m) at 1. apply map_ext_in. intros [k v] Hin. cbn.
          specialize (Hl k). rewrite (at_key Hm Hin) in Hl. apply omatch_r in Hl as (s & _ & ->). reflexivity.
        * exact (proj2 (msorted_mmap (fun v => match v with JStr s => s | _ => "" end) _) Hm).
    - rewrite (ts_attype Hs). apply nonempty_not_nil.
    - intros m Hm. pose proof (ts_titles Hs) as G. rewrite Hm in G. apply omatch_r in G as (? & _ & G). apply G.
    - intros m Hm. pose proof (ts_descriptions Hs) as G. rewrite Hm in G. apply omatch_r in G as (? & _ & G). apply G.
    - eapply omap_made; [apply (ts_properties Hs)|]. intros k [[xi xp] q] a Hin Ha Hka. destruct Ha as [h1 h2 h3 h4 h5]. cbn [fst snd] in *.
      apply picks_In in Hin as (o & Ho' & Hoc). destruct o; try discriminate Hoc. injection Hoc as -> -> -> ->.
      pose proof (Hfits _ Ho') as Hf. cbn in Hf. destruct Hf as (_ & Hstr & _).
      constructor; auto.
      + eapply says_ia; eauto.
        * rewrite h3. destruct h2 as [h2]. eapply says_info. apply (dd_info h2).
        * intros m d. eapply (Hu AProperty k). constructor. exact Hka.
      + apply Hd, in_checked. eapply chk_property; eauto.
      + intros s. eapply no_string_calls; eauto. intros o Hpo. apply picks_In in Hpo as (o' & Ho1 & Ho2).
        destruct o'; try discriminate Ho2. injection Ho2 as ->. apply Hstr. exact Ho1.
    - eapply omap_made; [apply (ts_actions Hs)|]. intros k [[xi xp] q] a Hin Ha Hka. destruct Ha as [h1 h2 h3 h4 h5 h6 h7 h8]. cbn [fst snd] in *.
      constructor.
      + eapply says_ia; eauto.
        * eapply says_info; eauto.
        * intros m d. eapply (Hu AAction k). constructor. exact Hka.
      + intros d Hi. apply Hd, in_checked. eapply chk_input; eauto.
      + intros d Hi. apply Hd, in_checked. eapply chk_output; eauto.
    - eapply omap_made; [apply (ts_events Hs)|]. intros k [[xi xp] q] a Hin Ha Hka. destruct Ha as [h1 h2 h3 h4 h5 h6 h7]. cbn [fst snd] in *.
      constructor.
      + eapply says_ia; eauto.
        * eapply says_info; eauto.
        * intros m d. eapply (Hu AEvent k). constructor. exact Hka.
      + intros d Hi. apply Hd, in_checked. eapply chk_subscription; eauto.
      + intros d Hi. apply Hd, in_checked. eapply chk_data; eauto.
      + intros d Hi. apply Hd. eapply in_response; eauto.
      + intros d Hi. apply Hd, in_checked. eapply chk_cancellation; eauto.
    - destruct (ts_links Hs) as (ls & Hls & G). rewrite G. split; [apply nonempty_not_nil|].
      intros l Hl. rewrite olist_nonempty in Hl. destruct (from_call Hls Hl) as (q & _ & Hq).
      destruct (ls_hreflang Hq) as (hs & _ & ->). apply nonempty_not_nil.
    - destruct (ts_forms Hs) as (fs & Hfs & G). rewrite G. split; [apply nonempty_not_nil|].
      intros f Hf. rewrite olist_nonempty in Hf. destruct (from_call Hfs Hf) as ([xf q] & _ & Hq). eapply says_form; eauto.
    - destruct (ts_security Hs) as (rs & _ & Es & Hnd & _ & Hk). split.
      + rewrite Es. clear - Hnd. induction rs as [|[[n b] c] rs IH]; cbn in *; [constructor|].
        inversion Hnd as [|? ? H1 H2]; subst. destruct b; cbn; auto. constructor; auto.
        intros H. apply H1. apply in_map_iff in H as (r & Hr & Hin). apply filter_In in Hin as [Hin _].
        apply in_map_iff. eauto.
      + intros n Hn. eapply built_security; eauto.
    - destruct (ts_security Hs) as (rs & Hrs & Es & Hnd & Hsd & Hk). split; auto.
      intros n c Hin. apply Hk, in_map_iff in Hin as (r & Hr & Hin). injection Hr as _ <-.
      destruct (from_call Hrs Hin) as (q & _ & Hq). eapply says_scheme; eauto.
    - eapply omap_made; [apply (ts_uri Hs)|]. intros k c d _ _ Hin. apply Hd, in_uri. eapply uri_thing. exact Hin.
    - rewrite (ts_profile Hs). apply nonempty_not_nil.
    - eapply omap_made; [apply (ts_schemas Hs)|]. intros k c d _ _ Hin. apply Hd. eapply in_definitions. exact Hin.
  Qed.
End Things.
