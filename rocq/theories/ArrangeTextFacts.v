(** * Reading and writing Things whose hash maps are in another order *)

From Coq Require Import String Bool ZArith Lia Permutation List.
From Verif Require Import Base MinMax Json Serde Types DsBuilder Builder HList Ser De Protocol Samples SampleFacts Spec SpecSerde SpecExt SpecDoc
  SpecMember SpecTyped ExactFacts ExchangeMore SpecText TextFacts SpecShuffle ShuffleFacts JsonText SpecJsonText JsonTextFacts ThingTextFacts
  ExtTypedFacts SpecArrange ArrangeFacts SpecThing.
Import ListNotations.
Set Implicit Arguments.
Local Open Scope string_scope.
Local Open Scope list_scope.

(** ** Documents *)

Lemma float_shuffled j j' : shuffled j j' -> forall x, float_in x j' -> float_in x j.
Proof.
  induction 1 as [j|j1 j2 j3 H1 IH1 H2 IH2|es1 kv kv' es2 Hr|es1 k v v' es2 H IH|l1 v v' l2 H IH]; intros x Hx; auto.
  - inversion Hx as [| |k j es Hj Hf]; subst. apply (fi_obj k) with (2 := Hf). rewrite in_app_iff in *. cbn in *. tauto.
  - inversion Hx as [| |k0 j es Hj Hf]; subst. rewrite in_app_iff in Hj. destruct Hj as [Hj|[Q|Hj]].
    + eapply fi_obj; [|exact Hf]. rewrite in_app_iff. left. exact Hj.
    + injection Q as <- <-. eapply fi_obj; [|apply IH, Hf]. rewrite in_app_iff. right. left. reflexivity.
    + eapply fi_obj; [|exact Hf]. rewrite in_app_iff. right. right. exact Hj.
  - inversion Hx as [|j l Hj Hf|]; subst. rewrite in_app_iff in Hj. destruct Hj as [Hj|[Q|Hj]].
    + eapply fi_arr; [|exact Hf]. rewrite in_app_iff. left. exact Hj.
    + subst j. eapply fi_arr; [|apply IH, Hf]. rewrite in_app_iff. right. left. reflexivity.
    + eapply fi_arr; [|exact Hf]. rewrite in_app_iff. right. right. exact Hj.
Qed.

Lemma document_shuffled j j' : shuffled j j' -> document j -> document j'.
Proof.
  induction 1 as [j|j1 j2 j3 H1 IH1 H2 IH2|es1 kv kv' es2 Hr|es1 k v v' es2 H IH|l1 v v' l2 H IH]; intros Hd; auto;
    inversion Hd as [| | | | |l Hl|es Hes]; subst; constructor.
  - intros k j Hj. apply (Hes k). rewrite in_app_iff in *. cbn in *. tauto.
  - intros k0 j Hj. rewrite in_app_iff in Hj. destruct Hj as [Hj|[Q|Hj]].
    + apply (Hes k0). rewrite in_app_iff. left. exact Hj.
    + injection Q as <- <-. apply IH, (Hes k). rewrite in_app_iff. right. left. reflexivity.
    + apply (Hes k0). rewrite in_app_iff. right. right. exact Hj.
  - intros j Hj. rewrite in_app_iff in Hj. destruct Hj as [Hj|[Q|Hj]].
    + apply Hl. rewrite in_app_iff. left. exact Hj.
    + subst j. apply IH, Hl. rewrite in_app_iff. right. left. reflexivity.
    + apply Hl. rewrite in_app_iff. right. right. exact Hj.
Qed.

(** ** Things *)

Section Order.
  Variable E : env.
  Variable X : exts.
  Variable T : xvalues X.

  Lemma arranged_written (t t' : thing E X) : rearranged t t' -> thing_typed T t ->
    (s_thing mk_text t = None /\ s_thing mk_text t' = None)
    \/ exists j j', s_thing mk_text t = Some j /\ s_thing mk_text t' = Some j' /\ shuffled j j'.
  Proof.
    intros R Ht. assert (H := thing_both R Ht). unfold both in H.
    destruct (s_thing mk_text t) as [j|], (s_thing mk_text t') as [j'|]; try contradiction; eauto 6.
  Qed.

  Lemma arranged_read (t t' : thing E X) : exts_shuffle_free X -> rearranged t t' -> thing_typed T t ->
    obind (s_thing mk_text t') (d_thing E X) = obind (s_thing mk_text t) (d_thing E X).
  Proof.
    intros HX R Ht. destruct (arranged_written R Ht) as [[-> ->]|(j & j' & -> & -> & H)]; [reflexivity|].
    cbn. symmetry. exact (thing_inv E HX H).
  Qed.

  Lemma arranged_value (t t' : thing E X) : exts_write_alike X -> rearranged t t' -> thing_typed T t ->
    s_thing mk_value t' = s_thing mk_value t.
  Proof.
    intros HX R Ht. rewrite !(al_thing HX). destruct (arranged_written R Ht) as [[-> ->]|(j & j' & -> & -> & H)]; [reflexivity|].
    cbn. f_equal. symmetry. exact (canon_shuffled H).
  Qed.

  Lemma arranged_text F K V (t t' : thing E X) j : exts_sound K T V -> exts_shuffle_free X -> rearranged t t' -> thing_typed T t ->
    s_thing mk_text t = Some j -> (forall x, float_in x j -> faithful F x) ->
    exists j', s_thing mk_text t' = Some j'
    /\ obind (from_text F (to_text F j')) (d_thing E X) = obind (from_text F (to_text F j)) (d_thing E X).
  Proof.
    intros HS HX R Ht Hj Hf. destruct (arranged_written R Ht) as [[Q _]|(j0 & j' & Q & Hj' & H)]; [congruence|].
    rewrite Hj in Q. injection Q as <-. exists j'. split; [exact Hj'|].
    assert (Hd := written_document HS (or_introl eq_refl) Ht Hj).
    assert (Hd' := document_shuffled H Hd).
    assert (Hf' : forall x, float_in x j' -> faithful F x) by (intros x Hx; apply Hf; eapply float_shuffled; eauto).
    destruct (Compare_dec.le_dec 128 (jdepth j)) as [Hn|Hn].
    - rewrite (text_deep Hd Hf) by (apply nested_depth; exact Hn).
      rewrite (text_deep Hd' Hf') by (apply nested_depth; rewrite <- (depth_shuffled H); exact Hn). reflexivity.
    - rewrite (text_shallow Hd Hf) by (rewrite nested_depth; exact Hn).
      rewrite (text_shallow Hd' Hf') by (rewrite nested_depth, <- (depth_shuffled H); exact Hn).
      cbn. symmetry. exact (thing_inv E HX H).
  Qed.
End Order.

(** ** Orders rearrange *)

Lemma opt_arranged A (R : A -> A -> Prop) (f : A -> A) o : (forall a, o = Some a -> R a (f a)) -> opt_rel R o (option_map f o).
Proof. destruct o as [a|]; cbn; constructor. apply H. reflexivity. Qed.

Lemma list_arranged A (R : A -> A -> Prop) f l : (forall a, In a l -> R a (f a)) -> Forall2 R l (map f l).
Proof.
  induction l as [|a l IH]; cbn; intros H; constructor; [apply H; left; reflexivity|].
  apply IH. intros b Hb. apply H. right. exact Hb.
Qed.

Section Orders.
  Variable ord : order.
  Hypothesis Ho : order_ok ord.

  Lemma map_arranged A (R : A -> A -> Prop) f (m : amap A) : (forall k a, In (k, a) m -> R a (f a)) -> map_rel R m (arrange_map ord f m).
  Proof.
    intros H. apply mr with (map (fun kv => (fst kv, f (snd kv))) m); [|apply Permutation_sym, Ho].
    apply list_arranged. intros [k a] Hin. split; [reflexivity|]. exact (H k a Hin).
  Qed.

  Lemma lang_arranged o : opt_rel lang_rel o (option_map (arrange_lang ord) o).
  Proof. apply opt_arranged. intros m _. apply Permutation_sym, Ho. Qed.

  Lemma info_arranged i : info_rel i (arrange_info ord i).
  Proof. repeat split; apply lang_arranged. Qed.

  Variable E : env.
  Variable X : exts.

  Lemma ds_arranged (d : dsx X) : ds_rel d (arrange_ds ord d).
  Proof.
    induction d as [i m o s x IHo IHs] using ds_ind'. cbn [arrange_ds]. constructor.
    - apply info_arranged.
    - apply opt_arranged. intros l El. apply list_arranged. intros c Hc. exact (IHo l c El Hc).
    - apply opt_arranged. intros u Eu. specialize (fun c => IHs u c Eu).
      destruct u as [items mn mx a| | | |ps r a| |]; cbn [arrange_sub]; try apply sr_same.
      + constructor. apply opt_arranged. intros b Eb. subst items. cbn [sub_children] in IHs.
        destruct b as [c|l]; cbn [arrange_boxed]; constructor.
        * apply IHs. left. reflexivity.
        * apply list_arranged. exact IHs.
      + constructor. apply opt_arranged. intros b Eb. subst ps. cbn [sub_children] in IHs.
        apply map_arranged. intros k c Hc. apply IHs. apply in_map_iff. exists (k, c). split; [reflexivity|exact Hc].
  Qed.

  Lemma dso_arranged (o : option (dsx X)) : opt_rel (@ds_rel X) o (option_map (@arrange_ds ord X) o).
  Proof. apply opt_arranged. intros d _. apply ds_arranged. Qed.

  Lemma dsmap_arranged (o : option (amap (dsx X))) :
    opt_rel (map_rel (@ds_rel X)) o (option_map (arrange_map ord (@arrange_ds ord X)) o).
  Proof. apply opt_arranged. intros m _. apply map_arranged. intros k d _. apply ds_arranged. Qed.

  Lemma interaction_arranged (i : interaction X) : interaction_rel i (arrange_interaction ord i).
  Proof. split; [apply info_arranged|]. split; [reflexivity|]. split; [apply dsmap_arranged|reflexivity]. Qed.

  Lemma thing_arranged (t : thing E X) : rearranged t (arrange ord t).
  Proof.
    constructor; try reflexivity; try apply lang_arranged; try apply dsmap_arranged.
    - apply opt_arranged. intros m _. apply map_arranged. intros k p _.
      split; [apply interaction_arranged|]. split; [apply ds_arranged|]. split; reflexivity.
    - apply opt_arranged. intros m _. apply map_arranged. intros k a _.
      split; [apply interaction_arranged|]. split; [apply dso_arranged|]. split; [apply dso_arranged|]. repeat split.
    - apply opt_arranged. intros m _. apply map_arranged. intros k e _.
      split; [apply interaction_arranged|]. do 4 (split; [apply dso_arranged|]). reflexivity.
    - apply map_arranged. intros k s _. split; [reflexivity|]. split; [reflexivity|]. split; [apply lang_arranged|]. split; reflexivity.
  Qed.
End Orders.

(** ** An example *)

Lemma lamp_arranged :
  exts_shuffle_free http_exts /\ exts_write_alike http_exts /\ exts_sound http_names http_typed http_values
  /\ order_ok rev_order /\ rearranged the_lamp (arrange rev_order the_lamp) /\ thing_typed http_typed the_lamp
  /\ s_thing mk_text the_lamp <> None /\ s_thing mk_text (arrange rev_order the_lamp) <> s_thing mk_text the_lamp.
Proof.
  split; [exact http_shuffle|]. split; [exact http_alike|]. split; [exact http_sound|]. split; [exact rev_order_ok|].
  split; [exact (thing_arranged rev_order_ok the_lamp)|].
  split; [exact lamp_typed|]. split; vm_compute; discriminate.
Qed.
