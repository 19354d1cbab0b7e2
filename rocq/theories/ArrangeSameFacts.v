(** * A Thing has one representation with sorted maps *)

From Coq Require Import String Bool ZArith Permutation List.
From Verif Require Import Base MinMax Json Serde Types DsBuilder Spec SpecSerde SpecExt SpecDoc SpecMember SpecTyped SpecArrange ArrangeFacts SpecThing.
Import ListNotations.
Set Implicit Arguments.
Local Open Scope string_scope.
Local Open Scope list_scope.

Lemma sorted_same A (m m' : amap A) : Permutation m m' -> msorted m -> msorted m' -> m' = m.
Proof. intros H Hm Hm'. rewrite <- (mof_Permutation Hm' H). apply mof_sorted, Hm. Qed.

Lemma opt_same A (R : A -> A -> Prop) o o' : opt_rel R o o' -> (forall a a', o = Some a -> o' = Some a' -> R a a' -> a' = a) -> o' = o.
Proof. intros [|a a' H] Hf; [reflexivity|]. f_equal. apply Hf; auto. Qed.

Lemma list_same A (R : A -> A -> Prop) l l' : Forall2 R l l' -> (forall a a', In a l -> In a' l' -> R a a' -> a' = a) -> l' = l.
Proof.
  induction 1 as [|a a' l l' Ha Hl IH]; intros Hf; [reflexivity|]. f_equal.
  - apply Hf; [left; reflexivity|left; reflexivity|exact Ha].
  - apply IH. intros b b' Hb Hb'. apply Hf; right; assumption.
Qed.

Lemma map_same A (R : A -> A -> Prop) (m m' : amap A) : map_rel R m m' -> msorted m -> msorted m' ->
  (forall k a k' a', In (k, a) m -> In (k', a') m' -> R a a' -> a' = a) -> m' = m.
Proof.
  intros [m1 H1 H2] Hm Hm' Hf. apply sorted_same; [|exact Hm|exact Hm'].
  replace m with m1; [exact H2|]. apply (list_same H1). intros [k a] [k' a'] Hin Hin' [Q HR]. cbn in Q, HR. subst k'.
  f_equal. apply (Hf k a k a' Hin); [|exact HR]. eapply Permutation_in; [exact H2|exact Hin'].
Qed.

Section Same.
  Variable E : env.
  Variable X : exts.
  Variable T : xvalues X.

  Lemma langs_same o o' : opt_rel lang_rel o o' -> (forall m, o = Some m -> msorted m) -> (forall m, o' = Some m -> msorted m) -> o' = o.
  Proof. intros R H H'. apply (opt_same R). intros m m' Hm Hm' HR. apply sorted_same; auto. Qed.

  Lemma info_same i i' : info_rel i i' -> info_ok E i -> info_ok E i' -> i' = i.
  Proof.
    intros (R1 & R2 & R3 & R4 & R5) H H'. assert (Q1 : i_titles i' = i_titles i).
    { apply (langs_same R3); intros m Hm; [apply (H m)|apply (H' m)]; left; exact Hm. }
    assert (Q2 : i_descriptions i' = i_descriptions i).
    { apply (langs_same R5); intros m Hm; [apply (H m)|apply (H' m)]; right; exact Hm. }
    destruct i, i'. cbn in *. congruence.
  Qed.

  Lemma ds_same (d : dsx X) : forall d', ds_rel d d' -> schema_typed E T d -> schema_typed E T d' -> d' = d.
  Proof.
    induction d as [i m o s x IHo IHs] using ds_ind'. intros d' Hr Hd Hd'.
    inversion Hr as [i0 i' m0 l0 l' s0 s' o0 Ri Rl Rs]; subst.
    pose proof (Hd _ (sub_self _)) as (Hi & _ & _ & _ & Hs & _). cbn [ds_info ds_sub] in Hi, Hs.
    pose proof (Hd' _ (sub_self _)) as (Hi' & _ & _ & _ & Hs' & _). cbn [ds_info ds_sub] in Hi', Hs'.
    assert (Q1 := info_same Ri Hi Hi').
    assert (Q2 : l' = o).
    { apply (opt_same Rl). intros l l1 El El' Hl. apply (list_same Hl). intros c c' Hc Hc' Rc.
      apply (IHo l c El Hc _ Rc); intros e He; [apply Hd|apply Hd']; eapply sub_one_of; eauto. }
    assert (Q3 : s' = s).
    { apply (opt_same Rs). intros u u' Eu Eu' Ru. specialize (Hs u Eu). specialize (Hs' u' Eu'). specialize (fun c => IHs u c Eu).
      destruct Ru as [items items' mn mx a Rb|ps ps' r a Rp|u]; [| |reflexivity]; f_equal.
      - apply (opt_same Rb). intros b b' Eb Eb' HR. subst items items' s s'. destruct HR as [c c' Rc|l l1 Rl1]; cbn [sub_children] in IHs; f_equal.
        + apply IHs; [left; reflexivity|exact Rc| |]; intros e He; [apply Hd|apply Hd']; eapply sub_item; try reflexivity; exact He.
        + apply (list_same Rl1). intros c c' Hc Hc' Rc. apply IHs; [exact Hc|exact Rc| |]; intros e He; [apply Hd|apply Hd'];
            eapply sub_items; try reflexivity; eassumption.
      - apply (opt_same Rp). intros b b' Eb Eb' HR. subst ps ps' s s'. cbn [sub_children subtype_typed] in *.
        apply (map_same HR); [apply (proj1 Hs); reflexivity|apply (proj1 Hs'); reflexivity|].
        intros k c k' c' Hc Hc' Rc. apply IHs; [|exact Rc| |].
        + apply in_map_iff. exists (k, c). split; [reflexivity|exact Hc].
        + intros e He. apply Hd. eapply sub_prop; [reflexivity|exact Hc|exact He].
        + intros e He. apply Hd'. eapply sub_prop; [reflexivity|exact Hc'|exact He]. }
    subst. reflexivity.
  Qed.

  Lemma dso_same (o o' : option (dsx X)) : opt_rel (@ds_rel X) o o' -> all_some (schema_typed E T) o -> all_some (schema_typed E T) o' -> o' = o.
  Proof. intros R H H'. apply (opt_same R). intros d d' Hd Hd' Rd. exact (ds_same Rd (H _ Hd) (H' _ Hd')). Qed.

  Lemma dsmap_same (o o' : option (amap (dsx X))) : opt_rel (map_rel (@ds_rel X)) o o' ->
    all_some (schemas_typed E T) o -> all_some (schemas_typed E T) o' -> o' = o.
  Proof.
    intros R H H'. apply (opt_same R). intros m m' Hm Hm' Rm. destruct (H _ Hm) as [A1 A2], (H' _ Hm') as [B1 B2].
    apply (map_same Rm A1 B1). intros k d k' d' Hd Hd' Rd. exact (ds_same Rd (A2 _ _ Hd) (B2 _ _ Hd')).
  Qed.

  Lemma interaction_same (i i' : interaction X) : interaction_rel i i' -> interaction_typed E T i -> interaction_typed E T i' -> i' = i.
  Proof.
    intros (R1 & R2 & R3 & R4) (H1 & _ & H3 & _) (H1' & _ & H3' & _).
    assert (Q1 := info_same R1 H1 H1'). assert (Q2 := dsmap_same R3 H3 H3'). destruct i, i'. cbn in *. congruence.
  Qed.

  Lemma property_same (p p' : property X) : property_rel p p' -> property_typed E T p -> property_typed E T p' -> p' = p.
  Proof.
    intros (R1 & R2 & R3 & R4) (H1 & H2 & _) (H1' & H2' & _).
    assert (Q1 := interaction_same R1 H1 H1'). assert (Q2 := ds_same R2 H2 H2'). destruct p, p'. cbn in *. congruence.
  Qed.

  Lemma action_same (a a' : action X) : action_rel a a' -> action_typed E T a -> action_typed E T a' -> a' = a.
  Proof.
    intros (R1 & R2 & R3 & R4 & R5 & R6 & R7) (H1 & H2 & H3 & _) (H1' & H2' & H3' & _).
    assert (Q1 := interaction_same R1 H1 H1'). assert (Q2 := dso_same R2 H2 H2'). assert (Q3 := dso_same R3 H3 H3').
    destruct a, a'. cbn in *. congruence.
  Qed.

  Lemma event_same (e e' : event X) : event_rel e e' -> event_typed E T e -> event_typed E T e' -> e' = e.
  Proof.
    intros (R1 & R2 & R3 & R4 & R5 & R6) (H1 & H2 & H3 & H4 & H5 & _) (H1' & H2' & H3' & H4' & H5' & _).
    assert (Q1 := interaction_same R1 H1 H1'). assert (Q2 := dso_same R2 H2 H2'). assert (Q3 := dso_same R3 H3 H3').
    assert (Q4 := dso_same R4 H4 H4'). assert (Q5 := dso_same R5 H5 H5'). destruct e, e'. cbn in *. congruence.
  Qed.

  Lemma security_same s s' : security_rel s s' -> security_typed E s -> security_typed E s' -> s' = s.
  Proof.
    intros (R1 & R2 & R3 & R4 & R5) [H _] [H' _].
    assert (Q : ss_descriptions s' = ss_descriptions s) by (apply (langs_same R3); intros m Hm; [apply (H m Hm)|apply (H' m Hm)]).
    destruct s, s'. cbn in *. congruence.
  Qed.

  Lemma maps_same A (R : A -> A -> Prop) (P : A -> Prop) (o o' : option (amap A)) : opt_rel (map_rel R) o o' ->
    all_some (map_ok P) o -> all_some (map_ok P) o' -> (forall a a', R a a' -> P a -> P a' -> a' = a) -> o' = o.
  Proof.
    intros HR H H' Hf. apply (opt_same HR). intros m m' Hm Hm' Rm. destruct (H _ Hm) as [A1 A2], (H' _ Hm') as [B1 B2].
    apply (map_same Rm A1 B1). intros k a k' a' Ha Ha' Ra. exact (Hf _ _ Ra (A2 _ _ Ha) (B2 _ _ Ha')).
  Qed.

  Lemma thing_same (t t' : thing E X) : rearranged t t' -> thing_typed T t -> thing_typed T t' -> t' = t.
  Proof.
    intros R (_ & H2 & H3 & H4 & H5 & H6 & _ & _ & H9 & H10 & H11 & _) (_ & G2 & G3 & G4 & G5 & G6 & _ & _ & G9 & G10 & G11 & _).
    assert (Q2 : t_titles t' = t_titles t) by (apply (langs_same (ra_titles R)); intros m Hm; [apply (H2 m Hm)|apply (G2 m Hm)]).
    assert (Q3 : t_descriptions t' = t_descriptions t)
      by (apply (langs_same (ra_descriptions R)); intros m Hm; [apply (H3 m Hm)|apply (G3 m Hm)]).
    assert (Q4 := maps_same (ra_properties R) H4 G4 property_same).
    assert (Q5 := maps_same (ra_actions R) H5 G5 action_same).
    assert (Q6 := maps_same (ra_events R) H6 G6 event_same).
    assert (Q10 := dsmap_same (ra_uri R) H10 G10). assert (Q11 := dsmap_same (ra_schemas R) H11 G11).
    assert (Q9 : t_secdefs t' = t_secdefs t).
    { destruct H9 as [A1 A2], G9 as [B1 B2]. apply (map_same (ra_secdefs R) A1 B1).
      intros k a k' a' Ha Ha' Ra. exact (security_same Ra (A2 _ _ Ha) (B2 _ _ Ha')). }
    destruct R as [_ _ _ _ _ _ _ _ C1 C2 C3 C4 C5 C6 C7 C8 C9 C10 C11 C12 C13 C14 C15]. clear H2 H3 H4 H5 H6 H9 H10 H11 G2 G3 G4 G5 G6 G9 G10 G11.
    destruct t, t'. cbn in *. subst. reflexivity.
  Qed.
End Same.
