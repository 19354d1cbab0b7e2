(** * The order of members does not matter *)

From Coq Require Import String Bool ZArith Permutation Lia List.
From Verif Require Import Base MinMax Json Serde Types SpecSerde SpecDoc Ser De SerdeFacts RoundTrip RoundTripDs.
Import ListNotations.
Set Implicit Arguments.
Local Open Scope string_scope.
Local Open Scope list_scope.

(** ** Documents up to order *)

Definition cmap (es : entries) : entries := map (fun kv => (fst kv, canon (snd kv))) es.

Lemma cmap_keys es : map fst (cmap es) = map fst es.
Proof. unfold cmap. rewrite map_map. reflexivity. Qed.

Lemma canon_obj es : canon (JObj es) = JObj (mof (cmap es)).
Proof. reflexivity. Qed.

Lemma canon_null j : canon j = JNull <-> j = JNull.
Proof. destruct j; simpl; split; congruence. Qed.

Lemma canon_idem j : canon (canon j) = canon j.
Proof.
  induction j using json_ind'; simpl; auto.
  - f_equal. rewrite map_map. apply map_ext_in. auto.
  - f_equal. fold (cmap es).
    assert (map (fun kv => (fst kv, canon (snd kv))) (mof (cmap es)) = mof (cmap es)) as ->.
    { rewrite <- (map_id (mof (cmap es))) at 2. apply map_ext_in. intros [k v] Hin. simpl. f_equal.
      apply In_mof in Hin. unfold cmap in Hin. apply in_map_iff in Hin as ([k' v'] & [= <- <-] & Hin).
      simpl. eauto. }
    apply mof_sorted, msorted_mof.
Qed.

Lemma mof_perm A (l : list (string * A)) : NoDup (map fst l) -> Permutation l (mof l).
Proof.
  intros H. apply NoDup_Permutation.
  - apply NoDup_map_inv in H; auto.
  - pose proof (msorted_NoDup _ (msorted_mof l)) as Hn. unfold mkeys in Hn.
    apply NoDup_map_inv in Hn; auto.
  - intros [k v]. split; intros Hin.
    + apply mlook_Some_In. rewrite mlook_mof, llook_NoDup by auto. apply In_mlook; auto.
    + apply In_mof in Hin. auto.
Qed.

Lemma cmap_perm es es' : Permutation es es' -> Permutation (cmap es) (cmap es').
Proof. apply Permutation_map. Qed.

(** Equal up to order, as values. *)
Lemma reordered_canon j j' : reordered j j' -> no_repeats j -> no_repeats j' /\ canon j = canon j'.
Proof.
  induction 1 as [j|j1 j2 j3 _ IH1 _ IH2|es1 [k v] [k' v'] es2|es1 k v v' es2 _ IH|l1 v v' l2 _ IH];
    intros Hn.
  - auto.
  - destruct (IH1 Hn) as [H2 E1]. destruct (IH2 H2) as [H3 E2]. split; congruence.
  - inversion Hn as [j Ha Ho|l Hl|es Hd Hm]; subst; [exfalso; eapply Ho; eauto|].
    assert (P : Permutation (es1 ++ (k, v) :: (k', v') :: es2) (es1 ++ (k', v') :: (k, v) :: es2))
      by (apply Permutation_app_head, perm_swap).
    split.
    + apply nr_obj.
      * eapply Permutation_NoDup; [apply (Permutation_map fst), P|]. auto.
      * intros k0 j Hin. apply (Hm k0). eapply Permutation_in; [apply Permutation_sym, P|auto].
    + rewrite !canon_obj. f_equal. apply mof_Permutation_eq; [rewrite cmap_keys; auto|].
      apply cmap_perm; auto.
  - inversion Hn as [j Ha Ho|l Hl|es Hd Hm]; subst; [exfalso; eapply Ho; eauto|].
    destruct (IH (Hm k v (in_elt _ _ _))) as [Hn' Ec]. split.
    + apply nr_obj.
      * rewrite !map_app in *. simpl in *. auto.
      * intros k0 j Hin. apply in_app_or in Hin as [Hin|[[= <- <-]|Hin]]; auto; apply (Hm k0); apply in_or_app; simpl; auto.
    + rewrite !canon_obj. unfold cmap. rewrite !map_app. simpl. rewrite Ec. reflexivity.
  - inversion Hn as [j Ha Ho|l Hl|es Hd Hm]; subst; [exfalso; eapply Ha; eauto|].
    destruct (IH (Hl v (in_elt _ _ _))) as [Hn' Ec]. split.
    + apply nr_arr. intros j Hin. apply in_app_or in Hin as [Hin|[<-|Hin]]; auto; apply Hl; apply in_or_app; simpl; auto.
    + simpl. rewrite !map_app. simpl. rewrite Ec. reflexivity.
Qed.

Lemma perm_reordered es es' : Permutation es es' -> forall pre, reordered (JObj (pre ++ es)) (JObj (pre ++ es')).
Proof.
  induction 1 as [|x l l' _ IH|x y l|l1 l2 l3 _ IH1 _ IH2]; intros pre.
  - apply ro_refl.
  - specialize (IH (pre ++ [x])). rewrite <- !app_assoc in IH. exact IH.
  - apply ro_swap.
  - eapply ro_trans; eauto.
Qed.

Lemma cmap_reordered es : (forall k v, In (k, v) es -> reordered v (canon v)) ->
  forall pre, reordered (JObj (pre ++ es)) (JObj (pre ++ cmap es)).
Proof.
  induction es as [|[k v] es IH]; intros H pre; [apply ro_refl|].
  eapply ro_trans; [apply ro_member with (v' := canon v); apply (H k); left; auto|].
  assert (IH' := IH (fun k0 v0 Hin => H k0 v0 (or_intror Hin)) (pre ++ [(k, canon v)])).
  rewrite <- !app_assoc in IH'. exact IH'.
Qed.

Lemma canon_list_reordered l : (forall v, In v l -> reordered v (canon v)) ->
  forall pre, reordered (JArr (pre ++ l)) (JArr (pre ++ map canon l)).
Proof.
  induction l as [|v l IH]; intros H pre; [apply ro_refl|].
  eapply ro_trans; [apply ro_item with (v' := canon v); apply H; left; auto|].
  assert (IH' := IH (fun v0 Hin => H v0 (or_intror Hin)) (pre ++ [canon v])).
  rewrite <- !app_assoc in IH'. exact IH'.
Qed.

Lemma canon_reordered j : no_repeats j -> reordered j (canon j).
Proof.
  induction j using json_ind'; intros Hn; try apply ro_refl.
  - inversion Hn as [j Ha Ho|l' Hl|es Hd Hm]; subst; [exfalso; eapply Ha; eauto|].
    apply (@canon_list_reordered l) with (pre := []). auto.
  - inversion Hn as [j Ha Ho|l' Hl|es' Hd Hm]; subst; [exfalso; eapply Ho; eauto|].
    rewrite canon_obj. eapply ro_trans.
    + apply (@cmap_reordered es) with (pre := []). eauto.
    + apply (@perm_reordered (cmap es)) with (pre := []). apply mof_perm. rewrite cmap_keys. auto.
Qed.

(** One bound each is not a matter of order. *)
Lemma reordered_bounds j j' : reordered j j' -> one_bound_each j -> one_bound_each j'.
Proof.
  induction 1 as [j|j1 j2 j3 _ IH1 _ IH2|es1 kv kv' es2|es1 k v v' es2 _ IH|l1 v v' l2 _ IH];
    intros Hn; auto.
  - inversion Hn as [j Ha Ho|l Hl|es Hx Hi Hm]; subst; [exfalso; eapply Ho; eauto|].
    assert (P : Permutation (es1 ++ kv' :: kv :: es2) (es1 ++ kv :: kv' :: es2))
      by (apply Permutation_app_head, perm_swap).
    assert (Q := Permutation_map fst P).
    apply ob_obj.
    + intros H1 H2. apply (Hx (Permutation_in _ Q H1)). apply (Permutation_in _ Q H2).
    + intros H1 H2. apply (Hi (Permutation_in _ Q H1)). apply (Permutation_in _ Q H2).
    + intros k j Hin. apply (Hm k). apply (Permutation_in _ P Hin).
  - inversion Hn as [j Ha Ho|l Hl|es Hx Hi Hm]; subst; [exfalso; eapply Ho; eauto|].
    rewrite map_app in Hx, Hi. apply ob_obj; try (rewrite map_app; assumption).
    intros k0 j Hin. apply in_app_or in Hin as [Hin|[[= <- <-]|Hin]];
      [apply (Hm k0)|apply IH, (Hm k)|apply (Hm k0)]; apply in_or_app; simpl; auto.
  - inversion Hn as [j Ha Ho|l Hl|es Hx Hi Hm]; subst; [exfalso; eapply Ha; eauto|].
    apply ob_arr. intros j Hin. apply in_app_or in Hin as [Hin|[<-|Hin]];
      [apply Hl|apply IH, Hl|apply Hl]; apply in_or_app; simpl; auto.
Qed.

(** ** Good documents *)

(** [b]: whether objects have at most one bound of each kind, too. *)
Definition good (b : bool) (j : json) : Prop := no_repeats j /\ (b = true -> one_bound_each j).

Record good_obj (b : bool) (es : entries) : Prop := {
  go_nodup : NoDup (map fst es);
  go_members : forall k v, In (k, v) es -> good b v;
  go_max : b = true -> In "maximum" (map fst es) -> ~ In "exclusiveMaximum" (map fst es);
  go_min : b = true -> In "minimum" (map fst es) -> ~ In "exclusiveMinimum" (map fst es);
}.

Lemma one_bound_obj es : one_bound_each (JObj es) ->
  (In "maximum" (map fst es) -> ~ In "exclusiveMaximum" (map fst es))
  /\ (In "minimum" (map fst es) -> ~ In "exclusiveMinimum" (map fst es))
  /\ forall k v, In (k, v) es -> one_bound_each v.
Proof.
  intros Ho. inversion Ho as [j Ha Hb|l' Hl|es' Hx Hi Hm']; subst; [exfalso; eapply Hb; eauto|]. auto.
Qed.

Lemma one_bound_arr l : one_bound_each (JArr l) -> forall j, In j l -> one_bound_each j.
Proof.
  intros Ho. inversion Ho as [j Ha Hb|l' Hl|es' Hx Hi Hm']; subst; [exfalso; eapply Ha; eauto|]. auto.
Qed.

Lemma no_repeats_obj es : no_repeats (JObj es) ->
  NoDup (map fst es) /\ forall k v, In (k, v) es -> no_repeats v.
Proof.
  intros Hn. inversion Hn as [j Ha Hb|l' Hl|es' Hd Hm]; subst; [exfalso; eapply Hb; eauto|]. auto.
Qed.

Lemma no_repeats_arr l : no_repeats (JArr l) -> forall j, In j l -> no_repeats j.
Proof.
  intros Hn. inversion Hn as [j Ha Hb|l' Hl|es' Hd Hm]; subst; [exfalso; eapply Ha; eauto|]. auto.
Qed.

Lemma good_obj_iff b es : good b (JObj es) <-> good_obj b es.
Proof.
  split.
  - intros [Hn Ho]. apply no_repeats_obj in Hn as [Hd Hm].
    split; auto.
    + intros k v Hin. split; eauto. intros Hb. apply Ho, one_bound_obj in Hb as (_ & _ & H). eauto.
    + intros Hb. apply Ho, one_bound_obj in Hb. apply Hb.
    + intros Hb. apply Ho, one_bound_obj in Hb. apply Hb.
  - intros [Hd Hm Hx Hi]. split.
    + apply nr_obj; auto. intros k j Hin. apply (Hm k j Hin).
    + intros Hb. apply ob_obj; auto. intros k j Hin. apply (Hm k j Hin); auto.
Qed.

Lemma good_arr b l : good b (JArr l) -> forall j, In j l -> good b j.
Proof.
  intros [Hn Ho] j Hin. split; [eapply no_repeats_arr; eauto|].
  intros Hb. eapply one_bound_arr; eauto.
Qed.

Lemma without_keys ks es k : In k (map fst (without ks es)) -> In k (map fst es).
Proof.
  intros H. apply in_map_iff in H as ([k' v] & <- & H). apply filter_In in H as [H _].
  apply in_map_iff. exists (k', v). auto.
Qed.

Lemma without_nodup ks es : NoDup (map fst es) -> NoDup (map fst (without ks es)).
Proof.
  induction es as [|[k v] es IH]; simpl; intros H; auto. inversion H; subst.
  destruct (smem k ks); simpl; auto. constructor; auto. intros Hin. apply without_keys in Hin. auto.
Qed.

Lemma good_without b ks es : good_obj b es -> good_obj b (without ks es).
Proof.
  intros [Hd Hm Hx Hi]. split.
  - apply without_nodup; auto.
  - intros k v Hin. apply without_In in Hin. eauto.
  - intros Hb H1 H2. apply without_keys in H1, H2. tauto.
  - intros Hb H1 H2. apply without_keys in H1, H2. tauto.
Qed.

(** ** Objects with their members reordered *)

Definition crel (b : bool) (es es' : entries) : Prop := good_obj b es /\ Permutation (cmap es) es'.

(** All members are below a depth. *)
Definition below (n : nat) (es : entries) : Prop := forall k v, In (k, v) es -> jdepth v < n.

Lemma below_without n ks es : below n es -> below n (without ks es).
Proof. intros H k v Hin. apply without_In in Hin. eauto. Qed.

Lemma below_self es : below (jdepth (JObj es)) es.
Proof. intros k v. apply jdepth_obj. Qed.

Lemma crel_canon b es : good_obj b es -> exists es', canon (JObj es) = JObj es' /\ crel b es es'.
Proof.
  intros H. exists (mof (cmap es)). split; [reflexivity|]. split; auto.
  apply mof_perm. rewrite cmap_keys. apply H.
Qed.

Lemma get_cmap k es : get k (cmap es) = map canon (get k es).
Proof.
  induction es as [|[k' v] es IH]; auto. simpl. rewrite !get_cons, IH.
  destruct (String.eqb k k'); reflexivity.
Qed.

Lemma crel_get b k es es' : crel b es es' -> get k es' = map canon (get k es).
Proof.
  intros [H P]. rewrite (get_Permutation_eq k P), get_cmap; auto.
  rewrite get_cmap, map_length. apply get_length_NoDup, H.
Qed.

Lemma without_cmap ks es : without ks (cmap es) = cmap (without ks es).
Proof.
  induction es as [|[k v] es IH]; simpl; auto. destruct (smem k ks); simpl; rewrite IH; auto.
Qed.

Lemma perm_filter A (f : A -> bool) l l' : Permutation l l' -> Permutation (filter f l) (filter f l').
Proof.
  induction 1; simpl; auto.
  - destruct (f x); auto.
  - destruct (f x), (f y); auto. apply perm_swap.
  - eapply perm_trans; eauto.
Qed.

Lemma crel_without b ks es es' : crel b es es' -> crel b (without ks es) (without ks es').
Proof.
  intros [H P]. split; [apply good_without; auto|]. rewrite <- without_cmap. apply perm_filter; auto.
Qed.

Lemma crel_keys b es es' k : crel b es es' -> In k (map fst es') <-> In k (map fst es).
Proof.
  intros [_ P]. rewrite <- (cmap_keys es).
  split; apply Permutation_in; apply Permutation_map; [apply Permutation_sym|]; auto.
Qed.

Lemma crel_nodup b es es' : crel b es es' -> NoDup (map fst es').
Proof.
  intros [H P]. eapply Permutation_NoDup; [apply Permutation_map, P|]. rewrite cmap_keys. apply H.
Qed.

Lemma crel_reordered b es es' : crel b es es' -> no_repeats (JObj es) /\ reordered (JObj es) (JObj es').
Proof.
  intros [H P]. split; [apply (proj1 (proj2 (good_obj_iff b es) H))|].
  eapply ro_trans.
  - apply (@cmap_reordered es) with (pre := []). intros k v Hin. apply canon_reordered. apply (go_members H k v Hin).
  - apply (@perm_reordered (cmap es)) with (pre := []); auto.
Qed.

Lemma crel_free p es es' : order_free p -> crel true es es' -> p_de p es' = p_de p es.
Proof.
  intros Hp H. symmetry. assert (Hg := proj1 H). apply good_obj_iff in Hg.
  apply crel_reordered in H as [Hn Hr]. apply Hp; auto. apply Hg; auto.
Qed.

(** A decoder that does not see the order, below a depth. *)
Definition stable {A} (b : bool) (n : nat) (d : json -> option A) : Prop :=
  forall j, jdepth j < n -> good b j -> d (canon j) = d j.

Section Members.
  Variables (b : bool) (n : nat) (es es' : entries).
  Hypothesis H : crel b es es'.
  Hypothesis Hb : below n es.

  Lemma crel_single k v : In v (get k es) -> good b v /\ jdepth v < n.
  Proof.
    intros Hin. apply get_In in Hin. split; [apply (go_members (proj1 H) k v Hin)|eapply Hb; eauto].
  Qed.

  Lemma opt_stable A k (d : json -> option A) : stable b n d -> opt k d es' = opt k d es.
  Proof.
    intros Hd. unfold opt. rewrite (crel_get k H).
    assert (Hin := @crel_single k). destruct (get k es) as [|v [|w l]]; simpl; auto.
    - destruct (Hin v (or_introl eq_refl)) as [Hg Hj]. rewrite <- (Hd v Hj Hg).
      destruct v; reflexivity.
    - destruct (canon v), v; reflexivity.
  Qed.

  Lemma req_stable A k (d : json -> option A) : stable b n d -> req k d es' = req k d es.
  Proof.
    intros Hd. unfold req. rewrite (crel_get k H).
    assert (Hin := @crel_single k). destruct (get k es) as [|v [|w l]]; simpl; auto.
    apply Hd; apply Hin; left; auto.
  Qed.

  Lemma dflt_stable A k a (d : json -> option A) : stable b n d -> dflt k a d es' = dflt k a d es.
  Proof.
    intros Hd. unfold dflt. rewrite (crel_get k H).
    assert (Hin := @crel_single k). destruct (get k es) as [|v [|w l]]; simpl; auto.
    apply Hd; apply Hin; left; auto.
  Qed.
End Members.

(** ** Leaves *)

Ltac leaf := let j := fresh "j" in intros j _ _; destruct j; reflexivity.

Lemma str_stable b n : stable b n d_str. Proof. leaf. Qed.
Lemma bool_stable b n : stable b n d_bool. Proof. leaf. Qed.
Lemma int_stable b n lo hi : stable b n (d_int lo hi). Proof. leaf. Qed.
Lemma f64_stable b n : stable b n d_f64. Proof. leaf. Qed.
Lemma tag_stable b n A (tbl : list (string * A)) : stable b n (d_tag tbl). Proof. leaf. Qed.

Lemma value_stable b n : stable b n d_value.
Proof. intros j _ _. unfold d_value. rewrite canon_idem. reflexivity. Qed.

Lemma mof_one A k (v : A) : mof [(k, v)] = [(k, v)].
Proof. reflexivity. Qed.

Lemma mof_cmap_two k v k' v' es : NoDup (map fst ((k, v) :: (k', v') :: es)) ->
  exists a b l, mof (cmap ((k, v) :: (k', v') :: es)) = a :: b :: l.
Proof.
  intros H. assert (P := @mof_perm json (cmap ((k, v) :: (k', v') :: es))).
  rewrite cmap_keys in P. apply P in H. apply Permutation_length in H.
  destruct (mof (cmap ((k, v) :: (k', v') :: es))) as [|a [|b l]]; try discriminate. eauto.
Qed.

Lemma variant_stable b n A (tbl : list (string * A)) : stable b n (d_variant tbl).
Proof.
  intros j _ Hg. destruct j as [| | | | | |es]; try reflexivity.
  apply good_obj_iff in Hg. rewrite canon_obj. destruct es as [|[k v] [|[k' v'] es]].
  - reflexivity.
  - unfold cmap. simpl map. rewrite mof_one. destruct v; reflexivity.
  - destruct (@mof_cmap_two k v k' v' es (go_nodup Hg)) as (a & c & l & ->).
    destruct a as [ka va], va, v; reflexivity.
Qed.

Lemma omap_all_stable b A n (d : json -> option A) l :
  stable b n d -> (forall v, In v l -> jdepth v < n /\ good b v) -> omap_all d (map canon l) = omap_all d l.
Proof.
  intros Hd. induction l as [|v l IH]; intros H; auto. simpl.
  rewrite IH by (intros w Hw; apply H; right; auto).
  destruct (H v (or_introl eq_refl)) as [H1 H2]. rewrite Hd by auto. reflexivity.
Qed.

Lemma list_stable b A n (d : json -> option A) : stable b n d -> stable b (S n) (d_list d).
Proof.
  intros Hd j Hj Hg. destruct j as [| | | | |l|]; try reflexivity. simpl.
  apply (@omap_all_stable b A n); auto. intros v Hin. split; [|eapply good_arr; eauto].
  apply jdepth_arr in Hin. lia.
Qed.

Lemma omap_all_perm A B (f : A -> option B) l l' : Permutation l l' ->
  match omap_all f l, omap_all f l' with
  | Some a, Some b => Permutation a b
  | None, None => True
  | _, _ => False
  end.
Proof.
  induction 1 as [|x l l' _ IH|x y l|l1 l2 l3 _ IH1 _ IH2]; simpl; auto.
  - destruct (f x); simpl; auto. destruct (omap_all f l), (omap_all f l'); simpl; auto.
  - destruct (f x), (f y), (omap_all f l); simpl; auto. apply perm_swap.
  - destruct (omap_all f l1), (omap_all f l2), (omap_all f l3); auto; try tauto.
    eapply perm_trans; eauto.
Qed.

Lemma omap_all_keys A B (g : string -> A -> option B) (l : list (string * A)) m :
  omap_all (fun kv => option_map (fun b => (fst kv, b)) (g (fst kv) (snd kv))) l = Some m ->
  map fst m = map fst l.
Proof.
  revert m. induction l as [|[k v] l IH]; simpl; intros m.
  - intros [= <-]. reflexivity.
  - destruct (g k v); simpl; [|discriminate].
    destruct (omap_all _ l) eqn:E; simpl; [|discriminate]. intros [= <-]. simpl. f_equal. auto.
Qed.

Lemma entries_stable b A n (g : string -> json -> option A) es :
  (forall k, stable b n (g k)) -> good_obj b es -> below n es ->
  option_map mof (omap_all (fun kv => option_map (fun b => (fst kv, b)) (g (fst kv) (snd kv))) (mof (cmap es)))
  = option_map mof (omap_all (fun kv => option_map (fun b => (fst kv, b)) (g (fst kv) (snd kv))) es).
Proof.
  intros Hg Ho Hb. set (f := fun kv : string * json => option_map _ _).
  assert (E : omap_all f (cmap es) = omap_all f es).
  { assert (Hm := go_members Ho). clear Ho. induction es as [|[k v] es IH]; auto. simpl.
    rewrite IH; [|intros k0 v0 Hin; apply (Hb k0); right; auto|intros k0 v0 Hin; apply (Hm k0); right; auto].
    assert (f (k, canon v) = f (k, v)) as ->; [|reflexivity].
    unfold f. cbn [fst snd]. rewrite Hg; [reflexivity|eapply Hb; left; eauto|apply (Hm k v); left; auto]. }
  rewrite <- E. assert (Hn : NoDup (map fst (cmap es))) by (rewrite cmap_keys; apply Ho).
  assert (P := omap_all_perm f (@mof_perm _ _ Hn)).
  destruct (omap_all f (cmap es)) as [a|] eqn:Ea, (omap_all f (mof (cmap es))) as [c|] eqn:Eb; try tauto.
  simpl. f_equal. symmetry. apply mof_Permutation_eq; auto.
  apply omap_all_keys in Ea. rewrite Ea. auto.
Qed.

Lemma map_stable b A n (d : json -> option A) : stable b n d -> stable b (S n) (d_map d).
Proof.
  intros Hd j Hj Hg. destruct j as [| | | | | |es]; try reflexivity.
  apply good_obj_iff in Hg. rewrite canon_obj. simpl d_map.
  apply (@entries_stable b A n (fun _ => d)); auto.
  intros k v Hin. apply jdepth_obj in Hin. lia.
Qed.

Lemma stable_le b A n m (d : json -> option A) : n <= m -> stable b m d -> stable b n d.
Proof. intros Hl H j Hj. apply H. lia. Qed.

Lemma oom_stable b A n (d : json -> option A) : stable b n d -> stable b n (d_oom d).
Proof.
  intros Hd j Hj Hg. unfold d_oom. rewrite Hd by auto. destruct (d j); auto.
  apply (@list_stable b A n d); auto.
Qed.

Lemma flat_stable b A n (body : entries -> option A) :
  (forall es es', crel b es es' -> below n es -> body es' = body es) -> stable b (S n) (d_flat body).
Proof.
  intros Hb j Hj Hg. destruct j as [| | | | | |es]; try reflexivity.
  apply good_obj_iff in Hg. destruct (crel_canon Hg) as (es' & -> & Hc). simpl. apply Hb; auto.
  intros k v Hin. apply jdepth_obj in Hin. lia.
Qed.

Lemma nth_canon l i : nth_error (map canon l) i = option_map canon (nth_error l i).
Proof. apply nth_error_map. Qed.

Section Sq.
  Variables (b : bool) (n : nat) (l : list json).
  Hypothesis Hl : forall v, In v l -> jdepth v < n /\ good b v.

  Lemma sq_req_stable A i (d : json -> option A) : stable b n d -> sq_req i d (map canon l) = sq_req i d l.
  Proof.
    intros Hd. unfold sq_req. rewrite nth_canon. destruct (nth_error l i) as [v|] eqn:E; simpl; auto.
    apply nth_error_In in E. apply Hd; apply Hl; auto.
  Qed.

  Lemma sq_opt_stable A i (d : json -> option A) : stable b n d -> sq_opt i d (map canon l) = sq_opt i d l.
  Proof.
    intros Hd. unfold sq_opt. rewrite nth_canon. destruct (nth_error l i) as [v|] eqn:E; simpl; auto.
    apply nth_error_In in E. destruct (Hl v E) as [H1 H2]. rewrite <- (Hd v H1 H2). destruct v; reflexivity.
  Qed.

  Lemma sq_optd_stable A i (d : json -> option A) : stable b n d -> sq_optd i d (map canon l) = sq_optd i d l.
  Proof.
    intros Hd. unfold sq_optd. rewrite nth_canon. destruct (nth_error l i) as [v|] eqn:E; simpl; auto.
    apply nth_error_In in E. destruct (Hl v E) as [H1 H2]. rewrite <- (Hd v H1 H2). destruct v; reflexivity.
  Qed.

  Lemma sq_dflt_stable A i a (d : json -> option A) :
    stable b n d -> sq_dflt i a d (map canon l) = sq_dflt i a d l.
  Proof.
    intros Hd. unfold sq_dflt. rewrite nth_canon. destruct (nth_error l i) as [v|] eqn:E; simpl; auto.
    apply nth_error_In in E. apply Hd; apply Hl; auto.
  Qed.
End Sq.

Lemma struct_stable b A n m (dobj : entries -> option A) dseq :
  (forall es es', crel b es es' -> below n es -> dobj es' = dobj es) ->
  (forall l, (forall v, In v l -> jdepth v < n /\ good b v) -> dseq (map canon l) = dseq l) ->
  stable b (S n) (d_struct m dobj dseq).
Proof.
  intros Ho Hs j Hj Hg. destruct j as [| | | | |l|es]; try reflexivity.
  - simpl. rewrite map_length. destruct (Nat.leb _ _); auto. apply Hs.
    intros v Hin. split; [|eapply good_arr; eauto]. apply jdepth_arr in Hin. lia.
  - apply good_obj_iff in Hg. destruct (crel_canon Hg) as (es' & -> & Hc). simpl. apply Ho; auto.
    intros k v Hin. apply jdepth_obj in Hin. lia.
Qed.

(** ** Bounds *)

Lemma first_of_perm ks es es' : NoDup (map fst es) ->
  (forall k k', In k ks -> In k' ks -> In k (map fst es) -> In k' (map fst es) -> k = k') ->
  Permutation es es' -> first_of ks es' = first_of ks es.
Proof.
  intros Hn Hone P. unfold first_of.
  destruct (find _ es) as [[k v]|] eqn:E.
  - apply find_some in E as [Hin Hk]. simpl in Hk.
    destruct (find _ es') as [[k' v']|] eqn:E'.
    + apply find_some in E' as [Hin' Hk']. simpl in Hk'.
      apply (Permutation_in _ (Permutation_sym P)) in Hin'.
      apply smem_In in Hk, Hk'.
      assert (k' = k) as -> by (apply Hone; auto; apply in_map_iff; [exists (k', v')|exists (k, v)]; auto).
      assert (v' = v) as ->; auto.
      apply In_mlook in Hin; auto. apply In_mlook in Hin'; auto. congruence.
    + assert (Hf := find_none _ _ E' (k, v) (Permutation_in _ P Hin)). cbn [fst] in Hf. congruence.
  - destruct (find _ es') as [[k' v']|] eqn:E'; auto.
    apply find_some in E' as [Hin' Hk'].
    rewrite (find_none _ _ E (k', v')) in Hk'; [discriminate|].
    eapply Permutation_in; [apply Permutation_sym|]; eauto.
Qed.

Lemma first_of_cmap ks es :
  first_of ks (cmap es) = option_map (fun kv => (fst kv, canon (snd kv))) (first_of ks es).
Proof.
  unfold first_of. induction es as [|[k v] es IH]; simpl; auto. destruct (smem k ks); auto.
Qed.

Lemma max_stable A n (d : json -> option A) es es' :
  crel true es es' -> below n es -> stable true n d -> d_max d es' = d_max d es.
Proof.
  intros [Ho P] Hb Hd. unfold d_max.
  rewrite (@first_of_perm _ (cmap es) es'); auto; rewrite ?cmap_keys.
  - rewrite first_of_cmap. destruct (first_of _ es) as [[k v]|] eqn:E; simpl; auto.
    apply find_some in E as [Hin _]. rewrite !(Hd v (Hb k v Hin) (go_members Ho k v Hin)). reflexivity.
  - apply Ho.
  - assert (Hx := go_max Ho eq_refl). simpl. intros k k' [<-|[<-|[]]] [<-|[<-|[]]] H1 H2; auto; exfalso; tauto.
Qed.

Lemma min_stable A n (d : json -> option A) es es' :
  crel true es es' -> below n es -> stable true n d -> d_min d es' = d_min d es.
Proof.
  intros [Ho P] Hb Hd. unfold d_min.
  rewrite (@first_of_perm _ (cmap es) es'); auto; rewrite ?cmap_keys.
  - rewrite first_of_cmap. destruct (first_of _ es) as [[k v]|] eqn:E; simpl; auto.
    apply find_some in E as [Hin _]. rewrite !(Hd v (Hb k v Hin) (go_members Ho k v Hin)). reflexivity.
  - apply Ho.
  - assert (Hx := go_min Ho eq_refl). simpl. intros k k' [<-|[<-|[]]] [<-|[<-|[]]] H1 H2; auto; exfalso; tauto.
Qed.

(** ** The objects *)

Create HintDb stab discriminated.
#[export] Hint Resolve str_stable bool_stable int_stable f64_stable tag_stable value_stable variant_stable
  oom_stable : stab.

Ltac mem1 H Hb tac :=
  match goal with
  | |- obind (opt ?k ?d ?es') _ = obind (opt ?k ?d ?es) _ =>
      rewrite (@opt_stable _ _ es es' H Hb _ k d) by tac;
      destruct (opt k d es); [cbn [obind]|reflexivity]
  | |- obind (req ?k ?d ?es') _ = obind (req ?k ?d ?es) _ =>
      rewrite (@req_stable _ _ es es' H Hb _ k d) by tac;
      destruct (req k d es); [cbn [obind]|reflexivity]
  | |- obind (dflt ?k ?a ?d ?es') _ = obind (dflt ?k ?a ?d ?es) _ =>
      rewrite (@dflt_stable _ _ es es' H Hb _ k a d) by tac;
      destruct (dflt k a d es); [cbn [obind]|reflexivity]
  end.

Ltac basic := auto with stab.

Section Bounds.
  Variables (n : nat) (es es' : entries).
  Hypothesis H : crel true es es'.
  Hypothesis Hb : below n es.

  Lemma number_stable : d_number es' = d_number es.
  Proof.
    unfold d_number. mem1 H Hb basic.
    rewrite (max_stable H Hb (@f64_stable _ n)), (min_stable H Hb (@f64_stable _ n)). reflexivity.
  Qed.

  Lemma integer_stable : d_integer es' = d_integer es.
  Proof.
    unfold d_integer, d_i64. mem1 H Hb ltac:(apply int_stable).
    rewrite (max_stable H Hb (@int_stable _ n _ _)), (min_stable H Hb (@int_stable _ n _ _)). reflexivity.
  Qed.

End Bounds.

Section Leaves.
  Variables (b : bool) (n : nat) (es es' : entries).
  Hypothesis H : crel b es es'.
  Hypothesis Hb : below n es.

  Lemma string_stable : d_string es' = d_string es.
  Proof. unfold d_string. repeat mem1 H Hb ltac:(first [apply int_stable | basic]). reflexivity. Qed.

  Lemma loc_name_stable l : d_loc_name l es' = d_loc_name l es.
  Proof. unfold d_loc_name, d_loc. repeat mem1 H Hb basic. reflexivity. Qed.

  Lemma bearer_stable : d_bearer es' = d_bearer es.
  Proof. unfold d_bearer, d_loc. repeat mem1 H Hb basic. reflexivity. Qed.

  Lemma oauth2_stable : d_oauth2 es' = d_oauth2 es.
  Proof. unfold d_oauth2. repeat mem1 H Hb basic. reflexivity. Qed.

  Lemma combo_stable : d_combo es' = d_combo es.
  Proof.
    destruct H as [Ho P]. assert (L := Permutation_length P). unfold cmap in *. rewrite map_length in L.
    destruct es as [|[k v] [|[k1 v1] l]].
    - apply Permutation_nil in P. subst. reflexivity.
    - simpl in P. apply Permutation_length_1_inv in P. subst. simpl.
      rewrite (@oom_stable b _ n d_str (@str_stable b n) v); auto;
        [eapply Hb; left; eauto|apply (go_members Ho k v); left; auto].
    - destruct es' as [|[a1 b1] [|c l']]; try discriminate L. reflexivity.
  Qed.
End Leaves.

Lemma known_stable b n es es' : crel b es es' -> below n es -> d_known es' = d_known es.
Proof.
  intros H Hb. unfold d_known. mem1 H Hb basic.
  assert (Hc := crel_without ["scheme"] H). assert (Hd := below_without ["scheme"] Hb).
  set (c := without ["scheme"] es) in *. set (c' := without ["scheme"] es') in *.
  destruct s; auto.
  - rewrite (combo_stable Hc Hd); auto.
  - rewrite (loc_name_stable Hc Hd); auto.
  - mem1 Hc Hd basic. rewrite (loc_name_stable Hc Hd); auto.
  - rewrite (bearer_stable Hc Hd); auto.
  - f_equal. apply (@opt_stable b n c c'); auto. apply str_stable.
  - rewrite (oauth2_stable Hc Hd); auto.
  - rewrite (loc_name_stable Hc Hd); auto.
Qed.

Lemma unknown_stable b n es es' : crel b es es' -> below n es -> d_unknown es' = d_unknown es.
Proof.
  intros H Hb. unfold d_unknown. mem1 H Hb basic. do 2 f_equal.
  assert (Hc := crel_without ["scheme"] H). apply crel_reordered in Hc as [Hn Hr].
  symmetry. apply reordered_canon; auto.
Qed.

Lemma subtype_stable b n es es' : crel b es es' -> below n es -> d_subtype es' = d_subtype es.
Proof.
  intros H Hb. unfold d_subtype. rewrite (known_stable H Hb). destruct (d_known es); auto.
  apply (unknown_stable H Hb).
Qed.

Lemma ops_stable b n : stable b n d_ops.
Proof.
  intros j Hj Hg. assert (E := @oom_stable b _ n d_op (@variant_stable b n _ op_names) j Hj Hg).
  unfold d_ops. rewrite E. destruct j; reflexivity.
Qed.

Lemma add_resp_stable b n : stable b n d_add_resp.
Proof.
  destruct n as [|n]; [intros j Hj; lia|]. apply struct_stable.
  - intros es es' H Hb. repeat mem1 H Hb basic. reflexivity.
  - intros l Hl. rewrite (@sq_dflt_stable _ n l Hl) by basic. rewrite !(@sq_opt_stable _ n l Hl) by basic. reflexivity.
Qed.

Lemma version_stable b n : stable b n d_version.
Proof.
  destruct n as [|n]; [intros j Hj; lia|]. apply struct_stable.
  - intros es es' H Hb. repeat mem1 H Hb basic. reflexivity.
  - intros l Hl. rewrite (@sq_req_stable _ n l Hl) by basic. rewrite !(@sq_opt_stable _ n l Hl) by basic. reflexivity.
Qed.

Section Order.
  Variable E : env.
  Variable X : exts.
  Hypothesis HX : exts_order_free X.

  Lemma langtag_stable n : stable true n (d_langtag E). Proof. leaf. Qed.
  Lemma date_stable n : stable true n (d_date E). Proof. leaf. Qed.

  Lemma multilang_stable n : stable true n (d_multilang E).
  Proof.
    intros j Hj Hg. destruct j as [| | | | | |es]; try reflexivity.
    apply good_obj_iff in Hg. rewrite canon_obj. simpl d_multilang.
    assert (Hf : forall es, omap_all (fun kv : string * json =>
       if tag_ok E (fst kv) then option_map (fun s => (fst kv, s)) (d_str (snd kv)) else None) es
     = omap_all (fun kv => option_map (fun b => (fst kv, b))
         ((fun k v => if tag_ok E k then d_str v else None) (fst kv) (snd kv))) es).
    { intros l. induction l as [|[k v] l IH]; simpl; auto. rewrite IH. destruct (tag_ok E k); auto. }
    rewrite !Hf.
    apply (@entries_stable true _ (jdepth (JObj es)) (fun k v => if tag_ok E k then d_str v else None)); auto.
    - intros k. destruct (tag_ok E k); leaf.
    - apply below_self.
  Qed.

  Hint Resolve langtag_stable date_stable multilang_stable : stab.

  Lemma info_stable n es es' : crel true es es' -> below n es -> d_info E es' = d_info E es.
  Proof. intros H Hb. unfold d_info. repeat mem1 H Hb basic. reflexivity. Qed.

  Lemma values_stable n : stable true n (d_list d_value).
  Proof. apply stable_le with (m := S n); auto. apply list_stable, value_stable. Qed.

  Lemma strs_stable n : stable true n (d_list d_str).
  Proof. apply stable_le with (m := S n); auto. apply list_stable, str_stable. Qed.

  Hint Resolve values_stable strs_stable : stab.

  Lemma misc_stable n es es' : crel true es es' -> below n es -> d_misc es' = d_misc es.
  Proof. intros H Hb. unfold d_misc. repeat mem1 H Hb basic. reflexivity. Qed.

  Lemma list_stable' A n (d : json -> option A) : stable true n d -> stable true n (d_list d).
  Proof. intros H. apply stable_le with (m := S n); auto. apply list_stable; auto. Qed.

  Lemma map_stable' A n (d : json -> option A) : stable true n d -> stable true n (d_map d).
  Proof. intros H. apply stable_le with (m := S n); auto. apply map_stable; auto. Qed.

  Lemma boxed_stable n (rec : json -> option (dsx X)) : stable true n rec -> stable true n (d_boxed rec).
  Proof.
    intros Hr j Hj Hg. unfold d_boxed. rewrite Hr by auto. destruct (rec j); auto.
    rewrite (list_stable' Hr Hj Hg). reflexivity.
  Qed.

  Hint Resolve list_stable' map_stable' boxed_stable : stab.

  Lemma sub_stable n (rec : json -> option (dsx X)) es es' :
    stable true n rec -> crel true es es' -> below n es -> sub_body rec es' = sub_body rec es.
  Proof.
    intros Hr H Hb. unfold sub_body. mem1 H Hb basic.
    assert (Hc := crel_without ["type"] H). assert (Hd := below_without ["type"] Hb).
    set (c := without ["type"] es) in *. set (c' := without ["type"] es') in *.
    destruct s; auto.
    - repeat mem1 Hc Hd ltac:(first [apply int_stable | basic]).
      rewrite (crel_free (of_as HX) (crel_without array_keys Hc)). reflexivity.
    - rewrite (number_stable Hc Hd); auto.
    - rewrite (integer_stable Hc Hd); auto.
    - repeat mem1 Hc Hd basic. rewrite (crel_free (of_os HX) (crel_without object_keys Hc)). reflexivity.
    - rewrite (string_stable Hc Hd); auto.
  Qed.

  Lemma ds_body_stable n (rec : json -> option (dsx X)) es es' :
    stable true n rec -> crel true es es' -> below n es -> ds_body E rec es' = ds_body E rec es.
  Proof.
    intros Hr H Hb. unfold ds_body.
    rewrite (info_stable H Hb). destruct (d_info E es); [cbn [obind]|reflexivity].
    rewrite (misc_stable H Hb). destruct (d_misc es); [cbn [obind]|reflexivity].
    mem1 H Hb basic.
    assert (Hc := crel_without ds_keys H). assert (Hd := below_without ds_keys Hb).
    rewrite (crel_free (of_ds HX) Hc), (sub_stable Hr Hc Hd). reflexivity.
  Qed.

  Lemma ds_stable n : stable true n (d_ds E X).
  Proof.
    induction n as [|n IH]; intros j Hj Hg; [lia|].
    destruct j as [| | | | | |es]; try reflexivity.
    apply good_obj_iff in Hg. destruct (crel_canon Hg) as (es' & -> & Hc).
    rewrite !d_ds_obj. apply (ds_body_stable IH Hc).
    intros k v Hin. apply jdepth_obj in Hin. lia.
  Qed.

  Lemma dsmap_stable n : stable true n (d_dsmap E X).
  Proof. apply map_stable', ds_stable. Qed.

  Hint Resolve ds_stable dsmap_stable ops_stable add_resp_stable version_stable : stab.

  Ltac flat n := destruct n as [|n]; [intros j Hj; lia|]; apply flat_stable; intros es es' H Hb.

  Lemma security_stable n : stable true n (d_security E).
  Proof.
    flat n. unfold security_body. repeat mem1 H Hb basic.
    rewrite (subtype_stable (crel_without security_keys H) (below_without security_keys Hb)). reflexivity.
  Qed.

  Lemma link_stable n : stable true n (d_link E).
  Proof.
    destruct n as [|n]; [intros j Hj; lia|]. apply struct_stable.
    - intros es es' H Hb. repeat mem1 H Hb basic. reflexivity.
    - intros l Hl. rewrite (@sq_req_stable _ n l Hl) by basic. rewrite !(@sq_opt_stable _ n l Hl) by basic.
      rewrite (@sq_optd_stable _ n l Hl) by basic. reflexivity.
  Qed.

  Lemma exp_resp_stable n : stable true n (d_exp_resp X).
  Proof.
    flat n. unfold exp_resp_body. repeat mem1 H Hb basic.
    rewrite (crel_free (of_er HX) (crel_without _ H)). reflexivity.
  Qed.

  Hint Resolve security_stable link_stable exp_resp_stable : stab.

  Lemma form_stable n : stable true n (d_form X).
  Proof.
    flat n. unfold form_body. repeat mem1 H Hb basic.
    rewrite (crel_free (of_f HX) (crel_without _ H)). reflexivity.
  Qed.

  Hint Resolve form_stable : stab.

  Lemma interaction_stable n es es' :
    crel true es es' -> below n es -> interaction_body E X es' = interaction_body E X es.
  Proof.
    intros H Hb. unfold interaction_body.
    rewrite (info_stable H Hb). destruct (d_info E es); [cbn [obind]|reflexivity].
    repeat mem1 H Hb basic. rewrite (crel_free (of_ia HX) (crel_without _ H)). reflexivity.
  Qed.

  Lemma property_stable n : stable true n (d_property E X).
  Proof.
    flat n. unfold property_body. repeat mem1 H Hb basic.
    assert (Hc := crel_without property_keys H). assert (Hd := below_without property_keys Hb).
    rewrite (interaction_stable Hc Hd), !d_ds_obj, (ds_body_stable (@ds_stable n) Hc Hd),
      (crel_free (of_pa HX) Hc). reflexivity.
  Qed.

  Lemma action_stable n : stable true n (d_action E X).
  Proof.
    flat n. unfold action_body. repeat mem1 H Hb basic.
    assert (Hc := crel_without action_keys H). assert (Hd := below_without action_keys Hb).
    rewrite (interaction_stable Hc Hd), (crel_free (of_aa HX) Hc). reflexivity.
  Qed.

  Lemma event_stable n : stable true n (d_event E X).
  Proof.
    flat n. unfold event_body. repeat mem1 H Hb basic.
    assert (Hc := crel_without event_keys H). assert (Hd := below_without event_keys Hb).
    rewrite (interaction_stable Hc Hd), (crel_free (of_ea HX) Hc). reflexivity.
  Qed.

  Hint Resolve property_stable action_stable event_stable : stab.

  Lemma thing_stable n : stable true n (d_thing E X).
  Proof.
    flat n. unfold thing_body. repeat mem1 H Hb basic.
    rewrite (crel_free (of_t HX) (crel_without _ H)). reflexivity.
  Qed.

  Lemma stable_reordered A (d : json -> option A) j j' : (forall n, stable true n d) ->
    reordered j j' -> no_repeats j -> one_bound_each j -> d j = d j'.
  Proof.
    intros Hd Hr Hn Ho. destruct (reordered_canon Hr Hn) as [Hn' Ec].
    assert (Ho' := reordered_bounds Hr Ho).
    rewrite <- (Hd (S (jdepth j)) j), <- (Hd (S (jdepth j')) j'); auto; try (split; auto). congruence.
  Qed.
End Order.
