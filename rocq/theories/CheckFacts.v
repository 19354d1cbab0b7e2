(** * Facts about the bounds check: the work-list visits every nested schema *)

From Coq Require Import String Bool ZArith Permutation Lia List.
From Coq Require Import Floats.SpecFloat.
From Verif Require Import Base MinMax Json Serde Types DsBuilder Spec SpecCalls SpecThing DsFacts.
Import ListNotations.
Set Implicit Arguments.
Local Open Scope string_scope.
Local Open Scope list_scope.

(** ** Comparing bounds *)

Lemma SFcompare_None x y : SFcompare x y = None <-> is_nan x \/ is_nan y.
Proof.
  unfold is_nan. split.
  - destruct x as [[]|[]| |[] mx ex]; auto; destruct y as [[]|[]| |[] my ey]; auto; simpl;
      intros H; try discriminate H; revert H; destruct (Z.compare ex ey); discriminate.
  - intros [->| ->]; [|destruct x as [[]|[]| |[]]]; reflexivity.
Qed.

Lemma i64_le a b : not_le (i64_cmp a b) = false <-> (a <= b)%Z.
Proof.
  unfold i64_cmp, not_le. destruct (Z.compare_spec a b); split; intros; try discriminate; auto; lia.
Qed.

Lemma minmax_ok_iff T (cmp : T -> T -> option comparison) (a : minimum T) (b : maximum T) :
  not_le (minmax_cmp cmp a b) = false
  <-> same_kind a b /\ (cmp (min_val a) (max_val b) = Some Lt \/ cmp (min_val a) (max_val b) = Some Eq).
Proof.
  destruct a as [a|a], b as [b|b]; simpl; destruct (cmp a b) as [[]|]; simpl; intuition congruence.
Qed.

Lemma minmax_i64_iff (a : minimum Z) (b : maximum Z) :
  not_le (minmax_cmp i64_cmp a b) = false <-> same_kind a b /\ (min_val a <= max_val b)%Z.
Proof.
  rewrite minmax_ok_iff. unfold i64_cmp.
  destruct (Z.compare_spec (min_val a) (max_val b)); intuition (try congruence; try lia; auto).
Qed.

Lemma le0_iff x : f64_le0 x = true <-> fle x (S754_zero false).
Proof.
  unfold f64_le0, SFleb, fle. destruct (SFcompare x (S754_zero false)) as [[]|]; intuition congruence.
Qed.

Lemma min_nan_iff a : min_is_nan a = true <-> is_nan (min_val a).
Proof. unfold is_nan. destruct a as [a|a]; destruct a; simpl; intuition congruence. Qed.
Lemma max_nan_iff a : max_is_nan a = true <-> is_nan (max_val a).
Proof. unfold is_nan. destruct a as [a|a]; destruct a; simpl; intuition congruence. Qed.

Section Check.
  Variables DS AS OS : Type.
  Notation ds := (ds DS AS OS).
  Notation dsub := (dsub DS AS OS).

  Lemma check_node_spec (s : dsub) :
    match check_node s with
    | Ok _ => accepted_bounds s
    | Err e => bounds_defect e s
    end.
  Proof.
    unfold accepted_bounds.
    destruct s as [i mn mx a| |n|n|ps r a|t| ]; cbn [check_node sane_bounds bounds_defect rbind]; auto.
    - destruct mn as [mn|], mx as [mx|]; try (split; [intros; discriminate|auto]).
      destruct (not_le (i64_cmp mn mx)) eqn:E.
      + destruct (Z.lt_ge_cases mx mn) as [H|H]; [exact H|]. apply i64_le in H. congruence.
      + split; auto. intros a0 b0 E1 E2. inversion E1; inversion E2; subst. apply i64_le; auto.
    - (* number *)
      assert (Hm : forall x, f64_le0 x = false -> ~ fle x (S754_zero false)).
      { intros x H F. apply le0_iff in F. congruence. }
      assert (Hn : forall a, min_is_nan a = false -> ~ is_nan (min_val a)).
      { intros a H F. apply min_nan_iff in F. congruence. }
      assert (Hx : forall a, max_is_nan a = false -> ~ is_nan (max_val a)).
      { intros a H F. apply max_nan_iff in F. congruence. }
      destruct (n_min n) as [mn|] eqn:En, (n_max n) as [mx|] eqn:Ex; cbn [check_node sane_bounds bounds_defect rbind].
      + destruct (min_is_nan mn) eqn:N1; cbn [check_node sane_bounds bounds_defect rbind].
        { left. exists mn. split; auto. apply min_nan_iff; auto. }
        destruct (max_is_nan mx) eqn:N2; cbn [check_node sane_bounds bounds_defect rbind].
        { right. exists mx. split; auto. apply max_nan_iff; auto. }
        destruct (not_le (minmax_cmp f64_cmp mn mx)) eqn:L; cbn [check_node sane_bounds bounds_defect rbind].
        { exists mn, mx. repeat split; auto. intros H.
          apply (minmax_ok_iff f64_cmp) in H. congruence. }
        apply minmax_ok_iff in L as [L1 L2].
        destruct (n_mult n) as [x|] eqn:Em; [destruct (f64_le0 x) eqn:Z0|]; cbn [check_node sane_bounds bounds_defect rbind];
          try (exists x; split; auto; apply le0_iff; auto; fail);
          repeat split; intros; try discriminate; repeat match goal with
          | H : Some _ = Some _ |- _ => inversion H; clear H; subst end; auto.
      + destruct (min_is_nan mn) eqn:N1; cbn [check_node sane_bounds bounds_defect rbind].
        { left. exists mn. split; auto. apply min_nan_iff; auto. }
        destruct (n_mult n) as [x|] eqn:Em; [destruct (f64_le0 x) eqn:Z0|]; cbn [check_node sane_bounds bounds_defect rbind];
          try (exists x; split; auto; apply le0_iff; auto; fail);
          repeat split; intros; try discriminate; repeat match goal with
          | H : Some _ = Some _ |- _ => inversion H; clear H; subst end; auto.
      + destruct (max_is_nan mx) eqn:N2; cbn [check_node sane_bounds bounds_defect rbind].
        { right. exists mx. split; auto. apply max_nan_iff; auto. }
        destruct (n_mult n) as [x|] eqn:Em; [destruct (f64_le0 x) eqn:Z0|]; cbn [check_node sane_bounds bounds_defect rbind];
          try (exists x; split; auto; apply le0_iff; auto; fail);
          repeat split; intros; try discriminate; repeat match goal with
          | H : Some _ = Some _ |- _ => inversion H; clear H; subst end; auto.
      + destruct (n_mult n) as [x|] eqn:Em; [destruct (f64_le0 x) eqn:Z0|]; cbn [check_node sane_bounds bounds_defect rbind];
          try (exists x; split; auto; apply le0_iff; auto; fail);
          repeat split; intros; try discriminate; repeat match goal with
          | H : Some _ = Some _ |- _ => inversion H; clear H; subst end; auto.
    - (* integer *)
      destruct (z_min n) as [mn|] eqn:En, (z_max n) as [mx|] eqn:Ex;
        try (split; intros; discriminate).
      destruct (not_le (minmax_cmp i64_cmp mn mx)) eqn:L.
      + cbn [bounds_defect]. exists mn, mx. repeat split; auto. intros H. apply minmax_i64_iff in H. congruence.
      + apply minmax_i64_iff in L as [L1 L2].
        split; intros a b H1 H2; inversion H1; inversion H2; subst; auto.
  Qed.

  (** A defect and acceptance exclude each other. *)
  Lemma defect_not_accepted e (s : dsub) : bounds_defect e s -> ~ accepted_bounds s.
  Proof.
    unfold accepted_bounds.
    destruct e; simpl; auto; destruct s as [i mn mx a| |n|n|ps r a|t| ]; simpl; auto.
    - destruct mn as [a0|], mx as [b0|]; auto. intros H [H1 _]. specialize (H1 _ _ eq_refl eq_refl). lia.
    - intros (a & b & Ha & Hb & H) [(_ & _ & H2 & _) H3]. apply H; auto.
    - intros (a & b & Ha & Hb & H) [H1 H2]. apply H; auto.
    - intros [(a & Ha & H)|(a & Ha & H)] [(H1 & H2 & _) _]; [eapply H1|eapply H2]; eauto.
    - intros (x & Hx & H) [(_ & _ & _ & H1) _]. eapply H1; eauto.
  Qed.

  (** ** The loop *)

  Variable ord : order.
  Hypothesis Hord : order_ok ord.

  Definition sizes (l : list ds) : nat := fold_right (fun d n => ds_size d + n) 0 l.

  Lemma sizes_app l l' : sizes (l ++ l') = sizes l + sizes l'.
  Proof. induction l; simpl; lia. Qed.

  Lemma sizes_Permutation l l' : Permutation l l' -> sizes l = sizes l'.
  Proof. induction 1; simpl; lia. Qed.

  Lemma sizes_rev l : sizes (rev l) = sizes l.
  Proof. apply sizes_Permutation, Permutation_sym, Permutation_rev. Qed.

  Definition osizes (o : option (list ds)) : nat := match o with Some l => sizes l | None => 0 end.
  Definition sub_size (s : option dsub) : nat :=
    match s with Some s => sizes (sub_children s) | None => 0 end.

  Lemma ds_size_eq (d : ds) : ds_size d = S (osizes (ds_one_of d) + sub_size (ds_sub d)).
  Proof.
    assert (G1 : forall l : list ds, (fix go (l : list ds) : nat :=
                  match l with [] => 0 | d :: l' => ds_size d + go l' end) l = sizes l).
    { induction l; simpl; auto. }
    assert (G2 : forall l : list (string * ds), (fix gom (l : list (string * ds)) : nat :=
                   match l with [] => 0 | (_, d) :: l' => ds_size d + gom l' end) l = sizes (map snd l)).
    { induction l as [|[? ?] ? IH]; simpl; auto. }
    destruct d as [i m o s x]. cbn [ds_size ds_one_of ds_sub]. f_equal.
    destruct o as [lo|], s as [[[[e|l]|] mn mx a| | | |[ps|] r a| | ]|];
      cbn [osizes sub_size sub_children boxed_list sizes fold_right]; rewrite ?G1, ?G2; auto;
      unfold sizes; simpl; lia.
  Qed.

  Lemma push_sub_perm s (stack : list ds) :
    Permutation (push_sub ord s stack) (sub_children s ++ stack).
  Proof.
    destruct s as [[[e|l]|] mn mx a| | | |[ps|] r a| | ]; simpl; auto.
    - apply Permutation_app_tail, Permutation_sym, Permutation_rev.
    - apply Permutation_app_tail.
      eapply perm_trans; [apply Permutation_sym, Permutation_rev|].
      apply Permutation_map, Hord.
  Qed.

  (** Everything the loop still has to look at. *)
  Definition pending (sub : option dsub) (stack : list ds) (s : dsub) : Prop :=
    sub = Some s
    \/ exists c e, In c (match sub with Some s0 => sub_children s0 | None => [] end ++ stack)
                   /\ sub_ds e c /\ ds_sub e = Some s.

  Definition verdict (P : dsub -> Prop) (r : result error unit) : Prop :=
    match r with
    | Ok _ => forall s, P s -> accepted_bounds s
    | Err e => exists s, P s /\ bounds_defect e s
    end.

  Lemma pending_pop d l rest s :
    Permutation l (d :: rest) ->
    ((exists c e, In c l /\ sub_ds e c /\ ds_sub e = Some s)
     <-> pending (ds_sub d) (match ds_one_of d with Some l => rev l ++ rest | None => rest end) s).
  Proof.
    intros Hp. split.
    - intros (c & e & Hc & He & Es). eapply Permutation_in in Hc; [|exact Hp].
      destruct Hc as [<-|Hc].
      + apply sub_inv in He as [->|(c & Hc & He)]; [left; auto|].
        right. exists c, e. split; auto. unfold ds_children in Hc. apply in_app_or in Hc.
        apply in_or_app. destruct Hc as [Hc|Hc]; [right|left].
        * destruct (ds_one_of d); [|destruct Hc]. apply in_or_app. left. apply in_rev in Hc; auto.
        * destruct (ds_sub d); auto.
      + right. exists c, e. split; auto. apply in_or_app. right.
        destruct (ds_one_of d); auto. apply in_or_app; auto.
    - intros [H|(c & e & Hc & He & Es)].
      + exists d, d. repeat split; auto; [|constructor].
        eapply Permutation_in; [apply Permutation_sym, Hp|]. left; auto.
      + assert (In c (ds_children d) \/ In c rest) as Hc'.
        { apply in_app_or in Hc as [Hc|Hc].
          - left. unfold ds_children. apply in_or_app. right. destruct (ds_sub d); auto.
          - destruct (ds_one_of d) as [lo|] eqn:Eo; auto. apply in_app_or in Hc as [Hc|Hc]; auto.
            left. unfold ds_children. rewrite Eo. apply in_or_app. left.
            apply in_rev; auto. }
        destruct Hc' as [Hc'|Hc'].
        * exists d, e. repeat split; auto; [|eapply sub_child; eauto].
          eapply Permutation_in; [apply Permutation_sym, Hp|]. left; auto.
        * exists c, e. repeat split; auto.
          eapply Permutation_in; [apply Permutation_sym, Hp|]. right; auto.
  Qed.

  Lemma check_loop_spec n : forall sub stack,
    sub_size sub + sizes stack < n ->
    exists r, check_loop ord n sub stack = Some r /\ verdict (pending sub stack) r.
  Proof.
    induction n as [|n IH]; intros sub stack Hn; [lia|]. simpl.
    assert (Hnext : forall l,
      Permutation l (match sub with Some s0 => sub_children s0 | None => [] end ++ stack) ->
      exists r,
        match l with
        | [] => Some (Ok tt)
        | d :: rest =>
            check_loop ord n (ds_sub d)
              (match ds_one_of d with Some l => rev l ++ rest | None => rest end)
        end = Some r
        /\ verdict (fun s => exists c e,
             In c (match sub with Some s0 => sub_children s0 | None => [] end ++ stack)
             /\ sub_ds e c /\ ds_sub e = Some s) r).
    { intros l Hl.
      assert (Hs : sizes l = sub_size sub + sizes stack).
      { rewrite (sizes_Permutation Hl), sizes_app. destruct sub; reflexivity. }
      destruct l as [|d rest].
      - exists (Ok tt). split; auto. simpl. intros s (c & e & Hc & _).
        apply Permutation_nil in Hl. rewrite Hl in Hc. destruct Hc.
      - destruct (IH (ds_sub d) (match ds_one_of d with Some l => rev l ++ rest | None => rest end))
          as (r & Hr & Hv).
        { simpl in Hs. rewrite ds_size_eq in Hs.
          destruct (ds_one_of d); simpl in *; rewrite ?sizes_app, ?sizes_rev; lia. }
        exists r. split; auto.
        destruct r as [u|e]; simpl in *.
        + intros s H. apply Hv. apply (@pending_pop d _ rest s (Permutation_sym Hl)); auto.
        + destruct Hv as (s & Hs' & Hd). exists s. split; auto.
          apply (@pending_pop d _ rest s (Permutation_sym Hl)); auto. }
    destruct sub as [s|].
    - pose proof (check_node_spec s) as Hc. destruct (check_node s) as [u|e] eqn:Ec.
      + destruct (Hnext _ (push_sub_perm s stack)) as (r & Hr & Hv).
        exists r. split; auto. destruct r as [u'|e]; simpl in *.
        * intros s' [H|H]; [inversion H; subst; auto|auto].
        * destruct Hv as (s' & Hs' & Hd). exists s'. split; auto. right; auto.
      + eexists; split; eauto. simpl. exists s. split; auto. left; auto.
    - destruct (Hnext stack) as (r & Hr & Hv); [apply Permutation_refl|].
      exists r. split; auto. destruct r as [u'|e]; simpl in *.
      + intros s' [H|H]; [discriminate|auto].
      + destruct Hv as (s' & Hs' & Hd). exists s'. split; auto. right; auto.
  Qed.

  (** ** check *)

  Lemma check_spec (d : ds) :
    verdict (fun s => exists e, sub_ds e d /\ ds_sub e = Some s) (check ord d).
  Proof.
    induction d as [i m o s x IHo _] using ds_ind'.
    cbn [check].
    destruct (@check_loop_spec (ds_size (mkDs i m o s x)) s []) as (r & Hr & Hv).
    { rewrite ds_size_eq. simpl. lia. }
    unfold check_subtype. rewrite Hr.
    assert (Hin : forall s', pending s [] s' -> exists e, sub_ds e (mkDs i m o s x) /\ ds_sub e = Some s').
    { intros s' [->|(c & e & Hc & He & Es)].
      - eexists; split; [constructor|auto].
      - exists e. split; auto. eapply sub_child; eauto. unfold ds_children. simpl.
        rewrite app_nil_r in Hc. apply in_or_app. right. auto. }
    destruct r as [u|e]; simpl in Hv |- *.
    2:{ destruct Hv as (s' & Hs' & Hd). exists s'. auto. }
    assert (G : forall l, (forall c, In c l -> In c (match o with Some l => l | None => [] end)) ->
      verdict (fun s' => exists c e, In c l /\ sub_ds e c /\ ds_sub e = Some s')
        ((fix go (l : list ds) : result error unit :=
            match l with [] => Ok tt | d :: l' => let! _ := check ord d in go l' end) l)).
    { induction l as [|c l IHl]; intros Hl.
      - simpl. intros s' (c & e & [] & _).
      - assert (Hc : verdict (fun s => exists e, sub_ds e c /\ ds_sub e = Some s) (check ord c)).
        { destruct o as [lo|]; [|destruct (Hl c (or_introl eq_refl))].
          eapply IHo; eauto. apply Hl. left; auto. }
        specialize (IHl (fun c' H => Hl c' (or_intror H))).
        destruct (check ord c) as [u'|e']; simpl in Hc |- *.
        + match goal with |- verdict _ ?r => destruct r as [u''|e''] eqn:E end; simpl in IHl |- *.
          * intros s' (c' & e & [<-|Hc'] & He & Es); [apply Hc; eauto|apply IHl; eauto].
          * destruct IHl as (s' & (c' & e & Hc' & He & Es) & Hd). exists s'. split; auto.
            exists c', e. auto 6.
        + destruct Hc as (s' & (e & He & Es) & Hd). exists s'. split; auto.
          exists c, e. auto 6. }
    destruct o as [l|].
    - specialize (G l (fun c H => H)).
      match goal with |- verdict _ ?r => destruct r as [u''|e''] eqn:E end; simpl in G |- *.
      + intros s' (e & He & Es). apply sub_inv in He as [->|(c & Hc & He)].
        * apply Hv. left. auto.
        * unfold ds_children in Hc. simpl in Hc. apply in_app_or in Hc as [Hc|Hc].
          -- apply G. eauto.
          -- apply Hv. right. exists c, e. rewrite app_nil_r. auto.
      + destruct G as (s' & (c & e & Hc & He & Es) & Hd). exists s'. split; auto. exists e. split; auto.
        eapply sub_child; eauto. unfold ds_children. simpl. apply in_or_app; auto.
    - simpl. intros s' (e & He & Es). apply sub_inv in He as [->|(c & Hc & He)].
      + apply Hv. left. auto.
      + unfold ds_children in Hc. simpl in Hc. apply Hv. right. exists c, e. rewrite app_nil_r. auto.
  Qed.

  (** [check] accepts exactly the schemas all of whose nested schemas have
      accepted bounds. *)
  Lemma check_ok (d : ds) : check ord d = Ok tt <-> all_accepted d.
  Proof.
    pose proof (check_spec d) as H. destruct (check ord d) as [[]|e]; simpl in H.
    - split; auto. intros _ e s He Es. apply H. eauto.
    - split; [discriminate|]. intros Ha. destruct H as (s & (e' & He & Es) & Hd).
      exfalso. eapply defect_not_accepted; eauto.
  Qed.

  Lemma check_err (d : ds) e :
    check ord d = Err e -> exists e' s, sub_ds e' d /\ ds_sub e' = Some s /\ bounds_defect e s.
  Proof.
    pose proof (check_spec d) as H. intros E. rewrite E in H. simpl in H.
    destruct H as (s & (e' & He & Es) & Hd). eauto.
  Qed.
End Check.
