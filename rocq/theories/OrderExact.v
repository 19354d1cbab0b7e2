(** * When the order of iteration shows in the thing (C18) *)

From Coq Require Import String Bool ZArith Permutation Lia List.
From Verif Require Import Base MinMax Json Serde Types DsBuilder Builder Spec SpecCalls SpecThing
  DsFacts ConvFacts CheckFacts DsProgFacts ProgFacts SaysFacts BuildFacts ThingFacts OrderFacts ProgramProps.
Import ListNotations.
Set Implicit Arguments.
Local Open Scope string_scope.
Local Open Scope list_scope.

(** The order that visits the name [k] last. *)
Definition last_order (k : string) : order :=
  fun A m => filter (fun kv => negb (String.eqb (fst kv) k)) m ++ filter (fun kv => String.eqb (fst kv) k) m.

Lemma last_order_ok k : order_ok (last_order k).
Proof.
  intros A m. unfold last_order. induction m as [|[k' a] m IH]; simpl; [constructor|].
  destruct (String.eqb k' k); simpl; [|constructor; exact IH].
  eapply perm_trans; [apply Permutation_sym, Permutation_middle|]. constructor. exact IH.
Qed.

Lemma filter_one A (m : amap A) k v : NoDup (map fst m) -> In (k, v) m -> filter (fun kv => String.eqb (fst kv) k) m = [(k, v)].
Proof.
  induction m as [|[k' a] m IH]; simpl; intros Hn H; [destruct H|]. inversion Hn as [|? ? Q1 Q2]; subst.
  destruct H as [H|H].
  - injection H as -> ->. rewrite String.eqb_refl. f_equal.
    clear - Q1. induction m as [|[k' a] m IH]; simpl in *; [reflexivity|].
    destruct (String.eqb_spec k' k) as [->|N]; [tauto|]. apply IH. tauto.
  - destruct (String.eqb_spec k' k) as [->|N]; [|auto]. exfalso. apply Q1. apply (in_map fst _ _ H).
Qed.

Lemma one_inj A (a b : A) : Some a = Some b -> a = b.
Proof. intros H. injection H as H. exact H. Qed.

Lemma map_same A B (f g : A -> B) l : map f l = map g l -> forall a, In a l -> f a = g a.
Proof. induction l as [|b l IH]; simpl; intros H a Ha; [destruct Ha|]. injection H as H1 H2. destruct Ha as [<-|Ha]; auto. Qed.

Lemma mmap_same A B (f g : A -> B) (m : amap A) : mmap f m = mmap g m -> forall k a, In (k, a) m -> f a = g a.
Proof.
  unfold mmap. intros H k a Hin. pose proof (map_same _ _ _ H _ Hin) as Q. simpl in Q. congruence.
Qed.

Lemma mof_same A B (f g : A -> B) (l : list (string * A)) :
  NoDup (map fst l) -> mof (map (named_of f) l) = mof (map (named_of g) l) ->
  forall n a, In (n, a) l -> f a = g a.
Proof.
  intros Hn H n a Hin.
  assert (Q : forall h : A -> B, mlook n (mof (map (named_of h) l)) = Some (h a)).
  { intros h. rewrite mlook_mof, llook_NoDup.
    - apply In_mlook; [|apply (in_map (named_of h) _ _ Hin)].
      unfold mkeys. rewrite map_map. exact Hn.
    - rewrite map_map. exact Hn. }
  pose proof (Q f) as Q1. rewrite H, Q in Q1. congruence.
Qed.

Lemma the_map_same A B (f g : A -> B) (l : list (string * A)) :
  NoDup (map fst l) -> the_map f l = the_map g l -> forall n a, In (n, a) l -> f a = g a.
Proof.
  intros Hn H n a Hin. unfold the_map in H. destruct l as [|c l]; [destruct Hin|].
  eapply mof_same; [exact Hn| |exact Hin]. exact (one_inj H).
Qed.

Section Exact.
  Variable E : env.
  Variable X : exts.
  Notation TG := (tag_parse E).

  Lemma last_text m k v s :
    msorted m -> In (k, v) m -> TG k = Some s -> mlook s (ml_tagged TG (last_order k) m) = Some v.
  Proof.
    intros Hs Hin Hk. unfold ml_tagged, last_order. rewrite (filter_one _ _ _ (msorted_NoDup m Hs) Hin).
    rewrite map_app. simpl. rewrite mlook_mof, llook_app. simpl. unfold retag. rewrite Hk, String.eqb_refl. reflexivity.
  Qed.

  Variables o1 o2 : order.
  Notation same m := (ml_tagged TG o1 m = ml_tagged TG o2 m).

  Lemma info_same i m : info_tagged TG o1 i = info_tagged TG o2 i -> info_map i m -> same m.
  Proof.
    intros H Hm. unfold info_tagged in H. injection H as H1 H2.
    destruct Hm as [Q|Q]; [rewrite Q in H1|rewrite Q in H2]; simpl in *; congruence.
  Qed.

  Lemma child_same DS AS OS (d c : ds DS AS OS) :
    ds_tagged TG o1 d = ds_tagged TG o2 d -> In c (ds_children d) -> ds_tagged TG o1 c = ds_tagged TG o2 c.
  Proof.
    intros H Hc. apply (map_same (@ds_tagged TG o1 DS AS OS) (@ds_tagged TG o2 DS AS OS) (ds_children d)); auto.
    rewrite <- !children_tagged, H. reflexivity.
  Qed.

  Lemma ds_same DS AS OS (d : ds DS AS OS) m : ds_tagged TG o1 d = ds_tagged TG o2 d -> ds_map d m -> same m.
  Proof.
    intros H (e & He & Hm). revert H Hm.
    induction He as [|d l c Q Hin He IH|d c mn mx o Q He IH|d l c mn mx o Q Hin He IH|d ps k c r o Q Hin He IH];
      intros H Hm.
    - destruct e as [i mm o s x]. rewrite !ds_tagged_eq in H. eapply info_same; [exact (f_equal (@ds_info DS AS OS) H)|exact Hm].
    - apply IH; auto. apply (child_same _ _ H). unfold ds_children. rewrite Q. apply in_or_app; auto.
    - apply IH; auto. apply (child_same _ _ H). unfold ds_children. rewrite Q. apply in_or_app. right. simpl; auto.
    - apply IH; auto. apply (child_same _ _ H). unfold ds_children. rewrite Q. apply in_or_app. right. simpl; auto.
    - apply IH; auto. apply (child_same _ _ H). unfold ds_children. rewrite Q. apply in_or_app. right. simpl.
      apply in_map_iff. exists (k, c); auto.
  Qed.

  Lemma ods_same (o : option (dsx X)) d m :
    option_map (@ds_tagged TG o1 (pty (x_ds X)) (pty (x_as X)) (pty (x_os X))) o
    = option_map (@ds_tagged TG o2 (pty (x_ds X)) (pty (x_as X)) (pty (x_os X))) o ->
    o = Some d -> ds_map d m -> same m.
  Proof. intros H -> Hm. simpl in H. eapply ds_same; [|exact Hm]. congruence. Qed.

  Lemma ouri_same (o : option (amap (dsx X))) k d m :
    option_map (mmap (@ds_tagged TG o1 (pty (x_ds X)) (pty (x_as X)) (pty (x_os X)))) o
    = option_map (mmap (@ds_tagged TG o2 (pty (x_ds X)) (pty (x_as X)) (pty (x_os X)))) o ->
    In (k, d) (olist o) -> ds_map d m -> same m.
  Proof.
    destruct o as [l|]; simpl; [|intros _ []]. intros H Hin Hm. eapply ds_same; [|exact Hm].
    eapply mmap_same; [|exact Hin]. congruence.
  Qed.

  Section State.
    Variable s : tstate E X.
    Notation y := (body_of s).
    Hypothesis Hc : consistent (parsable E) y.
    Hypothesis Hsame : thing_of o1 s = thing_of o2 s.
    Hypothesis Hp : order_ok o1.
    Hypothesis Hq : order_ok o2.

    Lemma p_same n a : In (n, a) (y_properties y) -> property_tagged E o1 a = property_tagged E o2 a.
    Proof.
      intros Hin. apply in_map_iff in Hin as ([n' u] & Q & Hin). injection Q as <- <-.
      pose proof (f_equal (@t_properties E X) Hsame) as H. simpl in H.
      apply (the_map_same (fun u => property_tagged E o1 (property_of u)) (fun u => property_tagged E o2 (property_of u)) (tb_properties s)) with n'; auto.
      pose proof (co_properties Hc) as Hn. simpl in Hn. rewrite map_map in Hn. exact Hn.
    Qed.
    Lemma a_same n a : In (n, a) (y_actions y) -> action_tagged E o1 a = action_tagged E o2 a.
    Proof.
      intros Hin. apply in_map_iff in Hin as ([n' u] & Q & Hin). injection Q as <- <-.
      pose proof (f_equal (@t_actions E X) Hsame) as H. simpl in H.
      apply (the_map_same (fun u => action_tagged E o1 (action_of u)) (fun u => action_tagged E o2 (action_of u)) (tb_actions s)) with n'; auto.
      pose proof (co_actions Hc) as Hn. simpl in Hn. rewrite map_map in Hn. exact Hn.
    Qed.
    Lemma e_same n a : In (n, a) (y_events y) -> event_tagged E o1 a = event_tagged E o2 a.
    Proof.
      intros Hin. apply in_map_iff in Hin as ([n' u] & Q & Hin). injection Q as <- <-.
      pose proof (f_equal (@t_events E X) Hsame) as H. simpl in H.
      apply (the_map_same (fun u => event_tagged E o1 (event_of u)) (fun u => event_tagged E o2 (event_of u)) (tb_events s)) with n'; auto.
      pose proof (co_events Hc) as Hn. simpl in Hn. rewrite map_map in Hn. exact Hn.
    Qed.

    Lemma ia_same k n i : affordance y k n i -> ia_tagged E o1 i = ia_tagged E o2 i.
    Proof.
      intros [n' a Hin|n' a Hin|n' a Hin].
      - pose proof (f_equal (@pa_ia X) (p_same _ _ Hin)) as H. exact H.
      - pose proof (f_equal (@aa_ia X) (a_same _ _ Hin)) as H. exact H.
      - pose proof (f_equal (@ea_ia X) (e_same _ _ Hin)) as H. exact H.
    Qed.

    Lemma empty_same : same [].
    Proof.
      unfold ml_tagged. pose proof (Permutation_length (Hp [] (A := string))) as L1.
      pose proof (Permutation_length (Hq [] (A := string))) as L2. simpl in *.
      destruct (@o1 string []); [|discriminate]. destruct (@o2 string []); [|discriminate]. reflexivity.
    Qed.

    Lemma map_in_same m : lang_map_in y m -> same m.
    Proof.
      intros [H|H|n c Hin H|k n i Ha H|d Hd H].
      - subst m. pose proof (f_equal (@t_titles E X) Hsame) as H. simpl in *.
        destruct (tb_titles s); simpl in *; [congruence|apply empty_same].
      - subst m. pose proof (f_equal (@t_descriptions E X) Hsame) as H. simpl in *.
        destruct (tb_descriptions s); simpl in *; [congruence|apply empty_same].
      - pose proof (f_equal (@t_secdefs E X) Hsame) as Q. simpl in Q. unfold the_defs in Q.
        pose proof (mof_same (sec_tagged E o1) (sec_tagged E o2) (tb_secdefs s) (co_secdefs Hc) Q _ _ Hin) as R.
        apply (f_equal ss_descriptions) in R. simpl in R. rewrite H in R. simpl in R. congruence.
      - pose proof (f_equal (@ia_info X) (ia_same Ha)) as Q. eapply info_same; [exact Q|exact H].
      - destruct Hd as [[n a Hin Q|n a Hin Q|n a Hin Q|n a Hin Q|n a Hin Q|n a Hin Q]|n a Hin Q|[n Hin|k n i n' Ha Hin]|n Hin].
        + subst d. eapply ds_same; [exact (f_equal (@pa_ds X) (p_same _ _ Hin))|exact H].
        + eapply ods_same; [exact (f_equal (@aa_input X) (a_same _ _ Hin))|exact Q|exact H].
        + eapply ods_same; [exact (f_equal (@aa_output X) (a_same _ _ Hin))|exact Q|exact H].
        + eapply ods_same; [exact (f_equal (@ea_subscription X) (e_same _ _ Hin))|exact Q|exact H].
        + eapply ods_same; [exact (f_equal (@ea_data X) (e_same _ _ Hin))|exact Q|exact H].
        + eapply ods_same; [exact (f_equal (@ea_cancellation X) (e_same _ _ Hin))|exact Q|exact H].
        + eapply ods_same; [exact (f_equal (@ea_data_response X) (e_same _ _ Hin))|exact Q|exact H].
        + eapply ouri_same; [exact (f_equal (@t_uri E X) Hsame)|exact Hin|exact H].
        + eapply ouri_same; [exact (f_equal (@ia_uri X) (ia_same Ha))|exact Hin|exact H].
        + pose proof (f_equal (@t_schemas E X) Hsame) as Q. simpl in Q. unfold the_schemas in Q. simpl in Hin.
          eapply ds_same; [|exact H]. eapply mmap_same; [|exact Hin].
          destruct (tb_schemas s); [destruct Hin|]. simpl in Q |- *. congruence.
    Qed.
  End State.
End Exact.

Section Sorted.
  Variable E : env.
  Variable X : exts.
  Variable s : tstate E X.
  Hypothesis Hwf : tb_wf s.
  Notation y := (body_of s).

  Lemma ds_sorted (d : dsx X) m : ds_wf d -> ds_map d m -> msorted m.
  Proof. intros Hw (e & He & Hi). destruct (Hw e He) as [[H1 H2] _]. destruct Hi; auto. Qed.

  Lemma ods_sorted (o : option (dsx X)) d m : o_wf o -> o = Some d -> ds_map d m -> msorted m.
  Proof. intros Hw ->. apply ds_sorted, Hw. Qed.

  Lemma lang_sorted m : lang_map_in y m -> msorted m.
  Proof.
    intros [H|H|n c Hin H|k n i Ha H|d Hd H].
    - subst m. simpl. destruct (tb_titles s) eqn:Q; simpl; [eapply (tw_titles Hwf); eauto|constructor].
    - subst m. simpl. destruct (tb_descriptions s) eqn:Q; simpl; [eapply (tw_descriptions Hwf); eauto|constructor].
    - eapply (tw_secdefs Hwf); eauto.
    - destruct Ha as [n' a Hin|n' a Hin|n' a Hin]; apply in_map_iff in Hin as ([n0 u] & Q & Hin); injection Q as <- <-.
      + destruct (tw_properties Hwf _ _ Hin) as [_ Hd]. eapply ds_sorted; [exact Hd|].
        exists (up_ds u). split; [constructor|exact H].
      + destruct (tw_actions Hwf _ _ Hin) as [[H1 H2] _]. destruct H; auto.
      + destruct (tw_events Hwf _ _ Hin) as [[H1 H2] _]. destruct H; auto.
    - destruct Hd as [[n a Hin Q|n a Hin Q|n a Hin Q|n a Hin Q|n a Hin Q|n a Hin Q]|n a Hin Q|[n Hin|k n i n' Ha Hin]|n Hin].
      1-7: apply in_map_iff in Hin as ([n0 u] & R & Hin); injection R as <- <-.
      + subst d. destruct (tw_properties Hwf _ _ Hin) as [_ Hd]. eapply ds_sorted; [exact Hd|exact H].
      + destruct (tw_actions Hwf _ _ Hin) as (_ & _ & H1 & H2). eapply ods_sorted; [|exact Q|exact H]. auto.
      + destruct (tw_actions Hwf _ _ Hin) as (_ & _ & H1 & H2). eapply ods_sorted; [|exact Q|exact H]. auto.
      + destruct (tw_events Hwf _ _ Hin) as (_ & _ & H1 & H2 & H3 & H4). eapply ods_sorted; [|exact Q|exact H]. auto.
      + destruct (tw_events Hwf _ _ Hin) as (_ & _ & H1 & H2 & H3 & H4). eapply ods_sorted; [|exact Q|exact H]. auto.
      + destruct (tw_events Hwf _ _ Hin) as (_ & _ & H1 & H2 & H3 & H4). eapply ods_sorted; [|exact Q|exact H]. auto.
      + destruct (tw_events Hwf _ _ Hin) as (_ & _ & H1 & H2 & H3 & H4). eapply ods_sorted; [|exact Q|exact H]. auto.
      + simpl in Hin. destruct (tb_uri s) as [l|] eqn:Q; [|destruct Hin]. destruct (tw_uri Hwf Q) as [_ Hd].
        eapply ds_sorted; [eapply Hd; exact Hin|exact H].
      + assert (Hi : forall ib, ib_wf ib -> In (n', d) (olist (nonempty (ib_uri ib))) -> msorted m).
        { intros ib [_ Hd] Q. destruct (ib_uri ib) eqn:R; [destruct Q|]. eapply ds_sorted; [eapply Hd; exact Q|exact H]. }
        destruct Ha as [n0 a Hin'|n0 a Hin'|n0 a Hin']; apply in_map_iff in Hin' as ([n1 u] & R & Hin'); injection R as <- <-.
        * destruct (tw_properties Hwf _ _ Hin') as [Hb _]. apply (Hi _ Hb). exact Hin.
        * destruct (tw_actions Hwf _ _ Hin') as (_ & Hb & _). apply (Hi _ Hb). exact Hin.
        * destruct (tw_events Hwf _ _ Hin') as (_ & Hb & _). apply (Hi _ Hb). exact Hin.
      + destruct (tw_schemas Hwf) as [_ Hd]. eapply ds_sorted; [eapply Hd; exact Hin|exact H].
  Qed.
End Sorted.

Section Statement.
  Variable E : env.
  Variable X : exts.

  Lemma order_exact ord title x (p : list (top E X)) t :
    order_ok ord -> thing_program ord title x p = Some (Ok t) ->
    ((forall ord1 ord2, order_ok ord1 -> order_ok ord2 ->
        thing_program ord1 title x p = thing_program ord2 title x p)
     <-> (forall y m k v k' v' s, declares p y -> lang_map_in y m -> In (k, v) m -> In (k', v') m ->
            tag_parse E k = Some s -> tag_parse E k' = Some s -> v = v')).
  Proof.
    intros Ho Ht. split.
    - intros Hall y m k v k' v' r Hy Hm Hk Hk' Ek Ek'.
      pose proof (last_order_ok k) as O1. pose proof (last_order_ok k') as O2.
      pose proof Ht as Ht0. unfold thing_program in Ht0.
      destruct (trun p (thing_new E X title x)) as [s|] eqn:Er; [|discriminate]. simpl in Ht0.
      injection Ht0 as Ht0. pose proof (trun_says _ _ _ Er) as Hs.
      assert (Hwf : tb_wf s) by (eapply tb_says_wf; eauto).
      assert (Hd : declares p (body_of s)) by (eapply tb_says_declares; eauto).
      assert (y = body_of s) as -> by (eapply declares_fun; eauto).
      pose proof (tbuild_judge Ho Hwf) as J. rewrite Ht0 in J. simpl in J. destruct J as [_ Hc].
      assert (Hb : forall o, order_ok o -> thing_program o title x p = Some (Ok (thing_of o s))).
      { intros o Oo. unfold thing_program. rewrite Er. simpl. pose proof (tbuild_judge Oo Hwf) as J.
        destruct (tbuild o s) as [t'|e] eqn:Eb; simpl in J; [destruct J as [-> _]; reflexivity|].
        exfalso. eapply defect_inconsistent; eauto. }
      specialize (Hall _ _ O1 O2). rewrite (Hb _ O1), (Hb _ O2) in Hall.
      assert (Hsame : thing_of (last_order k) s = thing_of (last_order k') s) by congruence.
      pose proof (map_in_same Hc Hsame O1 O2 Hm) as Q.
      pose proof (lang_sorted Hwf Hm) as Hms.
      pose proof (@last_text E m k v r Hms Hk Ek) as Q1. pose proof (@last_text E m k' v' r Hms Hk' Ek') as Q2.
      rewrite Q, Q2 in Q1. congruence.
    - intros Hn ord1 ord2 O1 O2.
      rewrite (@order_independent_thing E X ord ord1 title x p t Ho O1 Hn Ht).
      rewrite (@order_independent_thing E X ord ord2 title x p t Ho O2 Hn Ht). reflexivity.
  Qed.
End Statement.
