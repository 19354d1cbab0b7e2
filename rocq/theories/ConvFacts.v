(** * Facts about the conversions (language tags) and the bounds check *)

From Coq Require Import String Bool ZArith Permutation Lia List.
From Coq Require Import Floats.SpecFloat.
From Verif Require Import Base MinMax Json Serde Types DsBuilder Spec DsFacts.
Import ListNotations.
Set Implicit Arguments.
Local Open Scope string_scope.
Local Open Scope list_scope.

(** Sorted maps everywhere: what every builder produces. *)
Definition info_wf (i : info) : Prop :=
  (forall m, i_titles i = Some m -> msorted m) /\ (forall m, i_descriptions i = Some m -> msorted m).

Lemma order_In ord A (m : list (string * A)) x : order_ok ord -> (In x (ord A m) <-> In x m).
Proof.
  intros H. split; intros Hin.
  - eapply Permutation_in; [apply H|auto].
  - eapply Permutation_in; [apply Permutation_sym, H|auto].
Qed.

Section Conv.
  Variable tag_parse : string -> option string.

  (** What a conversion may return: [a], when all the tags ([T]) can be parsed, or
      the complaint about one that cannot. *)
  Definition conv {A} (T : string -> Prop) (a : A) (r : result error A) : Prop :=
    match r with
    | Ok b => b = a /\ forall s, T s -> tag_parse s <> None
    | Err e => exists s, T s /\ tag_parse s = None /\ e = InvalidLanguageTag s
    end.

  Lemma conv_ext A (T T' : string -> Prop) (a : A) r :
    (forall s, T s <-> T' s) -> conv T a r -> conv T' a r.
  Proof.
    intros H. destruct r as [b|e]; simpl.
    - intros [-> Hb]; split; auto. intros s Hs. apply Hb, H; auto.
    - intros (s & Hs & ?). exists s. split; auto. apply H; auto.
  Qed.

  Lemma conv_bind A B (T1 T2 T : string -> Prop) (a : A) (r : result error A) (b : B) (f : A -> result error B) :
    conv T1 a r -> conv T2 b (f a) -> (forall s, T s <-> T1 s \/ T2 s) -> conv T b (rbind r f).
  Proof.
    destruct r as [a'|e]; simpl.
    - intros [-> H1] H2 HT. destruct (f a) as [b'|e]; simpl in *.
      + destruct H2 as [-> H2]. split; auto. intros s Hs. apply HT in Hs as [Hs|Hs]; auto.
      + destruct H2 as (s & Hs & ?). exists s. split; auto. apply HT; auto.
    - intros (s & Hs & ?) _ HT. exists s. split; auto. apply HT; auto.
  Qed.

  Lemma conv_ret A (T : string -> Prop) (a : A) : (forall s, ~ T s) -> conv T a (Ok a).
  Proof. simpl. intros H; split; auto. intros s Hs. destruct (H s Hs). Qed.

  Lemma conv_ropt A B (T : A -> string -> Prop) (g : A -> B) (f : A -> result error B) o :
    (forall a, o = Some a -> conv (T a) (g a) (f a)) ->
    conv (fun s => exists a, o = Some a /\ T a s) (option_map g o) (ropt f o).
  Proof.
    destruct o as [a|]; simpl; intros H.
    - specialize (H a eq_refl). destruct (f a) as [b|e]; simpl in *.
      + destruct H as [-> H]. split; auto. intros s (a' & E & Hs). inversion E; subst; auto.
      + destruct H as (s & Hs & ?). exists s. eauto.
    - split; auto. intros s (a & E & _). discriminate.
  Qed.

  Lemma conv_rmap_all A B (T : A -> string -> Prop) (g : A -> B) (f : A -> result error B) l :
    (forall a, In a l -> conv (T a) (g a) (f a)) ->
    conv (fun s => exists a, In a l /\ T a s) (map g l) (rmap_all f l).
  Proof.
    induction l as [|a l IH]; simpl; intros H.
    - split; auto. intros s (a & [] & _).
    - pose proof (H a (or_introl eq_refl)) as Ha. destruct (f a) as [b|e]; simpl in *.
      + destruct Ha as [-> Ha].
        assert (IH' := IH (fun a Hin => H a (or_intror Hin))).
        destruct (rmap_all f l) as [l'|e]; simpl in *.
        * destruct IH' as [-> IH']. split; auto. intros s (x & [<-|Hx] & Hs); eauto.
        * destruct IH' as (s & (x & Hx & Hs) & ?). exists s. split; eauto.
      + destruct Ha as (s & Hs & ?). exists s. split; eauto.
  Qed.

  Variable ord : order.
  Hypothesis Hord : order_ok ord.

  (** Reordering a map before rebuilding it does not matter. *)
  Lemma mof_order A B (g : A -> B) (m : amap A) :
    msorted m -> mof (map (fun kv => (fst kv, g (snd kv))) (ord m)) = mmap g m.
  Proof.
    intros Hm. apply mof_Permutation; [apply msorted_mmap; auto|].
    unfold mmap. apply Permutation_map, Hord.
  Qed.

  Lemma conv_map_build A B (T : A -> string -> Prop) (g : A -> B) (f : A -> result error B) (m : amap A) :
    msorted m ->
    (forall k a, In (k, a) m -> conv (T a) (g a) (f a)) ->
    conv (fun s => exists k a, In (k, a) m /\ T a s) (mmap g m) (map_build ord f m).
  Proof.
    intros Hm H. unfold map_build.
    apply conv_ext with
      (T := fun s => (exists kv, In kv (ord m) /\ T (snd kv) s)).
    { intros s. split.
      - intros ([k a] & Hin & Hs). apply order_In in Hin; eauto.
      - intros (k & a & Hin & Hs). exists (k, a). rewrite order_In; auto. }
    assert (Hc := @conv_rmap_all _ _ (fun kv => T (snd kv)) (fun kv => (fst kv, g (snd kv)))
              (fun kv : string * A => let! v := f (snd kv) in Ok (fst kv, v)) (ord m)).
    assert (H' : forall kv : string * A, In kv (ord m) ->
              conv (T (snd kv)) (fst kv, g (snd kv)) (let! v := f (snd kv) in Ok (fst kv, v))).
    { intros [k a] Hin. apply order_In in Hin; auto. specialize (H _ _ Hin). simpl.
      destruct (f a); simpl in *; auto. destruct H as [-> H]. auto. }
    specialize (Hc H').
    destruct (rmap_all _ _) as [l|e]; simpl in *; auto.
    destruct Hc as [-> Hc]. split; auto. apply mof_order; auto.
  Qed.

  (** ** Language maps *)

  (** A tag as recorded. *)
  Definition retag (k : string) : string := match tag_parse k with Some t => t | None => k end.

  Definition ml_tagged (m : multilang) : multilang :=
    mof (map (fun kv => (retag (fst kv), snd kv)) (ord m)).

  Lemma conv_tag s : conv (eq s) (retag s) (parse_tag tag_parse s).
  Proof.
    unfold parse_tag, retag. destruct (tag_parse s) as [t|] eqn:E; simpl.
    - split; auto. intros s' <-. congruence.
    - exists s. auto.
  Qed.

  Lemma conv_ml_build m : conv (fun s => In s (mkeys m)) (ml_tagged m) (ml_build ord tag_parse m).
  Proof.
    unfold ml_build.
    apply conv_ext with (T := fun s => exists kv, In kv (ord m) /\ s = fst kv).
    { intros s. unfold mkeys. rewrite in_map_iff. split.
      - intros (kv & Hin & ->). apply order_In in Hin; eauto.
      - intros (kv & <- & Hin). exists kv. rewrite order_In; auto. }
    assert (Hc := @conv_rmap_all _ _ (fun kv s => s = fst kv) (fun kv => (retag (fst kv), snd kv))
              (fun kv : string * string => let! k := parse_tag tag_parse (fst kv) in Ok (k, snd kv))
              (ord m)).
    assert (H' : forall kv : string * string, In kv (ord m) ->
              conv (fun s => s = fst kv) (retag (fst kv), snd kv)
                (let! k := parse_tag tag_parse (fst kv) in Ok (k, snd kv))).
    { intros [k v] _. simpl. pose proof (conv_tag k) as Hk.
      destruct (parse_tag tag_parse k) as [t|e]; simpl in *.
      - destruct Hk as [-> Hk]. auto.
      - destruct Hk as (s & -> & Hk). exists s. auto. }
    specialize (Hc H').
    destruct (rmap_all _ _) as [l|e]; simpl in *; auto.
    destruct Hc as [-> Hc]. split; auto.
  Qed.

  Definition info_tagged (i : info) : info :=
    {| i_attype := i_attype i; i_title := i_title i; i_titles := option_map ml_tagged (i_titles i);
       i_description := i_description i; i_descriptions := option_map ml_tagged (i_descriptions i) |}.

  Lemma info_tag_or i s :
    info_tag i s <-> (exists m, i_titles i = Some m /\ In s (mkeys m))
                     \/ (exists m, i_descriptions i = Some m /\ In s (mkeys m)).
  Proof. unfold info_tag, info_map. firstorder. Qed.

  Lemma conv_info i : conv (info_tag i) (info_tagged i) (info_build ord tag_parse i).
  Proof.
    unfold info_build.
    apply conv_bind with
      (T1 := fun s => exists m, i_titles i = Some m /\ In s (mkeys m))
      (T2 := fun s => exists m, i_descriptions i = Some m /\ In s (mkeys m))
      (a := option_map ml_tagged (i_titles i)); [| |intros; apply info_tag_or].
    - apply conv_ropt with (T := fun m s => In s (mkeys m)). intros m E. apply conv_ml_build; auto.
    - apply conv_bind with
        (T1 := fun s => exists m, i_descriptions i = Some m /\ In s (mkeys m))
        (T2 := fun _ => False) (a := option_map ml_tagged (i_descriptions i)); [| |tauto].
      + apply conv_ropt with (T := fun m s => In s (mkeys m)). intros m E. apply conv_ml_build; auto.
      + apply conv_ret. auto.
  Qed.

  Section Ds.
    Variables DS AS OS : Type.
    Notation ds := (ds DS AS OS).

    (** Sorted maps at every depth. *)
    Definition ds_wf1 (d : ds) : Prop :=
      info_wf (ds_info d) /\ forall ps r o, ds_sub d = Some (SObject (Some ps) r o) -> msorted ps.
    Definition ds_wf (d : ds) : Prop := everywhere ds_wf1 d.

    (** The schema with the tags of every nested schema recorded. *)
    Fixpoint ds_tagged (d : ds) : ds :=
      let goL := fix goL (l : list ds) : list ds :=
                   match l with [] => [] | d :: l' => ds_tagged d :: goL l' end in
      let goM := fix goM (l : list (string * ds)) : list (string * ds) :=
                   match l with [] => [] | (k, d) :: l' => (k, ds_tagged d) :: goM l' end in
      match d with
      | mkDs i m o s x =>
          mkDs (info_tagged i) m (match o with Some l => Some (goL l) | None => None end)
            (match s with
             | Some (SArray (Some (BElem e)) mn mx a) => Some (SArray (Some (BElem (ds_tagged e))) mn mx a)
             | Some (SArray (Some (BVec l)) mn mx a) => Some (SArray (Some (BVec (goL l))) mn mx a)
             | Some (SObject (Some ps) req a) => Some (SObject (Some (goM ps)) req a)
             | s => s
             end) x
      end.

    Lemma tagL_map (l : list ds) :
      (fix goL (l : list ds) : list ds := match l with [] => [] | d :: l' => ds_tagged d :: goL l' end) l
      = map ds_tagged l.
    Proof. induction l; simpl; congruence. Qed.

    Lemma tagM_map (l : list (string * ds)) :
      (fix goM (l : list (string * ds)) : list (string * ds) :=
         match l with [] => [] | (k, d) :: l' => (k, ds_tagged d) :: goM l' end) l
      = mmap ds_tagged l.
    Proof. induction l as [|[k d] l IH]; simpl; auto. rewrite IH. reflexivity. Qed.

    (** The type specific part with the tags recorded. *)
    Definition sub_tagged (s : dsub DS AS OS) : dsub DS AS OS :=
      match s with
      | SArray (Some (BElem e)) mn mx a => SArray (Some (BElem (ds_tagged e))) mn mx a
      | SArray (Some (BVec l)) mn mx a => SArray (Some (BVec (map ds_tagged l))) mn mx a
      | SObject (Some ps) req a => SObject (Some (mmap ds_tagged ps)) req a
      | s => s
      end.

    Lemma ds_tagged_eq i m o s x :
      ds_tagged (mkDs i m o s x)
      = mkDs (info_tagged i) m (option_map (map ds_tagged) o) (option_map sub_tagged s) x.
    Proof.
      cbn [ds_tagged].
      destruct o as [lo|]; destruct s as [[[[e|l]|] mn mx a| |n|n|[ps|] r a|t| ]|];
        cbn [option_map sub_tagged]; rewrite ?tagL_map, ?tagM_map; reflexivity.
    Qed.

    Lemma goL_map (l : list ds) :
      (fix goL (l : list ds) : list (result error ds) :=
         match l with [] => [] | d :: l' => ds_build ord tag_parse d :: goL l' end) l
      = map (ds_build ord tag_parse) l.
    Proof. induction l; simpl; congruence. Qed.

    Lemma goM_map (l : list (string * ds)) :
      (fix goM (l : list (string * ds)) : list (string * result error ds) :=
         match l with [] => [] | (k, d) :: l' => (k, ds_build ord tag_parse d) :: goM l' end) l
      = mmap (ds_build ord tag_parse) l.
    Proof. induction l as [|[k d] l IH]; simpl; auto. rewrite IH. reflexivity. Qed.

    Lemma rmap_all_map E A B C (f : B -> result E C) (g : A -> B) l :
      rmap_all f (map g l) = rmap_all (fun a => f (g a)) l.
    Proof. induction l as [|a l IH]; simpl; auto. rewrite IH. reflexivity. Qed.

    (** Converting the values first and then reordering is the same. *)
    Lemma map_build_pre A B (T : A -> string -> Prop) (g : A -> B) (f : A -> result error B) (m : amap A) :
      msorted m ->
      (forall k a, In (k, a) m -> conv (T a) (g a) (f a)) ->
      conv (fun s => exists k a, In (k, a) m /\ T a s) (mmap g m)
        (map_build ord (fun r => r) (mmap f m)).
    Proof.
      intros Hm H. unfold map_build.
      assert (Hp : Permutation (ord (mmap f m)) (mmap f m)) by apply Hord.
      destruct (rmap_all _ (ord (mmap f m))) as [l|e] eqn:E; simpl.
      - apply rmap_all_Ok in E.
        assert (Hall : forall k a, In (k, a) m -> f a = Ok (g a) /\ forall s, T a s -> tag_parse s <> None).
        { intros k a Hin. specialize (H _ _ Hin).
          assert (Hin' : In (k, f a) (ord (mmap f m))).
          { eapply Permutation_in; [apply Permutation_sym, Hp|]. unfold mmap. apply in_map_iff.
            exists (k, a); auto. }
          clear -E Hin' H. induction E as [|x y l1 l2 Hxy _ IH]; [destruct Hin'|].
          destruct Hin' as [->|Hin']; auto. simpl in Hxy.
          destruct (f a) as [b|e]; simpl in *; [|discriminate].
          destruct H as [-> H]; auto. }
        assert (Hm' : mmap f m = mmap (@Ok error B) (mmap g m)).
        { unfold mmap. rewrite map_map. apply map_ext_in. intros [k a] Hin. simpl.
          destruct (Hall _ _ Hin) as [-> _]. auto. }
        split.
        + assert (mmap (@Ok error B) l = ord (mmap f m)) as El.
          { clear -E. unfold mmap at 1. induction E as [|[k r] [k' y] l1 l2 Hxy _ IH]; simpl; auto.
            rewrite IH. destruct r; simpl in *; inversion Hxy; subst; auto. }
          apply mof_Permutation; [apply msorted_mmap; auto|].
          rewrite <- El, Hm' in Hp. unfold mmap in Hp at 1 2.
          apply (Permutation_map (fun kv : string * result error B =>
                   match snd kv with Ok a => [(fst kv, a)] | Err _ => [] end)) in Hp.
          rewrite !map_map in Hp. simpl in Hp.
          assert (forall x : amap B, concat (map (fun kv => [(fst kv, snd kv)]) x) = x) as Hc.
          { induction x as [|[? ?] ? IHx]; simpl; congruence. }
          rewrite <- (Hc l), <- (Hc (mmap g m)).
          clear -Hp. induction Hp; simpl; auto.
          * apply Permutation_app_head; auto.
          * rewrite !app_assoc. apply Permutation_app_tail, Permutation_app_comm.
          * eapply perm_trans; eauto.
        + intros s (k & a & Hin & Hs). apply (Hall _ _ Hin); auto.
      - apply rmap_all_Err in E as ([k r] & Hin & Hr). simpl in Hr.
        eapply Permutation_in in Hin; [|exact Hp]. unfold mmap in Hin.
        apply in_map_iff in Hin as ([k' a] & Ek & Hin). simpl in Ek. inversion Ek; subst.
        specialize (H _ _ Hin). destruct (f a) as [b|e']; [discriminate|]. simpl in *.
        inversion Hr; subst. destruct H as (s & Hs & Hrest). exists s. split; eauto.
    Qed.

    Lemma ds_tag_or i m o s x t :
      ds_tag (mkDs i m o s x : ds) t <->
      info_tag i t \/ (exists l, o = Some l /\ exists c, In c l /\ ds_tag c t)
      \/ (exists s', s = Some s' /\ exists c, In c (sub_children s') /\ ds_tag c t).
    Proof.
      unfold ds_tag, ds_map. split.
      - intros (lm & (e & He & Hi) & Ht). apply sub_inv in He as [->|(c & Hc & He)]; [left; exists lm; auto|right].
        unfold ds_children in Hc. simpl in Hc. apply in_app_or in Hc as [Hc|Hc].
        + left. destruct o as [l|]; [|destruct Hc]. exists l. split; auto. exists c. split; eauto.
        + right. destruct s as [s'|]; [|destruct Hc]. exists s'. split; auto. exists c. split; eauto.
      - intros [(lm & Hi & Ht)|[(l & -> & c & Hc & (lm & (e & He & Hi) & Ht))
                               |(s' & -> & c & Hc & (lm & (e & He & Hi) & Ht))]]; exists lm; split; auto.
        + eexists; split; [apply sub_self|exact Hi].
        + exists e. split; auto. eapply sub_child; eauto. unfold ds_children; simpl.
          apply in_or_app; auto.
        + exists e. split; auto. eapply sub_child; eauto. unfold ds_children; simpl.
          apply in_or_app; auto.
    Qed.

    Lemma conv_ds (d : ds) : ds_wf d -> conv (ds_tag d) (ds_tagged d) (ds_build ord tag_parse d).
    Proof.
      induction d as [i m o s x IHo IHs] using ds_ind'. intros Hwf.
      apply everywhere_elim in Hwf as [[_ Hps] Hch]. simpl in Hps.
      rewrite ds_tagged_eq. cbn [ds_build].
      set (To := fun t => exists l, o = Some l /\ exists c, In c l /\ ds_tag c t).
      set (Ts := fun t => exists s', s = Some s' /\ exists c, In c (sub_children s') /\ ds_tag c t).
      apply conv_bind with (T1 := info_tag i) (T2 := fun t => To t \/ Ts t) (a := info_tagged i);
        [apply conv_info| |intros; apply ds_tag_or].
      apply conv_bind with (T1 := To) (T2 := Ts) (a := option_map (map ds_tagged) o); [| |tauto].
      { apply conv_ropt with (T := fun l t => exists c, In c l /\ ds_tag c t).
        intros l ->. rewrite goL_map, rmap_all_map.
        apply conv_rmap_all with (T := fun c => ds_tag c). intros c Hc.
        eapply IHo; eauto. apply Hch. unfold ds_children. simpl. apply in_or_app; auto. }
      apply conv_bind with (T1 := Ts) (T2 := fun _ => False) (a := option_map sub_tagged s);
        [|apply conv_ret; auto|tauto].
      assert (Hret : forall s0, s = Some s0 -> sub_children s0 = [] -> forall t, ~ Ts t).
      { intros s0 -> Hn t (s' & E & c & Hc & _). inversion E; subst. rewrite Hn in Hc. destruct Hc. }
      destruct s as [[[[e|l]|] mn mx a| |n|n|[ps|] r a|t| ]|]; cbn [option_map sub_tagged];
        try (apply conv_ret, (Hret _ eq_refl eq_refl)).
      - (* one item schema *)
        apply conv_bind with (T1 := ds_tag e) (T2 := fun _ => False) (a := ds_tagged e).
        + eapply (IHs _ _ eq_refl); simpl; eauto. apply Hch. unfold ds_children; simpl.
          apply in_or_app. right. simpl; auto.
        + apply conv_ret. auto.
        + intros t. split.
          * intros (s' & E & c & Hc & Ht). inversion E; subst. destruct Hc as [<-|[]]. auto.
          * intros [Ht|[]]. eexists; split; eauto. exists e. split; simpl; auto.
      - (* tuple *)
        apply conv_bind with (T1 := fun t => exists c, In c l /\ ds_tag c t) (T2 := fun _ => False)
          (a := map ds_tagged l).
        + rewrite goL_map, rmap_all_map. apply conv_rmap_all with (T := fun c => ds_tag c).
          intros c Hc. eapply (IHs _ _ eq_refl); simpl; auto. apply Hch. unfold ds_children; simpl.
          apply in_or_app; auto.
        + apply conv_ret. auto.
        + intros t. split.
          * intros (s' & E & c & Hc & Ht). inversion E; subst. simpl in Hc. eauto.
          * intros [(c & Hc & Ht)|[]]. eexists; split; eauto.
      - (* object *)
        apply conv_bind with (T1 := fun t => exists k c, In (k, c) ps /\ ds_tag c t) (T2 := fun _ => False)
          (a := mmap ds_tagged ps).
        + rewrite goM_map. apply map_build_pre with (T := fun c => ds_tag c); [eapply Hps; eauto|].
          intros k c Hc. assert (In c (map snd ps)) by (apply in_map_iff; exists (k, c); auto).
          eapply (IHs _ _ eq_refl); simpl; auto. apply Hch. unfold ds_children; simpl.
          apply in_or_app; auto.
        + apply conv_ret. auto.
        + intros t. split.
          * intros (s' & E & c & Hc & Ht). inversion E; subst. simpl in Hc.
            apply in_map_iff in Hc as ([k c'] & <- & Hc). simpl in Ht. eauto.
          * intros [(k & c & Hc & Ht)|[]]. eexists; split; eauto. exists c. split; auto.
            simpl. apply in_map_iff. exists (k, c); auto.
      - apply conv_ret. intros t (s' & E & _). discriminate.
    Qed.
  End Ds.
End Conv.
