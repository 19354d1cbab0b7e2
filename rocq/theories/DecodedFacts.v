(** * What is read satisfies the conditions for being written *)

From Coq Require Import String Bool ZArith Permutation Lia List.
From Verif Require Import Base MinMax Json Serde Types DsBuilder Builder Spec SpecThing SpecSerde SpecDoc DsFacts Ser De SerdeFacts
  RoundTrip RoundTripDs RoundTripTd RoundTripThing FloatFacts ProtocolFacts CanonFacts.
Import ListNotations.
Set Implicit Arguments.
Local Open Scope string_scope.
Local Open Scope list_scope.

Definition docs (es : entries) : Prop := forall k j, In (k, j) es -> document j.

Lemma document_obj es : document (JObj es) <-> docs es.
Proof. split; [intros H; inversion H; auto|apply doc_obj]. Qed.

Lemma document_arr l : document (JArr l) <-> forall j, In j l -> document j.
Proof. split; [intros H; inversion H; auto|apply doc_arr]. Qed.

Lemma doc_in_arr l j : document (JArr l) -> In j l -> document j.
Proof. rewrite document_arr. auto. Qed.

Lemma doc_in_obj es k j : document (JObj es) -> In (k, j) es -> document j.
Proof. rewrite document_obj. intros H. apply H. Qed.

Lemma docs_without ks es : docs es -> docs (without ks es).
Proof. intros H k v Hin. apply without_In in Hin. eauto. Qed.

Lemma opt_inv A k (d : json -> option A) es o : opt k d es = Some o ->
  forall a, o = Some a -> exists v, In (k, v) es /\ v <> JNull /\ d v = Some a.
Proof.
  unfold opt. destruct (get k es) as [|v [|w l]] eqn:G; intros H a ->.
  - discriminate.
  - assert (Hin : In (k, v) es) by (apply get_In; rewrite G; left; auto).
    exists v. destruct v; try discriminate H; (split; [exact Hin|]); (split; [discriminate|]);
      revert H; destruct (d _); simpl; congruence.
  - destruct v; discriminate.
Qed.

Arguments opt_inv {A k d es o} _ {a} _.

Lemma opt_all A (P : A -> Prop) k (d : json -> option A) es o : opt k d es = Some o ->
  (forall v a, In (k, v) es -> v <> JNull -> d v = Some a -> P a) -> all_some P o.
Proof. intros H HP a Ha. destruct (opt_inv H Ha) as (v & H1 & H2 & H3). eauto. Qed.

Lemma req_inv A k (d : json -> option A) es a : req k d es = Some a -> exists v, In (k, v) es /\ d v = Some a.
Proof.
  unfold req. destruct (get k es) as [|v [|w l]] eqn:G; try discriminate. intros H. exists v.
  split; auto. apply get_In. rewrite G. left; auto.
Qed.

Lemma dflt_inv A k a0 (d : json -> option A) es a : dflt k a0 d es = Some a ->
  a = a0 \/ exists v, In (k, v) es /\ d v = Some a.
Proof.
  unfold dflt. destruct (get k es) as [|v [|w l]] eqn:G; try discriminate; intros H.
  - left. congruence.
  - right. exists v. split; auto. apply get_In. rewrite G. left; auto.
Qed.

Lemma omap_all_inv A B (f : A -> option B) l m : omap_all f l = Some m ->
  forall b, In b m -> exists a, In a l /\ f a = Some b.
Proof.
  revert m. induction l as [|a l IH]; simpl; intros m.
  - intros [= <-] b [].
  - destruct (f a) eqn:Fa; [|discriminate]. destruct (omap_all f l) as [m'|]; [|discriminate].
    intros [= <-] c [<-|Hc]; eauto. destruct (IH m' eq_refl c Hc) as (x & Hx & Hfx). eauto.
Qed.

Arguments omap_all_inv {A B f l m} _ {b} _.

Lemma list_inv A (d : json -> option A) j l : d_list d j = Some l ->
  exists js, j = JArr js /\ forall a, In a l -> exists v, In v js /\ d v = Some a.
Proof.
  destruct j; try discriminate. simpl. intros H. eexists; split; [reflexivity|].
  intros a Ha. apply (omap_all_inv H Ha).
Qed.

Arguments list_inv {A d j l} _.

Lemma map_inv A (d : json -> option A) j m : d_map d j = Some m ->
  msorted m /\ exists es, j = JObj es /\ forall k a, In (k, a) m -> exists v, In (k, v) es /\ d v = Some a.
Proof.
  destruct j as [| | | | | |es]; try discriminate. simpl.
  destruct (omap_all _ es) as [l|] eqn:El; [|discriminate]. intros [= <-].
  split; [apply msorted_mof|]. exists es; split; [reflexivity|].
  intros k a Hin. apply In_mof in Hin. destruct (omap_all_inv El Hin) as ([k' v] & Hv & Hd).
  simpl in Hd. destruct (d v) eqn:Ed; [|discriminate]. injection Hd as -> ->. eauto.
Qed.

Arguments map_inv {A d j m} _.

Lemma oom_inv A (d : json -> option A) j l : d_oom d j = Some l ->
  forall a, In a l -> d j = Some a \/ exists js v, j = JArr js /\ In v js /\ d v = Some a.
Proof.
  unfold d_oom. destruct (d j) eqn:Ed.
  - intros [= <-] b [<-|[]]. auto.
  - intros H a Ha. destruct (list_inv H) as (js & -> & Hj). destruct (Hj a Ha) as (v & Hv & Hd).
    right. eauto.
Qed.

Ltac binds H :=
  repeat match type of H with
  | obind _ _ = Some _ =>
      let a := fresh "x" in let H1 := fresh "B" in apply obind_inv in H; destruct H as (a & H1 & H)
  end.

Ltac member_doc :=
  match goal with
  | Hd : docs ?es, H : In (?k, ?v) ?es |- document ?v => exact (Hd k v H)
  end.

(** ** Leaves *)

Lemma canon_value j : document j -> value_ok (canon j).
Proof.
  induction j using json_ind'; intros Hd; try constructor.
  - inversion Hd; auto.
  - intros j Hin. apply in_map_iff in Hin as (v & <- & Hv). rewrite document_arr in Hd. auto.
  - apply msorted_mof.
  - intros k j Hin. apply In_mof in Hin. apply in_map_iff in Hin as ([k' v] & [= <- <-] & Hv).
    rewrite document_obj in Hd. eauto.
Qed.

Lemma int_inv lo hi j n : d_int lo hi j = Some n -> (lo <= n <= hi)%Z.
Proof.
  destruct j as [| |z| | | |]; try discriminate. simpl.
  destruct ((lo <=? z)%Z && (z <=? hi)%Z) eqn:E; [|discriminate]. intros [= <-]. lia.
Qed.

Lemma f64_inv j x : document j -> d_f64 j = Some x -> f64_finite x = true.
Proof.
  intros Hd. destruct j as [| |n|y| | |]; try discriminate; simpl; intros [= <-]; inversion Hd; auto.
  apply f64_of_Z_finite; auto.
Qed.

Lemma first_of_In ks es k v : first_of ks es = Some (k, v) -> In (k, v) es.
Proof. intros H. apply find_some in H. tauto. Qed.

Lemma max_all A (P : A -> Prop) (d : json -> option A) es :
  (forall k v a, In (k, v) es -> d v = Some a -> P a) -> all_some (fun m => P (max_val m)) (d_max d es).
Proof.
  intros H m Hm. unfold d_max in Hm. destruct (first_of _ es) as [[k v]|] eqn:F; [|discriminate].
  apply first_of_In in F. destruct (String.eqb k "maximum"), (d v) eqn:Ed; try discriminate;
    injection Hm as <-; simpl; eauto.
Qed.

Lemma min_all A (P : A -> Prop) (d : json -> option A) es :
  (forall k v a, In (k, v) es -> d v = Some a -> P a) -> all_some (fun m => P (min_val m)) (d_min d es).
Proof.
  intros H m Hm. unfold d_min in Hm. destruct (first_of _ es) as [[k v]|] eqn:F; [|discriminate].
  apply first_of_In in F. destruct (String.eqb k "minimum"), (d v) eqn:Ed; try discriminate;
    injection Hm as <-; simpl; eauto.
Qed.

Section Decoded.
  Variable E : env.
  Variable X : exts.
  Variable V : xvalues X.
  Hypothesis HV : exts_read_ok V.

  Lemma multilang_decoded j m : d_multilang E j = Some m -> tags_ok E m.
  Proof.
    destruct j as [| | | | | |es]; try discriminate. simpl.
    destruct (omap_all _ es) as [l|] eqn:El; [|discriminate]. intros [= <-].
    split; [apply msorted_mof|]. intros s Hs.
    unfold mkeys in Hs. apply in_map_iff in Hs as ([k a] & <- & Hin). apply In_mof in Hin.
    destruct (omap_all_inv El Hin) as ([k' v] & _ & Hd). simpl in Hd.
    destruct (tag_ok E k') eqn:T; [|discriminate]. destruct (d_str v); [|discriminate].
    injection Hd as -> _. auto.
  Qed.

  Lemma info_decoded es i : d_info E es = Some i -> info_ok E i.
  Proof.
    unfold d_info. intros H. binds H. injection H as <-. intros m [Hm|Hm]; simpl in Hm.
    - destruct (opt_inv B1 Hm) as (v & _ & _ & Hd). eapply multilang_decoded; eauto.
    - destruct (opt_inv B3 Hm) as (v & _ & _ & Hd). eapply multilang_decoded; eauto.
  Qed.

  Lemma misc_decoded es m : docs es -> d_misc es = Some m ->
    all_some some_value (m_const m) /\ all_some some_value (m_default m)
    /\ all_some (Forall value_ok) (m_enum m).
  Proof.
    intros Hd. unfold d_misc. intros H. binds H. injection H as <-. simpl.
    assert (Hv : forall k v a, In (k, v) es -> v <> JNull -> d_value v = Some a -> some_value a).
    { intros k v a Hin Hn [= <-]. split; [apply canon_value; eauto|]. rewrite canon_null. auto. }
    split; [|split].
    - eapply opt_all; [exact B|]. intros; eauto.
    - eapply opt_all; [exact B0|]. intros; eauto.
    - eapply opt_all; [exact B2|]. intros v l Hin _ Hl. apply Forall_forall. intros a Ha.
      destruct (list_inv Hl) as (js & -> & Hj). destruct (Hj a Ha) as (w & Hw & [= <-]).
      apply canon_value. specialize (Hd _ _ Hin). rewrite document_arr in Hd. auto.
  Qed.

  Definition decodes_ok (rec : json -> option (dsx X)) (n : nat) : Prop :=
    forall j d, jdepth j < n -> document j -> rec j = Some d -> schema_ok E V d.

  Lemma sub_decoded n rec es s : decodes_ok rec n -> docs es -> below n es ->
    sub_body rec es = Some s ->
    subtype_ok V s /\ forall i m l o c, In c (ds_children (mkDs i m l (Some s) o)) ->
                        (forall c, In c (olist l) -> schema_ok E V c) -> schema_ok E V c.
  Proof.
    intros Hr Hd Hb. unfold sub_body. intros H. apply obind_inv in H as (k & Hk & H).
    assert (Hd' := docs_without ["type"] Hd). assert (Hb' := below_without ["type"] Hb).
    set (c := without ["type"] es) in *.
    assert (Hch : forall (i : info) m l (s : dsubx X) o,
              (forall c, In c (ds_children (mkDs no_info m None (Some s) o)) -> schema_ok E V c) ->
              forall c, In c (ds_children (mkDs i m l (Some s) o)) ->
              (forall c, In c (olist l) -> schema_ok E V c) -> schema_ok E V c).
    { intros i m l s' o H1 c' Hin H2. unfold ds_children in *. cbn [ds_one_of ds_sub] in *.
      apply in_app_or in Hin as [Hin|Hin]; auto. }
    destruct k.
    - binds H. injection H as <-. split.
      + split; [|split].
        * eapply opt_all; [exact B0|]. intros v a _ _ Ha. apply int_inv in Ha. exact Ha.
        * eapply opt_all; [exact B1|]. intros v a _ _ Ha. apply int_inv in Ha. exact Ha.
        * apply (rk_as HV) with (2 := B2). apply document_obj, docs_without; auto.
      + intros i m l o. apply Hch. intros c' Hin. unfold ds_children in Hin. simpl in Hin.
        destruct x as [[d|ds]|]; simpl in Hin; [| |contradiction].
        * destruct Hin as [<-|[]]. destruct (opt_inv B eq_refl) as (v & Hv & _ & Hx).
          unfold d_boxed in Hx. destruct (rec v) eqn:Er.
          -- injection Hx as ->. eapply Hr; eauto.
          -- destruct (d_list rec v); discriminate.
        * destruct (opt_inv B eq_refl) as (v & Hv & _ & Hx).
          unfold d_boxed in Hx. destruct (rec v) eqn:Er; [discriminate|].
          destruct (d_list rec v) as [l'|] eqn:El; [|discriminate]. injection Hx as ->.
          destruct (list_inv El) as (js & -> & Hj). destruct (Hj c' Hin) as (w & Hw & Hdw).
          eapply Hr; [|eapply doc_in_arr; [eapply Hd'; eauto|exact Hw]|exact Hdw].
          apply Hb' in Hv. apply jdepth_arr in Hw. lia.
    - injection H as <-. split; [exact I|]. intros i m l o. apply Hch. intros c' [].
    - destruct (d_number c) as [nm|] eqn:En; [|discriminate]. injection H as <-. split.
      + unfold d_number in En. binds En. injection En as <-. simpl. split; [|split].
        * apply (@max_all f64 finite). intros k v a Hin Ha. eapply f64_inv; eauto.
        * apply (@min_all f64 finite). intros k v a Hin Ha. eapply f64_inv; eauto.
        * eapply opt_all; [exact B|]. intros v a Hin _ Ha. eapply f64_inv; eauto.
      + intros i m l o. apply Hch. intros c' [].
    - destruct (d_integer c) as [nm|] eqn:En; [|discriminate]. injection H as <-. split.
      + unfold d_integer in En. binds En. injection En as <-. simpl. split; [|split].
        * apply (@max_all Z in_i64). intros k v a Hin Ha. apply int_inv in Ha. exact Ha.
        * apply (@min_all Z in_i64). intros k v a Hin Ha. apply int_inv in Ha. exact Ha.
        * eapply opt_all; [exact B|]. intros v a Hin _ Ha. apply int_inv in Ha. exact Ha.
      + intros i m l o. apply Hch. intros c' [].
    - binds H. injection H as <-. split.
      + split.
        * eapply opt_all; [exact B|]. intros v a _ _ Ha. apply map_inv in Ha. tauto.
        * apply (rk_os HV) with (2 := B1). apply document_obj, docs_without; auto.
      + intros i m l o. apply Hch. intros c' Hin. unfold ds_children in Hin. simpl in Hin.
        destruct x as [ps|]; simpl in Hin; [|contradiction].
        apply in_map_iff in Hin as ([k c0] & E0 & Hin). simpl in E0. subst c0.
        destruct (opt_inv B eq_refl) as (v & Hv & _ & Hx). apply map_inv in Hx as [_ (es' & -> & Hm)].
        destruct (Hm k c' Hin) as (w & Hw & Hdw).
        eapply Hr; [|eapply doc_in_obj; [eapply Hd'; eauto|exact Hw]|exact Hdw].
        apply Hb' in Hv. apply jdepth_obj in Hw. lia.
    - destruct (d_string c) as [nm|] eqn:En; [|discriminate]. injection H as <-. split.
      + unfold d_string in En. binds En. injection En as <-. simpl. split.
        * eapply opt_all; [exact B|]. intros v a _ _ Ha. apply int_inv in Ha. exact Ha.
        * eapply opt_all; [exact B0|]. intros v a _ _ Ha. apply int_inv in Ha. exact Ha.
      + intros i m l o. apply Hch. intros c' [].
    - injection H as <-. split; [exact I|]. intros i m l o. apply Hch. intros c' [].
  Qed.

  Lemma ds_body_decoded n rec es d : decodes_ok rec n -> docs es -> below n es ->
    ds_body E rec es = Some d -> schema_ok E V d.
  Proof.
    intros Hr Hd Hb. unfold ds_body. intros H. binds H. injection H as <-.
    assert (Hd' := docs_without ds_keys Hd). assert (Hb' := below_without ds_keys Hb).
    assert (Hone : forall c, In c (olist x1) -> schema_ok E V c).
    { intros c Hin. destruct x1 as [l|]; [|destruct Hin]. simpl in Hin.
      destruct (opt_inv B1 eq_refl) as (v & Hv & _ & Hx). apply list_inv in Hx as (js & -> & Hj).
      destruct (Hj c Hin) as (w & Hw & Hdw).
      eapply Hr; [|eapply doc_in_arr; [eapply Hd; eauto|exact Hw]|exact Hdw].
      apply Hb in Hv. apply jdepth_arr in Hw. lia. }
    destruct (misc_decoded Hd B0) as (M1 & M2 & M3).
    apply everywhere_intro.
    - unfold node_ok. cbn [ds_info ds_misc ds_sub ds_other].
      split; [eapply info_decoded; eauto|]. split; [auto|]. split; [auto|]. split; [auto|]. split.
      + intros s Hs. apply (sub_decoded Hr Hd' Hb' Hs).
      + apply (rk_ds HV) with (2 := B2). apply document_obj; auto.
    - intros c Hin. destruct (sub_body rec (without ds_keys es)) as [s|] eqn:Es.
      + destruct (sub_decoded Hr Hd' Hb' Es) as [_ Hc]. apply (Hc x x0 x1 x2 c Hin Hone).
      + unfold ds_children in Hin. cbn [ds_one_of ds_sub] in Hin. rewrite app_nil_r in Hin. exact (Hone c Hin).
  Qed.

  Lemma ds_decoded_n n : decodes_ok (d_ds E X) n.
  Proof.
    induction n as [|n IH]; intros j d Hj Hd H; [lia|].
    destruct j as [| | | | | |es]; try discriminate.
    rewrite d_ds_obj in H. rewrite document_obj in Hd.
    eapply ds_body_decoded; eauto. intros k v Hin. apply jdepth_obj in Hin. lia.
  Qed.

  Lemma ds_decoded j d : document j -> d_ds E X j = Some d -> schema_ok E V d.
  Proof. apply (ds_decoded_n (n := S (jdepth j))). lia. Qed.

  Lemma dsmap_decoded j m : document j -> d_dsmap E X j = Some m -> schemas_ok E V m.
  Proof.
    intros Hd H. apply map_inv in H as [Hs (es & -> & Hm)]. split; auto.
    intros k d Hin. destruct (Hm k d Hin) as (v & Hv & Hdv). rewrite document_obj in Hd.
    eapply ds_decoded; eauto.
  Qed.

  (** ** Security schemes *)

  (** Custom data that is not read as a known scheme. *)
  Definition unlike_known (s : string) (des : entries) : Prop :=
    d_known (("scheme", JStr s) :: des) = None /\ (forall k v, In (k, v) des -> no_repeats v).

  Lemma unlike_known_apart : told_apart unlike_known.
  Proof.
    intros s des es [Hk Hr] Hn Hp.
    assert (N : no_repeats (JObj (("scheme", JStr s) :: des))).
    { apply nr_obj; [exact Hn|]. intros k j [[= <- <-]|Hin]; eauto. apply nr_leaf; discriminate. }
    assert (R : reordered (JObj (("scheme", JStr s) :: des)) (JObj es))
      by (apply (perm_reordered Hp []) ).
    destruct (reordered_canon R N) as [N' Ec].
    assert (G : good_obj false (("scheme", JStr s) :: des)) by (apply good_obj_iff; split; [auto|discriminate]).
    assert (G' : good_obj false es) by (apply good_obj_iff; split; [auto|discriminate]).
    destruct (crel_canon G) as (c & E1 & C1). destruct (crel_canon G') as (c' & E2 & C2).
    assert (c = c') by congruence. subst c'.
    rewrite <- (known_stable C2 (below_self es)), (known_stable C1 (below_self _)). exact Hk.
  Qed.

  Lemma canon_no_repeats j : no_repeats (canon j).
  Proof.
    induction j using json_ind'; simpl; try (apply nr_leaf; discriminate).
    - apply nr_arr. intros j Hin. apply in_map_iff in Hin as (v & <- & Hv). auto.
    - apply nr_obj; [apply (msorted_NoDup _ (msorted_mof _))|].
      intros k j Hin. apply In_mof in Hin. apply in_map_iff in Hin as ([k' v] & [= <- <-] & Hv). eauto.
  Qed.

  Lemma subtype_decoded es s : docs es -> no_repeats (JObj es) -> d_subtype es = Some s ->
    disjoint (map fst es) security_keys ->
    forall scheme data, s = Unknown scheme data -> custom_ok unlike_known scheme data.
  Proof.
    intros Hd Hn H Hdis scheme data ->. unfold d_subtype in H. destruct (d_known es) eqn:Hk; [discriminate|].
    unfold d_unknown in H. binds H. injection H as -> <-.
    set (r := without ["scheme"] es) in *.
    assert (Hdr : docs r) by (apply docs_without; auto).
    exists (mof (cmap r)). split; [reflexivity|]. split; [apply (@canon_value (JObj r)), document_obj; auto|].
    assert (G : good_obj false es) by (apply good_obj_iff; split; [auto|discriminate]).
    split; [split|].
    - rewrite <- Hk. apply (@known_stable false (jdepth (JObj es))); [|apply below_self].
      split; [auto|].
      assert (Hnr : NoDup (map fst (cmap r))) by (rewrite cmap_keys; apply without_nodup, G).
      eapply perm_trans; [|apply perm_skip, (mof_perm _ Hnr)].
      apply req_inv in B as (v & Hin & Hv). destruct v; try discriminate. injection Hv as ->.
      apply in_split in Hin as (l1 & l2 & Hes).
      assert (Hw : r = l1 ++ l2).
      { assert (Hnd := go_nodup G). unfold r. rewrite Hes in *. rewrite map_app in Hnd. simpl in Hnd.
        assert (Hno : ~ In "scheme" (map fst l1 ++ map fst l2)) by (apply NoDup_remove_2 in Hnd; auto).
        unfold without. rewrite filter_app. cbn [filter fst]. 
        replace (smem "scheme" ["scheme"]) with true by reflexivity. cbn [negb].
        assert (Hf : forall l, ~ In "scheme" (map fst l) ->
                  filter (fun kv : string * json => negb (smem (fst kv) ["scheme"])) l = l).
        { induction l as [|[k v] l IH]; intros Hl; [reflexivity|]. cbn [filter fst].
          assert (smem k ["scheme"] = false) as ->
            by (apply smem_false; intros [F|[]]; apply Hl; left; symmetry; exact F).
          cbn [negb]. f_equal. apply IH. intros F. apply Hl. right. exact F. }
        rewrite !Hf; auto; intros F; apply Hno, in_or_app; auto. }
      rewrite Hw, Hes. unfold cmap. rewrite !map_app. cbn [map fst snd canon].
      apply Permutation_sym, Permutation_middle.
    - intros k v Hin. apply In_mof in Hin. apply in_map_iff in Hin as ([k' v'] & [= <- <-] & _).
      apply canon_no_repeats.
    - intros k Hk1 Hk2. apply in_map_iff in Hk1 as ([k' v] & <- & Hin). cbn [fst] in *.
      apply In_mof in Hin. apply in_map_iff in Hin as ([k0 v0] & [= <- <-] & Hin). cbn [fst snd] in *.
      assert (Hk0 : In k0 (map fst es)).
      { apply without_In in Hin. apply in_map_iff. exists (k0, v0). auto. }
      assert (Hs : k0 <> "scheme").
      { intros ->. unfold r, without in Hin. apply filter_In in Hin as [_ Hf]. discriminate Hf. }
      apply (Hdis k0 Hk0). simpl in Hk2. simpl. intuition congruence.
  Qed.

  Lemma security_decoded j s : document j -> no_repeats j -> d_security E j = Some s ->
    security_ok E unlike_known s.
  Proof.
    intros Hd Hn H. destruct j as [| | | | | |es]; try discriminate. rewrite document_obj in Hd.
    unfold d_security, d_flat, security_body in H. binds H. injection H as <-. split.
    - cbn [ss_descriptions]. eapply opt_all; [exact B1|]. intros v a _ _ Ha. eapply multilang_decoded; eauto.
    - cbn [ss_subtype]. eapply subtype_decoded; [| |exact B3|].
      + apply docs_without; auto.
      + apply no_repeats_obj in Hn as [Hn1 Hn2]. apply nr_obj; [apply without_nodup; auto|].
        intros k v Hin. apply without_In in Hin. eauto.
      + intros k Hk F. apply in_map_iff in Hk as ([k' v] & <- & Hin). apply filter_In in Hin as [_ Hf].
        cbn [fst] in *. apply smem_In in F. rewrite F in Hf. discriminate Hf.
  Qed.

  (** ** Links and forms *)

  Lemma langtag_decoded j s : d_langtag E j = Some s -> tag_ok E s = true.
  Proof.
    destruct j; try discriminate. simpl. destruct (tag_ok E s0) eqn:T; [|discriminate]. congruence.
  Qed.

  Lemma hreflang_decoded j l : d_oom (d_langtag E) j = Some l -> Forall (fun s => tag_ok E s = true) l.
  Proof.
    intros H. apply Forall_forall. intros s Hs. destruct (oom_inv _ _ H s Hs) as [Hd|(js & v & _ & _ & Hd)];
      eapply langtag_decoded; eauto.
  Qed.

  Lemma link_decoded j l : d_link E j = Some l -> link_ok E l.
  Proof.
    destruct j as [| | | | |js|es]; try discriminate; unfold d_link, d_struct.
    - destruct (Nat.leb _ _); [|discriminate]. intros H. binds H. injection H as <-.
      unfold link_ok. cbn [l_hreflang]. intros ls ->. unfold sq_optd in B4.
      destruct (nth_error js 5) as [v|]; [|discriminate].
      apply hreflang_decoded with (j := v). destruct v; try discriminate; revert B4;
        destruct (d_oom _ _); simpl; congruence.
    - intros H. binds H. injection H as <-. unfold link_ok. cbn [l_hreflang].
      eapply opt_all; [exact B4|]. intros v a _ _. apply hreflang_decoded.
  Qed.

  (** What remains to be asked of a form. *)
  Definition form_rest (f : form X) : Prop :=
    f_op f <> OpCustom [] /\ all_some (fun r => v_er V (er_other r)) (f_response f).

  Lemma form_decoded j f : document j -> d_form X j = Some f -> form_rest f -> form_ok V f.
  Proof.
    intros Hd H [H1 H2]. destruct j as [| | | | | |es]; try discriminate. rewrite document_obj in Hd.
    split; [auto|]. split; [auto|].
    unfold d_form, d_flat, form_body in H. binds H. injection H as <-. cbn [f_other].
    apply (rk_f HV) with (2 := B8). apply document_obj, docs_without; auto.
  Qed.

  Lemma forms_decoded j l : document j -> d_list (d_form X) j = Some l ->
    (forall f, In f l -> form_rest f) -> Forall (form_ok V) l.
  Proof.
    intros Hd H Hr. apply Forall_forall. intros f Hf. apply list_inv in H as (js & -> & Hj).
    destruct (Hj f Hf) as (v & Hv & Hdv). eapply form_decoded; [eapply doc_in_arr; eauto|exact Hdv|auto].
  Qed.

  (** ** Affordances *)

  Lemma interaction_decoded es i : docs es -> interaction_body E X es = Some i ->
    (forall f, In f (ia_forms i) -> form_rest f) -> interaction_ok E V i.
  Proof.
    intros Hd H Hr. unfold interaction_body in H. binds H. injection H as <-.
    cbn [ia_forms] in Hr. unfold interaction_ok. cbn [ia_info ia_forms ia_uri ia_other].
    split; [eapply info_decoded; eauto|]. split; [|split].
    - apply req_inv in B0 as (v & Hin & Hv). eapply forms_decoded; [|exact Hv|exact Hr]. eapply Hd; eauto.
    - eapply opt_all; [exact B1|]. intros v a Hin _. apply dsmap_decoded. eapply Hd; eauto.
    - apply (rk_ia HV) with (2 := B2). apply document_obj, docs_without; auto.
  Qed.

  Lemma property_decoded j p : document j -> d_property E X j = Some p ->
    (forall f, In f (ia_forms (pa_ia p)) -> form_rest f) -> property_ok E V p.
  Proof.
    intros Hd H Hr. destruct j as [| | | | | |es]; try discriminate. rewrite document_obj in Hd.
    unfold d_property, d_flat, property_body in H. binds H. injection H as <-.
    assert (Hd' := docs_without property_keys Hd).
    unfold property_ok. cbn [pa_ia pa_ds pa_other] in *.
    split; [eapply interaction_decoded; eauto|]. split; [|split].
    - eapply ds_decoded; [|exact B1]. apply document_obj; auto.
    - rewrite d_ds_obj in B1. unfold interaction_body in B0. unfold ds_body in B1.
      apply obind_inv in B0 as (i1 & I1 & B0). apply obind_inv in B1 as (i2 & I2 & B1).
      rewrite I1 in I2. injection I2 as <-. binds B0. injection B0 as <-. binds B1. injection B1 as <-.
      reflexivity.
    - apply (rk_pa HV) with (2 := B2). apply document_obj; auto.
  Qed.

  Lemma action_decoded j a : document j -> d_action E X j = Some a ->
    (forall f, In f (ia_forms (aa_ia a)) -> form_rest f) -> action_ok E V a.
  Proof.
    intros Hd H Hr. destruct j as [| | | | | |es]; try discriminate. rewrite document_obj in Hd.
    unfold d_action, d_flat, action_body in H. binds H. injection H as <-.
    assert (Hd' := docs_without action_keys Hd).
    unfold action_ok. cbn [aa_ia aa_input aa_output aa_other] in *.
    split; [eapply interaction_decoded; eauto|]. split; [|split].
    - eapply opt_all; [exact B|]. intros v d Hin _. apply ds_decoded. eapply Hd; eauto.
    - eapply opt_all; [exact B0|]. intros v d Hin _. apply ds_decoded. eapply Hd; eauto.
    - apply (rk_aa HV) with (2 := B5). apply document_obj; auto.
  Qed.

  Lemma event_decoded j e : document j -> d_event E X j = Some e ->
    (forall f, In f (ia_forms (ea_ia e)) -> form_rest f) -> event_ok E V e.
  Proof.
    intros Hd H Hr. destruct j as [| | | | | |es]; try discriminate. rewrite document_obj in Hd.
    unfold d_event, d_flat, event_body in H. binds H. injection H as <-.
    assert (Hd' := docs_without event_keys Hd).
    unfold event_ok. cbn [ea_ia ea_subscription ea_data ea_data_response ea_cancellation ea_other] in *.
    split; [eapply interaction_decoded; eauto|].
    split; [eapply opt_all; [exact B|]; intros v d Hin _; apply ds_decoded; eapply Hd; eauto|].
    split; [eapply opt_all; [exact B0|]; intros v d Hin _; apply ds_decoded; eapply Hd; eauto|].
    split; [eapply opt_all; [exact B1|]; intros v d Hin _; apply ds_decoded; eapply Hd; eauto|].
    split; [eapply opt_all; [exact B2|]; intros v d Hin _; apply ds_decoded; eapply Hd; eauto|].
    apply (rk_ea HV) with (2 := B4). apply document_obj; auto.
  Qed.

  Lemma map_decoded A (P : A -> Prop) (d : json -> option A) j m : document j -> d_map d j = Some m ->
    (forall k v a, In (k, a) m -> document v -> d v = Some a -> P a) -> map_ok P m.
  Proof.
    intros Hd H HP. apply map_inv in H as [Hs (es & -> & Hm)]. split; auto.
    intros k a Hin. destruct (Hm k a Hin) as (v & Hv & Hdv). rewrite document_obj in Hd. eauto.
  Qed.

  (** ** Things

      What is read can be written again if RFC 3339 dates can. *)
  Hypothesis Hdates : forall s d, date_parse E s = Some d -> date_ok E d.

  Lemma date_decoded j d : d_date E j = Some d -> date_ok E d.
  Proof. destruct j; try discriminate. apply Hdates. Qed.

  Lemma thing_decoded j t : document j -> no_repeats j -> d_thing E X j = Some t ->
    (forall c f, form_at (SpecThing.thing_body t) c f -> form_rest f) ->
    thing_ok V unlike_known t.
  Proof.
    intros Hd Hn H Hf. destruct j as [| | | | | |es]; try discriminate.
    apply no_repeats_obj in Hn as [_ Hn]. rewrite document_obj in Hd.
    unfold d_thing, d_flat, De.thing_body in H. binds H. injection H as <-.
    unfold thing_ok. cbn [t_context t_titles t_descriptions t_created t_modified t_properties t_actions t_events
      t_links t_forms t_secdefs t_uri t_schemas t_other].
    assert (Hctx : forall v j, document v -> d_value v = Some j -> value_ok j)
      by (intros v j Hv [= <-]; apply canon_value; auto).
    split. { apply dflt_inv in B as [->|(v & Hin & Hv)]; [constructor|eauto]. }
    split. { eapply opt_all; [exact B3|]. intros v a _ _. apply multilang_decoded. }
    split. { eapply opt_all; [exact B5|]. intros v a _ _. apply multilang_decoded. }
    split. { eapply opt_all; [exact B7|]. intros v a _ _. apply date_decoded. }
    split. { eapply opt_all; [exact B8|]. intros v a _ _. apply date_decoded. }
    split. { intros m ->. destruct (opt_inv B11 eq_refl) as (v & Hin & _ & Hv).
      eapply map_decoded; [eapply Hd; eauto|exact Hv|]. intros k w a Ha Hw Hda.
      eapply property_decoded; eauto. intros f Hff. apply (Hf (ctx_of AProperty)).
      eapply form_aff with (k := AProperty) (n := k) (i := pa_ia a); auto. constructor. exact Ha. }
    split. { intros m ->. destruct (opt_inv B12 eq_refl) as (v & Hin & _ & Hv).
      eapply map_decoded; [eapply Hd; eauto|exact Hv|]. intros k w a Ha Hw Hda.
      eapply action_decoded; eauto. intros f Hff. apply (Hf (ctx_of AAction)).
      eapply form_aff with (k := AAction) (n := k) (i := aa_ia a); auto. constructor. exact Ha. }
    split. { intros m ->. destruct (opt_inv B13 eq_refl) as (v & Hin & _ & Hv).
      eapply map_decoded; [eapply Hd; eauto|exact Hv|]. intros k w a Ha Hw Hda.
      eapply event_decoded; eauto. intros f Hff. apply (Hf (ctx_of AEvent)).
      eapply form_aff with (k := AEvent) (n := k) (i := ea_ia a); auto. constructor. exact Ha. }
    split. { eapply opt_all; [exact B14|]. intros v a _ _ Ha. apply Forall_forall. intros l Hl.
      apply list_inv in Ha as (js & -> & Hj). destruct (Hj l Hl) as (w & _ & Hw). eapply link_decoded; eauto. }
    split. { intros l ->. destruct (opt_inv B15 eq_refl) as (v & Hin & _ & Hv).
      eapply forms_decoded; [eapply Hd; eauto|exact Hv|]. intros f Hff. apply (Hf CtxThing). constructor. exact Hff. }
    split. { apply req_inv in B17 as (v & Hin & Hv). specialize (Hn _ _ Hin). specialize (Hd _ _ Hin).
      apply map_inv in Hv as [Hs (es' & -> & Hm)]. split; auto. intros k a Ha.
      destruct (Hm k a Ha) as (w & Hw & Hdw). apply no_repeats_obj in Hn as [_ Hn].
      eapply security_decoded; [|eapply Hn; eauto|exact Hdw]. eapply doc_in_obj; eauto. }
    split. { eapply opt_all; [exact B18|]. intros v a Hin _. apply dsmap_decoded. eapply Hd; eauto. }
    split. { eapply opt_all; [exact B20|]. intros v a Hin _. apply dsmap_decoded. eapply Hd; eauto. }
    apply (rk_t HV) with (2 := B21). apply document_obj, docs_without; auto.
  Qed.
End Decoded.
