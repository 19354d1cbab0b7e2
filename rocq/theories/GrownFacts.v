(** * Unknown members do not matter *)

From Coq Require Import String Bool ZArith Lia List.
From Verif Require Import Base MinMax Json Serde Types SpecSerde SpecDoc Ser De SerdeFacts RoundTrip RoundTripDs.
Import ListNotations.
Set Implicit Arguments.
Local Open Scope string_scope.
Local Open Scope list_scope.

(** ** [only] *)

Lemma get_only k K es : In k K -> get k (only K es) = get k es.
Proof.
  intros Hk. induction es as [|[k' v] es IH]; simpl; auto.
  destruct (smem k' K) eqn:Hm.
  - rewrite !get_cons, IH. reflexivity.
  - rewrite get_cons, IH. destruct (String.eqb_spec k k') as [<-|]; auto.
    apply smem_false in Hm. tauto.
Qed.

Lemma only_only K L es : incl K L -> only K (only L es) = only K es.
Proof.
  intros Hi. unfold only. induction es as [|[k v] es IH]; simpl; auto.
  destruct (smem k L) eqn:HL; simpl; rewrite IH; auto.
  destruct (smem k K) eqn:HK; auto. apply smem_In in HK. apply Hi in HK.
  apply smem_false in HL. tauto.
Qed.

Lemma only_without K ks es : disjoint K ks -> only K (without ks es) = only K es.
Proof.
  intros Hd. unfold only, without. induction es as [|[k v] es IH]; simpl; auto.
  destruct (smem k ks) eqn:Hs; simpl; rewrite IH; auto.
  destruct (smem k K) eqn:HK; auto. apply smem_In in HK. apply smem_In in Hs.
  exfalso. apply (Hd k); auto.
Qed.

Lemma first_of_only ks K es : incl ks K -> first_of ks (only K es) = first_of ks es.
Proof.
  intros Hi. unfold first_of, only. induction es as [|[k v] es IH]; simpl; auto.
  destruct (smem k K) eqn:HK; simpl; rewrite IH; auto.
  destruct (smem k ks) eqn:Hs; auto. apply smem_In in Hs. apply Hi in Hs.
  apply smem_false in HK. tauto.
Qed.

(** ** Readers of leaves *)

Definition reads {A} (d : entries -> A) (K : list string) : Prop :=
  forall es es', only K es = only K es' -> d es = d es'.

Lemma only_get k K es es' : only K es = only K es' -> In k K -> get k es = get k es'.
Proof. intros H Hk. rewrite <- (get_only k K es Hk), H. apply get_only; auto. Qed.

Lemma only_first ks K es es' : only K es = only K es' -> incl ks K -> first_of ks es = first_of ks es'.
Proof. intros H Hk. rewrite <- (@first_of_only ks K es Hk), H. apply first_of_only; auto. Qed.

Ltac in_names := apply smem_In; reflexivity.

Lemma opt_reads A k (d : json -> option A) es es' : get k es = get k es' -> opt k d es = opt k d es'.
Proof. unfold opt. intros ->. reflexivity. Qed.
Lemma req_reads A k (d : json -> option A) es es' : get k es = get k es' -> req k d es = req k d es'.
Proof. unfold req. intros ->. reflexivity. Qed.
Lemma dflt_reads A k a (d : json -> option A) es es' : get k es = get k es' -> dflt k a d es = dflt k a d es'.
Proof. unfold dflt. intros ->. reflexivity. Qed.

Lemma number_reads : reads d_number number_keys.
Proof.
  intros es es' H. unfold d_number, d_max, d_min.
  rewrite (opt_reads "multipleOf" d_f64 es es') by (eapply only_get; [exact H|in_names]).
  rewrite !(@only_first _ number_keys es es' H) by (apply inclb_ok; reflexivity). reflexivity.
Qed.

Lemma integer_reads : reads d_integer number_keys.
Proof.
  intros es es' H. unfold d_integer, d_max, d_min.
  rewrite (opt_reads "multipleOf" d_nz_u64 es es') by (eapply only_get; [exact H|in_names]).
  rewrite !(@only_first _ number_keys es es' H) by (apply inclb_ok; reflexivity). reflexivity.
Qed.

Ltac read_one H :=
  match goal with
  | |- obind (opt ?k ?d ?es) _ = obind (opt ?k ?d ?es') _ =>
      rewrite (opt_reads k d es es') by (eapply only_get; [exact H|in_names]);
      destruct (opt k d es'); [cbn [obind]|reflexivity]
  | |- obind (req ?k ?d ?es) _ = obind (req ?k ?d ?es') _ =>
      rewrite (req_reads k d es es') by (eapply only_get; [exact H|in_names]);
      destruct (req k d es'); [cbn [obind]|reflexivity]
  | |- obind (dflt ?k ?a ?d ?es) _ = obind (dflt ?k ?a ?d ?es') _ =>
      rewrite (dflt_reads k a d es es') by (eapply only_get; [exact H|in_names]);
      destruct (dflt k a d es'); [cbn [obind]|reflexivity]
  end.

Lemma string_reads : reads d_string string_keys.
Proof. intros es es' H. unfold d_string. repeat read_one H. reflexivity. Qed.

Lemma info_reads E : reads (d_info E) info_keys.
Proof. intros es es' H. unfold d_info. repeat read_one H. reflexivity. Qed.

Definition misc_names := ["const"; "default"; "unit"; "enum"; "readOnly"; "writeOnly"; "format"].
Lemma misc_reads : reads d_misc misc_names.
Proof. intros es es' H. unfold d_misc. repeat read_one H. reflexivity. Qed.

(** ** Related objects *)

Section Grown.
  Variable E : env.
  Variable X : exts.
  Variable K : xnames.
  Hypothesis HX : exts_read_only X K.
  Hypothesis HK : names_apart K.

  Notation grown := (grown K).

  Lemma grown_null d j j' : grown d j j' -> (j = JNull <-> j' = JNull).
  Proof. induction 1; try tauto; split; discriminate. Qed.

  Lemma grown_leaf j j' : grown DLeaf j j' -> j = j'.
  Proof. intros H. inversion H; subst; auto; discriminate. Qed.

  Lemma grown_struct d j j' : is_struct d = true -> grown d j j' ->
    j = j' \/ exists es es', j = JObj es /\ j' = JObj es'
      /\ Forall2 (fun kv kv' => fst kv = fst kv' /\ grown (member_kind d (fst kv)) (snd kv) (snd kv'))
           (only (names_of K d) es) (only (names_of K d) es').
  Proof. intros Hd H. inversion H; subst; try discriminate; eauto 10. Qed.

  (** The related members under the names [N] of two objects, where [mk] says how. *)
  Definition rel (mk : string -> doc_kind) (N : list string) (es es' : entries) : Prop :=
    Forall2 (fun kv kv' => fst kv = fst kv' /\ grown (mk (fst kv)) (snd kv) (snd kv'))
      (only N es) (only N es').

  Lemma rel_get mk N k es es' : rel mk N es es' -> In k N ->
    Forall2 (grown (mk k)) (get k es) (get k es').
  Proof.
    intros H Hk. rewrite <- (get_only k N es Hk), <- (get_only k N es' Hk).
    induction H as [|[k1 v1] [k2 v2] l l' [Hf Hg] _ IH]; simpl in *; [constructor|].
    subst k2. rewrite !get_cons. destruct (String.eqb_spec k k1) as [<-|]; auto.
  Qed.

  Lemma rel_narrow mk mk' N M es es' : rel mk N es es' -> incl M N ->
    (forall k, In k M -> mk k = mk' k) -> rel mk' M es es'.
  Proof.
    unfold rel. intros H Hi He.
    rewrite <- (only_only es Hi), <- (only_only es' Hi).
    induction H as [|[k1 v1] [k2 v2] l l' [Hf Hg] _ IH]; simpl in *; [constructor|].
    subst k2. destruct (smem k1 M) eqn:Hm; auto. constructor; auto. simpl. split; auto.
    rewrite <- He; auto. apply smem_In; auto.
  Qed.

  Lemma rel_without mk N ks es es' : rel mk N es es' -> disjoint N ks ->
    rel mk N (without ks es) (without ks es').
  Proof. intros H Hd. unfold rel. rewrite !only_without by auto. exact H. Qed.

  Lemma rel_leaf mk N es es' : rel mk N es es' -> (forall k, In k N -> mk k = DLeaf) ->
    only N es = only N es'.
  Proof.
    unfold rel. intros H Hl.
    assert (Hin : forall kv, In kv (only N es) -> In (fst kv) N).
    { intros kv Hkv. apply filter_In in Hkv as [_ Hkv]. apply smem_In; auto. }
    induction H as [|[k1 v1] [k2 v2] l l' [Hf Hg] H IH]; auto. simpl in *. subst k2.
    rewrite (Hl k1) in Hg by (apply (Hin (k1, v1)); auto). apply grown_leaf in Hg as ->.
    rewrite IH; auto.
  Qed.

  (** A decoder that cannot see unknown members, below a depth. *)
  Definition respects {A} (n : nat) (d : doc_kind) (dec : json -> option A) : Prop :=
    forall v v', jdepth v < n -> grown d v v' -> dec v = dec v'.

  Lemma respects_le A n m d (dec : json -> option A) : respects n d dec -> m <= n -> respects m d dec.
  Proof. intros H Hm v v' Hv. apply H. lia. Qed.

  Lemma respects_leaf A n (dec : json -> option A) : respects n DLeaf dec.
  Proof. intros v v' _ H. apply grown_leaf in H as ->. reflexivity. Qed.

  Lemma rel_opt A n mk N k (dec : json -> option A) es es' :
    rel mk N es es' -> In k N -> (forall v, In (k, v) es -> jdepth v < n) ->
    respects n (mk k) dec -> opt k dec es = opt k dec es'.
  Proof.
    intros H Hk Hd Hr. pose proof (rel_get _ H Hk) as Hg. unfold opt.
    assert (Hin : forall v, In v (get k es) -> jdepth v < n) by (intros v Hv; apply Hd, get_In; auto).
    destruct Hg as [|v v' l l' Hv Hl]; auto.
    destruct Hl as [|w w' m m' Hw Hm].
    - assert (Hn := grown_null Hv). assert (He : dec v = dec v') by (apply Hr; auto; apply Hin; left; auto).
      destruct v, v'; try (rewrite <- He); auto;
        (exfalso; destruct Hn as [Hn1 Hn2]; first [specialize (Hn1 eq_refl)|specialize (Hn2 eq_refl)]; discriminate).
    - destruct v, v'; auto; destruct v'; auto.
  Qed.

  Lemma rel_req A n mk N k (dec : json -> option A) es es' :
    rel mk N es es' -> In k N -> (forall v, In (k, v) es -> jdepth v < n) ->
    respects n (mk k) dec -> req k dec es = req k dec es'.
  Proof.
    intros H Hk Hd Hr. pose proof (rel_get _ H Hk) as Hg. unfold req.
    assert (Hin : forall v, In v (get k es) -> jdepth v < n) by (intros v Hv; apply Hd, get_In; auto).
    destruct Hg as [|v v' l l' Hv Hl]; auto.
    destruct Hl as [|w w' m m' Hw Hm]; auto. apply Hr; auto. apply Hin; left; auto.
  Qed.

  Lemma rel_dflt A n mk N k a (dec : json -> option A) es es' :
    rel mk N es es' -> In k N -> (forall v, In (k, v) es -> jdepth v < n) ->
    respects n (mk k) dec -> dflt k a dec es = dflt k a dec es'.
  Proof.
    intros H Hk Hd Hr. pose proof (rel_get _ H Hk) as Hg. unfold dflt.
    assert (Hin : forall v, In v (get k es) -> jdepth v < n) by (intros v Hv; apply Hd, get_In; auto).
    destruct Hg as [|v v' l l' Hv Hl]; auto.
    destruct Hl as [|w w' m m' Hw Hm]; auto. apply Hr; auto. apply Hin; left; auto.
  Qed.

  (** ** Containers *)

  Lemma omap_all_rel A B (R : A -> A -> Prop) (f : A -> option B) l l' :
    Forall2 R l l' -> (forall a a', In a l -> R a a' -> f a = f a') -> omap_all f l = omap_all f l'.
  Proof.
    induction 1; simpl; intros H'; auto. rewrite (H' x y) by auto. rewrite IHForall2; auto.
  Qed.

  Lemma lift_map A n d (dec : json -> option A) : respects n d dec -> respects (S n) (DMap d) (d_map dec).
  Proof.
    intros H v v' Hv Hg. inversion Hg; subst; auto; try discriminate. simpl. f_equal.
    eapply omap_all_rel; [eassumption|]. intros [k a] [k' a'] Hin [Hk Ha]. cbn [fst snd] in *. subst k'.
    rewrite (H a a'); auto. pose proof (jdepth_obj _ _ _ Hin). lia.
  Qed.

  Lemma lift_list A n d (dec : json -> option A) : respects n d dec -> respects (S n) (DList d) (d_list dec).
  Proof.
    intros H v v' Hv Hg. inversion Hg; subst; auto; try discriminate. simpl.
    eapply omap_all_rel; [eassumption|]. intros a a' Hin Ha. apply H; auto.
    pose proof (jdepth_arr _ _ Hin). lia.
  Qed.
  Lemma grown_arr d l j' : is_struct d = true -> grown d (JArr l) j' -> j' = JArr l.
  Proof. intros Hd H. inversion H; subst; auto; discriminate. Qed.

  (** One or many, when the elements are structs: the single element is tried first. *)
  Lemma many_cases A n d (dec : json -> option A) v v' : is_struct d = true ->
    respects n d dec -> jdepth v < n -> grown (DOneOrMany d) v v' ->
    (dec v = dec v' /\ d_list dec v = d_list dec v')
    \/ exists l l', v = JArr l /\ v' = JArr l' /\ Forall2 (grown d) l l' /\ d_list dec v = d_list dec v'.
  Proof.
    intros Hd H Hv Hg. inversion Hg; subst; auto; try discriminate.
    - left. split; [apply H; auto|].
      match goal with H1 : grown d v v' |- _ => destruct (grown_struct Hd H1) as [->|(es & es' & -> & -> & _)]; auto end.
    - right. exists l, l'. split; [auto|split; [auto|split; [auto|]]]. simpl.
      eapply omap_all_rel; [eassumption|]. intros a a' Hin Ha. apply H; auto.
      pose proof (jdepth_arr _ _ Hin). lia.
  Qed.

  Lemma lift_boxed n (dec : json -> option (dsx X)) : (forall l, dec (JArr l) = None) ->
    respects n DSchema dec -> respects n (DOneOrMany DSchema) (d_boxed (X := X) dec).
  Proof.
    intros Ha H v v' Hv Hg. unfold d_boxed.
    destruct (many_cases (d := DSchema) eq_refl H Hv Hg) as [[-> ->]|(l & l' & -> & -> & _ & ->)]; auto.
    rewrite !Ha. reflexivity.
  Qed.

  (** ** Schemas *)

  Lemma depth_get k v es : In (k, v) es -> jdepth v < jdepth (JObj es).
  Proof. apply jdepth_obj. Qed.

  Lemma depth_without ks k v es : In (k, v) (without ks es) -> jdepth v < jdepth (JObj es).
  Proof. intros H. apply without_In in H. eapply jdepth_obj; eauto. Qed.

  Definition own_ds_names : list string :=
    info_names
    ++ ["const"; "default"; "unit"; "oneOf"; "enum"; "readOnly"; "writeOnly"; "format"; "type";
        "items"; "min_items"; "max_items"; "properties"; "required";
        "maximum"; "exclusiveMaximum"; "minimum"; "exclusiveMinimum"; "multipleOf";
        "minLength"; "maxLength"; "pattern"; "contentEncoding"; "contentMediaType"].

  Lemma ds_names_eq : ds_names K = own_ds_names ++ k_ds K ++ k_as K ++ k_os K.
  Proof. unfold ds_names, own_ds_names. rewrite <- !app_assoc. reflexivity. Qed.

  Lemma lookup_leaf k l : ~ In k (map fst l) -> lookup_kind k l = DLeaf.
  Proof.
    induction l as [|[k' d] l IH]; simpl; intros H; auto.
    destruct (String.eqb_spec k k') as [->|]; tauto.
  Qed.

  Lemma leaf_lit k l : smem k (map fst l) = false -> lookup_kind k l = DLeaf.
  Proof. intros H. apply lookup_leaf. apply smem_false; auto. Qed.

  (** Extension names denote leaves. *)
  Lemma ext_leaf d L k : disjoint L td_names -> In k L -> member_kind d k = DLeaf.
  Proof.
    intros Hd Hk. unfold member_kind. apply lookup_leaf. intros Hin. apply (Hd k Hk).
    revert Hin. apply inclb_ok. destruct d; reflexivity.
  Qed.

  Lemma ext_same p L d N ks es es' : reads_only p L -> rel (member_kind d) N es es' -> incl L N ->
    disjoint L td_names -> incl ks td_names ->
    p_de p (without ks es) = p_de p (without ks es').
  Proof.
    intros Hp H Hi Hd Hk. apply Hp.
    assert (Hd' : disjoint L ks) by (intros k H1 H2; apply (Hd k H1); auto).
    rewrite !only_without by auto. apply rel_leaf with (mk := member_kind d).
    - eapply rel_narrow; eauto.
    - intros k Hk'. eapply ext_leaf; eauto.
  Qed.

  Lemma ext_same' p L d N ks ks' es es' : reads_only p L -> rel (member_kind d) N es es' -> incl L N ->
    disjoint L td_names -> incl ks td_names -> incl ks' td_names ->
    p_de p (without ks (without ks' es)) = p_de p (without ks (without ks' es')).
  Proof.
    intros Hp H Hi Hd Hk Hk'. apply Hp.
    assert (Hd' : disjoint L ks) by (intros k H1 H2; apply (Hd k H1); auto).
    assert (Hd'' : disjoint L ks') by (intros k H1 H2; apply (Hd k H1); auto).
    rewrite !only_without by auto. apply rel_leaf with (mk := member_kind d).
    - eapply rel_narrow; eauto.
    - intros k Hin. eapply ext_leaf; eauto.
  Qed.

  Lemma leaf_same A (f : entries -> A) L d N ks es es' : reads f L -> rel (member_kind d) N es es' ->
    incl L N -> (forall k, In k L -> member_kind d k = DLeaf) -> disjoint L ks ->
    f (without ks es) = f (without ks es').
  Proof.
    intros Hf H Hi Hl Hd. apply Hf. rewrite !only_without by auto.
    apply rel_leaf with (mk := member_kind d); auto. eapply rel_narrow; eauto.
  Qed.

  Definition sub_names_all : list string :=
    ["type"; "items"; "min_items"; "max_items"; "properties"; "required";
     "maximum"; "exclusiveMaximum"; "minimum"; "exclusiveMinimum"; "multipleOf";
     "minLength"; "maxLength"; "pattern"; "contentEncoding"; "contentMediaType"] ++ k_as K ++ k_os K.

  Lemma disjoint_app L L' M : disjoint L M -> disjoint L' M -> disjoint (L ++ L') M.
  Proof. intros H H' k Hk. apply in_app_or in Hk as [Hk|Hk]; auto. Qed.

  Lemma disjoint_lit L M : forallb (fun k => negb (smem k M)) L = true -> disjoint L M.
  Proof.
    intros H k Hk. rewrite forallb_forall in H. specialize (H k Hk).
    apply negb_true_iff, smem_false in H. auto.
  Qed.

  Lemma disjoint_ext L M : disjoint L td_names -> inclb M td_names = true -> disjoint L M.
  Proof. intros H Hm k Hk Hin. apply (H k Hk). apply (inclb_ok _ _ Hm); auto. Qed.

  Ltac apart :=
    repeat apply disjoint_app;
    first [apply disjoint_lit; reflexivity
          | apply disjoint_ext; [first [apply HK]|reflexivity]].

  Lemma leafs d L :
    forallb (fun k => match member_kind d k with DLeaf => true | _ => false end) L = true ->
    forall k, In k L -> member_kind d k = DLeaf.
  Proof.
    intros H k Hk. rewrite forallb_forall in H. specialize (H k Hk). simpl in H.
    destruct (member_kind d k); auto; discriminate.
  Qed.

  Ltac leaf_lits := apply leafs; reflexivity.

  Lemma incl_lit L M M' : inclb L M = true -> incl L (M ++ M').
  Proof. intros H k Hk. apply in_or_app. left. apply (inclb_ok _ _ H); auto. Qed.

  Lemma sub_body_same n dec r r' : (forall l, dec (JArr l) = None) ->
    respects n DSchema dec -> (forall k v, In (k, v) r -> jdepth v < n) ->
    rel (member_kind DSchema) sub_names_all r r' ->
    sub_body (X := X) dec r = sub_body dec r'.
  Proof.
    intros Ha Hr Hd H. unfold sub_body.
    rewrite (@rel_req _ n (member_kind DSchema) sub_names_all "type" (d_tag sub_names) r r' H)
      by first [apply in_or_app; left; in_names | intros; eapply Hd; eauto | apply respects_leaf].
    destruct (req "type" (d_tag sub_names) r') as [k|]; cbn [obind]; [|reflexivity].
    assert (Hc : rel (member_kind DSchema)
                   (["items"; "min_items"; "max_items"; "properties"; "required";
                     "maximum"; "exclusiveMaximum"; "minimum"; "exclusiveMinimum"; "multipleOf";
                     "minLength"; "maxLength"; "pattern"; "contentEncoding"; "contentMediaType"]
                    ++ k_as K ++ k_os K) (without ["type"] r) (without ["type"] r')).
    { apply rel_without.
      - eapply rel_narrow; [exact H| |reflexivity]. unfold sub_names_all.
        intros x Hx. apply in_app_or in Hx as [Hx|Hx]; apply in_or_app; auto.
        left. revert Hx. apply inclb_ok. reflexivity.
      - apart. }
    assert (Hd' : forall k v, In (k, v) (without ["type"] r) -> jdepth v < n)
      by (intros k0 v Hin; apply without_In in Hin; eauto).
    revert Hc Hd'. generalize (without ["type"] r) as c, (without ["type"] r') as c'.
    intros c c' Hc Hd'. destruct k; try reflexivity.
    - rewrite (@rel_opt _ n _ _ "items" (d_boxed (X := X) dec) c c' Hc)
        by first [apply in_or_app; left; in_names | intros; eapply Hd'; eauto | apply lift_boxed; auto].
      rewrite (@rel_opt _ n _ _ "min_items" d_u32 c c' Hc)
        by first [apply in_or_app; left; in_names | intros; eapply Hd'; eauto | apply respects_leaf].
      rewrite (@rel_opt _ n _ _ "max_items" d_u32 c c' Hc)
        by first [apply in_or_app; left; in_names | intros; eapply Hd'; eauto | apply respects_leaf].
      rewrite (@ext_same _ _ _ _ array_keys c c' (ro_as HX) Hc); [reflexivity| | |].
      + intros k Hk. apply in_or_app; right. apply in_or_app; auto.
      + apply HK.
      + apply incl_td; reflexivity.
    - f_equal. apply number_reads. apply rel_leaf with (mk := member_kind DSchema); [|leaf_lits].
      eapply rel_narrow; [exact Hc|apply incl_lit; reflexivity|reflexivity].
    - f_equal. apply integer_reads. apply rel_leaf with (mk := member_kind DSchema); [|leaf_lits].
      eapply rel_narrow; [exact Hc|apply incl_lit; reflexivity|reflexivity].
    - rewrite (@rel_opt _ (S n) _ _ "properties" (d_map dec) c c' Hc)
        by first [apply in_or_app; left; in_names | intros; apply Nat.lt_lt_succ_r; eapply Hd'; eauto | apply lift_map; auto].
      rewrite (@rel_opt _ n _ _ "required" (d_list d_str) c c' Hc)
        by first [apply in_or_app; left; in_names | intros; eapply Hd'; eauto | apply respects_leaf].
      rewrite (@ext_same _ _ _ _ object_keys c c' (ro_os HX) Hc); [reflexivity| | |].
      + intros k Hk. apply in_or_app; right. apply in_or_app; auto.
      + apply HK.
      + apply incl_td; reflexivity.
    - f_equal. apply string_reads. apply rel_leaf with (mk := member_kind DSchema); [|leaf_lits].
      eapply rel_narrow; [exact Hc|apply incl_lit; reflexivity|reflexivity].
  Qed.

  Lemma ds_body_same n es es' : respects n DSchema (d_ds E X) -> jdepth (JObj es) <= n ->
    rel (member_kind DSchema) (ds_names K) es es' ->
    ds_body E (d_ds E X) es = ds_body E (d_ds E X) es'.
  Proof.
    intros Hr Hn H. rewrite ds_names_eq in H. unfold ds_body.
    assert (Hd : forall k v, In (k, v) es -> jdepth v < n)
      by (intros k v Hin; apply jdepth_obj in Hin; lia).
    rewrite (info_reads E es es').
    2:{ apply rel_leaf with (mk := member_kind DSchema); [|leaf_lits].
        eapply rel_narrow; [exact H|apply incl_lit; reflexivity|reflexivity]. }
    destruct (d_info E es'); cbn [obind]; [|reflexivity].
    rewrite (misc_reads es es').
    2:{ apply rel_leaf with (mk := member_kind DSchema); [|leaf_lits].
        eapply rel_narrow; [exact H|apply incl_lit; reflexivity|reflexivity]. }
    destruct (d_misc es'); cbn [obind]; [|reflexivity].
    rewrite (@rel_opt _ (S n) _ _ "oneOf" (d_list (d_ds E X)) es es' H)
      by first [apply in_or_app; left; in_names | intros; apply Nat.lt_lt_succ_r; eapply Hd; eauto | apply lift_list; auto].
    destruct (opt "oneOf" _ es'); cbn [obind]; [|reflexivity].
    rewrite (@ext_same _ _ _ _ ds_keys es es' (ro_ds HX) H).
    - destruct (p_de (x_ds X) (without ds_keys es')); cbn [obind]; [|reflexivity].
      rewrite (@sub_body_same n _ (without ds_keys es) (without ds_keys es')); auto.
      + intros k v Hin. apply without_In in Hin. eauto.
      + apply rel_without.
        * eapply rel_narrow; [exact H| |reflexivity]. intros x Hx.
          apply in_app_or in Hx as [Hx|Hx]; apply in_or_app.
          -- left. revert Hx. apply inclb_ok. reflexivity.
          -- right. apply in_or_app. auto.
        * apart.
    - intros k Hk. apply in_or_app; right. apply in_or_app; auto.
    - apply HK.
    - apply incl_td; reflexivity.
  Qed.

  Lemma ds_respects n : respects n DSchema (d_ds E X).
  Proof.
    induction n as [|n IH]; intros v v' Hv Hg; [lia|].
    destruct (grown_struct (d := DSchema) eq_refl Hg) as [->|(es & es' & -> & -> & H)]; auto.
    rewrite !d_ds_obj. apply ds_body_same with (n := n); auto. lia.
  Qed.

  Lemma dsmap_respects n : respects n (DMap DSchema) (d_dsmap E X).
  Proof.
    intros v v' Hv. apply (@lift_map _ n DSchema); [apply ds_respects|lia].
  Qed.

  (** ** The other objects *)

  Lemma list_respects A d (dec : json -> option A) :
    (forall n, respects n d dec) -> forall n, respects n (DList d) (d_list dec).
  Proof. intros H n v v' Hv. apply (@lift_list _ n d); auto. Qed.

  Lemma map_respects A d (dec : json -> option A) :
    (forall n, respects n d dec) -> forall n, respects n (DMap d) (d_map dec).
  Proof. intros H n v v' Hv. apply (@lift_map _ n d); auto. Qed.

  Ltac find_name := first [in_names | apply in_or_app; left; in_names].

  Ltac mem H resp :=
    match goal with
    | |- obind (opt ?k ?d ?es) _ = obind (opt ?k ?d ?es') _ =>
        rewrite (@rel_opt _ (jdepth (JObj es)) _ _ k d es es' H)
          by first [find_name | intros; eapply jdepth_obj; eassumption | resp];
        destruct (opt k d es'); [cbn [obind]|reflexivity]
    | |- obind (req ?k ?d ?es) _ = obind (req ?k ?d ?es') _ =>
        rewrite (@rel_req _ (jdepth (JObj es)) _ _ k d es es' H)
          by first [find_name | intros; eapply jdepth_obj; eassumption | resp];
        destruct (req k d es'); [cbn [obind]|reflexivity]
    | |- obind (dflt ?k ?a ?d ?es) _ = obind (dflt ?k ?a ?d ?es') _ =>
        rewrite (@rel_dflt _ (jdepth (JObj es)) _ _ k a d es es' H)
          by first [find_name | intros; eapply jdepth_obj; eassumption | resp];
        destruct (dflt k a d es'); [cbn [obind]|reflexivity]
    end.

  Ltac start D :=
    let v := fresh "v" in let v' := fresh "v'" in let Hg := fresh "Hg" in
    intros v v' _ Hg;
    destruct (grown_struct (d := D) eq_refl Hg) as [->|(es & es' & -> & -> & H)]; [reflexivity|].

  Lemma link_respects n : respects n DLink (d_link E).
  Proof.
    start DLink. unfold d_link, d_struct. repeat mem H ltac:(apply respects_leaf). reflexivity.
  Qed.

  Lemma version_respects n : respects n DVersion d_version.
  Proof.
    start DVersion. unfold d_version, d_struct. repeat mem H ltac:(apply respects_leaf). reflexivity.
  Qed.

  Lemma add_resp_respects n : respects n DAddResp d_add_resp.
  Proof.
    start DAddResp. unfold d_add_resp, d_struct. repeat mem H ltac:(apply respects_leaf). reflexivity.
  Qed.

  Lemma Forall2_len A B (R : A -> B -> Prop) l l' : Forall2 R l l' -> length l = length l'.
  Proof. induction 1; simpl; auto. Qed.

  Lemma nth_grown d l l' i : is_struct d = true -> Forall2 (grown d) l l' ->
    nth_error l i = nth_error l' i
    \/ exists es es', nth_error l i = Some (JObj es) /\ nth_error l' i = Some (JObj es').
  Proof.
    intros Hd H. revert i. induction H as [|v v' l l' Hv _ IH]; intros [|i]; simpl; auto.
    destruct (grown_struct Hd Hv) as [->|(es & es' & -> & -> & _)]; eauto.
  Qed.

  Lemma add_resps_respects n : respects n (DOneOrMany DAddResp) (d_oom d_add_resp).
  Proof.
    intros v v' Hv Hg. unfold d_oom.
    destruct (many_cases (d := DAddResp) eq_refl (@add_resp_respects n) Hv Hg)
      as [[-> ->]|(l & l' & -> & -> & Hl & ->)]; auto.
    enough (d_add_resp (JArr l) = d_add_resp (JArr l')) as -> by reflexivity.
    unfold d_add_resp, d_struct. rewrite (Forall2_len Hl).
    destruct (Nat.leb (length l') 3); auto. unfold sq_dflt, sq_opt.
    destruct (nth_grown (d := DAddResp) 0 eq_refl Hl) as [->|(? & ? & -> & ->)]; [|reflexivity].
    destruct (nth_grown (d := DAddResp) 1 eq_refl Hl) as [->|(? & ? & -> & ->)]; [|reflexivity].
    destruct (nth_grown (d := DAddResp) 2 eq_refl Hl) as [->|(? & ? & -> & ->)]; reflexivity.
  Qed.

  Lemma exp_resp_respects n : respects n DExpResp (d_exp_resp X).
  Proof.
    start DExpResp. unfold d_exp_resp, d_flat, exp_resp_body. repeat mem H ltac:(apply respects_leaf).
    rewrite (@ext_same _ _ _ _ ["contentType"] es es' (ro_er HX) H); [reflexivity| |apply HK|apply incl_td; reflexivity].
    intros k Hk. right; auto.
  Qed.

  Lemma form_respects n : respects n DForm (d_form X).
  Proof.
    start DForm. unfold d_form, d_flat, form_body.
    repeat mem H ltac:(first [apply respects_leaf|apply exp_resp_respects|apply add_resps_respects]).
    rewrite (@ext_same _ _ _ _ form_keys es es' (ro_f HX) H); [reflexivity| |apply HK|apply incl_td; reflexivity].
    intros k Hk. apply in_or_app; auto.
  Qed.

  Lemma interaction_same d N es es' : rel (member_kind d) N es es' ->
    incl (interaction_names K) N ->
    (forall k, In k (interaction_names K) -> member_kind d k = member_kind DAction k) ->
    interaction_body E X es = interaction_body E X es'.
  Proof.
    intros H0 Hi He. assert (H := rel_narrow _ H0 Hi He). unfold interaction_body.
    rewrite (info_reads E es es').
    2:{ apply rel_leaf with (mk := member_kind DAction); [|leaf_lits].
        eapply rel_narrow; [exact H|apply incl_lit; reflexivity|reflexivity]. }
    destruct (d_info E es'); cbn [obind]; [|reflexivity].
    unfold interaction_names in H. rewrite app_assoc in H.
    repeat mem H ltac:(first [apply dsmap_respects|apply list_respects; exact form_respects]).
    rewrite (@ext_same _ _ _ _ interaction_keys es es' (ro_ia HX) H); [reflexivity| |apply HK|apply incl_td; reflexivity].
    intros k Hk. apply in_or_app; auto.
  Qed.

  (** An extension that gets all members. *)
  Lemma ext_whole p L d N es es' : reads_only p L -> rel (member_kind d) N es es' -> incl L N ->
    disjoint L td_names -> p_de p es = p_de p es'.
  Proof.
    intros Hp H Hi Hd. apply Hp. apply rel_leaf with (mk := member_kind d).
    - eapply rel_narrow; eauto.
    - intros k Hk'. eapply ext_leaf; eauto.
  Qed.

  Lemma action_respects n : respects n DAction (d_action E X).
  Proof.
    start DAction. cbn [names_of] in H. unfold d_action, d_flat, action_body.
    repeat mem H ltac:(first [apply respects_leaf|apply ds_respects]).
    assert (H' : rel (member_kind DAction) (interaction_names K ++ k_aa K)
                   (without action_keys es) (without action_keys es')).
    { apply rel_without.
      - eapply rel_narrow; [exact H| |reflexivity]. intros k Hk. apply in_or_app; auto.
      - unfold interaction_names. apart. }
    rewrite (@interaction_same DAction _ _ _ H') by first [reflexivity | apply incl_appl, incl_refl].
    rewrite (@ext_whole _ _ _ _ _ _ (ro_aa HX) H'); [reflexivity|apply incl_appr, incl_refl|apply HK].
  Qed.

  Lemma event_respects n : respects n DEvent (d_event E X).
  Proof.
    start DEvent. cbn [names_of] in H. unfold d_event, d_flat, event_body.
    repeat mem H ltac:(first [apply respects_leaf|apply ds_respects]).
    assert (H' : rel (member_kind DEvent) (interaction_names K ++ k_ea K)
                   (without event_keys es) (without event_keys es')).
    { apply rel_without.
      - eapply rel_narrow; [exact H| |reflexivity]. intros k Hk. apply in_or_app; auto.
      - unfold interaction_names. apart. }
    rewrite (@interaction_same DEvent _ _ _ H').
    - rewrite (@ext_whole _ _ _ _ _ _ (ro_ea HX) H'); [reflexivity|apply incl_appr, incl_refl|apply HK].
    - apply incl_appl, incl_refl.
    - unfold interaction_names. rewrite app_assoc. intros k Hk. apply in_app_or in Hk as [Hk|Hk].
      + cbv [own_ds_names info_names app] in Hk. lit_cases Hk; reflexivity.
      + rewrite !(@ext_leaf _ (k_ia K) k) by first [apply HK|auto]. reflexivity.
  Qed.

  Lemma property_respects n : respects n DProperty (d_property E X).
  Proof.
    start DProperty. cbn [names_of] in H. unfold d_property, d_flat, property_body.
    repeat mem H ltac:(first [apply respects_leaf|apply ds_respects]).
    assert (H' : rel (member_kind DProperty) (interaction_names K ++ ds_names K ++ k_pa K)
                   (without property_keys es) (without property_keys es')).
    { apply rel_without.
      - eapply rel_narrow; [exact H| |reflexivity]. intros k Hk. right; auto.
      - unfold interaction_names. rewrite ds_names_eq. apart. }
    rewrite (@interaction_same DProperty _ _ _ H').
    - assert (Hs : rel (member_kind DSchema) (ds_names K)
                     (without property_keys es) (without property_keys es')).
      { eapply rel_narrow; [exact H'| |].
        - intros k Hk. apply in_or_app; right. apply in_or_app; auto.
        - rewrite ds_names_eq. intros k Hk. apply in_app_or in Hk as [Hk|Hk].
          + cbv [own_ds_names info_names app] in Hk. lit_cases Hk; reflexivity.
          + apply in_app_or in Hk as [Hk|Hk]; [|apply in_app_or in Hk as [Hk|Hk]];
              [rewrite !(@ext_leaf _ (k_ds K) k)|rewrite !(@ext_leaf _ (k_as K) k)|
               rewrite !(@ext_leaf _ (k_os K) k)]; auto; apply HK. }
      rewrite (@ds_respects (S (jdepth (JObj (without property_keys es)))) (JObj (without property_keys es))
                 (JObj (without property_keys es')));
        [|lia|apply g_struct; [reflexivity|exact Hs]].
      rewrite (@ext_whole _ _ _ _ _ _ (ro_pa HX) H'); [reflexivity| |apply HK].
      intros k Hk. apply in_or_app; right. apply in_or_app; auto.
    - apply incl_appl, incl_refl.
    - unfold interaction_names. rewrite app_assoc. intros k Hk. apply in_app_or in Hk as [Hk|Hk].
      + cbv [own_ds_names info_names app] in Hk. lit_cases Hk; reflexivity.
      + rewrite !(@ext_leaf _ (k_ia K) k) by first [apply HK|auto]. reflexivity.
  Qed.

  Lemma thing_respects n : respects n DThing (d_thing E X).
  Proof.
    start DThing. cbn [names_of] in H. unfold d_thing, d_flat, thing_body.
    repeat mem H ltac:(first
      [apply respects_leaf|apply dsmap_respects|apply version_respects
      |apply map_respects; exact property_respects|apply map_respects; exact action_respects
      |apply map_respects; exact event_respects|apply list_respects; exact link_respects
      |apply list_respects; exact form_respects]).
    rewrite (@ext_same _ _ _ _ thing_keys es es' (ro_t HX) H); [reflexivity| |apply HK|apply incl_td; reflexivity].
    intros k Hk. apply in_or_app; auto.
  Qed.
End Grown.
