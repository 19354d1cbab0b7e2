(** * What is written is a well-formed document *)

From Coq Require Import String Bool ZArith Permutation Lia List.
From Verif Require Import Base MinMax Json Serde Types Spec DsFacts SpecSerde SpecDoc SpecTyped Ser De SerdeFacts CanonFacts
  RoundTrip RoundTripDs RoundTripTd RoundTripThing ProtocolFacts MemberFacts.
Import ListNotations.
Set Implicit Arguments.
Local Open Scope string_scope.
Local Open Scope list_scope.

Lemma some_inj A (a b : A) : Some a = Some b -> a = b.
Proof. intros [= ->]. reflexivity. Qed.

(** [R]: whether members must not be repeated. *)
Section Good.
Variable R : Prop.

Definition good (j : json) : Prop := document j /\ (R -> no_repeats j).

Lemma clean_good j : clean j -> good j.
Proof. intros [H1 H2]. split; auto. Qed.

Definition cleans (es : entries) : Prop := forall k v, In (k, v) es -> good v.

Lemma cleans_nil : cleans [].
Proof. intros k v []. Qed.

Lemma cleans_app es es' : cleans es -> cleans es' -> cleans (es ++ es').
Proof. intros H H' k v Hin. apply in_app_or in Hin as [Hin|Hin]; eauto. Qed.

Lemma cleans_fld k j : good j -> cleans (fld k j).
Proof. intros H k' v [[= <- <-]|[]]. exact H. Qed.

Lemma cleans_ofld A k (f : A -> json) o : (forall a, o = Some a -> good (f a)) -> cleans (ofld k f o).
Proof. intros H. destruct o; [apply cleans_fld; auto|apply cleans_nil]. Qed.

Lemma clean_str s : good (JStr s).
Proof. split; [constructor|intros _; apply nr_leaf; discriminate]. Qed.
Lemma clean_bool b : good (JBool b).
Proof. split; [constructor|intros _; apply nr_leaf; discriminate]. Qed.
Lemma clean_null : good JNull.
Proof. split; [constructor|intros _; apply nr_leaf; discriminate]. Qed.
Lemma clean_int n : (- 2 ^ 63 <= n < 2 ^ 64)%Z -> good (JInt n).
Proof. split; [constructor; auto|intros _; apply nr_leaf; discriminate]. Qed.
Lemma clean_f64 x : good (s_f64 x).
Proof.
  unfold s_f64. destruct (f64_finite x) eqn:F; [|apply clean_null].
  split; [constructor; auto|intros _; apply nr_leaf; discriminate].
Qed.

Lemma clean_arr l : (forall j, In j l -> good j) -> good (JArr l).
Proof. intros H. split; [apply doc_arr|intros HR; apply nr_arr]; intros j Hj; apply H; auto. Qed.

Lemma clean_obj es : (R -> NoDup (map fst es)) -> cleans es -> good (JObj es).
Proof. intros Hn H. split; [apply doc_obj|intros HR; apply nr_obj; auto]; intros k j Hj; eapply H; eauto. Qed.

Lemma clean_list A (f : A -> json) l : (forall a, In a l -> good (f a)) -> good (s_list f l).
Proof. intros H. apply clean_arr. intros j Hj. apply in_map_iff in Hj as (a & <- & Ha). auto. Qed.

Lemma clean_oom A (f : A -> json) l : (forall a, In a l -> good (f a)) -> good (s_oom f l).
Proof.
  intros H. destruct l as [|a [|b l]]; [apply (clean_list f []); intros ? []|apply H; left; auto|].
  apply (clean_list f (a :: b :: l)). auto.
Qed.

Lemma clean_strs l : good (s_oom JStr l).
Proof. apply clean_oom. intros. apply clean_str. Qed.

Lemma clean_mk mk es : json_writer mk -> (R -> mk = mk_value \/ NoDup (map fst es)) -> cleans es -> good (mk es).
Proof.
  intros Hw H Hc.
  assert (good (mk_value es)) as Hv.
  { apply clean_obj; [intros _; apply (msorted_NoDup _ (msorted_mof _))|]. intros k v Hin. apply In_mof in Hin. eauto. }
  destruct Hw as [->| ->]; auto. apply clean_obj; auto. intros HR. destruct (H HR) as [F|F]; auto.
  exfalso. assert (mk_text [("b", JNull); ("a", JNull)] = mk_value [("b", JNull); ("a", JNull)]) as G by (rewrite F; reflexivity).
  discriminate G.
Qed.

Lemma clean_within mk es L : json_writer mk -> within es L -> NoDup L -> cleans es -> good (mk es).
Proof. intros Hw H Hn. apply clean_mk; auto. intros _. right. eapply within_NoDup; eauto. Qed.

Lemma clean_map A mk (f : A -> json) m : json_writer mk -> msorted m ->
  (forall k a, In (k, a) m -> good (f a)) -> good (s_map mk f m).
Proof.
  intros Hw Hs H. apply clean_mk; auto.
  - intros _. right. unfold mmap. rewrite map_map. simpl. apply msorted_NoDup. exact Hs.
  - intros k v Hin. unfold mmap in Hin. apply in_map_iff in Hin as ([k' a] & [= <- <-] & Hin). eauto.
Qed.

Lemma clean_value mk j : json_writer mk -> value_typed j -> good (ser_value mk j).
Proof.
  intros Hw [Hd Hv]. rewrite ser_value_id by auto. split; auto. intros _. clear -Hv.
  induction Hv; try (apply nr_leaf; discriminate).
  - apply nr_arr. auto.
  - apply nr_obj; eauto. apply msorted_NoDup. auto.
Qed.

Ltac cleans1 :=
  first
    [ apply cleans_nil
    | apply cleans_fld
    | apply cleans_ofld; let a := fresh "a" in let Ha := fresh "Ha" in intros a Ha ].

Lemma children_ind DS AS OS (P : ds DS AS OS -> Prop) :
  (forall d, (forall c, In c (ds_children d) -> P c) -> P d) -> forall d, P d.
Proof.
  intros H d. induction d as [i m o s x IH1 IH2] using ds_ind'. apply H. intros c Hc.
  unfold ds_children in Hc. cbn [ds_one_of ds_sub] in Hc. apply in_app_or in Hc as [Hc|Hc].
  - destruct o as [l|]; [eapply IH1; eauto|destruct Hc].
  - destruct s as [s|]; [eapply IH2; eauto|destruct Hc].
Qed.

Section Clean.
  Variable E : env.
  Variable X : exts.
  Variable K : xnames.
  Variables T V : xvalues X.
  Variable mk : entries -> json.
  Hypothesis Hw : json_writer mk.
  Hypothesis HT : exts_write_clean K T.
  Hypothesis HX : exts_round_trip K V.
  Hypothesis HK : names_apart K.

  Lemma clean_multilang m : tags_ok E m -> good (s_multilang mk m).
  Proof. intros [Hs _]. apply clean_map; auto. intros. apply clean_str. Qed.

  Lemma cleans_info i : info_ok E i -> cleans (info_es mk i).
  Proof.
    intros Hi. unfold info_es. repeat apply cleans_app; cleans1.
    - apply clean_strs.
    - apply clean_str.
    - apply clean_multilang, Hi. left; auto.
    - apply clean_str.
    - apply clean_multilang, Hi. right; auto.
  Qed.

  Lemma cleans_misc (d : dsx X) : node_typed E T d ->
    cleans (misc1_es mk (ds_misc d)) /\ cleans (misc2_es mk (ds_misc d)).
  Proof.
    intros (_ & H1 & H2 & H3 & _). split.
    - unfold misc1_es. repeat apply cleans_app; cleans1; try apply clean_str; apply clean_value; auto.
    - unfold misc2_es. repeat apply cleans_app; cleans1; try apply clean_str; try apply clean_bool.
      apply clean_list. intros v Hv. apply clean_value; auto. specialize (H3 _ Ha).
      rewrite Forall_forall in H3. auto.
  Qed.

  Lemma int_u32 n : in_u32 n -> good (JInt n).
  Proof. unfold in_u32. intros H. apply clean_int. lia. Qed.
  Lemma int_i64 n : in_i64 n -> good (JInt n).
  Proof. unfold in_i64. intros H. apply clean_int. lia. Qed.
  Lemma int_nz n : in_nz_u64 n -> good (JInt n).
  Proof. unfold in_nz_u64. intros H. apply clean_int. lia. Qed.

  Lemma cleans_max A (f : A -> json) o : (forall m, o = Some m -> good (f (max_val m))) -> cleans (max_es f o).
  Proof. intros H. destruct o as [[a|a]|]; simpl; [| |apply cleans_nil]; apply cleans_fld; apply (H _ eq_refl). Qed.
  Lemma cleans_min A (f : A -> json) o : (forall m, o = Some m -> good (f (min_val m))) -> cleans (min_es f o).
  Proof. intros H. destruct o as [[a|a]|]; simpl; [| |apply cleans_nil]; apply cleans_fld; apply (H _ eq_refl). Qed.

  Definition textual (P : Prop) : Prop := R -> mk = mk_value \/ P.

  Lemma piece_cleans p L ok a : writes_clean p L ok -> ok a -> cleans (p_ser p mk a).
  Proof. intros H Ha k v Hin. exact (clean_good (wc_clean H a k v Hw Ha Hin)). Qed.

  Lemma ds_clean_es d : schema_typed E T d -> textual (schema_ok E V d) ->
    good (s_ds mk d) /\ cleans (ds_es mk d).
  Proof.
    induction d as [d IH] using children_ind. intros Ht Hx.
    assert (forall c, In c (ds_children d) -> good (s_ds mk c)) as Hch.
    { intros c Hc. apply (IH c Hc).
      - intros e He. apply Ht. eapply sub_child; eauto.
      - intros HR. destruct (Hx HR) as [Hx'|Hx']; [left; auto|right]. intros e He. apply Hx'. eapply sub_child; eauto. }
    pose proof (Ht d (sub_self _)) as Hn. pose proof Hn as (Hi & _ & _ & _ & Hs & Ho).
    enough (cleans (ds_es mk d)) as Hc.
    { split; [|exact Hc]. unfold s_ds. apply clean_mk; auto.
      intros HR. destruct (Hx HR) as [Hx'|Hx']; [left; auto|right]. specialize (Hx' d (sub_self _)).
      exact (within_NoDup (ds_within Hw HX Hx') (ds_written_nodup Hw HX HK Hx')). }
    { rewrite ds_es_eq. destruct (cleans_misc Hn) as [M1 M2].
      apply cleans_app; [apply cleans_info; auto|]. apply cleans_app; [auto|].
      apply cleans_app.
      { cleans1. apply clean_list. intros c Hc. apply Hch. unfold ds_children. rewrite Ha.
        apply in_or_app. left. exact Hc. }
      apply cleans_app; [auto|]. apply cleans_app; [|eapply piece_cleans; [apply (wc_ds HT)|auto]].
      destruct (ds_sub d) as [s|] eqn:Es; [|apply cleans_nil]. specialize (Hs s eq_refl).
      assert (forall c, In c (sub_children s) -> good (s_ds mk c)) as Hsc.
      { intros c Hc. apply Hch. unfold ds_children. rewrite Es. apply in_or_app. right. exact Hc. }
      cbn [subo_es]. destruct s as [items mn mx o| |n|n|ps r o|s|].
      + rewrite sub_array_eq. destruct Hs as (H1 & H2 & H3).
        repeat (apply cleans_app; [cleans1|]); try apply clean_str.
        * destruct a as [c|l]; simpl in *; subst items.
          -- apply Hsc. left; auto.
          -- apply (clean_list (s_ds mk) l). intros c Hc. apply Hsc. exact Hc.
        * apply int_u32; auto.
        * apply int_u32; auto.
        * eapply piece_cleans; [apply (wc_as HT)|auto].
      + apply cleans_fld, clean_str.
      + apply cleans_app; [apply cleans_fld, clean_str|]. unfold number_es.
        apply cleans_app; [apply cleans_max; intros; apply clean_f64|].
        apply cleans_app; [apply cleans_min; intros; apply clean_f64|]. cleans1. apply clean_f64.
      + apply cleans_app; [apply cleans_fld, clean_str|]. unfold integer_es. destruct Hs as (H1 & H2 & H3).
        apply cleans_app; [apply cleans_max; intros m Hm; apply int_i64, H1; auto|].
        apply cleans_app; [apply cleans_min; intros m Hm; apply int_i64, H2; auto|]. cleans1. apply int_nz; auto.
      + rewrite sub_object_eq. destruct Hs as [H1 H2].
        repeat (apply cleans_app; [cleans1|]); try apply clean_str.
        * apply clean_map; auto. intros k c Hc. apply Hsc. subst ps. simpl. apply in_map_iff.
          exists (k, c). auto.
        * apply clean_list. intros. apply clean_str.
        * eapply piece_cleans; [apply (wc_os HT)|auto].
      + apply cleans_app; [apply cleans_fld, clean_str|]. unfold string_es. destruct Hs as [H1 H2].
        repeat apply cleans_app; cleans1; try apply clean_str; apply int_u32; auto.
      + apply cleans_fld, clean_str. }
  Qed.

  Lemma ds_clean d : schema_typed E T d -> textual (schema_ok E V d) -> good (s_ds mk d).
  Proof. intros H1 H2. apply (ds_clean_es H1 H2). Qed.

  Lemma dsmap_clean m : schemas_typed E T m -> textual (schemas_ok E V m) -> good (s_dsmap mk m).
  Proof.
    intros [Hs Ht] Hx. apply clean_map; auto. intros k d Hin. apply ds_clean; eauto.
    intros HR. destruct (Hx HR) as [F|[_ F]]; [left; auto|right; eauto].
  Qed.

  Lemma textual_some A (P : A -> Prop) o a : textual (all_some P o) -> o = Some a -> textual (P a).
  Proof. intros H Ha HR. destruct (H HR) as [F|F]; [left|right]; auto. Qed.

  Lemma textual_all A (P : A -> Prop) l a : textual (Forall P l) -> In a l -> textual (P a).
  Proof. intros H Ha HR. destruct (H HR) as [F|F]; [left; auto|right]. rewrite Forall_forall in F. auto. Qed.

  Lemma textual_map A (P : A -> Prop) m k a : textual (map_ok P m) -> In (k, a) m -> textual (P a).
  Proof. intros H Ha HR. destruct (H HR) as [F|[_ F]]; [left; auto|right]. eauto. Qed.

  Lemma textual_imp (P Q : Prop) : (P -> Q) -> textual P -> textual Q.
  Proof. unfold textual. tauto. Qed.

  (** ** Security *)

  Lemma cleans_known k : cleans (known_es k).
  Proof.
    assert (forall b, cleans (loc_name_es b)) as Hl.
    { intros b. unfold loc_name_es. apply cleans_app; cleans1; apply clean_str. }
    destruct k as [| |[l|l]|b|q b|b|i|o|b]; cbn [known_es];
      repeat first [apply Hl | apply clean_str | apply clean_strs | apply cleans_app | cleans1];
      unfold s_qop, s_loc; apply clean_str.
  Qed.

  Lemma security_clean custom s j : security_typed E s -> textual (security_ok E custom s) ->
    s_security mk s = Some j -> good j.
  Proof.
    intros [Hd Hu] Hx H. unfold s_security in H. apply option_map_inv in H as (es & H & ->).
    unfold security_es in H. apply obind_inv in H as (sub & Hs & H). apply some_inj in H as <-.
    assert (cleans sub) as Hc.
    { unfold subtype_es in Hs. destruct (ss_subtype s) as [k|scheme data] eqn:Es.
      - injection Hs as <-. apply cleans_known.
      - specialize (Hu _ _ eq_refl). apply obind_inv in Hs as (des & Hd' & Hs). apply some_inj in Hs as <-.
        apply cleans_app; [apply cleans_fld, clean_str|].
        destruct data as [| | | | | |des']; try discriminate; apply some_inj in Hd' as <-; [apply cleans_nil|].
        intros k v Hin. apply in_map_iff in Hin as ([k' v'] & [= <- <-] & Hin).
        apply clean_value; auto. destruct Hu as [H1 H2]. inversion H1; inversion H2; subst. split; eauto. }
    apply clean_mk; auto.
    - intros HR. destruct (Hx HR) as [F0|[_ Hx']]; [left; auto|right].
      replace (_ ++ _ ++ _ ++ _ ++ sub)
        with ((ofld "@type" (s_oom JStr) (ss_attype s) ++ ofld "description" JStr (ss_description s)
               ++ ofld "descriptions" (s_multilang mk) (ss_descriptions s) ++ ofld "proxy" JStr (ss_proxy s)) ++ sub)
        by (rewrite <- !app_assoc; reflexivity).
      rewrite map_app. apply disjoint_NoDup.
      + eapply within_NoDup with (K := ["@type"; "description"; "descriptions"; "proxy"]);
          [repeat within_step|apply nodupb_ok; reflexivity].
      + unfold subtype_es in Hs. destruct (ss_subtype s) as [k|scheme data] eqn:Es.
        * injection Hs as <-. apply known_nodup.
        * destruct (Hx' _ _ eq_refl) as (des & -> & Hv & _ & Hdis). simpl in Hs. injection Hs as <-.
          simpl. rewrite map_map. cbn [fst]. constructor; [|inversion Hv; subst; apply msorted_NoDup; auto].
          intros F. apply (Hdis _ F). simpl. tauto.
      + intros k Hk F. assert (In k ["@type"; "description"; "descriptions"; "proxy"]) as F'.
        { eapply within_In; [|exact F]. repeat within_step. }
        clear F. unfold subtype_es in Hs. destruct (ss_subtype s) as [kn|scheme data] eqn:Es.
        * injection Hs as <-. apply known_names in Hk. revert F'. apply smem_false.
          unfold known_keys in Hk. lit_cases Hk; reflexivity.
        * destruct (Hx' _ _ eq_refl) as (des & -> & Hv & _ & Hdis). simpl in Hs. injection Hs as <-.
          simpl in Hk. rewrite map_map in Hk. cbn [fst] in Hk. destruct Hk as [<-|Hk].
          -- simpl in F'. intuition discriminate.
          -- apply (Hdis _ Hk). simpl in *. tauto.
    - repeat apply cleans_app; try (cleans1; first [apply clean_strs | apply clean_str | apply clean_multilang; auto]).
      auto.
  Qed.

  (** ** Links and forms *)

  Lemma link_clean l : good (s_link mk l).
  Proof.
    unfold s_link. eapply clean_within with (L := ["href"; "type"; "rel"; "anchor"; "sizes"; "hreflang"]); auto.
    - unfold link_es. repeat within_step.
    - apply nodupb_ok; reflexivity.
    - unfold link_es. repeat apply cleans_app; cleans1; first [apply clean_str | apply clean_strs].
  Qed.

  Lemma add_resp_clean r : good (s_add_resp mk r).
  Proof.
    unfold s_add_resp. eapply clean_within with (L := ["success"; "contentType"; "schema"]); auto.
    - unfold add_resp_es. apply within_cons; [destruct (ar_success r); [apply within_fld|apply within_none]|].
      repeat within_step.
    - apply nodupb_ok; reflexivity.
    - unfold add_resp_es. apply cleans_app; [destruct (ar_success r); [apply cleans_fld, clean_bool|apply cleans_nil]|].
      repeat apply cleans_app; cleans1; apply clean_str.
  Qed.

  Lemma version_clean v : good (s_version mk v).
  Proof.
    unfold s_version. eapply clean_within with (L := ["instance"; "model"]); auto.
    - unfold version_es. repeat within_step.
    - apply nodupb_ok; reflexivity.
    - unfold version_es. apply cleans_app; cleans1; [apply clean_str|].
      destruct (v_model v); [apply clean_str|apply clean_null].
  Qed.

  Lemma ext_nodup own L p Kp ok a : within own L -> NoDup L -> incl L td_names ->
    writes_clean p Kp ok -> ok a -> disjoint Kp td_names -> NoDup (map fst (own ++ p_ser p mk a)).
  Proof.
    intros Ho Hn Hi Hp Ha Hd. destruct (wc_names Hp a Hw Ha) as [H1 H2].
    rewrite map_app. apply disjoint_NoDup; auto; [eapply within_NoDup; eauto|].
    intros k Hk F. apply (Hd k); [apply H2, Hk|]. apply Hi. eapply within_In; eauto.
  Qed.

  Lemma exp_resp_clean r : v_er T (er_other r) -> good (s_exp_resp X mk r).
  Proof.
    intros Hr. unfold s_exp_resp. apply clean_mk; auto.
    - intros _. right. unfold exp_resp_es. eapply ext_nodup with (L := ["contentType"]);
        [apply within_fld|apply nodupb_ok; reflexivity|apply incl_td; reflexivity|apply (wc_er HT)|auto|apply (na_er HK)].
    - unfold exp_resp_es. apply cleans_app; [apply cleans_fld, clean_str|].
      eapply piece_cleans; [apply (wc_er HT)|auto].
  Qed.

  Lemma form_own_eq (f : form X) : form_es mk f = form_own mk f ++ p_ser (x_f X) mk (f_other f).
  Proof. unfold form_es, form_own. rewrite <- !app_assoc. reflexivity. Qed.

  Lemma form_own_within (f : form X) : within (form_own mk f) form_keys.
  Proof.
    unfold form_own, form_keys. apply within_cons; [apply op_es_within|]. repeat within_step.
  Qed.

  Lemma form_clean f : form_typed T f -> good (s_form mk f).
  Proof.
    intros [Hr Hf]. unfold s_form. rewrite form_own_eq. apply clean_mk; auto.
    - intros _. right. eapply ext_nodup; [apply form_own_within|apply nodupb_ok; reflexivity|apply incl_td; reflexivity
        |apply (wc_f HT)|auto|apply (na_f HK)].
    - apply cleans_app; [|eapply piece_cleans; [apply (wc_f HT)|auto]].
      unfold form_own. apply cleans_app.
      + destruct (f_op f) as [|[|o l]]; simpl; [apply cleans_nil|apply cleans_fld, clean_null|].
        apply cleans_fld. apply (clean_list s_op (o :: l)). intros. apply clean_str.
      + repeat (apply cleans_app; [cleans1; first [apply clean_str | apply clean_strs | apply exp_resp_clean; auto]|]).
        cleans1. apply clean_oom. intros. apply add_resp_clean.
  Qed.

  (** ** Affordances *)

  Lemma cleans_interaction i : interaction_typed E T i -> textual (all_some (schemas_ok E V) (ia_uri i)) ->
    cleans (interaction_es mk i).
  Proof.
    intros (Hi & Hf & Hu & Ho) Hx. unfold interaction_es.
    apply cleans_app; [apply cleans_info; auto|].
    apply cleans_app.
    { apply cleans_fld, clean_list. intros f Hin. rewrite Forall_forall in Hf. apply form_clean; auto. }
    apply cleans_app; [|eapply piece_cleans; [apply (wc_ia HT)|auto]].
    cleans1. apply dsmap_clean; [apply Hu; auto|eapply textual_some; eauto].
  Qed.

  Lemma ia_uri_ok i : interaction_ok E V i -> all_some (schemas_ok E V) (ia_uri i).
  Proof. intros (_ & _ & H & _). exact H. Qed.

  Lemma interaction_within i : v_ia T (ia_other i) ->
    within (interaction_es mk i) ((info_keys ++ ia_own_keys) ++ map fst (p_ser (x_ia X) mk (ia_other i))).
  Proof.
    intros Hi. rewrite interaction_es_eq. apply within_app.
    - apply within_app; [apply info_within|apply ia_own_within].
    - apply within_incl; [apply (wc_names (wc_ia HT) _ Hw Hi)|apply incl_refl].
  Qed.

  Lemma affordance_nodup own L p Kp ok a i : v_ia T (ia_other i) -> within own L ->
    NoDup ((info_keys ++ ia_own_keys) ++ L) -> incl L td_names -> writes_clean p Kp ok -> ok a ->
    disjoint Kp td_names -> disjoint (k_ia K) Kp ->
    NoDup (map fst (interaction_es mk i ++ own ++ p_ser p mk a)).
  Proof.
    intros Hi Ho Hn Hl Hp Ha Hd Hd'.
    destruct (wc_names Hp a Hw Ha) as [N1 I1]. destruct (wc_names (wc_ia HT) _ Hw Hi) as [N2 I2].
    apply (within_NoDup (K := ((info_keys ++ ia_own_keys) ++ L)
             ++ (map fst (p_ser (x_ia X) mk (ia_other i)) ++ map fst (p_ser p mk a)))).
    - eapply within_weak; [|apply within_app; [apply interaction_within; exact Hi|
        apply within_app; [exact Ho|apply within_incl; [exact N1|apply incl_refl]]]].
      intros k. rewrite !count_occ_app. lia.
    - apply disjoint_NoDup; auto.
      + apply disjoint_NoDup; auto. intros k Hk F. exact (Hd' k (I2 k F) (I1 k Hk)).
      + intros k Hk F. assert (In k td_names) as Ht.
        { apply in_app_or in F as [F|F]; [|auto]. revert F. apply incl_td. reflexivity. }
        apply in_app_or in Hk as [Hk|Hk]; [exact (na_ia HK (I2 k Hk) Ht)|exact (Hd k (I1 k Hk) Ht)].
  Qed.

  Lemma action_clean a : action_typed E T a -> textual (action_ok E V a) -> good (s_action mk a).
  Proof.
    intros (Hi & H1 & H2 & Ha) Hx. unfold s_action.
    replace (action_es mk a)
      with (interaction_es mk (aa_ia a) ++ action_own mk a ++ p_ser (x_aa X) mk (aa_other a))
      by (unfold action_es, action_own; rewrite <- !app_assoc; reflexivity).
    apply clean_mk; auto.
    - intros _. right. eapply affordance_nodup with (L := action_keys);
        [apply Hi|unfold action_own, action_keys; repeat within_step|apply nodupb_ok; reflexivity
        |apply incl_td; reflexivity|apply (wc_aa HT)|auto|apply (na_aa HK)|apply (na_ia_aa HK)].
    - apply cleans_app; [apply cleans_interaction; auto|].
      { eapply textual_imp; [|exact Hx]. intros (H & _). apply ia_uri_ok. exact H. }
      apply cleans_app; [|eapply piece_cleans; [apply (wc_aa HT)|auto]].
      unfold action_own. repeat apply cleans_app; cleans1; try apply clean_bool.
      + apply ds_clean; [auto|]. eapply textual_imp; [|exact Hx]. intros (_ & H & _). auto.
      + apply ds_clean; [auto|]. eapply textual_imp; [|exact Hx]. intros (_ & _ & H & _). auto.
  Qed.

  Lemma event_clean e : event_typed E T e -> textual (event_ok E V e) -> good (s_event mk e).
  Proof.
    intros (Hi & H1 & H2 & H3 & H4 & Ha) Hx. unfold s_event.
    replace (event_es mk e)
      with (interaction_es mk (ea_ia e) ++ event_own mk e ++ p_ser (x_ea X) mk (ea_other e))
      by (unfold event_es, event_own; rewrite <- !app_assoc; reflexivity).
    apply clean_mk; auto.
    - intros _. right. eapply affordance_nodup with (L := event_keys);
        [apply Hi|unfold event_own, event_keys; repeat within_step|apply nodupb_ok; reflexivity
        |apply incl_td; reflexivity|apply (wc_ea HT)|auto|apply (na_ea HK)|apply (na_ia_ea HK)].
    - apply cleans_app; [apply cleans_interaction; auto|].
      { eapply textual_imp; [|exact Hx]. intros (H & _). apply ia_uri_ok. exact H. }
      apply cleans_app; [|eapply piece_cleans; [apply (wc_ea HT)|auto]].
      unfold event_own. repeat apply cleans_app; cleans1; (apply ds_clean; [auto|]);
        (eapply textual_imp; [|exact Hx]); intros (_ & G1 & G2 & G3 & G4 & _); auto.
  Qed.

  Lemma property_clean p : property_typed E T p ->
    textual (property_ok E V p /\ ds_info (pa_ds p) = no_info) -> good (s_property mk p).
  Proof.
    intros (Hi & Hd & Ha) Hx. unfold s_property. apply clean_mk; auto.
    - intros HR. destruct (Hx HR) as [F|[F Hn]]; [left; auto|right].
      rewrite property_es_eq. pose proof F as (_ & _ & -> & _). rewrite Hn.
      exact (within_NoDup (prop_once_within Hw HX F) (prop_written_nodup Hw HX HK F)).
    - unfold property_es. apply cleans_app; [apply cleans_interaction; auto|].
      { eapply textual_imp; [|exact Hx]. intros [(H & _) _]. apply ia_uri_ok. exact H. }
      apply cleans_app.
      { apply (fun H => proj2 (ds_clean_es Hd H)). eapply textual_imp; [|exact Hx]. intros [(_ & H & _) _]. exact H. }
      apply cleans_app; [cleans1; apply clean_bool|]. eapply piece_cleans; [apply (wc_pa HT)|auto].
  Qed.

  (** ** Things *)

  Lemma date_es_eq k o es : date_es E k o = Some es -> es = ofld k JStr (date_text E o).
  Proof.
    unfold date_es, date_text. destruct o as [d|]; [|intros [= <-]; reflexivity].
    destruct (date_fmt E d) as [s|]; [|discriminate]. intros [= <-]. reflexivity.
  Qed.

  Lemma secdefs_clean custom m j : map_ok (security_typed E) m ->
    textual (map_ok (security_ok E custom) m) -> s_secdefs mk m = Some j -> good j.
  Proof.
    intros [Hs Ht] Hx H. unfold s_secdefs in H. apply option_map_inv in H as (es & H & ->).
    assert (map fst es = mkeys m /\ forall k v, In (k, v) es -> exists s, In (k, s) m /\ s_security mk s = Some v)
      as [Hk Hes].
    { clear Hs Ht Hx. revert es H. induction m as [|[k s] m IH]; simpl; intros es H.
      - injection H as <-. split; [reflexivity|intros ? ? []].
      - destruct (s_security mk s) as [j|] eqn:Ej; [|discriminate].
        simpl in H. apply obind_inv in H as (es' & H & He). injection He as <-.
        destruct (IH _ H) as [H1 H2]. split; [simpl; f_equal; exact H1|].
        intros k' v [[= <- <-]|Hin]; [eauto|]. destruct (H2 _ _ Hin) as (s' & ? & ?). eauto. }
    apply clean_mk; auto.
    - intros _. right. rewrite Hk. apply msorted_NoDup. exact Hs.
    - intros k v Hin. destruct (Hes _ _ Hin) as (s & Hm & Hv). eapply security_clean; [| |exact Hv]; [eauto|].
      eapply textual_map; eauto.
  Qed.

  Theorem thing_good custom (t : thing E X) j : thing_typed T t ->
    textual (thing_ok V custom t
             /\ forall ps k p, t_properties t = Some ps -> In (k, p) ps -> ds_info (pa_ds p) = no_info) ->
    s_thing mk t = Some j -> good j.
  Proof.
    intros (Hcx & Hts & Hds & Hpr & Hac & Hev & Hli & Hfo & Hsd & Hur & Hsc & Ho) Hx H.
    unfold s_thing in H. apply option_map_inv in H as (es & H & ->). unfold thing_es in H.
    apply obind_inv in H as (cr & Hcr & H). apply date_es_eq in Hcr as ->.
    apply obind_inv in H as (mo & Hmo & H). apply date_es_eq in Hmo as ->.
    apply obind_inv in H as (sd & Hsd' & H).
    assert (good sd) as Hcd.
    { eapply secdefs_clean; [exact Hsd| |exact Hsd']. eapply textual_imp; [|exact Hx].
      intros [(_ & _ & _ & _ & _ & _ & _ & _ & _ & _ & G & _) _]. exact G. }
    match type of H with Some ?e = _ => assert (e =
      (fld "@context" (ser_value mk (t_context t))
       ++ ofld "id" JStr (t_id t)
       ++ ofld "@type" (s_oom JStr) (t_attype t)
       ++ fld "title" (JStr (t_title t))
       ++ ofld "titles" (s_multilang mk) (t_titles t)
       ++ ofld "description" JStr (t_description t)
       ++ ofld "descriptions" (s_multilang mk) (t_descriptions t)
       ++ ofld "version" (s_version mk) (t_version t)
       ++ ofld "created" JStr (date_text E (t_created t))
       ++ ofld "modified" JStr (date_text E (t_modified t))
       ++ ofld "support" JStr (t_support t)
       ++ ofld "base" JStr (t_base t)
       ++ ofld "properties" (s_map mk (s_property mk)) (t_properties t)
       ++ ofld "actions" (s_map mk (s_action mk)) (t_actions t)
       ++ ofld "events" (s_map mk (s_event mk)) (t_events t)
       ++ ofld "links" (s_list (s_link mk)) (t_links t)
       ++ ofld "forms" (s_list (s_form mk)) (t_forms t)
       ++ fld "security" (s_oom JStr (t_security t))
       ++ fld "securityDefinitions" sd
       ++ ofld "uriVariables" (s_dsmap mk) (t_uri t)
       ++ ofld "profile" (s_oom JStr) (t_profile t)
       ++ ofld "schemaDefinitions" (s_dsmap mk) (t_schemas t))
      ++ p_ser (x_t X) mk (t_other t)) as Heq by (rewrite <- !app_assoc; reflexivity) end.
    apply some_inj in H as <-. rewrite Heq. clear Heq Hsd'.
    apply clean_mk; auto.
    - intros _. right. eapply ext_nodup with (L := thing_keys);
        [unfold thing_keys; repeat within_step|apply nodupb_ok; reflexivity|apply incl_td; reflexivity
        |apply (wc_t HT)|auto|apply (na_t HK)].
    - apply cleans_app; [|eapply piece_cleans; [apply (wc_t HT)|auto]].
      repeat apply cleans_app; cleans1; try first [apply clean_str | apply clean_strs | exact Hcd].
      + apply clean_value; auto.
      + apply clean_multilang; auto.
      + apply clean_multilang; auto.
      + apply version_clean.
      + destruct (Hpr _ Ha) as [Hs Hall]. apply clean_map; auto. intros k p Hin. apply property_clean; eauto.
        eapply textual_imp; [|exact Hx]. intros [(_ & _ & _ & _ & _ & G & _) Hn].
        split; [eapply G; eauto|eauto].
      + destruct (Hac _ Ha) as [Hs Hall]. apply clean_map; auto. intros k p Hin. apply action_clean; eauto.
        eapply textual_imp; [|exact Hx]. intros [(_ & _ & _ & _ & _ & _ & G & _) Hn]. eapply G; eauto.
      + destruct (Hev _ Ha) as [Hs Hall]. apply clean_map; auto. intros k p Hin. apply event_clean; eauto.
        eapply textual_imp; [|exact Hx]. intros [(_ & _ & _ & _ & _ & _ & _ & G & _) Hn]. eapply G; eauto.
      + apply clean_list. intros. apply link_clean.
      + apply clean_list. intros f Hf. apply form_clean. pose proof (Hfo _ Ha) as G.
        rewrite Forall_forall in G. auto.
      + apply dsmap_clean; auto. eapply textual_imp; [|exact Hx].
        intros [(_ & _ & _ & _ & _ & _ & _ & _ & _ & _ & _ & G & _) _]. auto.
      + apply dsmap_clean; auto. eapply textual_imp; [|exact Hx].
        intros [(_ & _ & _ & _ & _ & _ & _ & _ & _ & _ & _ & _ & G & _) _]. auto.
  Qed.
End Clean.
End Good.

Section Things.
  Variable E : env.
  Variable X : exts.
  Variable K : xnames.
  Variables T V : xvalues X.
  Variable mk : entries -> json.
  Hypothesis Hw : json_writer mk.
  Hypothesis HT : exts_write_clean K T.
  Hypothesis HX : exts_round_trip K V.
  Hypothesis HK : names_apart K.

  Theorem thing_clean custom (t : thing E X) j : thing_typed T t ->
    mk = mk_value
    \/ (thing_ok V custom t
        /\ forall ps k p, t_properties t = Some ps -> In (k, p) ps -> ds_info (pa_ds p) = no_info) ->
    s_thing mk t = Some j -> clean j.
  Proof.
    intros Ht Hx Hj. destruct (@thing_good True E X K T V mk Hw HT HX HK custom t j Ht) as [H1 H2]; auto.
    - intros _. exact Hx.
    - split; auto.
  Qed.

  Theorem thing_document (t : thing E X) j : thing_typed T t -> s_thing mk t = Some j -> document j.
  Proof.
    intros Ht Hj. destruct (@thing_good False E X K T V mk Hw HT HX HK (fun _ _ => True) t j Ht) as [H1 _]; auto.
    intros [].
  Qed.
End Things.
