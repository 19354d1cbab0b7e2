(** * Facts about [ThingBuilder::build]: when it succeeds, what it returns, what its errors say *)

From Coq Require Import String Bool ZArith Permutation Lia List.
From Verif Require Import Base MinMax Json Serde Types DsBuilder Builder Spec SpecCalls SpecThing
  DsFacts ConvFacts CheckFacts DsProgFacts ProgFacts.
Import ListNotations.
Set Implicit Arguments.
Local Open Scope string_scope.
Local Open Scope list_scope.

(** [judge OK Bad a r]: [r] is [Ok a] and [OK] holds, or it is an error satisfying [Bad]. *)
Definition judge {A} (OK : Prop) (Bad : error -> Prop) (a : A) (r : result error A) : Prop :=
  match r with Ok b => b = a /\ OK | Err e => Bad e end.

Lemma judge_ext A (OK OK' : Prop) Bad (a : A) r :
  (OK -> OK') -> judge OK Bad a r -> judge OK' Bad a r.
Proof. destruct r; simpl; tauto. Qed.

Lemma judge_bind A B (OK1 OK2 : Prop) Bad (a : A) (b : B) r f :
  judge OK1 Bad a r -> (OK1 -> judge OK2 Bad b (f a)) -> judge (OK1 /\ OK2) Bad b (rbind r f).
Proof.
  destruct r as [a'|e]; simpl; auto. intros [-> H] H2. specialize (H2 H).
  destruct (f a); simpl in *; tauto.
Qed.

Lemma judge_ret A Bad (a : A) : judge True Bad a (Ok a).
Proof. simpl. auto. Qed.

Lemma judge_each A (OK : A -> Prop) Bad (f : A -> result error unit) l :
  (forall a, In a l -> judge (OK a) Bad tt (f a)) ->
  judge (forall a, In a l -> OK a) Bad tt (rfor_each f l).
Proof.
  intros H. destruct (rfor_each f l) as [[]|e] eqn:E; simpl.
  - split; auto. intros a Ha. apply (proj1 (rfor_each_Ok _ _)) with (a := a) in E; auto.
    specialize (H a Ha). rewrite E in H. apply H.
  - apply rfor_each_Err in E as (a & Ha & E). specialize (H a Ha). rewrite E in H. exact H.
Qed.

Lemma judge_map A B (OK : A -> Prop) Bad (g : A -> B) (f : A -> result error B) l :
  (forall a, In a l -> judge (OK a) Bad (g a) (f a)) ->
  judge (forall a, In a l -> OK a) Bad (map g l) (rmap_all f l).
Proof.
  induction l as [|a l IH]; simpl; intros H.
  - split; auto. intros a [].
  - pose proof (H a (or_introl eq_refl)) as Ha. destruct (f a) as [b|e]; simpl in *; auto.
    destruct Ha as [-> Ha]. specialize (IH (fun x Hx => H x (or_intror Hx))).
    destruct (rmap_all f l) as [bs|e]; simpl in *; auto. destruct IH as [-> IH].
    split; auto. intros x [<-|Hx]; auto.
Qed.

Lemma judge_opt A B (OK : A -> Prop) Bad (g : A -> B) (f : A -> result error B) o :
  (forall a, o = Some a -> judge (OK a) Bad (g a) (f a)) ->
  judge (forall a, o = Some a -> OK a) Bad (option_map g o) (ropt f o).
Proof.
  destruct o as [a|]; simpl; intros H.
  - specialize (H a eq_refl). destruct (f a) as [b|e]; simpl in *; auto. destruct H as [-> H].
    split; auto. intros a' E. inversion E; subst; auto.
  - split; auto. discriminate.
Qed.

Lemma judge_conv A tp (T : string -> Prop) (Bad : error -> Prop) (a : A) r :
  conv tp T a r -> (forall s, T s -> tp s = None -> Bad (InvalidLanguageTag s)) ->
  judge (forall s, T s -> tp s <> None) Bad a r.
Proof.
  intros H HB. destruct r as [b|e]; simpl in *; auto. destruct H as (s & Hs & E & ->). auto.
Qed.

Lemma twice_at A (n : A) l1 l2 l3 : twice n (l1 ++ n :: l2 ++ n :: l3).
Proof. exists l1, l2, l3. auto. Qed.

(** [n] is in [pre] and follows it. *)
Lemma twice_pre A (n : A) pre l : In n pre -> twice n (pre ++ n :: l).
Proof.
  intros H. apply in_split in H as (l1 & l2 & ->). rewrite <- app_assoc. simpl. apply twice_at.
Qed.

Lemma twice_not_NoDup A (n : A) l : twice n l -> ~ NoDup l.
Proof.
  intros (l1 & l2 & l3 & ->) H. apply NoDup_remove_2 in H. apply H.
  apply in_or_app. right. apply in_or_app. simpl; auto.
Qed.

Lemma map_fst_named A B (f : A -> B) l : map fst (map (named_of f) l) = map fst l.
Proof. rewrite map_map. reflexivity. Qed.

(** Names of a map built from a list. *)
Lemma mhas_mof A n (l : list (string * A)) : mhas n (mof l) = true <-> In n (map fst l).
Proof. rewrite mhas_In, mkeys_mof. reflexivity. Qed.

Lemma mhas_mof_false A n (l : list (string * A)) : mhas n (mof l) = false <-> ~ In n (map fst l).
Proof. rewrite <- mhas_mof. destruct (mhas n (mof l)); split; congruence || tauto. Qed.

Lemma In_mof_iff A k (v : A) l : NoDup (map fst l) -> (In (k, v) (mof l) <-> In (k, v) l).
Proof.
  intros Hn. split; [apply In_mof|]. intros H. apply mlook_Some_In.
  rewrite mlook_mof, llook_NoDup; auto. apply In_mlook; auto.
Qed.

Lemma Ok_iff_judge A (OK : Prop) Bad (a : A) r :
  judge OK Bad a r -> (OK -> forall e, ~ Bad e) -> ((exists b, r = Ok b) <-> OK).
Proof.
  destruct r as [b|e]; simpl.
  - intros [-> H] _. split; eauto.
  - intros H HB. split; [intros (b & E); discriminate|]. intros HOK. destruct (HB HOK e H).
Qed.

Section Build.
  Variable E : env.
  Variable X : exts.
  Notation dsx := (dsx X).
  Notation TG := (tag_parse E).
  Variable ord : order.
  Hypothesis Hord : order_ok ord.

  (** ** Descriptions with recorded tags *)

  Notation ml_tagged := (ml_tagged TG ord).
  Notation info_tagged := (info_tagged TG ord).
  Notation ds_tagged := (@ds_tagged TG ord (pty (x_ds X)) (pty (x_as X)) (pty (x_os X))).

  Definition sec_tagged (s : security_scheme) : security_scheme :=
    {| ss_attype := ss_attype s; ss_description := ss_description s;
       ss_descriptions := option_map ml_tagged (ss_descriptions s);
       ss_proxy := ss_proxy s; ss_subtype := ss_subtype s |}.

  Definition ia_tagged (i : interaction X) : interaction X :=
    {| ia_info := info_tagged (ia_info i); ia_forms := ia_forms i;
       ia_uri := option_map (mmap ds_tagged) (ia_uri i); ia_other := ia_other i |}.

  Definition property_tagged (a : property X) : property X :=
    {| pa_ia := ia_tagged (pa_ia a); pa_ds := ds_tagged (pa_ds a);
       pa_observable := pa_observable a; pa_other := pa_other a |}.

  Definition action_tagged (a : action X) : action X :=
    {| aa_ia := ia_tagged (aa_ia a); aa_input := option_map ds_tagged (aa_input a);
       aa_output := option_map ds_tagged (aa_output a);
       aa_safe := aa_safe a; aa_idempotent := aa_idempotent a; aa_synchronous := aa_synchronous a;
       aa_other := aa_other a |}.

  Definition event_tagged (e : event X) : event X :=
    {| ea_ia := ia_tagged (ea_ia e); ea_subscription := option_map ds_tagged (ea_subscription e);
       ea_data := option_map ds_tagged (ea_data e);
       ea_data_response := option_map ds_tagged (ea_data_response e);
       ea_cancellation := option_map ds_tagged (ea_cancellation e); ea_other := ea_other e |}.

  Definition link_tagged (l : link) : link :=
    {| l_href := l_href l; l_type := l_type l; l_rel := l_rel l; l_anchor := l_anchor l;
       l_sizes := l_sizes l; l_hreflang := option_map (map (retag TG)) (l_hreflang l) |}.

  (** ** Tags of the parts *)

  Definition sec_tag (c : security_scheme) (s : string) : Prop :=
    exists m, ss_descriptions c = Some m /\ In s (mkeys m).
  Definition uri_tag (m : amap dsx) (s : string) : Prop :=
    exists k d, In (k, d) m /\ ds_tag d s.
  Definition ia_tag (i : interaction X) (s : string) : Prop :=
    info_tag (ia_info i) s \/ uri_tag (olist (ia_uri i)) s.
  Definition ods_tag (o : option dsx) (s : string) : Prop := exists d, o = Some d /\ ds_tag d s.
  Definition property_tag (a : property X) (s : string) : Prop := ia_tag (pa_ia a) s \/ ds_tag (pa_ds a) s.
  Definition action_tag (a : action X) (s : string) : Prop :=
    ia_tag (aa_ia a) s \/ ods_tag (aa_input a) s \/ ods_tag (aa_output a) s.
  Definition event_tag (a : event X) (s : string) : Prop :=
    ia_tag (ea_ia a) s \/ ods_tag (ea_subscription a) s \/ ods_tag (ea_data a) s
    \/ ods_tag (ea_cancellation a) s \/ ods_tag (ea_data_response a) s.

  (** ** Conversions of the parts *)

  Lemma conv_sec c : conv TG (sec_tag c) (sec_tagged c) (sec_build E ord c).
  Proof.
    unfold sec_build.
    apply conv_bind with (T1 := sec_tag c) (T2 := fun _ => False)
      (a := option_map ml_tagged (ss_descriptions c)); [|apply conv_ret; auto|tauto].
    apply conv_ropt with (T := fun m s => In s (mkeys m)). intros m _. apply conv_ml_build; auto.
  Qed.

  Lemma conv_uri (m : amap dsx) :
    msorted m -> (forall k d, In (k, d) m -> ds_wf d) ->
    conv TG (uri_tag m) (mmap ds_tagged m)
      (map_build ord (@ds_build (pty (x_ds X)) (pty (x_as X)) (pty (x_os X)) ord TG) m).
  Proof.
    intros Hs Hw. apply conv_map_build with (T := fun d s => ds_tag d s); auto.
    intros k d Hin. apply conv_ds; eauto.
  Qed.

  Lemma conv_ia i (s : ia_b X) :
    ib_wf s -> conv TG (ia_tag (ia_of i s)) (ia_tagged (ia_of i s)) (ia_build E ord i s).
  Proof.
    intros [Hs Hw]. unfold ia_build.
    apply conv_bind with (T1 := info_tag i) (T2 := uri_tag (ib_uri s)) (a := info_tagged i);
      [apply conv_info; auto| |].
    - apply conv_bind with (T1 := uri_tag (ib_uri s)) (T2 := fun _ => False)
        (a := option_map (mmap ds_tagged) (nonempty (ib_uri s))); [|apply conv_ret; auto|tauto].
      unfold ia_uri_build.
      eapply conv_ext; [|apply conv_ropt with (T := fun m s => uri_tag m s)].
      + intros t. split.
        * intros (m & Em & Ht). apply nonempty_Some in Em as [<- _]. auto.
        * intros Ht. exists (ib_uri s). split; auto. destruct (ib_uri s); auto.
          destruct Ht as (k & d & [] & _).
      + intros m Em. apply nonempty_Some in Em as [<- _]. apply conv_uri; auto.
    - intros t. unfold ia_tag. simpl. rewrite olist_nonempty. tauto.
  Qed.

  Lemma conv_ods (o : option dsx) :
    o_wf o ->
    conv TG (ods_tag o) (option_map ds_tagged o)
      (ropt (@ds_build (pty (x_ds X)) (pty (x_as X)) (pty (x_os X)) ord TG) o).
  Proof.
    intros Hw. apply conv_ropt with (T := fun d s => ds_tag d s). intros d ->. apply conv_ds; auto.
  Qed.

  Lemma conv_seq A B (T1 T2 : string -> Prop) (a : A) r (b : B) f :
    conv TG T1 a r -> conv TG T2 b (f a) -> conv TG (fun s => T1 s \/ T2 s) b (rbind r f).
  Proof. intros H1 H2. eapply conv_bind; eauto. tauto. Qed.

  Lemma conv_last A B (T : string -> Prop) (a : A) r (g : A -> B) :
    conv TG T a r -> conv TG T (g a) (rbind r (fun x => Ok (g x))).
  Proof.
    intros H. eapply conv_bind; [exact H|apply conv_ret with (T := fun _ => False); auto|tauto].
  Qed.

  Lemma conv_property u :
    up_wf u -> conv TG (property_tag (property_of u)) (property_tagged (property_of u))
                 (property_build E ord u).
  Proof.
    intros [H1 H2]. unfold property_build.
    apply conv_seq with (a := ia_tagged (ia_of (ds_info (up_ds u)) (up_ia u))); [apply conv_ia; auto|].
    apply conv_last with (a := ds_tagged (up_ds u)). apply conv_ds; auto.
  Qed.

  Lemma conv_action a :
    ab_wf a -> conv TG (action_tag (action_of a)) (action_tagged (action_of a)) (action_build E ord a).
  Proof.
    intros (_ & H1 & H2 & H3). unfold action_build.
    apply conv_seq with (a := ia_tagged (ia_of (ab_info a) (ab_ia a))); [apply conv_ia; auto|].
    apply conv_seq with (a := option_map ds_tagged (ab_input a)); [apply conv_ods; auto|].
    apply conv_last with (a := option_map ds_tagged (ab_output a)). apply conv_ods; auto.
  Qed.

  Lemma conv_event a :
    eb_wf a -> conv TG (event_tag (event_of a)) (event_tagged (event_of a)) (event_build E ord a).
  Proof.
    intros (_ & H1 & H2 & H3 & H4 & H5). unfold event_build.
    apply conv_seq with (a := ia_tagged (ia_of (eb_info a) (eb_ia a))); [apply conv_ia; auto|].
    apply conv_seq with (a := option_map ds_tagged (eb_subscription a)); [apply conv_ods; auto|].
    apply conv_seq with (a := option_map ds_tagged (eb_data a)); [apply conv_ods; auto|].
    apply conv_seq with (a := option_map ds_tagged (eb_cancellation a)); [apply conv_ods; auto|].
    apply conv_last with (a := option_map ds_tagged (eb_data_response a)). apply conv_ods; auto.
  Qed.

  (** ** Checks *)

  Lemma uri_aggregates_iff (m : amap dsx) :
    uri_has_aggregates ord m = true <-> exists k d, In (k, d) m /\ is_aggregate d.
  Proof.
    unfold uri_has_aggregates. rewrite existsb_exists. split.
    - intros ([k d] & Hin & H). apply order_In in Hin; auto. exists k, d. split; auto. simpl in H.
      unfold is_aggregate.
      destruct (ds_sub d) as [[]|]; try discriminate; [left|right]; eauto.
    - intros (k & d & Hin & H). exists (k, d). split; [apply order_In; auto|]. simpl.
      destruct H as [(i & mn & mx & o & H)|(p & r & o & H)].
      + replace (ds_sub d) with (Some (SArray i mn mx o)). reflexivity.
      + replace (ds_sub d) with (Some (SObject p r o)). reflexivity.
  Qed.

  Lemma op_thing_iff o : op_thing o = true <-> In o (ops_of CtxThing).
  Proof. split; [destruct o; simpl; (discriminate || tauto)|]. simpl. intuition; subst; reflexivity. Qed.

  Lemma op_allowed_iff t o : op_allowed t o = true <-> In o (ops_of (ctx_of t)).
  Proof.
    split; [destruct t, o; simpl; (discriminate || tauto)|].
    destruct t; simpl; intuition; subst; reflexivity.
  Qed.

  (** ** The whole *)

  Section State.
    Variable s : tstate E X.
    Notation y := (body_of s).
    Notation Bad := (defect E (body_of s)).
    Hypothesis Hwf : tb_wf s.

    Notation tags T := (forall t, T t -> TG t <> None).

    Lemma bad_tag t : tag_in y t -> TG t = None -> Bad (InvalidLanguageTag t).
    Proof. simpl. auto. Qed.

    (** Definitions of security schemes. *)
    Definition the_defs : amap security_scheme := mof (map (named_of sec_tagged) (tb_secdefs s)).

    Lemma secdefs_loop l : forall pre,
      tb_secdefs s = pre ++ l -> NoDup (map fst pre) ->
      judge (NoDup (secnames y) /\ forall n c, In (n, c) l -> tags (sec_tag c)) Bad the_defs
        (secdefs_build E ord l (mof (map (named_of sec_tagged) pre))).
    Proof.
      induction l as [|[n c] l IH]; intros pre Hl Hn; cbn [secdefs_build].
      - rewrite app_nil_r in Hl. split; [unfold the_defs; rewrite Hl; auto|].
        unfold secnames. simpl. rewrite Hl. split; [auto|intros ? ? []].
      - assert (Hin : In (n, c) (tb_secdefs s)) by (rewrite Hl; apply in_or_app; simpl; auto).
        eapply judge_ext; [|eapply judge_bind with (a := sec_tagged c)
          (OK2 := NoDup (secnames y) /\ forall n' c', In (n', c') l -> tags (sec_tag c'))].
        + intros (H1 & H2 & H3). split; [exact H2|]. intros n' c' [Ec|Hc]; [inversion Ec; subst; exact H1|].
          eapply H3; eauto.
        + apply judge_conv with (T := sec_tag c); [apply conv_sec|].
          intros t (m & Em & Ht). apply bad_tag. eapply tag_map; [eapply lm_security|]; eauto.
        + intros _. destruct (mhas n (mof (map (named_of sec_tagged) pre))) eqn:Em.
          * apply mhas_mof in Em. rewrite map_fst_named in Em. simpl. unfold secnames; simpl. rewrite Hl, map_app.
            apply twice_pre. auto.
          * apply mhas_mof_false in Em. rewrite map_fst_named in Em.
            specialize (IH (pre ++ [(n, c)])). rewrite (map_app (named_of sec_tagged)) in IH.
            change (map (named_of sec_tagged) [(n, c)]) with [(n, sec_tagged c)] in IH.
            rewrite mof_snoc in IH. apply IH.
            -- rewrite <- app_assoc. auto.
            -- rewrite map_app. simpl. apply NoDup_Add with (a := n) (l := map fst pre); [|auto].
               replace (map fst pre) with (map fst pre ++ []) at 1 by apply app_nil_r.
               apply Add_app.
    Qed.

    Lemma secdefs_judge :
      judge (NoDup (secnames y) /\ forall n c, In (n, c) (tb_secdefs s) -> tags (sec_tag c)) Bad the_defs
        (secdefs_build E ord (tb_secdefs s) []).
    Proof. apply (@secdefs_loop (tb_secdefs s) []); [reflexivity|constructor]. Qed.

    Lemma mhas_defs n : mhas n the_defs = true <-> In n (secnames y).
    Proof. unfold the_defs. rewrite mhas_mof, map_fst_named. reflexivity. Qed.

    Lemma mhas_defs_false n : mhas n the_defs = false <-> ~ In n (secnames y).
    Proof. rewrite <- mhas_defs. destruct (mhas n the_defs); split; congruence || tauto. Qed.

    (** Combinations. *)
    Lemma combo_names_In c n : In n (combo_names c) <-> combined c n.
    Proof.
      unfold combo_names, combined.
      destruct (ss_subtype c) as [[| |[l|l]|ln|q ln|b|k|oa|ln]|sc d] eqn:Es; split;
        try (intros []; fail); try (intros (l0 & Hin & [H|H]); discriminate);
        try (intros Hin; exists l; auto; fail);
        intros (l0 & Hin & [H|H]); inversion H; subst; auto.
    Qed.

    Definition combos_ok : Prop :=
      forall k c n, In (k, c) (y_secdefs y) -> combined c n -> In n (secnames y).

    Lemma combos_judge :
      NoDup (secnames y) -> judge combos_ok Bad tt (check_combos ord the_defs).
    Proof.
      intros Hn. unfold check_combos.
      assert (Hin : forall n, In n (flat_map (fun kv => combo_names (snd kv)) (ord the_defs)) <->
                exists k c, In (k, c) (y_secdefs y) /\ combined c n).
      { intros n. rewrite in_flat_map. split.
        - intros ([k c'] & Hk & Hc). apply order_In in Hk; auto. apply In_mof in Hk.
          apply in_map_iff in Hk as ([k0 c] & Ek & Hk). inversion Ek; subst.
          exists k, c. split; auto. apply combo_names_In. exact Hc.
        - intros (k & c & Hk & Hc). exists (k, sec_tagged c). split.
          + apply order_In; auto. apply In_mof_iff.
            * rewrite map_fst_named. exact Hn.
            * apply in_map_iff. exists (k, c). split; auto.
          + apply combo_names_In in Hc. exact Hc. }
      eapply judge_ext; [|apply judge_each with (OK := fun n => In n (secnames y))].
      - intros H k c n Hk Hc. apply H, Hin. eauto.
      - intros n Hn'. apply Hin in Hn' as (k & c & Hk & Hc).
        destruct (mhas n the_defs) eqn:Em; simpl.
        + split; auto. apply mhas_defs; auto.
        + right. exists k, c. split; [|split]; auto. apply mhas_defs_false; auto.
    Qed.

    (** Forms. *)
    Definition form_sec (f : form X) : Prop :=
      forall l n, f_security f = Some l -> In n l -> In n (secnames y).
    Definition form_ops c (f : form X) : Prop :=
      forall l o, f_op f = OpCustom l -> In o l -> In o (ops_of c).
    Definition form_resp (f : form X) : Prop :=
      forall l r n, f_additional f = Some l -> In r l -> ar_schema r = Some n ->
        In n (map fst (y_schemas y)).

    Lemma security_judge c f :
      form_at y c f -> judge (form_sec f) Bad tt (check_security the_defs (f_security f)).
    Proof.
      intros Hf. unfold check_security, form_sec. destruct (f_security f) as [l|] eqn:El.
      - eapply judge_ext; [|apply judge_each with (OK := fun n => In n (secnames y))].
        + intros H l' n E' Hn. inversion E'; subst; auto.
        + intros n Hn. destruct (mhas n the_defs) eqn:Em; simpl.
          * split; auto. apply mhas_defs; auto.
          * exists c, f, l. split; [|split; [|split]]; auto. apply mhas_defs_false; auto.
      - split; auto. discriminate.
    Qed.

    Lemma ops_judge c f allowed l :
      form_at y c f -> f_op f = OpCustom l ->
      (forall o, allowed o = true <-> In o (ops_of c)) ->
      judge (form_ops c f) Bad tt (check_ops c allowed l).
    Proof.
      intros Hf El Ha. unfold check_ops.
      destruct (find (fun o => negb (allowed o)) l) as [o|] eqn:Ef; simpl.
      - apply find_some in Ef as [Hin Ho]. exists f, l. split; [|split; [|split]]; auto.
        rewrite <- Ha. destruct (allowed o); [discriminate|congruence].
      - split; auto. intros l' o E' Hin. rewrite El in E'. inversion E'; subst l'.
        apply Ha. apply find_none with (x := o) in Ef; auto. destruct (allowed o); auto; discriminate.
    Qed.

    Definition the_schemas : amap dsx := mmap ds_tagged (tb_schemas s).

    Lemma thing_form_judge f :
      In f (y_forms y) ->
      judge (form_sec f /\ (f_op f <> OpDefault /\ form_ops CtxThing f) /\ form_resp f /\ True) Bad f
        (thing_form_build the_defs the_schemas f).
    Proof.
      intros Hin. assert (Hf : form_at y CtxThing f) by (constructor; auto). unfold thing_form_build.
      apply judge_bind with (a := tt); [eapply security_judge; eauto|intros _].
      apply judge_bind with (a := tt).
      { destruct (f_op f) as [|l] eqn:Eo.
        - simpl. eauto.
        - eapply judge_ext; [|eapply ops_judge; eauto using op_thing_iff]. split; auto. discriminate. }
      intros _. apply judge_bind with (a := tt).
      { eapply judge_ext; [|apply judge_each with (OK := fun r => forall n, ar_schema r = Some n ->
                              In n (map fst (y_schemas y)))].
        - intros H l r n El Hr En. eapply H; eauto. rewrite El. auto.
        - intros r Hr. destruct (ar_schema r) as [n|] eqn:En.
          + destruct (mhas n the_schemas) eqn:Em; simpl.
            * split; auto. intros n' E'. inversion E'; subst. apply mhas_In in Em.
              unfold the_schemas in Em. rewrite mkeys_mmap in Em. exact Em.
            * left. destruct (f_additional f) as [l|] eqn:El; [|destruct Hr].
              exists f, l, r. split; [|split; [|split; [|split]]]; auto.
              intros Hn. assert (Ht : mhas n the_schemas = true); [|congruence].
              apply mhas_In. unfold the_schemas. rewrite mkeys_mmap. exact Hn.
          + simpl. split; auto. discriminate. }
      intros _. apply judge_ret.
    Qed.

    (** Interactions. *)
    Definition ia_ok (k : affordance_type) (i : interaction X) : Prop :=
      (forall f, In f (ia_forms i) -> form_ops (ctx_of k) f /\ form_sec f)
      /\ (forall n d, In (n, d) (olist (ia_uri i)) -> ~ is_aggregate d).

    Lemma ia_judge k n info (ib : ia_b X) :
      affordance y k n (ia_of info ib) ->
      judge (ia_ok k (ia_of info ib)) Bad tt (ia_check ord the_defs k ib).
    Proof.
      intros Ha. unfold ia_check. eapply judge_ext; [|eapply judge_bind with (a := tt)].
      - intros H; exact H.
      - apply judge_each with (OK := fun f => form_ops (ctx_of k) f /\ form_sec f). intros f Hf.
        assert (Hat : form_at y (ctx_of k) f) by (econstructor; eauto).
        unfold check_form. eapply judge_bind with (a := tt); [|intros _; eapply security_judge; eauto].
        destruct (f_op f) as [|l] eqn:Eo.
        + split; auto. intros l o E'. congruence.
        + eapply ops_judge; eauto using op_allowed_iff.
      - intros _. destruct (uri_has_aggregates ord (ib_uri ib)) eqn:Eu; simpl.
        + apply uri_aggregates_iff in Eu as (k' & d & Hin & Hd). exists d. split; auto.
          eapply uri_aff; eauto. simpl. rewrite olist_nonempty. eauto.
        + split; auto. simpl. rewrite olist_nonempty. intros n' d Hin Hd.
          assert (uri_has_aggregates ord (ib_uri ib) = true); [|congruence].
          apply uri_aggregates_iff. eauto.
    Qed.

    Lemma checks_judge (l : list (option dsx)) :
      (forall d, In (Some d) l -> checked_schema y d) ->
      judge (forall d, In (Some d) l -> all_accepted d) Bad tt
        (rfor_each (fun o => match o with Some d => check ord d | None => Ok tt end) l).
    Proof.
      intros Hl. eapply judge_ext; [|apply judge_each with
        (OK := fun o => forall d, o = Some d -> all_accepted d)].
      - intros H d Hin. eapply H; eauto.
      - intros [d|] Hin; [|simpl; split; auto; discriminate].
        destruct (check ord d) as [[]|e] eqn:Ec; simpl.
        + split; auto. intros d' E'. inversion E'; subst. apply check_ok in Ec; auto.
        + apply check_err in Ec as (e' & s' & Hs & Es & Hd); auto.
          assert (Hb : exists d e' s, checked_schema y d /\ sub_ds e' d /\ ds_sub e' = Some s
                          /\ bounds_defect e s).
          { exists d, e', s'. split; [|split; [|split]]; auto. }
          destruct e; simpl in *; auto; destruct Hd.
    Qed.

    Lemma affordances_loop A B (k : affordance_type) (get_ia : A -> ia_b X) get_ds
        (OKi OKd OKt : A -> Prop) (g : A -> B) bld (full l : list (string * A)) : forall pre,
      full = pre ++ l -> NoDup (map fst pre) ->
      (forall n, twice n (map fst full) -> Bad (DuplicatedAffordance k n)) ->
      (forall n a, In (n, a) full -> judge (OKi a) Bad tt (ia_check ord the_defs k (get_ia a))) ->
      (forall n a, In (n, a) full -> judge (OKd a) Bad tt
         (rfor_each (fun o => match o with Some d => check ord d | None => Ok tt end) (get_ds a))) ->
      (forall n a, In (n, a) full -> judge (OKt a) Bad (g a) (bld a)) ->
      judge (NoDup (map fst full) /\ forall n a, In (n, a) l -> OKi a /\ OKd a /\ OKt a) Bad
        (mof (map (named_of g) full))
        (affordances_fold ord the_defs k get_ia get_ds bld l (mof (map (named_of g) pre))).
    Proof.
      induction l as [|[n a] l IH]; intros pre Hl Hn Htw Hi Hd Ht; cbn [affordances_fold].
      - rewrite app_nil_r in Hl. subst full. split; auto. split; auto. intros ? ? [].
      - assert (Hin : In (n, a) full) by (rewrite Hl; apply in_or_app; simpl; auto).
        eapply judge_ext with (OK := OKi a /\ OKd a /\ OKt a /\ NoDup (map fst full)
                                     /\ forall n a, In (n, a) l -> OKi a /\ OKd a /\ OKt a).
        { intros (H1 & H2 & H3 & H4 & H5). split; [exact H4|]. intros n' a' [Ea|Ha].
          - inversion Ea; subst; auto.
          - eapply H5; eauto. }
        eapply judge_bind with (a := tt); [eapply Hi; eauto|intros _].
        eapply judge_bind with (a := tt); [eapply Hd; eauto|intros _].
        destruct (mhas n (mof (map (named_of g) pre))) eqn:Em.
        + apply mhas_mof in Em. rewrite map_fst_named in Em. simpl. apply Htw. rewrite Hl, map_app.
          apply twice_pre. auto.
        + apply mhas_mof_false in Em. rewrite map_fst_named in Em.
          eapply judge_bind with (a := g a); [eapply Ht; eauto|intros _].
          specialize (IH (pre ++ [(n, a)])). rewrite (map_app (named_of g)) in IH.
          change (map (named_of g) [(n, a)]) with [(n, g a)] in IH.
          rewrite mof_snoc in IH. apply IH; auto.
          * rewrite <- app_assoc. auto.
          * rewrite map_app. simpl. apply NoDup_Add with (a := n) (l := map fst pre); [|auto].
            replace (map fst pre) with (map fst pre ++ []) at 1 by apply app_nil_r.
            apply Add_app.
    Qed.

    Definition the_map {A B} (g : A -> B) (l : list (string * A)) : option (amap B) :=
      option_map (fun l => mof (map (named_of g) l)) (nonempty l).

    Lemma affordances_judge A B (k : affordance_type) (get_ia : A -> ia_b X) get_ds
        (OKi OKd OKt : A -> Prop) (g : A -> B) bld (full : list (string * A)) :
      (forall n, twice n (map fst full) -> Bad (DuplicatedAffordance k n)) ->
      (forall n a, In (n, a) full -> judge (OKi a) Bad tt (ia_check ord the_defs k (get_ia a))) ->
      (forall n a, In (n, a) full -> judge (OKd a) Bad tt
         (rfor_each (fun o => match o with Some d => check ord d | None => Ok tt end) (get_ds a))) ->
      (forall n a, In (n, a) full -> judge (OKt a) Bad (g a) (bld a)) ->
      judge (NoDup (map fst full) /\ forall n a, In (n, a) full -> OKi a /\ OKd a /\ OKt a) Bad
        (the_map g full)
        (affordances_build ord the_defs k get_ia get_ds bld full).
    Proof.
      intros Htw Hi Hd Ht. unfold affordances_build, the_map.
      destruct full as [|a full].
      - split; auto. split; [constructor|intros ? ? []].
      - simpl nonempty. simpl option_map.
        eapply judge_ext; [|eapply judge_bind; [|intros _; apply judge_ret]].
        + intros [H _]; exact H.
        + apply (@affordances_loop A B k get_ia get_ds OKi OKd OKt g bld (a :: full) (a :: full) []);
            auto. constructor.
    Qed.

    (** Links. *)
    Definition link_ok (l : link) : Prop := forall z, l_sizes l = Some z -> l_rel l = Some "icon".
    Definition link_tag (l : link) (t : string) : Prop := exists hs, l_hreflang l = Some hs /\ In t hs.

    Lemma nonempty_map A B (f : A -> B) l : nonempty (map f l) = option_map (map f) (nonempty l).
    Proof. destruct l; reflexivity. Qed.

    Lemma link_judge l :
      In l (olist (tb_links s)) ->
      judge (link_ok (link_of l) /\ tags (link_tag (link_of l))) Bad (link_tagged (link_of l)) (link_build E l).
    Proof.
      intros Hin. assert (Hy : In (link_of l) (y_links y)) by (apply in_map; auto).
      pose proof (tw_links Hwf _ Hin) as Hh. unfold link_build.
      destruct (lb_href l) as [h|] eqn:Eh; [|congruence].
      destruct (match lb_sizes l with Some _ => _ | None => _ end) eqn:Eb.
      - simpl. exists (link_of l). simpl. destruct (lb_sizes l) as [z|]; [|discriminate].
        exists z. split; [|split]; auto. intros E'. rewrite E' in Eb. discriminate.
      - assert (Hok : link_ok (link_of l)).
        { intros z Ez. simpl in Ez. rewrite Ez in Eb. simpl.
          destruct (lb_rel l) as [r|]; [|discriminate]. destruct (String.eqb_spec r "icon"); [subst; auto|discriminate]. }
        eapply judge_ext with (OK := (forall t, (exists k, In k (lb_hreflang l) /\ k = t) -> TG t <> None) /\ True).
        { intros [H _]. split; auto. intros t (hs & Ehs & Ht). apply H. simpl in Ehs.
          apply nonempty_Some in Ehs as [<- _]. eauto. }
        eapply judge_bind with (a := map (retag TG) (lb_hreflang l)).
        + apply judge_conv with (T := fun t => exists k, In k (lb_hreflang l) /\ k = t).
          * apply conv_rmap_all with (T := fun k t => k = t). intros k _. apply conv_tag.
          * intros t (k & Hk & <-). apply bad_tag. apply tag_link with (l := link_of l) (hs := lb_hreflang l); auto.
            simpl. destruct (lb_hreflang l); [destruct Hk|reflexivity].
        + intros _. split; auto. unfold link_tagged, link_of. simpl. rewrite Eh, nonempty_map. reflexivity.
    Qed.

    (** Context. *)
    Definition context_json (c : context) : json :=
      match c with
      | CtxSimple t => JStr t
      | CtxMap m => JObj (mof (map (fun kv => (fst kv, JStr (snd kv))) (ord m)))
      end.

    Definition the_context : json :=
      match tb_context s with
      | [CtxSimple t] => JStr t
      | l => JArr (map context_json l)
      end.

    Lemma context_judge : judge True Bad the_context (context_build ord (tb_context s)).
    Proof.
      destruct (tw_context Hwf) as [cs Ec]. unfold the_context, context_build. rewrite Ec.
      destruct cs; simpl; auto.
    Qed.

    (** ** The result *)

    Definition thing_of : thing E X :=
      {| t_context := the_context; t_id := tb_id s; t_attype := tb_attype s; t_title := tb_title s;
         t_titles := option_map ml_tagged (tb_titles s); t_description := tb_description s;
         t_descriptions := option_map ml_tagged (tb_descriptions s);
         t_version := tb_version s; t_created := tb_created s; t_modified := tb_modified s;
         t_support := tb_support s; t_base := tb_base s;
         t_properties := the_map (fun u => property_tagged (property_of u)) (tb_properties s);
         t_actions := the_map (fun u => action_tagged (action_of u)) (tb_actions s);
         t_events := the_map (fun u => event_tagged (event_of u)) (tb_events s);
         t_links := option_map (map (fun l => link_tagged (link_of l))) (tb_links s);
         t_forms := tb_forms s; t_security := tb_security s;
         t_secdefs := the_defs; t_uri := option_map (mmap ds_tagged) (tb_uri s);
         t_profile := nonempty (tb_profile s);
         t_schemas := nonempty the_schemas; t_other := tb_other s |}.

    Lemma aff_p n u : In (n, u) (tb_properties s) -> In (n, property_of u) (y_properties y).
    Proof. intros H. simpl. apply in_map_iff. exists (n, u). auto. Qed.
    Lemma aff_a n u : In (n, u) (tb_actions s) -> In (n, action_of u) (y_actions y).
    Proof. intros H. simpl. apply in_map_iff. exists (n, u). auto. Qed.
    Lemma aff_e n u : In (n, u) (tb_events s) -> In (n, event_of u) (y_events y).
    Proof. intros H. simpl. apply in_map_iff. exists (n, u). auto. Qed.

    Lemma uri_tag_in k n i t :
      affordance y k n i -> ia_tag i t -> tag_in y t.
    Proof.
      intros Ha [(m & Hm & Ht)|(k' & d & Hin & (m & Hm & Ht))].
      - eapply tag_map; [eapply lm_affordance|]; eauto.
      - eapply tag_map; [eapply lm_schema|]; eauto. apply in_uri. eapply uri_aff; eauto.
    Qed.

    Lemma checked_tag_in d t : checked_schema y d -> ds_tag d t -> tag_in y t.
    Proof.
      intros Hc (m & Hm & Ht). eapply tag_map; [eapply lm_schema|]; eauto. apply in_checked; auto.
    Qed.

    Definition tagged_ok {A} (T : A -> string -> Prop) (a : A) : Prop := tags (T a).

    Lemma tbuild_steps :
      judge ((NoDup (secnames y) /\ forall n c, In (n, c) (tb_secdefs s) -> tags (sec_tag c))
             /\ combos_ok
             /\ tags (uri_tag (tb_schemas s))
             /\ (forall fs, tb_forms s = Some fs -> forall f, In f fs ->
                   form_sec f /\ (f_op f <> OpDefault /\ form_ops CtxThing f) /\ form_resp f /\ True)
             /\ True
             /\ (forall n d, In (n, d) (y_uris y) -> ~ is_aggregate d)
             /\ (forall m, tb_uri s = Some m -> tags (uri_tag m))
             /\ (NoDup (map fst (tb_properties s)) /\ forall n u, In (n, u) (tb_properties s) ->
                   ia_ok AProperty (ia_of (ds_info (up_ds u)) (up_ia u))
                   /\ (forall d, In (Some d) [Some (up_ds u)] -> all_accepted d)
                   /\ tags (property_tag (property_of u)))
             /\ (NoDup (map fst (tb_actions s)) /\ forall n u, In (n, u) (tb_actions s) ->
                   ia_ok AAction (ia_of (ab_info u) (ab_ia u))
                   /\ (forall d, In (Some d) [ab_input u; ab_output u] -> all_accepted d)
                   /\ tags (action_tag (action_of u)))
             /\ (NoDup (map fst (tb_events s)) /\ forall n u, In (n, u) (tb_events s) ->
                   ia_ok AEvent (ia_of (eb_info u) (eb_ia u))
                   /\ (forall d, In (Some d) [eb_subscription u; eb_data u; eb_cancellation u] -> all_accepted d)
                   /\ tags (event_tag (event_of u)))
             /\ (forall ls, tb_links s = Some ls -> forall l, In l ls ->
                   link_ok (link_of l) /\ tags (link_tag (link_of l)))
             /\ (forall m, tb_titles s = Some m -> tags (fun t => In t (mkeys m)))
             /\ (forall m, tb_descriptions s = Some m -> tags (fun t => In t (mkeys m)))
             /\ True)
        Bad thing_of (tbuild ord s).
    Proof.
      unfold tbuild.
      apply judge_bind with (a := the_defs); [apply secdefs_judge|intros [Hsec _]].
      apply judge_bind with (a := tt); [apply combos_judge; auto|intros _].
      apply judge_bind with (a := the_schemas).
      { apply judge_conv with (T := uri_tag (tb_schemas s)).
        - destruct (tw_schemas Hwf). apply conv_uri; auto.
        - intros t (k & d & Hin & (m & Hm & Ht)). apply bad_tag. eapply tag_map; [eapply lm_schema|]; eauto.
          eapply in_definitions; eauto. }
      intros _. apply judge_bind with (a := option_map (map (fun f => f)) (tb_forms s)).
      { apply judge_opt with (OK := fun fs => forall f, In f fs ->
          form_sec f /\ (f_op f <> OpDefault /\ form_ops CtxThing f) /\ form_resp f /\ True).
        intros fs Efs. apply judge_map with (g := fun f => f). intros f Hf. apply thing_form_judge.
        simpl. rewrite Efs. auto. }
      intros _.
      replace (option_map (map (fun f : form X => f)) (tb_forms s)) with (tb_forms s)
        by (destruct (tb_forms s); simpl; rewrite ?map_id; reflexivity).
      apply judge_bind with (a := the_context); [apply context_judge|intros _].
      apply judge_bind with (a := tt).
      { simpl. destruct (tb_uri s) as [m|] eqn:Em; simpl; [|split; auto].
        destruct (uri_has_aggregates ord m) eqn:Eu; simpl.
        - apply uri_aggregates_iff in Eu as (k & d & Hin & Hd). exists d. split; auto.
          eapply uri_thing. simpl. rewrite Em. eauto.
        - split; auto. intros n d Hin Hd.
          assert (uri_has_aggregates ord m = true); [|congruence]. apply uri_aggregates_iff. eauto. }
      intros _. apply judge_bind with (a := option_map (mmap ds_tagged) (tb_uri s)).
      { apply judge_opt with (OK := fun m => tags (uri_tag m)). intros m Em.
        destruct (tw_uri Hwf Em). apply judge_conv with (T := uri_tag m); [apply conv_uri; auto|].
        intros t (k & d & Hin & (m' & Hm & Ht)). apply bad_tag. eapply tag_map; [eapply lm_schema|]; eauto.
        apply in_uri. eapply uri_thing. simpl. rewrite Em. eauto. }
      intros _. apply judge_bind with (a := the_map (fun u => property_tagged (property_of u)) (tb_properties s)).
      { apply affordances_judge.
        - intros n Hn. simpl. rewrite map_fst_named. auto.
        - intros n u Hin. eapply ia_judge with (n := n). apply aff_p in Hin. apply (aff_property _ _ _ Hin).
        - intros n u Hin. apply aff_p in Hin. apply checks_judge. intros d [Ed|[]]. inversion Ed; subst.
          eapply chk_property; eauto.
        - intros n u Hin. apply judge_conv with (T := property_tag (property_of u)).
          + apply conv_property. eapply (tw_properties Hwf); eauto.
          + apply aff_p in Hin. intros t [Ht|Ht]; apply bad_tag.
            * eapply uri_tag_in; eauto. apply (aff_property _ _ _ Hin).
            * eapply checked_tag_in; eauto. eapply chk_property; eauto. }
      intros _. apply judge_bind with (a := the_map (fun u => action_tagged (action_of u)) (tb_actions s)).
      { apply affordances_judge.
        - intros n Hn. simpl. rewrite map_fst_named. auto.
        - intros n u Hin. eapply ia_judge with (n := n). apply aff_a in Hin. apply (aff_action _ _ _ Hin).
        - intros n u Hin. apply aff_a in Hin. apply checks_judge. intros d [Ed|[Ed|[]]].
          + eapply chk_input; eauto.
          + eapply chk_output; eauto.
        - intros n u Hin. apply judge_conv with (T := action_tag (action_of u)).
          + apply conv_action. eapply (tw_actions Hwf); eauto.
          + apply aff_a in Hin. intros t [Ht|[(d & Ed & Ht)|(d & Ed & Ht)]]; apply bad_tag.
            * eapply uri_tag_in; eauto. apply (aff_action _ _ _ Hin).
            * eapply checked_tag_in; eauto. eapply chk_input; eauto.
            * eapply checked_tag_in; eauto. eapply chk_output; eauto. }
      intros _. apply judge_bind with (a := the_map (fun u => event_tagged (event_of u)) (tb_events s)).
      { apply affordances_judge.
        - intros n Hn. simpl. rewrite map_fst_named. auto.
        - intros n u Hin. eapply ia_judge with (n := n). apply aff_e in Hin. apply (aff_event _ _ _ Hin).
        - intros n u Hin. apply aff_e in Hin. apply checks_judge. intros d [Ed|[Ed|[Ed|[]]]].
          + eapply chk_subscription; eauto.
          + eapply chk_data; eauto.
          + eapply chk_cancellation; eauto.
        - intros n u Hin. apply judge_conv with (T := event_tag (event_of u)).
          + apply conv_event. eapply (tw_events Hwf); eauto.
          + apply aff_e in Hin.
            intros t [Ht|[(d & Ed & Ht)|[(d & Ed & Ht)|[(d & Ed & Ht)|(d & Ed & (m & Hm & Ht))]]]]; apply bad_tag.
            * eapply uri_tag_in; eauto. apply (aff_event _ _ _ Hin).
            * eapply checked_tag_in; eauto. eapply chk_subscription; eauto.
            * eapply checked_tag_in; eauto. eapply chk_data; eauto.
            * eapply checked_tag_in; eauto. eapply chk_cancellation; eauto.
            * eapply tag_map; [eapply lm_schema|]; eauto. eapply in_response; eauto. }
      intros _. apply judge_bind with (a := option_map (map (fun l => link_tagged (link_of l))) (tb_links s)).
      { apply judge_opt with (OK := fun ls => forall l, In l ls ->
          link_ok (link_of l) /\ tags (link_tag (link_of l))).
        intros ls Els. apply judge_map with (g := fun l => link_tagged (link_of l)). intros l Hl.
        apply link_judge. rewrite Els. auto. }
      intros _. apply judge_bind with (a := option_map ml_tagged (tb_titles s)).
      { apply judge_opt with (OK := fun m => tags (fun t => In t (mkeys m))). intros m Em.
        apply judge_conv with (T := fun t => In t (mkeys m)); [apply conv_ml_build; auto|].
        intros t Ht. apply bad_tag. eapply tag_map; [eapply lm_title|]; eauto. simpl. rewrite Em. auto. }
      intros _. apply judge_bind with (a := option_map ml_tagged (tb_descriptions s)).
      { apply judge_opt with (OK := fun m => tags (fun t => In t (mkeys m))). intros m Em.
        apply judge_conv with (T := fun t => In t (mkeys m)); [apply conv_ml_build; auto|].
        intros t Ht. apply bad_tag. eapply tag_map; [eapply lm_description|]; eauto. simpl. rewrite Em. auto. }
      intros _. split; auto.
    Qed.
  End State.
End Build.
