(** * Documents and Things with the shape of Thing Descriptions, and some without *)

From Coq Require Import String Bool ZArith Lia List.
From Coq Require Import Floats.SpecFloat.
From Verif Require Import Base MinMax Json Serde Types DsBuilder Builder HList Ser De Protocol Samples SampleFacts Spec SpecThing
  SpecSerde SpecExt SpecDoc SpecMember SpecTyped SpecEqual SpecArgs SpecShape SerdeFacts ExtFacts ProtocolFacts MemberFacts
  CleanFacts ExtTypedFacts SerdeSamples DocSamples SerdeMore ExchangeMore ExactFacts BuiltFacts BuiltSamples ConformFacts ReadsFacts.
Import ListNotations.
Set Implicit Arguments.
Local Open Scope string_scope.
Local Open Scope list_scope.

(** ** What survives has no gaps but possibly its version *)

Section Survive.
  Variable E : env.
  Variable X : exts.
  Variable V : xvalues X.

  Lemma schema_ok_full d : schema_ok E V d -> schema_full d.
  Proof.
    intros H e He n x Hn Hx. destruct (H e He) as (_ & _ & _ & _ & Hs & _). specialize (Hs _ Hn).
    destruct Hs as (H1 & H2 & H3). unfold number_in in Hx.
    destruct Hx as [Q|[Q|[Q|[Q|Q]]]]; [apply (H3 _ Q)|apply (H1 _ Q)|apply (H1 _ Q)|apply (H2 _ Q)|apply (H2 _ Q)].
  Qed.

  Lemma ok_full custom (t : thing E X) : thing_ok V custom t -> (forall v, t_version t = Some v -> v_model v <> None) ->
    thing_full t.
  Proof.
    intros (_ & _ & _ & _ & _ & Hp & Ha & He & _ & Hf & _ & Hu & Hs & _) Hv.
    assert (forall i, interaction_ok E V i -> interaction_full i) as Hi.
    { intros i (_ & H1 & H2 & _). split.
      - intros f Hin. rewrite Forall_forall in H1. apply (H1 f Hin).
      - intros m k d Hm Hin. apply schema_ok_full. eapply (proj2 (H2 _ Hm)); eauto. }
    assert (forall o : option (dsx X), all_some (schema_ok E V) o -> opt_full o) as Ho.
    { intros o H d Hd. apply schema_ok_full, H, Hd. }
    repeat split.
    - exact Hv.
    - destruct (Hp _ H) as [_ G]. destruct (G _ _ H0) as (G1 & _). apply Hi, G1; auto.
    - destruct (Hp _ H) as [_ G]. destruct (G _ _ H0) as (G1 & _). eapply Hi, G1; eauto.
    - destruct (Hp _ H) as [_ G]. destruct (G _ _ H0) as (_ & G1 & _). apply schema_ok_full, G1.
    - destruct (Ha _ H) as [_ G]. destruct (G _ _ H0) as (G1 & _). apply Hi, G1; auto.
    - destruct (Ha _ H) as [_ G]. destruct (G _ _ H0) as (G1 & _). eapply Hi, G1; eauto.
    - destruct (Ha _ H) as [_ G]. apply Ho. apply (G _ _ H0).
    - destruct (Ha _ H) as [_ G]. apply Ho. apply (G _ _ H0).
    - destruct (He _ H) as [_ G]. destruct (G _ _ H0) as (G1 & _). apply Hi, G1; auto.
    - destruct (He _ H) as [_ G]. destruct (G _ _ H0) as (G1 & _). eapply Hi, G1; eauto.
    - destruct (He _ H) as [_ G]. apply Ho. apply (G _ _ H0).
    - destruct (He _ H) as [_ G]. apply Ho. apply (G _ _ H0).
    - destruct (He _ H) as [_ G]. apply Ho. apply (G _ _ H0).
    - destruct (He _ H) as [_ G]. apply Ho. apply (G _ _ H0).
    - intros l f Hl Hin. specialize (Hf _ Hl). rewrite Forall_forall in Hf. apply (Hf f Hin).
    - intros m k d Hm Hin. apply schema_ok_full. eapply (proj2 (Hu _ Hm)); eauto.
    - intros m k d Hm Hin. apply schema_ok_full. eapply (proj2 (Hs _ Hm)); eauto.
  Qed.

  Lemma ok_conforms K (T : xvalues X) mk custom (t : thing E X) j :
    exts_sound K T V -> json_writer mk -> thing_typed T t -> schemes_own t ->
    thing_ok V custom t -> (forall v, t_version t = Some v -> v_model v <> None) ->
    s_thing mk t = Some j -> conforms E (Object PThing) j.
  Proof.
    intros HS Hw Ht Hso Hok Hv Hj.
    refine (proj2 (thing_conf Hw (es_clean HS) (es_apart HS) Ht Hso _ Hj) _).
    - split; apply Hok.
    - apply full_gaps. eapply ok_full; eauto.
  Qed.
End Survive.

Lemma thing_shape E X K (T V : xvalues X) : exts_sound K T V ->
  forall mk (t : thing E X) j, json_writer mk -> thing_typed T t -> schemes_own t -> dates_readable t ->
  s_thing mk t = Some j -> (conforms E (Object PThing) j <-> no_gaps t).
Proof. intros HS mk t j Hw. apply (thing_conf Hw (es_clean HS) (es_apart HS)). Qed.

Lemma survivor_shape E X K (T V : xvalues X) : exts_sound K T V ->
  forall mk (t : thing E X) j, json_writer mk -> thing_typed T t -> schemes_own t ->
  thing_ok V distinct t -> (forall v, t_version t = Some v -> v_model v <> None) ->
  s_thing mk t = Some j -> conforms E (Object PThing) j.
Proof. intros HS mk t j Hw Ht Hs. apply (ok_conforms HS Hw Ht Hs). Qed.

(** ** A Thing that conforms *)

Lemma sensor_typed : thing_typed http_typed the_sensor.
Proof.
  eapply built_typed; [exact id_order_ok|exact (proj1 sensor_built)|exact sample_tags|exact sensor_args_typed].
Qed.

Lemma sensor_own : schemes_own the_sensor.
Proof.
  intros k s n data Hin Hs. cbn in Hin. repeat destruct Hin as [[= <- <-]|Hin]; try destruct Hin; cbn in Hs; try discriminate Hs.
  injection Hs as <- <-. eexists. split; [left; reflexivity|]. split.
  - intros F. apply smem_In in F. discriminate F.
  - intros x [<-|[]] F. apply smem_In in F. discriminate F.
Qed.

Lemma sensor_dates : dates_readable the_sensor.
Proof. split; intros ? [=]. Qed.

Lemma sensor_ok : thing_ok http_values distinct the_sensor.
Proof.
  apply (thing_value_exact http_sound sample_dates sensor_typed).
  eapply built_value; [exact id_order_ok|exact (proj1 sensor_built)|exact http_sound|exact sample_tags|exact sensor_args_ok].
Qed.

Lemma sensor_no_gaps : no_gaps the_sensor.
Proof. apply full_gaps. eapply ok_full; [exact sensor_ok|]. intros v [=]. Qed.

(** ** Things that do not *)

Definition misshapen (t : thing sample_env http_exts) : Prop :=
  exists j, s_thing mk_value t = Some j /\ ~ conforms sample_env (Object PThing) j.

Lemma gaps_misshapen t : thing_typed http_typed t -> schemes_own t -> dates_readable t -> is_some (s_thing mk_value t) = true ->
  ~ no_gaps t -> misshapen t.
Proof.
  intros Ht Hs Hd Hj Hg. destruct (s_thing mk_value t) as [j|] eqn:Q; [|discriminate]. exists j. split; auto.
  intros Hc. apply Hg. eapply (thing_conf (or_intror eq_refl) http_write_clean http_names_apart); eauto.
Qed.

(** The lamp has a version without a model. *)
Lemma lamp_misshapen : misshapen the_lamp.
Proof.
  apply gaps_misshapen.
  - exact lamp_typed.
  - intros k s n data Hin Hs. cbn in Hin. repeat destruct Hin as [[= <- <-]|Hin]; try destruct Hin; discriminate Hs.
  - split; intros d Hd; [|discriminate Hd]. injection Hd as <-. apply (sample_dates "2022-11-16T10:00:00Z"). reflexivity.
  - reflexivity.
  - intros H. apply (@ng_version _ _ _ H {| v_instance := "1"; v_model := None |}); reflexivity.
Qed.

(** Read from a document with an empty list of operations *)
Definition no_ops : thing sample_env http_exts.
Proof.
  let r := eval vm_compute in
    (match d_thing sample_env http_exts empty_ops with Some t => t | None => the_lamp end) in exact r.
Defined.

Lemma ops_misshapen : d_thing sample_env http_exts empty_ops = Some no_ops /\ misshapen no_ops.
Proof.
  split; [reflexivity|]. apply gaps_misshapen.
  - tthing_tac.
  - intros k s n data [].
  - split; intros d [=].
  - reflexivity.
  - intros H. refine (ng_ops H (c := CtxThing) (f := _) _ _); [apply form_thing; left; reflexivity|reflexivity].
Qed.

Definition unbounded : thing sample_env http_exts.
Proof.
  let r := eval vm_compute in (match run id_order infinite_bound with Some (Ok t) => t | _ => the_lamp end) in exact r.
Defined.

Lemma bound_misshapen : run id_order infinite_bound = Some (Ok unbounded) /\ misshapen unbounded.
Proof.
  split; [reflexivity|]. apply gaps_misshapen.
  - tthing_tac.
  - intros k s n data Hin Hs. cbn in Hin. repeat destruct Hin as [[= <- <-]|Hin]; try destruct Hin; discriminate Hs.
  - split; intros d [=].
  - reflexivity.
  - intros H.
    assert (f64_finite (S754_infinity false) = true) as F; [|discriminate F].
    eapply (ng_numbers H); [apply in_definitions with (n := "s"); left; reflexivity|apply sub_self|reflexivity|].
    right; left; reflexivity.
Qed.

Lemma inv_object E p es : conforms E (Object p) (JObj es) ->
  (forall k, In k (needed p) -> In k (map fst es))
  /\ (forall k j s, In (k, j) es -> assoc_name k (members p) = Some s -> conforms E s j)
  /\ (p = PSecurity -> forall n, In ("scheme", JStr n) es ->
         (forall k, In k (scheme_needed n) -> In k (map fst es))
         /\ forall k j s, In (k, j) es -> assoc_name k (scheme_members n) = Some s -> conforms E s j).
Proof. intros H. inversion H; subst; auto. Qed.

Lemma inv_map E s es k j : conforms E (MapOf s) (JObj es) -> In (k, j) es -> conforms E s j.
Proof. intros H. inversion H; subst; eauto. Qed.

(** A custom scheme named like one of the specification *)
Definition posing_oauth2 : list hop := [TFinish; TSecurity [SCustom "oauth2"; SData (JObj [])]].

Definition the_posing : thing sample_env http_exts.
Proof.
  let r := eval vm_compute in (match run id_order posing_oauth2 with Some (Ok t) => t | _ => the_lamp end) in exact r.
Defined.

Definition posing_doc : json.
Proof.
  let r := eval vm_compute in (match s_thing mk_value the_posing with Some j => j | _ => JNull end) in exact r.
Defined.

Lemma oauth2_misshapen : run id_order posing_oauth2 = Some (Ok the_posing) /\ misshapen the_posing.
Proof.
  split; [reflexivity|]. exists posing_doc. split; [reflexivity|]. intros H.
  unfold posing_doc in H. apply inv_object in H as (_ & H & _).
  specialize (H "securityDefinitions" _ _ (or_intror (or_intror (or_introl eq_refl))) eq_refl).
  eapply inv_map in H; [|left; reflexivity]. apply inv_object in H as (_ & _ & H).
  destruct (H eq_refl "oauth2" (or_introl eq_refl)) as [G _]. specialize (G "flow" (or_introl eq_refl)).
  cbn in G. destruct G as [G|[]]. discriminate G.
Qed.

(** ** Documents that are read *)

Ltac conf_tac :=
  lazymatch goal with
  | |- conforms _ Anything _ => apply cf_any
  | |- conforms _ Text _ => apply cf_text
  | |- conforms _ Flag _ => apply cf_flag
  | |- conforms _ Number (JInt _) => apply cf_int
  | |- conforms _ Number (JFloat _) => apply cf_float
  | |- conforms _ Natural _ => apply cf_natural; lia
  | |- conforms _ (OneOf _) _ => apply cf_one_of; apply smem_In; reflexivity
  | |- conforms _ (ListOf _) _ => apply cf_list; let H := fresh in intros ? H; in_tac H; conf_tac
  | |- conforms _ (OneOrMore _) (JArr _) => apply cf_more; let H := fresh in intros ? H; in_tac H; conf_tac
  | |- conforms _ (OneOrMore _) _ => apply cf_one; conf_tac
  | |- conforms _ (MapOf _) _ =>
      apply cf_map; let H := fresh in intros ? ? H; cbn in H; repeat destruct H as [[= <- <-]|H]; try destruct H; conf_tac
  | |- conforms _ (Object _) _ =>
      apply cf_object;
      [let H := fresh in intros ? H; cbn in H; repeat destruct H as [<-|H]; try destruct H; apply smem_In; reflexivity
      |let H := fresh in let Ha := fresh in intros ? ? ? H Ha; cbn in H; repeat destruct H as [[= <- <-]|H]; try destruct H;
       vm_compute in Ha; first [discriminate Ha | apply some_inj in Ha; subst; conf_tac]
      |first [discriminate
             |let H := fresh in intros _ ? H; cbn in H; repeat destruct H as [[=]|H]; try destruct H; subst;
              (split; [intros ? []|intros ? ? ? ? [=]])]]
  end.

Lemma door_conforms E : conforms E (Object PThing) door.
Proof. unfold door, door_with, door_position, door_form. cbn [app]. conf_tac. Qed.

Ltac nv_tac :=
  lazymatch goal with
  | |- never _ (JObj _) =>
      apply nv_obj;
      [let H := fresh in let F := fresh in intros ? H F; apply smem_In in F; cbn in H;
       repeat destruct H as [<-|H]; try destruct H; discriminate F
      |let H := fresh in intros ? ? H; cbn in H; repeat destruct H as [[= <- <-]|H]; try destruct H; nv_tac]
  | |- never _ (JArr _) => apply nv_arr; let H := fresh in intros ? H; in_tac H; nv_tac
  | |- never _ _ => apply nv_leaf; [intros ? Hx; discriminate Hx|intros ? Hx; discriminate Hx]
  end.

Lemma door_plain : never ("response" :: all_names http_names) door /\ never (all_names coap_names) door.
Proof. unfold door, door_with, door_position, door_form. cbn [app]. split; nv_tac. Qed.

Lemma get_absent k es : ~ In k (map fst es) -> get k es = [].
Proof.
  intros H. destruct (get k es) as [|v l] eqn:Q; auto. exfalso. apply H.
  assert (In v (get k es)) as G by (rewrite Q; left; reflexivity). apply get_In in G. apply in_map_iff. exists (k, v). auto.
Qed.

Lemma opt_absent A k (d : json -> option A) es : ~ In k (map fst es) -> opt k d es = Some None.
Proof. intros H. unfold opt. rewrite get_absent; auto. Qed.

Lemma dflt_absent A k a (d : json -> option A) es : ~ In k (map fst es) -> dflt k a d es = Some a.
Proof. intros H. unfold dflt. rewrite get_absent; auto. Qed.

Ltac optional_tac :=
  let H := fresh in
  intros ? H; cbn [p_de http_form_piece coap_form_piece coap_response_piece mqtt_form_piece];
  repeat (rewrite opt_absent by (intros F; apply (H _ F); cbn; tauto) || rewrite dflt_absent by (intros F; apply (H _ F); cbn; tauto);
          cbn [obind]); discriminate.

Lemma unit_optional L : reads_without unit_piece L.
Proof. intros es _. discriminate. Qed.

Lemma cons_optional p q L L' : reads_without p L -> reads_without q L' -> reads_without (cons_piece p q) (L ++ L').
Proof.
  intros Hp Hq es H. cbn [cons_piece p_de].
  apply bind_reads; [apply Hp|intros a; apply bind_reads; [apply Hq|discriminate]].
  - intros k Hk F. apply (H k Hk). apply in_or_app; auto.
  - intros k Hk F. apply without_keys in Hk. apply (H k Hk). apply in_or_app; auto.
Qed.

Lemma both_optional X X' K K' : exts_optional X K -> exts_optional X' K' ->
  exts_optional (cons_exts X X') (both_names K K').
Proof. intros [] []. constructor; apply cons_optional; assumption. Qed.

Lemma crate_optional :
  exts_optional http_exts http_names
  /\ (exts_optional coap_exts coap_names /\ reads_without (x_er coap_exts) (k_er coap_names))
  /\ (exts_optional mqtt_exts mqtt_names /\ reads_without (x_er mqtt_exts) (k_er mqtt_names))
  /\ forall X X' K K', exts_optional X K -> exts_optional X' K' ->
       exts_optional (cons_exts X X') (both_names K K')
       /\ (reads_without (x_er X) (k_er K) -> reads_without (x_er X') (k_er K') ->
           reads_without (x_er (cons_exts X X')) (k_er (both_names K K'))).
Proof.
  repeat match goal with |- _ /\ _ => split end;
    [constructor|constructor| |constructor| |intros X X' K K' H H'; split; [apply both_optional; auto|apply cons_optional]]; try exact (@unit_optional _).
  - change (reads_without http_form_piece ["htv:methodName"]). optional_tac.
  - change (reads_without coap_form_piece (k_f coap_names)). optional_tac.
  - change (reads_without coap_response_piece (k_er coap_names)). optional_tac.
  - change (reads_without mqtt_form_piece (k_f mqtt_names)). intros es H. unfold mqtt_form_piece. cbn [p_de].
    rewrite dflt_absent by (intros F; apply (H _ F); cbn; tauto). cbn [obind].
    rewrite opt_absent by (intros F; apply (H _ F); cbn; tauto). cbn [obind].
    rewrite opt_absent by (intros F; apply (H _ F); cbn; tauto). cbn [obind].
    rewrite opt_absent by (intros F; apply (H _ F); cbn; tauto). cbn [obind].
    rewrite dflt_absent by (intros F; apply (H _ F); cbn; tauto). discriminate.
Qed.

(** A response without headers *)
Definition answered : json :=
  with_schemes [] [("forms", JArr [JObj [("href", JStr "/x"); ("response", JObj [("contentType", JStr "text/plain")])]])].

Lemma answered_unread :
  conforms sample_env (Object PThing) answered /\ no_repeats answered /\ never (all_names http_names) answered
  /\ d_thing sample_env http_exts answered = None.
Proof.
  unfold answered, with_schemes, minimal. cbn [app]. repeat split; [conf_tac|nr|nv_tac].
Qed.

(** A schema with a type *)
Definition typed_schema : entries :=
  [("type", JStr "array"); ("min_items", JInt 1); ("readOnly", JBool true);
   ("items", JObj [("type", JStr "integer"); ("multipleOf", JInt 5); ("maximum", JInt 100)])].

Lemma typed_schema_fine :
  conforms sample_env (Object PSchema) (JObj typed_schema) /\ no_repeats (JObj typed_schema)
  /\ never (all_names http_names) (JObj typed_schema) /\ in_range typed_schema
  /\ In ("type", JStr "array") typed_schema.
Proof.
  unfold typed_schema. split; [conf_tac|]. split; [nr|]. split; [nv_tac|]. split; [|left; reflexivity]. split.
  - intros k n _ H. cbn in H. repeat destruct H as [[=]|H]; try destruct H. subst. unfold in_u32. lia.
  - intros H. cbn in H. repeat destruct H as [[=]|H]; destruct H.
Qed.

(** A multiple that is no integer: the type is lost. *)
Lemma fraction_loses :
  conforms sample_env (Object PSchema) (JObj [("type", JStr "integer"); ("multipleOf", JFloat (S754_finite false 1 (-1)))])
  /\ option_map (@ds_sub _ _ _) (d_ds sample_env http_exts
        (JObj [("type", JStr "integer"); ("multipleOf", JFloat (S754_finite false 1 (-1)))])) = Some None.
Proof. split; [conf_tac|reflexivity]. Qed.
