(** * Which defaults are written *)

From Coq Require Import String Bool ZArith Permutation Lia List.
From Verif Require Import Base MinMax Json Serde Types Spec SpecSerde SpecMember Ser De SerdeFacts Protocol
  RoundTrip RoundTripDs RoundTripTd RoundTripThing ProtocolFacts NameFacts WrittenFacts SpecExt ExtFacts Samples SpecSpelt SpecThing.
Import ListNotations.
Set Implicit Arguments.
Local Open Scope string_scope.
Local Open Scope list_scope.

Lemma field_iff A mk es es' k (f : A -> json) o : json_writer mk -> mk es = JObj es' -> get k es = otolist (option_map f o) ->
  forall v, In (k, v) es' <-> exists a, o = Some a /\ v = f a.
Proof. exact (@written_field A mk es es' k f o). Qed.

Lemma always_written mk es es' k b : json_writer mk -> mk es = JObj es' -> get k es = [JBool b] -> always_flag es' k b.
Proof.
  intros Hw He Hg v. rewrite (@field_iff _ _ _ _ _ JBool (Some b) Hw He Hg v). split.
  - intros (a & [= <-] & ->). reflexivity.
  - intros ->. exists b. auto.
Qed.

Section Spelt.
  Variable E : env.
  Variable X : exts.
  Variable K : xnames.
  Variable V : xvalues X.
  Variable mk : entries -> json.
  Hypothesis Hw : json_writer mk.
  Hypothesis HX : exts_round_trip K V.
  Hypothesis HK : names_apart K.

  Lemma response_spelt r es : s_add_resp mk r = JObj es -> only_true es "success" (ar_success r).
  Proof.
    intros He v. rewrite (@field_iff _ _ _ _ "success" JBool (if ar_success r then Some true else None) Hw He).
    - destruct (ar_success r); split.
      + intros (a & [= <-] & ->). auto.
      + intros [_ ->]. eauto.
      + intros (a & [=] & _).
      + intros [[=] _].
    - unfold add_resp_es. gets. destruct (ar_success r); reflexivity.
  Qed.

  Lemma version_spelt v es : s_version mk v = JObj es -> forall j, In ("model", j) es <-> j = string_or_null (v_model v).
  Proof.
    intros He j. rewrite (@field_iff _ _ _ _ "model" string_or_null (Some (v_model v)) Hw He).
    - split; [intros (a & [= <-] & ->); reflexivity|]. intros ->. eauto.
    - reflexivity.
  Qed.

  Lemma ds_get_flags d : node_ok E V d ->
    get "readOnly" (ds_es mk d) = [JBool (m_ro (ds_misc d))] /\ get "writeOnly" (ds_es mk d) = [JBool (m_wo (ds_misc d))].
  Proof.
    intros Hd. split; rewrite (@ds_own_get E X K V mk Hw HX HK _ d Hd) by (apply smem_In; reflexivity);
      gets; rewrite info_get_none by reflexivity; unfold misc1_es, misc2_es; gets; reflexivity.
  Qed.

  Lemma schema_spelt d es : schema_ok E V d -> s_ds mk d = JObj es ->
    always_flag es "readOnly" (m_ro (ds_misc d)) /\ always_flag es "writeOnly" (m_wo (ds_misc d)).
  Proof.
    intros Hd He. destruct (ds_get_flags (Hd d (sub_self _))) as [H1 H2].
    split; eapply always_written; [exact Hw|exact He|exact H1|exact Hw|exact He|exact H2].
  Qed.

  Lemma interaction_get_nil i k : v_ia V (ia_other i) -> smem k td_names = true ->
    smem k ("forms" :: "uriVariables" :: info_keys) = false -> get k (interaction_es mk i) = [].
  Proof.
    intros Hv Hk Hn. unfold interaction_es. apply smem_false in Hn.
    rewrite !get_app, get_fld, get_ofld, info_get_none by (apply smem_false; intros F; apply Hn; right; right; exact F).
    rewrite (@ext_get_nil mk Hw _ _ _ _ k (xr_ia HX) (na_ia HK) Hv Hk).
    destruct (String.eqb_spec k "forms") as [->|]; [destruct Hn; left; reflexivity|].
    destruct (String.eqb_spec k "uriVariables") as [->|]; [destruct Hn; right; left; reflexivity|]. reflexivity.
  Qed.

  Lemma property_spelt p es : property_ok E V p -> s_property mk p = JObj es ->
    always_flag es "readOnly" (m_ro (ds_misc (pa_ds p))) /\ always_flag es "writeOnly" (m_wo (ds_misc (pa_ds p))).
  Proof.
    intros ((_ & _ & _ & Hi) & Hd & _ & Hp) He. destruct (ds_get_flags (Hd _ (sub_self _))) as [H1 H2].
    split; (eapply always_written; [exact Hw|exact He|]); unfold property_es; rewrite !get_app, ?H1, ?H2;
      rewrite interaction_get_nil by (auto; reflexivity); rewrite get_ofld;
      rewrite (@ext_get_nil mk Hw _ _ _ _ _ (xr_pa HX) (na_pa HK) Hp) by reflexivity; reflexivity.
  Qed.

  Lemma action_spelt a es : action_ok E V a -> s_action mk a = JObj es ->
    always_flag es "safe" (aa_safe a) /\ always_flag es "idempotent" (aa_idempotent a)
    /\ written_as es "synchronous" JBool (aa_synchronous a).
  Proof.
    intros ((_ & _ & _ & Hi) & _ & _ & Ha) He.
    split; [|split]; [eapply always_written; [exact Hw|exact He|]..|eapply written_field; [exact Hw|exact He|]];
      unfold action_es; gets; rewrite interaction_get_nil by (auto; reflexivity);
      rewrite (@ext_get_nil mk Hw _ _ _ _ _ (xr_aa HX) (na_aa HK) Ha) by reflexivity; gets; reflexivity.
  Qed.

  Lemma names_exist l : Forall2 (fun n o => In (n, o) td_operations) (map op_name l) l.
  Proof. induction l; constructor; auto. apply td_op_name. reflexivity. Qed.

  Lemma names_unique names l : Forall2 (fun n o => In (n, o) td_operations) names l -> names = map op_name l.
  Proof. induction 1 as [|n o names l H _ IH]; [reflexivity|]. apply td_op_name in H. cbn. congruence. Qed.

  Lemma form_spelt f es : v_f V (f_other f) -> s_form mk f = JObj es ->
    forall v, In ("op", v) es <-> ops_written (f_op f) (Some v).
  Proof.
    intros Hv He v. rewrite (@field_iff _ _ _ _ "op" s_ops (match f_op f with OpDefault => None | o => Some o end) Hw He).
    - destruct (f_op f) as [|l]; split.
      + intros (a & [=] & _).
      + inversion 1.
      + intros (a & [= <-] & ->). destruct l as [|o l]; [constructor|].
        cbn [s_ops]. unfold s_list. replace (map s_op (o :: l)) with (map JStr (map op_name (o :: l))) by (rewrite map_map; reflexivity).
        constructor. apply names_exist.
      + intros H. exists (OpCustom l). split; [reflexivity|]. inversion H as [|Q|o l' names Hn]; subst; [reflexivity|].
        rewrite (names_unique Hn), map_map. reflexivity.
    - unfold form_es. gets. rewrite (@ext_get_nil mk Hw _ _ _ _ _ (xr_f HX) (na_f HK) Hv) by reflexivity.
      rewrite app_nil_r. destruct (f_op f); reflexivity.
  Qed.

  Lemma interaction_get_forms i : v_ia V (ia_other i) -> get "forms" (interaction_es mk i) = [JArr (map (s_form mk) (ia_forms i))].
  Proof.
    intros Hv. unfold interaction_es. gets. rewrite info_get_none by reflexivity.
    rewrite (@ext_get_nil mk Hw _ _ _ _ _ (xr_ia HX) (na_ia HK) Hv) by reflexivity. reflexivity.
  Qed.

  Lemma ds_no_forms d : node_ok E V d -> get "forms" (ds_es mk d) = [].
  Proof.
    intros (Hi & Hc & Hd & He & Hs & Ho). rewrite ds_es_eq. gets.
    rewrite (@subo_get_nil _ K V mk Hw HX HK _ "forms" Hs) by (first [apply smem_In; reflexivity|apply smem_false; reflexivity]).
    rewrite (@dsx_get_nil _ K V mk Hw HX HK _ "forms" Ho) by (apply smem_In; reflexivity).
    rewrite info_get_none by reflexivity. unfold misc1_es, misc2_es. gets. reflexivity.
  Qed.

  Lemma forms_spelt :
    (forall p es, property_ok E V p -> s_property mk p = JObj es -> forall v, In ("forms", v) es <-> v = JArr (map (s_form mk) (ia_forms (pa_ia p))))
    /\ (forall a es, action_ok E V a -> s_action mk a = JObj es -> forall v, In ("forms", v) es <-> v = JArr (map (s_form mk) (ia_forms (aa_ia a))))
    /\ (forall e es, event_ok E V e -> s_event mk e = JObj es -> forall v, In ("forms", v) es <-> v = JArr (map (s_form mk) (ia_forms (ea_ia e)))).
  Proof.
    assert (Q : forall es es' (i : list (form X)), mk es = JObj es' -> get "forms" es = [JArr (map (s_form mk) i)] ->
              forall v, In ("forms", v) es' <-> v = JArr (map (s_form mk) i)).
    { intros es es' i He Hg v. rewrite (@field_iff _ _ _ _ _ (fun l => JArr (map (s_form mk) l)) (Some i) Hw He Hg).
      split; [intros (a & [= <-] & ->); reflexivity|]. intros ->. eauto. }
    split; [|split].
    - intros p es ((_ & _ & _ & Hi) & Hd & _ & Hp) He. apply (Q _ _ _ He). unfold property_es. rewrite !get_app, get_ofld, interaction_get_forms by auto.
      rewrite (@ext_get_nil mk Hw _ _ _ _ _ (xr_pa HX) (na_pa HK) Hp) by reflexivity.
      rewrite (@ds_no_forms (pa_ds p)) by (apply Hd; constructor). reflexivity.
    - intros a es ((_ & _ & _ & Hi) & _ & _ & Ha) He. apply (Q _ _ _ He). unfold action_es. gets. rewrite interaction_get_forms by auto.
      rewrite (@ext_get_nil mk Hw _ _ _ _ _ (xr_aa HX) (na_aa HK) Ha) by reflexivity. reflexivity.
    - intros e es ((_ & _ & _ & Hi) & _ & _ & _ & _ & Ha) He. apply (Q _ _ _ He). unfold event_es. gets. rewrite interaction_get_forms by auto.
      rewrite (@ext_get_nil mk Hw _ _ _ _ _ (xr_ea HX) (na_ea HK) Ha) by reflexivity. reflexivity.
  Qed.
End Spelt.

(** ** The bindings *)

Lemma entries_iff A (es : entries) k (f : A -> json) o : get k es = otolist (option_map f o) ->
  forall v, In (k, v) es <-> exists a, o = Some a /\ v = f a.
Proof. intros H. apply (@field_iff A mk_text es es k f o (or_introl eq_refl) eq_refl H). Qed.

Lemma mqtt_spelt mk f :
  only_true (p_ser mqtt_form_piece mk f) "mqv:retain" (mf_retain f)
  /\ forall v, In ("mqv:filter", v) (p_ser mqtt_form_piece mk f) <-> mf_filter f <> [] /\ v = one_or_many JStr (mf_filter f).
Proof.
  destruct f as [r p q t l]. cbn [p_ser mqtt_form_piece mf_retain mf_filter mf_packet mf_qos mf_topic]. split; intros v.
  - rewrite (@entries_iff _ _ "mqv:retain" JBool (if r then Some true else None)).
    + destruct r; split; [intros (a & [= <-] & ->); auto|intros [_ ->]; eauto|intros (a & [=] & _)|intros [[=] _]].
    + gets. destruct r, l; reflexivity.
  - rewrite (@entries_iff _ _ "mqv:filter" (one_or_many JStr) (match l with [] => None | _ => Some l end)).
    + destruct l; split; [intros (a & [=] & _)|intros [F _]; destruct (F eq_refl)|intros (a & [= <-] & ->); split; [discriminate|reflexivity]|].
      intros [_ ->]. eauto.
    + gets. destruct r, l as [|x [|y l]]; reflexivity.
Qed.

Lemma http_spelt mk r v :
  In ("htv:headers", v) (p_ser http_response_piece mk r) <-> hr_headers r <> [] /\ v = JArr (map (s_http_header mk) (hr_headers r)).
Proof.
  destruct r as [l s]. cbn [p_ser http_response_piece hr_headers hr_status].
  rewrite (@entries_iff _ _ "htv:headers" (fun l => JArr (map (s_http_header mk) l)) (match l with [] => None | _ => Some l end)).
  - destruct l; split; [intros (a & [=] & _)|intros [F _]; destruct (F eq_refl)|intros (a & [= <-] & ->); split; [discriminate|reflexivity]|].
    intros [_ ->]. eauto.
  - gets. destruct l; reflexivity.
Qed.

(** ** An example *)

(** A form with one operation. *)
Definition blink_form : form http_exts :=
  {| f_op := OpCustom [InvokeAction]; f_href := "/blink"; f_ctype := None; f_ccoding := None; f_subprotocol := None; f_security := None;
     f_scopes := None; f_response := None; f_additional := None; f_other := ({| hf_method := None |} : pty (x_f http_exts)) |}.

(** An action with that form, neither safe nor idempotent. *)
Definition blink : action http_exts :=
  {| aa_ia := {| ia_info := no_info; ia_forms := [blink_form]; ia_uri := None; ia_other := (tt : pty (x_ia http_exts)) |};
     aa_input := None; aa_output := None; aa_safe := false; aa_idempotent := false; aa_synchronous := None;
     aa_other := (tt : pty (x_aa http_exts)) |}.

Lemma blink_spelt :
  exts_round_trip http_names http_values /\ names_apart http_names /\ json_writer mk_text /\ action_ok sample_env http_values blink
  /\ s_action mk_text blink
     = JObj [("forms", JArr [JObj [("op", JArr [JStr "invokeaction"]); ("href", JStr "/blink")]]); ("safe", JBool false); ("idempotent", JBool false)]
  /\ s_add_resp mk_text {| ar_success := false; ar_ctype := None; ar_schema := Some "error" |} = JObj [("schema", JStr "error")]
  /\ s_version mk_text {| v_instance := "1.0.0"; v_model := None |} = JObj [("instance", JStr "1.0.0"); ("model", JNull)].
Proof.
  split; [exact http_exts_round_trip|]. split; [exact http_names_apart|]. split; [left; reflexivity|].
  split; [|split; [reflexivity|split; reflexivity]].
  split; [|split; [intros ? [=]|split; [intros ? [=]|exact I]]].
  split; [intros m [[=]|[=]]|]. split; [|split; [intros ? [=]|exact I]].
  constructor; [|constructor]. split; [discriminate|]. split; [intros ? [=]|exact I].
Qed.
