(** * What is written under the members of a form, link, schema, affordance, Thing *)

From Coq Require Import String Bool ZArith Permutation Lia List.
From Verif Require Import Base MinMax Json Serde Types SpecSerde SpecMember Ser De SerdeFacts
  RoundTrip RoundTripDs RoundTripTd RoundTripThing ProtocolFacts NameFacts.
Import ListNotations.
Set Implicit Arguments.
Local Open Scope string_scope.
Local Open Scope list_scope.

Lemma written_get mk es es' k : json_writer mk -> mk es = JObj es' -> length (get k es) <= 1 ->
  get k es' = get k es.
Proof.
  intros [->| ->] H Hl; injection H as <-; auto.
  rewrite get_mof. apply lasto_single. auto.
Qed.

Lemma written_field A mk es es' k (f : A -> json) o : json_writer mk -> mk es = JObj es' ->
  get k es = otolist (option_map f o) -> written_as es' k f o.
Proof.
  intros Hw He Hg v. rewrite <- get_In, (@written_get mk es es' k Hw He), Hg by (rewrite Hg; destruct o; simpl; lia).
  destruct o as [a|]; simpl; split.
  - intros [<-|[]]. eauto.
  - intros (a' & [= <-] & ->). auto.
  - intros [].
  - intros (a' & F & _). discriminate.
Qed.

Ltac gets :=
  repeat first [rewrite get_app | rewrite get_fld | rewrite get_ofld | rewrite get_cons]; cbn [String.eqb Ascii.eqb Bool.eqb app]; rewrite ?app_nil_r.

Lemma info_get_attype mk i : get "@type" (info_es mk i) = otolist (option_map (s_oom JStr) (i_attype i)).
Proof. unfold info_es. gets. reflexivity. Qed.

Lemma info_get_none mk i k : smem k info_keys = false -> get k (info_es mk i) = [].
Proof.
  intros H. apply (within_get_nil (@info_within mk i)). apply smem_false. exact H.
Qed.

Section Written.
  Variable E : env.
  Variable X : exts.
  Variable K : xnames.
  Variable V : xvalues X.
  Variable mk : entries -> json.
  Hypothesis Hw : json_writer mk.
  Hypothesis HX : exts_round_trip K V.
  Hypothesis HK : names_apart K.

  Lemma ext_get_nil p L ok a k : round_trips p L ok -> disjoint L td_names -> ok a ->
    smem k td_names = true -> get k (p_ser p mk a) = [].
  Proof.
    intros Hp Hd Ha Hk. eapply piece_get_nil; eauto. intros F. apply smem_In in Hk. apply (Hd k F Hk).
  Qed.

  Lemma form_written f es : v_f V (f_other f) -> s_form mk f = JObj es ->
    written_as es "security" (one_or_many JStr) (f_security f)
    /\ written_as es "scopes" (one_or_many JStr) (f_scopes f)
    /\ written_as es "additionalResponses" (one_or_many (s_add_resp mk)) (f_additional f)
    /\ (absent "op" es <-> f_op f = OpDefault).
  Proof.
    intros Hv He. unfold s_form in He.
    pose proof (fun k => @ext_get_nil _ _ _ _ k (xr_f HX) (na_f HK) Hv) as Hx.
    assert (forall k, smem k td_names = true -> smem k ["op"] = false -> get k (op_es (f_op f)) = []) as Ho.
    { intros k _ Hk. apply (within_get_nil (@op_es_within (f_op f))). apply smem_false. exact Hk. }
    split; [|split; [|split]].
    - eapply written_field; [exact Hw|exact He|]. unfold form_es.
      gets. rewrite Ho, Hx by reflexivity. gets. reflexivity.
    - eapply written_field; [exact Hw|exact He|]. unfold form_es.
      gets. rewrite Ho, Hx by reflexivity. gets. reflexivity.
    - eapply written_field; [exact Hw|exact He|]. unfold form_es.
      gets. rewrite Ho, Hx by reflexivity. gets. reflexivity.
    - assert (get "op" (form_es mk f) = get "op" (op_es (f_op f))) as Hg.
      { unfold form_es. gets. rewrite Hx by reflexivity. apply app_nil_r. }
      unfold absent. rewrite <- get_nil_iff, (@written_get _ _ _ "op" Hw He), Hg.
      + destruct (f_op f) as [|l]; simpl; [tauto|]. split; discriminate.
      + rewrite Hg. destruct (f_op f); simpl; lia.
  Qed.

  Lemma link_written l es : s_link mk l = JObj es ->
    written_as es "hreflang" (one_or_many JStr) (l_hreflang l).
  Proof. intros He. eapply written_field; [exact Hw|exact He|]. unfold link_es. gets. reflexivity. Qed.

  Lemma ds_get_attype d : node_ok E V d ->
    get "@type" (ds_es mk d) = otolist (option_map (s_oom JStr) (i_attype (ds_info d))).
  Proof.
    intros Hd. pose proof (@ds_own_get E X K V mk Hw HX HK "@type" d Hd) as Hg.
    rewrite Hg by (apply smem_In; reflexivity).
    gets. rewrite info_get_attype. unfold misc1_es, misc2_es. gets. reflexivity.
  Qed.

  Lemma ds_written d es : schema_ok E V d -> s_ds mk d = JObj es ->
    written_as es "@type" (one_or_many JStr) (i_attype (ds_info d)).
  Proof.
    intros Hd He. eapply written_field; [exact Hw|exact He|]. apply ds_get_attype. apply Hd. constructor.
  Qed.

  Lemma interaction_get_attype i : v_ia V (ia_other i) ->
    get "@type" (interaction_es mk i) = otolist (option_map (s_oom JStr) (i_attype (ia_info i))).
  Proof.
    intros Hv. unfold interaction_es. gets. rewrite info_get_attype.
    rewrite (@ext_get_nil _ _ _ _ "@type" (xr_ia HX) (na_ia HK) Hv) by reflexivity.
    rewrite !app_nil_r. reflexivity.
  Qed.

  Lemma action_written a es : action_ok E V a -> s_action mk a = JObj es ->
    written_as es "@type" (one_or_many JStr) (i_attype (ia_info (aa_ia a))).
  Proof.
    intros ((_ & _ & _ & Hi) & _ & _ & Ha) He. eapply written_field; [exact Hw|exact He|]. unfold action_es.
    gets. rewrite interaction_get_attype by auto.
    rewrite (@ext_get_nil _ _ _ _ "@type" (xr_aa HX) (na_aa HK) Ha) by reflexivity.
    rewrite !app_nil_r. reflexivity.
  Qed.

  Lemma event_written e es : event_ok E V e -> s_event mk e = JObj es ->
    written_as es "@type" (one_or_many JStr) (i_attype (ia_info (ea_ia e))).
  Proof.
    intros ((_ & _ & _ & Hi) & _ & _ & _ & _ & Ha) He. eapply written_field; [exact Hw|exact He|]. unfold event_es.
    gets. rewrite interaction_get_attype by auto.
    rewrite (@ext_get_nil _ _ _ _ "@type" (xr_ea HX) (na_ea HK) Ha) by reflexivity.
    rewrite !app_nil_r. reflexivity.
  Qed.

  (** A property writes its types twice (as affordance and as schema), with the same value. *)
  Lemma property_written p es : property_ok E V p -> s_property mk p = JObj es ->
    written_as es "@type" (one_or_many JStr) (i_attype (ds_info (pa_ds p))).
  Proof.
    intros ((_ & _ & _ & Hi) & Hd & Hie & Hp) He.
    assert (get "@type" (property_es mk p)
            = otolist (option_map (s_oom JStr) (i_attype (ds_info (pa_ds p))))
              ++ otolist (option_map (s_oom JStr) (i_attype (ds_info (pa_ds p))))) as Hg.
    { unfold property_es. gets. rewrite interaction_get_attype by auto.
      rewrite ds_get_attype by (apply Hd; constructor).
      rewrite (@ext_get_nil _ _ _ _ "@type" (xr_pa HX) (na_pa HK) Hp) by reflexivity.
      rewrite Hie, !app_nil_r. reflexivity. }
    destruct Hw as [->| ->]; injection He as <-; intros v; rewrite <- get_In.
    - rewrite Hg. destruct (i_attype _); simpl; split; intros H.
      + destruct H as [H|[H|[]]]; eauto.
      + destruct H as (a & [= <-] & ->). auto.
      + destruct H.
      + destruct H as (a & F & _). discriminate.
    - rewrite get_mof, Hg. destruct (i_attype _); simpl; split; intros H.
      + destruct H as [H|[]]; eauto.
      + destruct H as (a & [= <-] & ->). auto.
      + destruct H.
      + destruct H as (a & F & _). discriminate.
  Qed.

  Lemma date_get k k' (o : option (date E)) es : date_es E k o = Some es -> String.eqb k' k = false ->
    get k' es = [].
  Proof.
    intros H Hk. destruct o; simpl in H.
    - destruct (date_fmt E d); simpl in H; [|discriminate]. injection H as <-. rewrite get_fld, Hk. auto.
    - injection H as <-. reflexivity.
  Qed.

  Lemma thing_written (t : thing E X) es : v_t V (t_other t) -> s_thing mk t = Some (JObj es) ->
    written_as es "@type" (one_or_many JStr) (t_attype t)
    /\ written_as es "profile" (one_or_many JStr) (t_profile t)
    /\ written_as es "security" (one_or_many JStr) (Some (t_security t)).
  Proof.
    intros Hv He. unfold s_thing in He.
    destruct (thing_es mk t) as [es0|] eqn:Hes; [|discriminate]. injection He as He.
    unfold thing_es in Hes.
    apply obind_inv in Hes as (c & Hc & Hes). apply obind_inv in Hes as (m & Hm & Hes).
    apply obind_inv in Hes as (sd & _ & Hes). injection Hes as <-.
    pose proof (fun k => @ext_get_nil _ _ _ _ k (xr_t HX) (na_t HK) Hv) as Hx.
    split; [|split]; (eapply written_field; [exact Hw|exact He|]); gets;
      rewrite (@date_get _ _ _ _ Hc), (@date_get _ _ _ _ Hm), Hx by reflexivity; gets; reflexivity.
  Qed.

  Lemma ser_value_keys es k : ~ In k (map fst es) ->
    get k (map (fun kv => (fst kv, ser_value mk (snd kv))) es) = [].
  Proof. intros H. apply get_nil_iff. rewrite map_map. simpl. exact H. Qed.

  Lemma security_written s es : s_security mk s = Some (JObj es) ->
    (forall scheme data, ss_subtype s = Unknown scheme (JObj data) -> absent "@type" data) ->
    written_as es "@type" (one_or_many JStr) (ss_attype s)
    /\ (forall o, ss_subtype s = Known (KOAuth2 o) -> written_as es "scopes" (one_or_many JStr) (oa_scopes o))
    /\ (forall l, ss_subtype s = Known (KCombo (COneOf l)) ->
        written_as es "oneOf" (one_or_many JStr) (Some l))
    /\ (forall l, ss_subtype s = Known (KCombo (CAllOf l)) ->
        written_as es "allOf" (one_or_many JStr) (Some l)).
  Proof.
    intros He Hu. unfold s_security in He.
    destruct (security_es mk s) as [es0|] eqn:Hes; [|discriminate]. injection He as He.
    unfold security_es in Hes. apply obind_inv in Hes as (sub & Hsub & Hes). injection Hes as <-.
    split; [|split; [|split]].
    - eapply written_field; [exact Hw|exact He|]. gets.
      assert (get "@type" sub = []) as ->.
      { destruct (ss_subtype s) as [k|scheme data]; simpl in Hsub.
        - injection Hsub as <-. apply get_nil_iff. intros F. apply known_names in F.
          revert F. apply smem_false. reflexivity.
        - apply obind_inv in Hsub as (d & Hd & Hsub). injection Hsub as <-.
          rewrite get_cons. cbn [String.eqb Ascii.eqb Bool.eqb].
          destruct data; try discriminate Hd; injection Hd as <-; [reflexivity|].
          apply ser_value_keys. exact (Hu _ _ eq_refl). }
      apply app_nil_r.
    - intros o Ho. rewrite Ho in Hsub. injection Hsub as <-.
      eapply written_field; [exact Hw|exact He|]. gets. reflexivity.
    - intros l Ho. rewrite Ho in Hsub. injection Hsub as <-.
      eapply written_field; [exact Hw|exact He|]. gets. reflexivity.
    - intros l Ho. rewrite Ho in Hsub. injection Hsub as <-.
      eapply written_field; [exact Hw|exact He|]. gets. reflexivity.
  Qed.
End Written.

(** ** Member names of what is written: what is read back has them *)

Section NamesWritten.
  Variable E : env.
  Variable X : exts.
  Variable K : xnames.
  Variable V : xvalues X.
  Variable mk : entries -> json.
  Hypothesis Hw : json_writer mk.
  Hypothesis HX : exts_round_trip K V.
  Hypothesis HK : names_apart K.

  Lemma ds_written_names d es : schema_ok E V d -> s_ds mk d = JObj es -> schema_named es d.
  Proof.
    intros Hd He. destruct (ds_rt Hw HX HK Hd) as [H _]. rewrite He in H. eapply ds_names_ok; eauto.
  Qed.

  Lemma security_written_names s es : security_ok E own_name s -> s_security mk s = Some (JObj es) ->
    security_named es s.
  Proof.
    intros Hs He. destruct (security_rt Hw own_name_apart Hs) as (j & Hj & Hd & _).
    rewrite He in Hj. injection Hj as <-. eapply security_names; eauto.
  Qed.

  Lemma link_written_names l es : link_ok E l -> s_link mk l = JObj es -> link_named es l.
  Proof.
    intros Hl He. pose proof (link_rt Hw Hl) as H. rewrite He in H. eapply link_names; eauto.
  Qed.

  Lemma add_resp_written_names r es : s_add_resp mk r = JObj es -> add_resp_named es r.
  Proof.
    intros He. destruct (add_resp_rt Hw r) as [H _]. rewrite He in H. apply add_resp_names; auto.
  Qed.

  Lemma version_written_names v es : s_version mk v = JObj es -> version_named es v.
  Proof.
    intros He. destruct (version_rt Hw v) as [H _]. rewrite He in H. apply version_names; auto.
  Qed.

  Lemma exp_resp_written_names (r : exp_resp (pty (x_er X))) es : v_er V (er_other r) ->
    s_exp_resp X mk r = JObj es -> has_str es "contentType" (er_ctype r).
  Proof.
    intros Hr He. destruct (exp_resp_rt Hw HX HK r Hr) as [H _]. rewrite He in H. eapply exp_resp_names; eauto.
  Qed.

  Lemma form_written_names f es : form_ok V f -> s_form mk f = JObj es -> form_named es f.
  Proof.
    intros Hf He. pose proof (form_rt Hw HX HK Hf) as H. rewrite He in H. eapply form_names; eauto.
  Qed.

  Lemma action_written_names a es : action_ok E V a -> s_action mk a = JObj es -> action_named es a.
  Proof.
    intros Hf He. pose proof (action_rt Hw HX HK Hf) as H. rewrite He in H. eapply action_names; eauto.
  Qed.

  Lemma event_written_names e es : event_ok E V e -> s_event mk e = JObj es -> event_named es e.
  Proof.
    intros Hf He. pose proof (event_rt Hw HX HK Hf) as H. rewrite He in H. eapply event_names; eauto.
  Qed.
End NamesWritten.

Lemma property_written_names E X K (V : xvalues X) p es : exts_round_trip K V -> names_apart K ->
  property_ok E V p -> s_property mk_value p = JObj es -> property_named es p.
Proof.
  intros HX HK Hp He. pose proof (property_rt (or_intror eq_refl) HX HK Hp (or_introl eq_refl)) as H.
  rewrite He in H. eapply property_names; eauto.
Qed.

Lemma thing_written_names E X K (V : xvalues X) (t : thing E X) es : exts_round_trip K V -> names_apart K ->
  thing_ok V own_name t -> s_thing mk_value t = Some (JObj es) -> thing_named es t.
Proof.
  intros HX HK Hp He.
  destruct (thing_rt (or_intror eq_refl) HX HK own_name_apart Hp (or_introl eq_refl)) as (j & Hj & Hd).
  rewrite He in Hj. injection Hj as <-. eapply thing_names; eauto.
Qed.
