(** * Things: writing and reading back *)

From Coq Require Import String Bool ZArith Permutation Lia List.
From Verif Require Import Base MinMax Json Serde Types Spec DsFacts SpecSerde Ser De SerdeFacts RoundTrip
  RoundTripDs RoundTripTd.
Import ListNotations.
Set Implicit Arguments.
Local Open Scope string_scope.
Local Open Scope list_scope.

Section Thing.
  Variable E : env.
  Variable X : exts.
  Variable K : xnames.
  Variable V : xvalues X.
  Variable mk : entries -> json.
  Hypothesis Hw : json_writer mk.
  Hypothesis HX : exts_round_trip K V.
  Hypothesis HK : names_apart K.
  Variable custom : string -> entries -> Prop.
  Hypothesis Hcustom : told_apart custom.

  Definition sec_json (s : security_scheme) : json :=
    match s_security mk s with Some j => j | None => JNull end.

  Lemma secdefs_rt m : map_ok (security_ok E custom) m ->
    s_secdefs mk m = Some (s_map mk sec_json m)
    /\ d_map (d_security E) (s_map mk sec_json m) = Some m.
  Proof.
    intros [Hs Hm]. split.
    - unfold s_secdefs, s_map.
      assert (omap_all (fun kv : string * security_scheme =>
                option_map (fun j => (fst kv, j)) (s_security mk (snd kv))) m = Some (mmap sec_json m)) as ->.
      { clear Hs. induction m as [|[k a] m IH]; simpl; auto.
        destruct (security_rt Hw Hcustom (Hm k a (or_introl eq_refl))) as (j & Hj & _).
        unfold sec_json at 1. rewrite Hj. simpl. rewrite IH; auto.
        intros k' a' H. apply (Hm k'). right; auto. }
      reflexivity.
    - apply d_map_rt; auto. intros k a Hin.
      destruct (security_rt Hw Hcustom (Hm k a Hin)) as (j & Hj & Hd & _).
      unfold sec_json. rewrite Hj. auto.
  Qed.

  Definition date_text (o : option (date E)) : option string :=
    match o with Some d => date_fmt E d | None => None end.

  Lemma date_rt k o : all_some (@date_ok E) o ->
    date_es E k o = Some (ofld k JStr (date_text o))
    /\ forall es, get k es = otolist (option_map JStr (date_text o)) -> opt k (d_date E) es = Some o.
  Proof.
    intros Ho. destruct o as [d|]; simpl.
    - destruct (Ho d eq_refl) as (s & Hf & Hp). rewrite Hf. split; [reflexivity|].
      intros es Hg. simpl in Hg. unfold opt. rewrite Hg. simpl. rewrite Hp. reflexivity.
    - split; [reflexivity|]. intros es Hg. unfold opt. simpl in Hg. rewrite Hg. reflexivity.
  Qed.

  Definition thing_own (t : thing E X) : entries :=
    fld "@context" (ser_value mk (t_context t))
    ++ ofld "id" JStr (t_id t)
    ++ ofld "@type" (s_oom JStr) (t_attype t)
    ++ fld "title" (JStr (t_title t))
    ++ ofld "titles" (s_multilang mk) (t_titles t)
    ++ ofld "description" JStr (t_description t)
    ++ ofld "descriptions" (s_multilang mk) (t_descriptions t)
    ++ ofld "version" (s_version mk) (t_version t)
    ++ ofld "created" JStr (date_text (t_created t))
    ++ ofld "modified" JStr (date_text (t_modified t))
    ++ ofld "support" JStr (t_support t)
    ++ ofld "base" JStr (t_base t)
    ++ ofld "properties" (s_map mk (s_property mk)) (t_properties t)
    ++ ofld "actions" (s_map mk (s_action mk)) (t_actions t)
    ++ ofld "events" (s_map mk (s_event mk)) (t_events t)
    ++ ofld "links" (s_list (s_link mk)) (t_links t)
    ++ ofld "forms" (s_list (s_form mk)) (t_forms t)
    ++ fld "security" (s_oom JStr (t_security t))
    ++ fld "securityDefinitions" (s_map mk sec_json (t_secdefs t))
    ++ ofld "uriVariables" (s_dsmap mk) (t_uri t)
    ++ ofld "profile" (s_oom JStr) (t_profile t)
    ++ ofld "schemaDefinitions" (s_dsmap mk) (t_schemas t).

  Lemma thing_es_eq t : thing_ok V custom t ->
    thing_es mk t = Some (thing_own t ++ p_ser (x_t X) mk (t_other t)).
  Proof.
    intros (_ & _ & _ & Hcr & Hmo & _ & _ & _ & _ & _ & Hsd & _ & _ & _). unfold thing_es.
    rewrite (proj1 (date_rt "created" Hcr)). cbn [obind].
    rewrite (proj1 (date_rt "modified" Hmo)). cbn [obind].
    rewrite (proj1 (secdefs_rt Hsd)). cbn [obind].
    unfold thing_own. rewrite <- !app_assoc. reflexivity.
  Qed.

  Lemma thing_own_within t : within (thing_own t) thing_keys.
  Proof. unfold thing_own, thing_keys. repeat within_step. Qed.

  Theorem thing_rt t : thing_ok V custom t ->
    mk = mk_value \/ (forall ps k p, t_properties t = Some ps -> In (k, p) ps ->
                        ds_info (pa_ds p) = no_info) ->
    exists j, s_thing mk t = Some j /\ d_thing E X j = Some t.
  Proof.
    intros Ht Hm. unfold s_thing. rewrite (thing_es_eq Ht). cbn [option_map].
    eexists. split; [reflexivity|].
    pose proof Ht as (Hcx & Hts & Hds & Hcr & Hmo & Hpr & Hac & Hev & Hli & Hfo & Hsd & Hur & Hsc & Ho).
    destruct (@struct_rt mk (thing_own t) thing_keys _ _ _ _ Hw (thing_own_within t)
                ltac:(apply nodupb_ok; reflexivity) ltac:(apply incl_td; reflexivity)
                (xr_t HX) Ho (na_t HK)) as (es & -> & HG & Hde).
    unfold d_thing, d_flat, thing_body. unfold thing_own in HG.
    dfield ltac:(apply (d_value_rt Hw Hcx)).
    ofield JStr (t_id t) ltac:(apply d_str_rt).
    ofield (s_oom JStr) (t_attype t) ltac:(apply d_oom_str).
    rfield ltac:(apply (d_str_rt (t_title t))).
    ofield (s_multilang mk) (t_titles t) ltac:(apply (multilang_rt Hw); auto).
    ofield JStr (t_description t) ltac:(apply d_str_rt).
    ofield (s_multilang mk) (t_descriptions t) ltac:(apply (multilang_rt Hw); auto).
    ofield (s_version mk) (t_version t) ltac:(apply (version_rt Hw)).
    rewrite (obind_Some _ (a := t_created t)) by (apply (proj2 (date_rt "created" Hcr)); lookup).
    rewrite (obind_Some _ (a := t_modified t)) by (apply (proj2 (date_rt "modified" Hmo)); lookup).
    ofield JStr (t_support t) ltac:(apply d_str_rt).
    ofield JStr (t_base t) ltac:(apply d_str_rt).
    ofield (s_map mk (@s_property X mk)) (t_properties t)
      ltac:(destruct (Hpr _ Ha) as [Hs Hall]; apply d_map_rt; auto; intros k p Hin;
            apply (property_rt Hw HX HK); [eapply Hall; eauto|destruct Hm; eauto]).
    ofield (s_map mk (@s_action X mk)) (t_actions t)
      ltac:(destruct (Hac _ Ha) as [Hs Hall]; apply d_map_rt; auto; intros k p Hin;
            apply (action_rt Hw HX HK); eapply Hall; eauto).
    ofield (s_map mk (@s_event X mk)) (t_events t)
      ltac:(destruct (Hev _ Ha) as [Hs Hall]; apply d_map_rt; auto; intros k p Hin;
            apply (event_rt Hw HX HK); eapply Hall; eauto).
    ofield (s_list (s_link mk)) (t_links t)
      ltac:(apply d_list_rt; intros l Hl; apply (link_rt Hw);
            pose proof (Hli _ Ha) as Hall; rewrite Forall_forall in Hall; auto).
    ofield (s_list (@s_form X mk)) (t_forms t)
      ltac:(apply d_list_rt; intros f Hf; apply (form_rt Hw HX HK);
            pose proof (Hfo _ Ha) as Hall; rewrite Forall_forall in Hall; auto).
    rfield ltac:(apply (d_oom_str (t_security t))).
    rfield ltac:(apply (secdefs_rt Hsd)).
    ofield (@s_dsmap X mk) (t_uri t) ltac:(apply (dsmap_rt Hw HX HK); auto).
    ofield (s_oom JStr) (t_profile t) ltac:(apply d_oom_str).
    ofield (@s_dsmap X mk) (t_schemas t) ltac:(apply (dsmap_rt Hw HX HK); auto).
    rewrite Hde. destruct t; reflexivity.
  Qed.
End Thing.
