(** * Proofs about the two ways of writing *)

From Coq Require Import String Bool ZArith List.
From Verif Require Import Base MinMax Json Serde Types HList Protocol Ser De SpecSerde SpecDoc SerdeFacts RoundTripDs
  CanonFacts SpecText.
Import ListNotations.
Set Implicit Arguments.
Local Open Scope string_scope.
Local Open Scope list_scope.

Lemma cmap_app es es' : cmap (es ++ es') = cmap es ++ cmap es'.
Proof. apply map_app. Qed.

Lemma ser_value_text j : ser_value mk_text j = j.
Proof.
  induction j using json_ind'; cbn; try reflexivity.
  - f_equal. rewrite <- (map_id l) at 2. apply map_ext_in. exact H.
  - unfold mk_text. f_equal. rewrite <- (map_id es) at 2. apply map_ext_in. intros [k v] Hin. cbn.
    f_equal. exact (H k v Hin).
Qed.

Lemma ser_value_value j : ser_value mk_value j = canon j.
Proof.
  induction j using json_ind'; cbn; try reflexivity.
  - f_equal. apply map_ext_in. exact H.
  - unfold mk_value. do 2 f_equal. apply map_ext_in. intros [k v] Hin. cbn. f_equal. exact (H k v Hin).
Qed.

Lemma mk_alike es : mk_value (cmap es) = canon (mk_text es).
Proof. symmetry. apply canon_obj. Qed.

Lemma mk_alike' es es' : es' = cmap es -> mk_value es' = canon (mk_text es).
Proof. intros ->. apply mk_alike. Qed.

(** Members, one by one *)
Lemma al_app a b c d : a = cmap b -> c = cmap d -> a ++ c = cmap (b ++ d).
Proof. intros -> ->. symmetry. apply cmap_app. Qed.

Lemma al_nil : ([] : entries) = cmap [].
Proof. reflexivity. Qed.

Lemma al_fld k j j' : j = canon j' -> fld k j = cmap (fld k j').
Proof. intros ->. reflexivity. Qed.

Lemma al_ofld A k (g f : A -> json) o : (forall a, o = Some a -> g a = canon (f a)) -> ofld k g o = cmap (ofld k f o).
Proof. intros H. destruct o as [a|]; cbn; [|reflexivity]. rewrite (H a eq_refl). reflexivity. Qed.

Lemma al_list A (g f : A -> json) l : (forall a, In a l -> g a = canon (f a)) -> s_list g l = canon (s_list f l).
Proof. intros H. unfold s_list. cbn. f_equal. rewrite map_map. apply map_ext_in. exact H. Qed.

Lemma al_oom A (g f : A -> json) l : (forall a, In a l -> g a = canon (f a)) -> s_oom g l = canon (s_oom f l).
Proof.
  intros H. destruct l as [|a [|b l]].
  - reflexivity.
  - apply H. left. reflexivity.
  - apply al_list. exact H.
Qed.

Lemma al_map A (g f : A -> json) m :
  (forall k a, In (k, a) m -> g a = canon (f a)) -> s_map mk_value g m = canon (s_map mk_text f m).
Proof.
  intros H. apply mk_alike'. unfold mmap, cmap. rewrite map_map. apply map_ext_in. intros [k a] Hin. cbn.
  rewrite (H k a Hin). reflexivity.
Qed.

Lemma al_str_oom l : s_oom JStr l = canon (s_oom JStr l).
Proof. apply al_oom. reflexivity. Qed.

Lemma al_multilang m : s_multilang mk_value m = canon (s_multilang mk_text m).
Proof. apply al_map. reflexivity. Qed.

Ltac al :=
  repeat first
    [ apply al_app
    | apply al_fld; reflexivity
    | apply al_ofld; reflexivity
    | apply al_ofld; intros; apply al_str_oom
    | apply al_ofld; intros; apply al_multilang
    | apply al_fld; apply al_str_oom
    | exact al_nil ].

Lemma al_value j : ser_value mk_value j = canon (ser_value mk_text j).
Proof. rewrite ser_value_text. apply ser_value_value. Qed.

Lemma al_info i : info_es mk_value i = cmap (info_es mk_text i).
Proof. unfold info_es. al. Qed.

Lemma al_misc1 m : misc1_es mk_value m = cmap (misc1_es mk_text m).
Proof. unfold misc1_es. al; apply al_ofld; intros; apply al_value. Qed.

Lemma al_misc2 m : misc2_es mk_value m = cmap (misc2_es mk_text m).
Proof. unfold misc2_es. al. apply al_ofld; intros; apply al_list; intros; apply al_value. Qed.

Lemma al_f64 x : s_f64 x = canon (s_f64 x).
Proof. unfold s_f64. destruct (f64_finite x); reflexivity. Qed.

Lemma al_number n : number_es n = cmap (number_es n).
Proof.
  unfold number_es. apply al_app; [|apply al_app].
  - destruct (n_max n) as [[]|]; [apply al_fld, al_f64|apply al_fld, al_f64|reflexivity].
  - destruct (n_min n) as [[]|]; [apply al_fld, al_f64|apply al_fld, al_f64|reflexivity].
  - apply al_ofld. intros. apply al_f64.
Qed.

Lemma al_integer n : integer_es n = cmap (integer_es n).
Proof.
  unfold integer_es. apply al_app; [|apply al_app].
  - destruct (z_max n) as [[]|]; reflexivity.
  - destruct (z_min n) as [[]|]; reflexivity.
  - al.
Qed.

Lemma al_string s : string_es s = cmap (string_es s).
Proof. unfold string_es. al. Qed.

Lemma al_known k : known_es k = cmap (known_es k).
Proof. destruct k as [| |[]| | | | | |]; cbn [known_es]; unfold loc_name_es; al; apply al_fld, al_list; reflexivity. Qed.

Lemma al_subtype s : subtype_es mk_value s = option_map cmap (subtype_es mk_text s).
Proof.
  destruct s as [k|scheme data]; cbn [subtype_es].
  - cbn. f_equal. apply al_known.
  - destruct data; cbn; try reflexivity. do 2 f_equal. unfold cmap. rewrite map_map. apply map_ext.
    intros [k v]. cbn. rewrite al_value. reflexivity.
Qed.

Lemma al_security s : s_security mk_value s = option_map canon (s_security mk_text s).
Proof.
  unfold s_security, security_es. rewrite al_subtype. destruct (subtype_es mk_text (ss_subtype s)) as [es|]; cbn; [|reflexivity].
  f_equal. apply mk_alike'. al. reflexivity.
Qed.

Lemma al_add_resp r : s_add_resp mk_value r = canon (s_add_resp mk_text r).
Proof. apply mk_alike'. unfold add_resp_es. al. destruct (ar_success r); reflexivity. Qed.

Lemma al_link l : s_link mk_value l = canon (s_link mk_text l).
Proof. apply mk_alike'. unfold link_es. al. Qed.

Lemma al_version v : s_version mk_value v = canon (s_version mk_text v).
Proof. apply mk_alike'. unfold version_es. al. destruct (v_model v); reflexivity. Qed.

Lemma al_ops o : s_ops o = canon (s_ops o).
Proof. destruct o as [|[|a l]]; try reflexivity. apply (@al_list form_op s_op s_op). reflexivity. Qed.

Section Things.
  Variable E : env.
  Variable X : exts.
  Hypothesis HX : exts_write_alike X.

  Lemma al_exp_resp r : s_exp_resp X mk_value r = canon (s_exp_resp X mk_text r).
  Proof. apply mk_alike'. unfold exp_resp_es. al. apply (wa_er HX). Qed.

  Lemma al_form f : s_form (X := X) mk_value f = canon (s_form mk_text f).
  Proof.
    apply mk_alike'. unfold form_es. al.
    - unfold op_es. destruct (f_op f) as [|l]; [reflexivity|]. apply al_fld, al_ops.
    - apply al_ofld. intros. apply al_exp_resp.
    - apply al_ofld. intros. apply al_oom. intros. apply al_add_resp.
    - apply (wa_f HX).
  Qed.

  Lemma al_ds_es d : ds_es (X := X) mk_value d = cmap (ds_es mk_text d).
  Proof.
    induction d as [i m o s x IHo IHs] using ds_ind'.
    rewrite !ds_es_eq. cbn [ds_info ds_misc ds_one_of ds_sub ds_other].
    apply al_app; [apply al_info|]. apply al_app; [apply al_misc1|].
    apply al_app; [apply al_ofld; intros l El; apply al_list; intros d Hd; apply mk_alike'; eapply IHo; eauto|].
    apply al_app; [apply al_misc2|]. apply al_app; [|apply (wa_ds HX)].
    destruct s as [s|]; [|reflexivity]. specialize (IHs s). cbn [subo_es].
    destruct s as [items mn mx a| |n|n|ps r a|t|].
    - rewrite !sub_array_eq. al; [|apply (wa_as HX)].
      apply al_ofld. intros [d|l] Ei; subst items; cbn [boxed_js sub_children] in *.
      + apply mk_alike'. apply IHs; [reflexivity|left; reflexivity].
      + apply (@al_list _ (fun d => mk_value (ds_es mk_value d)) (fun d => mk_text (ds_es mk_text d))).
        intros d Hd. apply mk_alike'. apply IHs; [reflexivity|exact Hd].
    - reflexivity.
    - cbn [sub_es]. apply al_app; [apply al_fld; reflexivity|apply al_number].
    - cbn [sub_es]. apply al_app; [apply al_fld; reflexivity|apply al_integer].
    - rewrite !sub_object_eq. al.
      + apply al_ofld. intros m' Em. subst ps. apply al_map. intros k d Hd. apply mk_alike'.
        apply IHs; [reflexivity|]. apply in_map_iff. exists (k, d). split; [reflexivity|exact Hd].
      + apply al_ofld. intros l _. apply al_list. reflexivity.
      + apply (wa_os HX).
    - cbn [sub_es]. apply al_app; [apply al_fld; reflexivity|apply al_string].
    - reflexivity.
  Qed.

  Lemma al_ds d : s_ds (X := X) mk_value d = canon (s_ds mk_text d).
  Proof. apply mk_alike', al_ds_es. Qed.

  Lemma al_dsmap m : s_dsmap (X := X) mk_value m = canon (s_dsmap mk_text m).
  Proof. apply al_map. intros. apply al_ds. Qed.

  Lemma al_interaction i : interaction_es (X := X) mk_value i = cmap (interaction_es mk_text i).
  Proof.
    unfold interaction_es. apply al_app; [apply al_info|]. apply al_app; [apply al_fld, al_list; intros; apply al_form|].
    apply al_app; [apply al_ofld; intros; apply al_dsmap|apply (wa_ia HX)].
  Qed.

  Lemma al_property p : s_property (X := X) mk_value p = canon (s_property mk_text p).
  Proof.
    apply mk_alike'. unfold property_es. apply al_app; [apply al_interaction|].
    apply al_app; [apply al_ds_es|]. al. apply (wa_pa HX).
  Qed.

  Lemma al_action a : s_action (X := X) mk_value a = canon (s_action mk_text a).
  Proof.
    apply mk_alike'. unfold action_es. apply al_app; [apply al_interaction|].
    apply al_app; [apply al_ofld; intros; apply al_ds|]. apply al_app; [apply al_ofld; intros; apply al_ds|].
    al. apply (wa_aa HX).
  Qed.

  Lemma al_event e : s_event (X := X) mk_value e = canon (s_event mk_text e).
  Proof.
    apply mk_alike'. unfold event_es. apply al_app; [apply al_interaction|].
    apply al_app; [apply al_ofld; intros; apply al_ds|]. apply al_app; [apply al_ofld; intros; apply al_ds|].
    apply al_app; [apply al_ofld; intros; apply al_ds|]. apply al_app; [apply al_ofld; intros; apply al_ds|].
    apply (wa_ea HX).
  Qed.

  Lemma al_secdefs m : s_secdefs mk_value m = option_map canon (s_secdefs mk_text m).
  Proof.
    unfold s_secdefs.
    assert (H : omap_all (fun kv => option_map (fun j => (fst kv, j)) (s_security mk_value (snd kv))) m
                = option_map cmap (omap_all (fun kv => option_map (fun j => (fst kv, j)) (s_security mk_text (snd kv))) m)).
    { induction m as [|[k s] m IH]; cbn; [reflexivity|]. rewrite al_security, IH. clear IH.
      destruct (s_security mk_text s) as [j|]; cbn; [|reflexivity].
      destruct (omap_all _ m) as [es|]; reflexivity. }
    rewrite H. clear H. destruct (omap_all _ m) as [es|]; cbn; [|reflexivity]. reflexivity.
  Qed.

  Lemma al_date k (o : option (date E)) es : date_es E k o = Some es -> es = cmap es.
  Proof.
    destruct o as [d|]; cbn; [|intros [= <-]; reflexivity].
    destruct (date_fmt E d); cbn; [intros [= <-]; reflexivity|discriminate].
  Qed.

  Lemma al_thing (t : thing E X) : s_thing mk_value t = option_map canon (s_thing mk_text t).
  Proof.
    unfold s_thing, thing_es. rewrite al_secdefs.
    destruct (date_es E "created" _) as [c|] eqn:Ec; cbn [obind option_map]; [|reflexivity].
    destruct (date_es E "modified" _) as [m|] eqn:Em; cbn [obind option_map]; [|reflexivity].
    destruct (s_secdefs mk_text _) as [s|]; cbn [obind option_map]; [|reflexivity].
    f_equal. apply mk_alike'.
    al; try reflexivity; try apply al_value.
    all: try (apply al_fld; first [apply al_value|reflexivity]).
    all: try (apply al_ofld; intros; first [apply al_version|apply al_dsmap|apply al_map; intros; first [apply al_property|apply al_action|apply al_event]|apply al_list; intros; first [apply al_link|apply al_form]]).
    all: first [exact (al_date _ _ Ec)|exact (al_date _ _ Em)|apply (wa_t HX)].
  Qed.
End Things.

(** ** When there is something to write *)

Section Writable.
  Variable E : env.
  Variable X : exts.

  Lemma date_some k (o : option (date E)) :
    (exists es, date_es E k o = Some es) <-> forall d, o = Some d -> exists s, date_fmt E d = Some s.
  Proof.
    destruct o as [d|]; cbn.
    - split.
      + intros [es H] d' [= <-]. destruct (date_fmt E d) as [s|]; [exists s; reflexivity|discriminate].
      + intros H. destruct (H d eq_refl) as [s Hs]. exists (fld k (JStr s)). rewrite Hs. reflexivity.
    - split; [discriminate|]. intros _. exists []. reflexivity.
  Qed.

  Lemma security_some mk s :
    (exists j, s_security mk s = Some j) <-> forall scheme data, ss_subtype s = Unknown scheme data -> flattens data.
  Proof.
    unfold s_security, security_es. destruct (ss_subtype s) as [k|scheme data]; cbn.
    - split; [discriminate|]. intros _. eexists. reflexivity.
    - split.
      + intros [j H] scheme' data' [= <- <-].
        destruct data as [| | | | | |es]; try discriminate; [left; reflexivity|right; exists es; reflexivity].
      + intros H. destruct (H scheme data eq_refl) as [->|[es ->]]; cbn; eexists; reflexivity.
  Qed.

  Lemma omap_all_ex A B (f : A -> option B) l :
    (exists l', omap_all f l = Some l') <-> forall a, In a l -> exists b, f a = Some b.
  Proof.
    induction l as [|a l IH]; cbn.
    - split; [intros _ a []|]. intros _. exists []. reflexivity.
    - split.
      + intros [l' H]. destruct (f a) as [b|] eqn:Ea; [|discriminate].
        destruct (omap_all f l) as [l''|]; [|discriminate].
        intros a' [<-|Hin]; [exists b; exact Ea|]. apply (proj1 IH); [exists l''; reflexivity|exact Hin].
      + intros H. destruct (H a (or_introl eq_refl)) as [b ->].
        destruct (proj2 IH) as [l' ->]; [intros a' Ha; apply H; right; exact Ha|]. exists (b :: l'). reflexivity.
  Qed.

  Lemma secdefs_some mk m :
    (exists j, s_secdefs mk m = Some j)
    <-> forall n s scheme data, In (n, s) m -> ss_subtype s = Unknown scheme data -> flattens data.
  Proof.
    unfold s_secdefs. split.
    - intros [j H] n s scheme data Hin Hs.
      destruct (omap_all _ m) as [es|] eqn:Ee; [|discriminate].
      destruct (proj1 (omap_all_ex _ m) (ex_intro _ es Ee) (n, s) Hin) as [b Hb]. cbn in Hb.
      destruct (s_security mk s) as [j'|] eqn:Ej; [|discriminate].
      exact (proj1 (security_some mk s) (ex_intro _ j' Ej) scheme data Hs).
    - intros H.
      destruct (proj2 (omap_all_ex (fun kv => option_map (fun j => (fst kv, j)) (s_security mk (snd kv))) m)) as [es Ee].
      + intros [n s] Hin. cbn. destruct (proj2 (security_some mk s)) as [j Hj].
        { intros scheme data Hs. exact (H n s scheme data Hin Hs). }
        exists (n, j). rewrite Hj. reflexivity.
      + rewrite Ee. exists (mk es). reflexivity.
  Qed.

  Lemma thing_written_iff mk (t : thing E X) : (exists j, s_thing mk t = Some j) <-> writable t.
  Proof.
    unfold s_thing, thing_es, writable. split.
    - intros [j H]. destruct (date_es E "created" (t_created t)) as [c|] eqn:Ec; [|discriminate]. cbn [obind] in H.
      destruct (date_es E "modified" (t_modified t)) as [m|] eqn:Em; [|discriminate]. cbn [obind] in H.
      destruct (s_secdefs mk (t_secdefs t)) as [s|] eqn:Es; [|discriminate]. split.
      + intros d [Hd|Hd].
        * exact (proj1 (date_some _ _) (ex_intro _ c Ec) d Hd).
        * exact (proj1 (date_some _ _) (ex_intro _ m Em) d Hd).
      + exact (proj1 (secdefs_some mk _) (ex_intro _ s Es)).
    - intros [Hd Hs].
      destruct (proj2 (date_some "created" (t_created t))) as [c ->]; [intros d Ed; apply Hd; left; exact Ed|].
      destruct (proj2 (date_some "modified" (t_modified t))) as [m ->]; [intros d Ed; apply Hd; right; exact Ed|].
      destruct (proj2 (secdefs_some mk (t_secdefs t)) Hs) as [s ->]. cbn [obind option_map]. eexists. reflexivity.
  Qed.
End Writable.

(** ** The extensions of the crate *)

Lemma unit_alike : writes_alike unit_piece.
Proof. intros a. reflexivity. Qed.

Lemma nil_alike : writes_alike nil_piece.
Proof. intros a. reflexivity. Qed.

Lemma cons_alike p q : writes_alike p -> writes_alike q -> writes_alike (cons_piece p q).
Proof. intros Hp Hq [a b]. cbn. rewrite Hp, Hq. symmetry. apply map_app. Qed.

Lemma nil_exts_alike p : writes_alike p -> exts_write_alike (nil_exts p).
Proof. intros H. constructor; first [exact H|exact nil_alike]. Qed.

Lemma cons_exts_alike X Y : exts_write_alike X -> exts_write_alike Y -> exts_write_alike (cons_exts X Y).
Proof. intros [] []. constructor; cbn; apply cons_alike; assumption. Qed.

Lemma http_alike : exts_write_alike http_exts.
Proof.
  constructor; try exact unit_alike; try (intros a; reflexivity).
  - intros [m]. destruct m as [[]|]; reflexivity.
  - intros [h s]. cbn. apply al_app; [|apply al_ofld; reflexivity].
    destruct h as [|a h]; [reflexivity|]. apply al_fld, al_list. intros x _. apply mk_alike'. al.
Qed.

Lemma coap_alike : exts_write_alike coap_exts.
Proof.
  constructor; try exact unit_alike.
  - intros [m b q h a c]. cbn. al; apply al_ofld; intros; first [reflexivity|apply mk_alike'; al].
  - intros [c]. cbn. al.
Qed.

Lemma mqtt_alike : exts_write_alike mqtt_exts.
Proof.
  constructor; try exact unit_alike.
  intros [r p q t f]. cbn. al.
  - destruct r; reflexivity.
  - destruct f as [|a f]; [reflexivity|]. exact (al_fld _ _ (al_str_oom (a :: f))).
Qed.

(** Writing the same members in both ways means that reading the text as a [Value] gives the value. *)
Lemma text_read_as_value E X (HX : exts_write_alike X) (t : thing E X) j :
  s_thing mk_text t = Some j -> exists v, s_thing mk_value t = Some v /\ d_value j = Some v.
Proof. intros H. exists (canon j). rewrite (al_thing HX), H. split; reflexivity. Qed.
