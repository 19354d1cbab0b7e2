(** * What is written for a Thing is not much deeper than the Thing *)

From Coq Require Import String Bool ZArith Lia List.
From Verif Require Import Base MinMax Json Serde Types Spec DsFacts SpecThing SpecSerde SpecDoc SpecTyped Ser De SerdeFacts CanonFacts
  RoundTrip RoundTripDs RoundTripTd RoundTripThing ProtocolFacts MemberFacts CleanFacts HList Protocol SpecExt SpecMember JsonText SpecJsonText JsonTextFacts ThingTextFacts SpecNest SpecThing.
Import ListNotations.
Set Implicit Arguments.
Local Open Scope string_scope.
Local Open Scope list_scope.

Lemma not_nested k j : ~ nested (S k) j <-> jdepth j <= k.
Proof. rewrite nested_depth. lia. Qed.

(** ** Members *)

Definition flat (n : nat) (es : entries) : Prop := forall k j, In (k, j) es -> jdepth j <= n.

Lemma flat_nil n : flat n [].
Proof. intros k j []. Qed.

Lemma flat_app n es es' : flat n es -> flat n es' -> flat n (es ++ es').
Proof. intros H H' k v Hin. apply in_app_or in Hin as [Hin|Hin]; eauto. Qed.

Lemma flat_fld n k j : jdepth j <= n -> flat n (fld k j).
Proof. intros H k' v [[= <- <-]|[]]. exact H. Qed.

Lemma flat_ofld n A k (f : A -> json) o : (forall a, o = Some a -> jdepth (f a) <= n) -> flat n (ofld k f o).
Proof. intros H. destruct o; [apply flat_fld; auto|apply flat_nil]. Qed.

Lemma depth_mk mk n es : json_writer mk -> flat n es -> jdepth (mk es) <= S n.
Proof.
  intros [->| ->] H; apply depth_obj; [exact H|]. intros k j Hj. apply In_mof in Hj. eauto.
Qed.

Lemma depth_list A (f : A -> json) l n : (forall a, In a l -> jdepth (f a) <= n) -> jdepth (s_list f l) <= S n.
Proof. intros H. apply depth_arr. intros j Hj. apply in_map_iff in Hj as (a & <- & Ha). auto. Qed.

Lemma depth_oom A (f : A -> json) l n : (forall a, In a l -> jdepth (f a) <= n) -> jdepth (s_oom f l) <= S n.
Proof.
  intros H. destruct l as [|a [|b l]]; [cbn; lia|cbn; apply le_S, H; left; auto|].
  apply (depth_list f (a :: b :: l)). auto.
Qed.

Lemma depth_strs l n : 1 <= n -> jdepth (s_oom JStr l) <= n.
Proof. intros H. apply (Nat.le_trans _ 1); [|exact H]. apply depth_oom. intros. apply le_n. Qed.

Lemma depth_str_list l n : 1 <= n -> jdepth (s_list JStr l) <= n.
Proof. intros H. apply (Nat.le_trans _ 1); [|exact H]. apply depth_list. intros. apply le_n. Qed.

Lemma depth_map A mk (f : A -> json) m n : json_writer mk -> (forall k a, In (k, a) m -> jdepth (f a) <= n) ->
  jdepth (s_map mk f m) <= S n.
Proof.
  intros Hw H. apply depth_mk; auto. intros k j Hj. unfold mmap in Hj. apply in_map_iff in Hj as ([k' a] & [= <- <-] & Ha). eauto.
Qed.

Lemma depth_f64 x n : jdepth (s_f64 x) <= n.
Proof. unfold s_f64. destruct (f64_finite x); apply Nat.le_0_l. Qed.

Lemma depth_value mk j : json_writer mk -> jdepth (ser_value mk j) <= jdepth j.
Proof.
  intros Hw. induction j as [| | | | |l IH|es IH] using json_ind'; try apply le_n.
  - cbn [ser_value jdepth]. apply (depth_arr (map (ser_value mk) l)). intros j Hj. apply in_map_iff in Hj as (a & <- & Ha).
    assert (H := jdepth_arr _ _ Ha). assert (H' := IH a Ha). cbn [jdepth] in H. lia.
  - cbn [ser_value]. apply (Nat.le_trans _ (S (pred (jdepth (JObj es))))); [|cbn; lia]. apply depth_mk; auto.
    intros k j Hj. apply in_map_iff in Hj as ([k' v] & [= <- <-] & Hv).
    assert (H := jdepth_obj _ _ _ Hv). assert (H' := IH k' v Hv). cbn [snd]. lia.
Qed.

(** ** Levels *)

Lemma inside_child DS AS OS (c d : ds DS AS OS) : In c (ds_children d) -> inside c d.
Proof.
  destruct d as [i m o s x]. unfold ds_children. cbn [ds_one_of ds_sub]. intros H. apply in_app_or in H as [H|H].
  - destruct o as [l|]; [|destruct H]. eapply ins_one_of; [reflexivity|auto].
  - destruct s as [s|]; [|destruct H]. destruct s as [[[b|l]|] mn mx y| | | |[ps|] r y| |]; cbn in H; try tauto.
    + destruct H as [<-|[]]. eapply ins_item. reflexivity.
    + eapply ins_items; [reflexivity|auto].
    + apply in_map_iff in H as ([k c'] & <- & H). eapply ins_prop; [reflexivity|eauto].
Qed.

Section Nest.
  Variable E : env.
  Variable X : exts.
  Variable mk : entries -> json.
  Variables L k : nat.
  Hypothesis Hw : json_writer mk.
  Hypothesis HX : exts_shallow X k.
  Hypothesis HL : 1 <= L.
  Hypothesis Hk : 1 <= k.

  Lemma flat_piece p n a : writes_shallow p k -> k <= n -> flat n (p_ser p mk a).
  Proof. intros H Hn m j Hj. assert (Q := H mk a m j Hw Hj). apply not_nested in Q. lia. Qed.

  Lemma depth_multilang m n : 1 <= n -> jdepth (s_multilang mk m) <= n.
  Proof. intros H. apply (Nat.le_trans _ 1); [|exact H]. apply depth_map; auto. Qed.

  Ltac flat1 :=
    first [ apply flat_nil | apply flat_fld | apply flat_app
          | apply flat_ofld; let a := fresh "a" in let Ha := fresh "Ha" in intros a Ha ].
  Ltac leaf := first [ apply Nat.le_0_l | apply depth_f64 | apply depth_strs; lia | apply depth_str_list; lia | apply depth_multilang; lia ].
  Ltac flats := repeat first [ leaf | flat1 ].

  Lemma flat_info i n : 1 <= n -> flat n (info_es mk i).
  Proof. intros Hn. unfold info_es. flats. Qed.

  Definition calm (d : dsx X) : Prop :=
    forall e, sub_ds e d -> (forall j, m_const (ds_misc e) = Some j -> jdepth j <= k)
      /\ (forall j, m_default (ds_misc e) = Some j -> jdepth j <= k)
      /\ (forall l j, m_enum (ds_misc e) = Some l -> In j l -> jdepth j <= k).

  Lemma flat_number n m : flat m (number_es n).
  Proof. unfold number_es. destruct (n_max n) as [[?|?]|], (n_min n) as [[?|?]|]; cbn [max_es min_es]; flats. Qed.

  Lemma flat_integer n m : flat m (integer_es n).
  Proof. unfold integer_es. destruct (z_max n) as [[?|?]|], (z_min n) as [[?|?]|]; cbn [max_es min_es]; flats. Qed.

  Lemma flat_string n m : flat m (string_es n).
  Proof. unfold string_es. flats. Qed.

  Lemma flat_ds (d : dsx X) : forall n, ~ levels (S (S n)) d -> calm d -> flat (2 * n + k + 1) (ds_es mk d).
  Proof.
    induction d as [d IH] using children_ind. intros n Hn Hc.
    assert (Hch : forall c, In c (ds_children d) -> jdepth (s_ds mk c) <= 2 * n + k).
    { intros c Hin. assert (Hi := inside_child _ _ Hin). destruct n as [|n].
      - destruct Hn. eapply lv_more; [exact Hi|apply lv_one].
      - assert (Q : flat (2 * n + k + 1) (ds_es mk c)).
        { apply IH; auto.
          - intros Hl. apply Hn. eapply lv_more; eauto.
          - intros e He. apply Hc. eapply sub_child; eauto. }
        apply (depth_mk Hw) in Q. unfold s_ds. lia. }
    destruct (Hc d (sub_self _)) as (C1 & C2 & C3).
    assert (Hv : forall j, jdepth j <= k -> jdepth (ser_value mk j) <= 2 * n + k + 1).
    { intros j Hj. assert (Q := depth_value j Hw). lia. }
    rewrite ds_es_eq. apply flat_app; [apply flat_info; lia|]. apply flat_app.
    { unfold misc1_es. flats; auto. }
    apply flat_app.
    { flats. rewrite Nat.add_1_r. apply (depth_list (s_ds mk)). intros c Hin. apply Hch. unfold ds_children. rewrite Ha.
      apply in_or_app. left. exact Hin. }
    apply flat_app.
    { unfold misc2_es. flats. rewrite Nat.add_1_r. apply depth_list. intros j Hj.
      assert (Q := C3 _ _ Ha Hj). assert (Q' := depth_value j Hw). lia. }
    apply flat_app; [|apply flat_piece; [apply (sh_ds HX)|lia]].
    destruct (ds_sub d) as [s|] eqn:Es; [|apply flat_nil].
    assert (Hsc : forall c, In c (sub_children s) -> jdepth (s_ds mk c) <= 2 * n + k).
    { intros c Hin. apply Hch. unfold ds_children. rewrite Es. apply in_or_app. right. exact Hin. }
    cbn [subo_es]. destruct s as [items mn mx o| |m|m|ps r o|m|].
    - rewrite sub_array_eq. flats; [|apply flat_piece; [apply (sh_as HX)|lia]].
      destruct a as [c|l]; simpl in *; subst items.
      + apply Nat.le_trans with (2 * n + k); [|lia]. apply Hsc. left; auto.
      + rewrite Nat.add_1_r. apply (depth_list (s_ds mk) l). intros c Hin. apply Hsc. exact Hin.
    - flats.
    - change (sub_es mk (SNumber m)) with (fld "type" (JStr "number") ++ number_es m). apply flat_app; [flats|apply flat_number].
    - change (sub_es mk (SInteger m)) with (fld "type" (JStr "integer") ++ integer_es m). apply flat_app; [flats|apply flat_integer].
    - rewrite sub_object_eq. flats; [|apply flat_piece; [apply (sh_os HX)|lia]].
      rewrite Nat.add_1_r. apply depth_map; auto. intros n' c Hin. apply Hsc. subst ps. simpl. apply in_map_iff. exists (n', c). auto.
    - change (sub_es mk (SString m)) with (fld "type" (JStr "string") ++ string_es m). apply flat_app; [flats|apply flat_string].
    - flats.
  Qed.

  Definition fits (d : dsx X) : Prop := ~ levels (S L) d /\ calm d.

  Lemma flat_fits d : fits d -> flat (2 * L + k - 1) (ds_es mk d).
  Proof.
    intros [H1 H2]. replace (S L) with (S (S (L - 1))) in H1 by lia. intros m j Hj. assert (Q := flat_ds H1 H2 _ _ Hj). lia.
  Qed.

  Lemma depth_fits d : fits d -> jdepth (s_ds mk d) <= 2 * L + k.
  Proof. intros H. apply flat_fits, (depth_mk Hw) in H. unfold s_ds. lia. Qed.

  Lemma depth_dsmap m : (forall n d, In (n, d) m -> fits d) -> jdepth (s_dsmap mk m) <= 2 * L + k + 1.
  Proof. intros H. rewrite Nat.add_1_r. apply depth_map; auto. intros n d Hd. apply depth_fits. eauto. Qed.

  Lemma flat_form (f : form X) : flat (k + 1) (form_es mk f).
  Proof.
    unfold form_es. repeat apply flat_app; flats; try (apply flat_piece; [apply (sh_f HX)|lia]).
    - unfold op_es. destruct (f_op f) as [|[|o l]]; flats. cbn [s_ops].
      apply Nat.le_trans with 1; [|lia]. apply depth_list. intros. apply Nat.le_0_l.
    - unfold s_exp_resp. rewrite Nat.add_1_r. apply depth_mk; auto. unfold exp_resp_es. flats. apply flat_piece; [apply (sh_er HX)|lia].
    - rewrite Nat.add_1_r. apply depth_oom. intros r _. apply Nat.le_trans with 1; [|lia]. apply depth_mk; auto.
      unfold add_resp_es. destruct (ar_success r); flats.
  Qed.

  Lemma depth_forms (l : list (form X)) : jdepth (s_list (s_form mk) l) <= k + 3.
  Proof.
    replace (k + 3) with (S (k + 2)) by lia. apply depth_list. intros f _. replace (k + 2) with (S (k + 1)) by lia.
    apply depth_mk; auto. apply flat_form.
  Qed.

  Lemma flat_interaction (i : interaction X) : (forall n d, In (n, d) (olist (ia_uri i)) -> fits d) ->
    flat (2 * L + k + 1) (interaction_es mk i).
  Proof.
    intros H. unfold interaction_es. apply flat_app; [apply flat_info; lia|]. apply flat_app.
    { flats. assert (Q := depth_forms (ia_forms i)). lia. }
    apply flat_app; [|apply flat_piece; [apply (sh_ia HX)|lia]].
    flats. apply depth_dsmap. rewrite Ha in H. exact H.
  Qed.

  Lemma depth_security s j : (forall scheme es n v, ss_subtype s = Unknown scheme (JObj es) -> In (n, v) es -> jdepth v <= k) ->
    s_security mk s = Some j -> jdepth j <= k + 1.
  Proof.
    intros Hv H. unfold s_security in H. apply option_map_inv in H as (es & H & ->).
    unfold security_es in H. apply obind_inv in H as (sub & Hs & H). apply some_inj in H as <-.
    rewrite Nat.add_1_r. apply depth_mk; auto. flats.
    unfold subtype_es in Hs. destruct (ss_subtype s) as [kn|scheme data] eqn:Es.
    - injection Hs as <-. destruct kn as [| |[l|l]|b|q b|b|i|o|b]; cbn [known_es]; unfold loc_name_es; flats.
    - apply obind_inv in Hs as (des & Hd & Hs). apply some_inj in Hs as <-. flats.
      destruct data as [| | | | | |des']; try discriminate; apply some_inj in Hd as <-; [flats|].
      intros n v Hin. apply in_map_iff in Hin as ([n' v'] & [= <- <-] & Hin). cbn [snd].
      assert (Q := Hv _ _ _ _ eq_refl Hin). assert (Q' := depth_value v' Hw). lia.
  Qed.

  Lemma depth_secdefs m j : (forall n s scheme es n' v, In (n, s) m -> ss_subtype s = Unknown scheme (JObj es) -> In (n', v) es -> jdepth v <= k) ->
    s_secdefs mk m = Some j -> jdepth j <= k + 2.
  Proof.
    intros Hv H. unfold s_secdefs in H. apply option_map_inv in H as (es & H & ->).
    replace (k + 2) with (S (k + 1)) by lia. apply depth_mk; auto. revert es H.
    induction m as [|[n s] m IH]; intros es H; cbn in H.
    - injection H as <-. apply flat_nil.
    - apply obind_inv in H as ([n' j] & Hj & H). apply obind_inv in H as (es' & Hes & H). apply some_inj in H as <-.
      apply option_map_inv in Hj as (j' & Hj & [= -> ->]).
      intros n2 j2 [[= <- <-]|Hin].
      + eapply depth_security; [|exact Hj]. intros. eapply Hv; [left; reflexivity| |]; eauto.
      + eapply IH; eauto. intros. eapply Hv; [right| |]; eauto.
  Qed.

  Theorem thing_depth (t : thing E X) j :
    (forall d, schema_in (thing_body t) d -> ~ levels (S L) d) ->
    (forall v, value_in t v -> ~ nested (S k) v) ->
    s_thing mk t = Some j -> jdepth j <= 4 + 2 * L + k.
  Proof.
    intros Hl Hv H.
    assert (HF : forall d, schema_in (thing_body t) d -> fits d).
    { intros d Hd. split; [auto|]. intros e He. repeat split; intros; apply not_nested, Hv;
        [eapply vi_const|eapply vi_default|eapply vi_enum]; eauto. }
    assert (HU : forall kd n i, affordance (thing_body t) kd n i -> flat (2 * L + k + 1) (interaction_es mk i)).
    { intros kd n i Hi. apply flat_interaction. intros n' d Hd. apply HF. apply in_uri. eapply uri_aff; eauto. }
    unfold s_thing in H. apply option_map_inv in H as (es & H & ->).
    unfold thing_es in H. apply obind_inv in H as (c & Hc & H). apply obind_inv in H as (m & Hm & H).
    apply obind_inv in H as (s & Hs & H). apply some_inj in H as <-.
    assert (HD : forall n o es, @date_es E n o = Some es -> flat (3 + 2 * L + k) es).
    { intros n o es0 Hd. unfold date_es in Hd. destruct o as [d|]; [|injection Hd as <-; flats].
      apply option_map_inv in Hd as (s' & _ & ->). flats. }
    apply depth_secdefs in Hs.
    2:{ intros n0 s0 scheme es n' v H1 H2 H3. apply not_nested, Hv. eapply vi_scheme; eauto. }
    change (4 + 2 * L + k) with (S (3 + 2 * L + k)). apply depth_mk; auto.
    repeat apply flat_app; flats; eauto; try (apply flat_piece; [apply (sh_t HX)|lia]).
    - assert (Q := depth_value (t_context t) Hw). assert (Q' : ~ nested (S k) (t_context t)) by (apply Hv; apply vi_context; reflexivity). apply not_nested in Q'. lia.
    - apply Nat.le_trans with 1; [|lia]. apply depth_mk; auto. unfold version_es. flats. destruct (v_model a); apply le_n.
    - change (3 + 2 * L + k) with (S (2 + 2 * L + k)). apply depth_map; auto. intros n p Hp.
      replace (2 + 2 * L + k) with (S (2 * L + k + 1)) by lia. apply depth_mk; auto. unfold property_es.
      assert (Hin : In (n, p) (y_properties (thing_body t))) by (cbn; rewrite Ha; exact Hp).
      apply flat_app; [eapply HU; eapply aff_property; eauto|]. apply flat_app.
      + intros n' j Hj. assert (Q : fits (pa_ds p)) by (apply HF, in_checked; eapply chk_property; eauto).
        apply flat_fits in Q. assert (Q' := Q _ _ Hj). lia.
      + flats. apply flat_piece; [apply (sh_pa HX)|lia].
    - change (3 + 2 * L + k) with (S (2 + 2 * L + k)). apply depth_map; auto. intros n p Hp.
      replace (2 + 2 * L + k) with (S (2 * L + k + 1)) by lia. apply depth_mk; auto. unfold action_es.
      assert (Hin : In (n, p) (y_actions (thing_body t))) by (cbn; rewrite Ha; exact Hp).
      apply flat_app; [eapply HU; eapply aff_action; eauto|].
      assert (Q : forall d, schema_in (thing_body t) d -> jdepth (s_ds mk d) <= 2 * L + k + 1).
      { intros d Hd. assert (Q := depth_fits (HF _ Hd)). lia. }
      flats; [apply Q, in_checked; eapply chk_input; eauto|apply Q, in_checked; eapply chk_output; eauto|].
      apply flat_piece; [apply (sh_aa HX)|lia].
    - change (3 + 2 * L + k) with (S (2 + 2 * L + k)). apply depth_map; auto. intros n p Hp.
      replace (2 + 2 * L + k) with (S (2 * L + k + 1)) by lia. apply depth_mk; auto. unfold event_es.
      assert (Hin : In (n, p) (y_events (thing_body t))) by (cbn; rewrite Ha; exact Hp).
      apply flat_app; [eapply HU; eapply aff_event; eauto|].
      assert (Q : forall d, schema_in (thing_body t) d -> jdepth (s_ds mk d) <= 2 * L + k + 1).
      { intros d Hd. assert (Q := depth_fits (HF _ Hd)). lia. }
      flats; [apply Q, in_checked; eapply chk_subscription; eauto|apply Q, in_checked; eapply chk_data; eauto
             |apply Q; eapply in_response; eauto|apply Q, in_checked; eapply chk_cancellation; eauto|].
      apply flat_piece; [apply (sh_ea HX)|lia].
    - apply Nat.le_trans with 3; [|lia]. apply depth_list. intros l _. apply depth_mk; auto. unfold link_es. flats.
    - assert (Q := depth_forms a). lia.
    - lia.
    - apply Nat.le_trans with (2 * L + k + 1); [|lia]. apply depth_dsmap. intros n d Hd. apply HF, in_uri. eapply uri_thing.
      cbn. rewrite Ha. exact Hd.
    - apply Nat.le_trans with (2 * L + k + 1); [|lia]. apply depth_dsmap. intros n d Hd. apply HF. eapply in_definitions.
      cbn. rewrite Ha. exact Hd.
  Qed.
End Nest.

(** ** Never shallower than its schemas *)

Section Deep.
  Variable E : env.
  Variable X : exts.

  Lemma depth_in n v es : In (n, v) es -> S (jdepth v) <= jdepth (mk_text es).
  Proof. apply jdepth_obj. Qed.

  Lemma in_ofld A (n : string) (f : A -> json) o a : o = Some a -> In (n, f a) (ofld n f o).
  Proof. intros ->. left. reflexivity. Qed.

  Lemma levels_depth n (d : dsx X) : levels n d -> n <= jdepth (s_ds mk_text d).
  Proof.
    induction 1 as [d|n c d Hi Hl IH]; [cbn; lia|]. apply Nat.le_trans with (S (jdepth (s_ds mk_text c))); [lia|].
    assert (Ht : forall n' v, In (n', v) (ds_es mk_text d) -> jdepth (s_ds mk_text c) <= jdepth v -> S (jdepth (s_ds mk_text c)) <= jdepth (s_ds mk_text d)).
    { intros n' v Hin Hle. apply depth_in in Hin. unfold s_ds in *. lia. }
    assert (Hs : forall s n' v, ds_sub d = Some s -> In (n', v) (sub_es mk_text s) -> In (n', v) (ds_es mk_text d)).
    { intros s n' v Es Hin. rewrite ds_es_eq, Es. rewrite !in_app_iff. cbn [subo_es]. auto 10. }
    destruct Hi as [d l Ho Hin|d mn mx o Es|d l mn mx o Es Hin|d ps n' r o Es Hin].
    - eapply Ht with (n' := "oneOf") (v := s_list (s_ds mk_text) l).
      + rewrite ds_es_eq, Ho, !in_app_iff. right. right. left. left. reflexivity.
      + apply Nat.lt_le_incl, jdepth_arr. apply in_map. exact Hin.
    - eapply Ht with (n' := "items"); [eapply Hs; [exact Es|]|apply le_n].
      rewrite sub_array_eq, !in_app_iff. right. left. left. reflexivity.
    - eapply Ht with (n' := "items") (v := s_list (s_ds mk_text) l); [eapply Hs; [exact Es|]|].
      + rewrite sub_array_eq, !in_app_iff. right. left. left. reflexivity.
      + apply Nat.lt_le_incl, jdepth_arr. apply in_map. exact Hin.
    - eapply Ht with (n' := "properties") (v := s_map mk_text (s_ds mk_text) ps); [eapply Hs; [exact Es|]|].
      + rewrite sub_object_eq, !in_app_iff. right. left. left. reflexivity.
      + apply Nat.lt_le_incl. eapply jdepth_obj with (k := n'). unfold mmap. apply in_map_iff. exists (n', c). auto.
  Qed.

  Lemma depth_in_map A (f : A -> json) m n a : In (n, a) m -> S (jdepth (f a)) <= jdepth (s_map mk_text f m).
  Proof. intros H. eapply jdepth_obj with (k := n). unfold mmap. apply in_map_iff. exists (n, a). auto. Qed.

  Lemma levels_property n (p : property X) : levels n (pa_ds p) -> n <= jdepth (s_property mk_text p).
  Proof.
    intros H. apply levels_depth in H. apply Nat.le_trans with (1 := H). unfold s_property, s_ds.
    set (es := property_es mk_text p).
    assert (Hin : incl (ds_es mk_text (pa_ds p)) es).
    { intros [a b] Hab. unfold es, property_es. rewrite !in_app_iff. auto. }
    destruct (jdepth (mk_text es)) as [|m] eqn:Em; [discriminate Em|]. apply depth_obj. intros n' v Hv.
    apply Hin, depth_in in Hv. lia.
  Qed.

  Lemma levels_thing (t : thing E X) j n d : s_thing mk_text t = Some j -> schema_in (thing_body t) d -> levels n d ->
    n + 2 <= jdepth j.
  Proof.
    intros H Hd Hl. unfold s_thing in H. apply option_map_inv in H as (es & H & ->).
    unfold thing_es in H. apply obind_inv in H as (c & Hc & H). apply obind_inv in H as (m & Hm & H).
    apply obind_inv in H as (s & Hs & H). apply some_inj in H.
    assert (Q := levels_depth Hl).
    assert (HP : forall A (f : A -> json) (o : option (amap A)) n' a nm, In (n', a) (olist o) -> n <= jdepth (f a) ->
       (forall m', o = Some m' -> In (nm, s_map mk_text f m') es) -> n + 2 <= jdepth (mk_text es)).
    { intros A f o n' a nm Hin Hle He. destruct o as [m'|]; [|destruct Hin]. specialize (He _ eq_refl). apply depth_in in He.
      assert (Q' := depth_in_map f _ _ _ Hin). cbn [olist] in *. lia. }
    assert (HA : forall p, In p (olist (t_properties t)) -> n <= jdepth (s_property mk_text (snd p)) -> n + 2 <= jdepth (mk_text es)).
    { intros [n' p] Hp Hle. eapply HP with (nm := "properties"); [exact Hp|exact Hle|]. intros m' Hm'. rewrite <- H, !in_app_iff, Hm'. cbn. tauto. }
    assert (HB : forall p, In p (olist (t_actions t)) -> n <= jdepth (s_action mk_text (snd p)) -> n + 2 <= jdepth (mk_text es)).
    { intros [n' p] Hp Hle. eapply HP with (nm := "actions"); [exact Hp|exact Hle|]. intros m' Hm'. rewrite <- H, !in_app_iff, Hm'. cbn. tauto. }
    assert (HC : forall p, In p (olist (t_events t)) -> n <= jdepth (s_event mk_text (snd p)) -> n + 2 <= jdepth (mk_text es)).
    { intros [n' p] Hp Hle. eapply HP with (nm := "events"); [exact Hp|exact Hle|]. intros m' Hm'. rewrite <- H, !in_app_iff, Hm'. cbn. tauto. }
    assert (HD : forall nm es', In (nm, s_ds mk_text d) es' -> n <= jdepth (mk_text es')).
    { intros nm es' Hin. apply depth_in in Hin. lia. }
    assert (HI : forall i n' es', incl (interaction_es mk_text i) es' -> In (n', d) (olist (ia_uri i)) -> n <= jdepth (mk_text es')).
    { intros i n' es' Hi Hin. destruct (ia_uri i) as [us|] eqn:Eu; [|destruct Hin]. cbn [olist] in Hin.
      assert (Hx : In ("uriVariables", s_dsmap mk_text us) es').
      { apply Hi. unfold interaction_es. rewrite Eu, !in_app_iff. cbn. tauto. }
      apply depth_in in Hx. assert (Q' := depth_in_map (s_ds mk_text) _ _ _ Hin). unfold s_dsmap in *. lia. }
    destruct Hd as [Hd|n' a Hin Hx|Hd|n' Hin].
    - destruct Hd as [n' a Hin Hx|n' a Hin Hx|n' a Hin Hx|n' a Hin Hx|n' a Hin Hx|n' a Hin Hx]; cbn in Hin.
      + apply (HA _ Hin). cbn [snd]. apply levels_property. rewrite Hx. exact Hl.
      + apply (HB _ Hin). eapply HD with (nm := "input"). unfold action_es. cbn [snd]. rewrite Hx, !in_app_iff. cbn. tauto.
      + apply (HB _ Hin). eapply HD with (nm := "output"). unfold action_es. cbn [snd]. rewrite Hx, !in_app_iff. cbn. tauto.
      + apply (HC _ Hin). eapply HD with (nm := "subscription"). unfold event_es. cbn [snd]. rewrite Hx, !in_app_iff. cbn. tauto.
      + apply (HC _ Hin). eapply HD with (nm := "data"). unfold event_es. cbn [snd]. rewrite Hx, !in_app_iff. cbn. tauto.
      + apply (HC _ Hin). eapply HD with (nm := "cancellation"). unfold event_es. cbn [snd]. rewrite Hx, !in_app_iff. cbn. tauto.
    - apply (HC _ Hin). eapply HD with (nm := "data_response"). unfold event_es. cbn [snd]. rewrite Hx, !in_app_iff. cbn. tauto.
    - destruct Hd as [n' Hin|kd m' i n' Ha Hin].
      + eapply HP with (f := s_ds mk_text) (nm := "uriVariables"); [exact Hin|exact Q|].
        intros us Hu. rewrite <- H, !in_app_iff, Hu. cbn. tauto.
      + destruct Ha as [n2 a Ha|n2 a Ha|n2 a Ha]; cbn in Ha.
        * apply (HA _ Ha). eapply HI; [|exact Hin]. intros x Hx. unfold property_es. cbn [snd]. rewrite !in_app_iff. auto.
        * apply (HB _ Ha). eapply HI; [|exact Hin]. intros x Hx. unfold action_es. cbn [snd]. rewrite !in_app_iff. auto.
        * apply (HC _ Ha). eapply HI; [|exact Hin]. intros x Hx. unfold event_es. cbn [snd]. rewrite !in_app_iff. auto.
    - eapply HP with (f := s_ds mk_text) (nm := "schemaDefinitions"); [exact Hin|exact Q|].
      intros us Hu. rewrite <- H, !in_app_iff, Hu. cbn. tauto.
  Qed.
End Deep.

(** ** Texts *)

Section Texts.
  Variable F : floats.
  Variable E : env.
  Variable X : exts.
  Variable K : xnames.
  Variables T V : xvalues X.

  Lemma thing_not_nested mk L k (t : thing E X) j : json_writer mk -> exts_shallow X k -> 1 <= L -> 1 <= k ->
    (forall d, schema_in (thing_body t) d -> ~ levels (S L) d) -> (forall v, value_in t v -> ~ nested (S k) v) ->
    s_thing mk t = Some j -> ~ nested (5 + 2 * L + k) j.
  Proof.
    intros Hw HX HL Hk H1 H2 H3. change (5 + 2 * L + k) with (S (4 + 2 * L + k)). apply not_nested. eapply thing_depth; eauto.
  Qed.

  Lemma thing_nested n (t : thing E X) j d : s_thing mk_text t = Some j -> schema_in (thing_body t) d -> levels n d ->
    nested (n + 2) j.
  Proof. intros H1 H2 H3. apply nested_depth. eapply levels_thing; eauto. Qed.

  Hypothesis HS : exts_sound K T V.
  Hypothesis Hdates : forall s d, date_parse E s = Some d -> date_ok E d.

  Lemma sixty_read k (t : thing E X) j : exts_shallow X k -> k <= 3 -> thing_typed T t -> thing_ok V distinct t -> untitled t ->
    (forall d, schema_in (thing_body t) d -> ~ levels 61 d) -> (forall v, value_in t v -> ~ nested 4 v) ->
    s_thing mk_text t = Some j -> (forall x, float_in x j -> faithful F x) ->
    obind (from_text F (to_text F j)) (d_thing E X) = Some t.
  Proof.
    intros HX Hk Ht Ho Hu H1 H2 Hj Hf. apply (proj2 (thing_from_text HS Hdates Ht Hj Hf)). split; [exact Ho|]. split; [exact Hu|].
    apply (thing_not_nested (L := 60) (k := 3) (t := t) (mk := mk_text)); auto; [left; reflexivity| |lia].
    assert (Hp : forall p, writes_shallow p k -> writes_shallow p 3).
    { intros p Hp mk a n v Hw Hin. assert (Q := Hp mk a n v Hw Hin). rewrite not_nested in *. lia. }
    destruct HX. constructor; auto.
  Qed.

  Lemma many_refused (t : thing E X) j d : thing_typed T t -> schema_in (thing_body t) d -> levels 126 d ->
    s_thing mk_text t = Some j -> (forall x, float_in x j -> faithful F x) -> from_text F (to_text F j) = None.
  Proof.
    intros Ht Hd Hl Hj Hf. apply (thing_text HS (or_introl eq_refl) Ht Hj Hf). exact (thing_nested Hj Hd Hl).
  Qed.
End Texts.
