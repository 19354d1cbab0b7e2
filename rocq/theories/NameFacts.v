(** * Members are read under their TD names *)

From Coq Require Import String Bool ZArith Lia List.
From Verif Require Import Base MinMax Json Serde Types SpecSerde SpecDoc SpecMember Ser De SerdeFacts
  RoundTrip RoundTripDs RoundTripTd ProtocolFacts DecodedFacts MemberFacts.
Import ListNotations.
Set Implicit Arguments.
Local Open Scope string_scope.
Local Open Scope list_scope.

Lemma opt_named A k (d : json -> option A) es o : opt k d es = Some o -> named es k o.
Proof.
  unfold opt, named. intros H. split.
  - intros Ho. destruct (get k es) as [|v [|w l]] eqn:Hg; [congruence| |destruct v; discriminate].
    exists v. split; [apply get_In; rewrite Hg; left; auto|]. intros ->. congruence.
  - intros (v & Hin & Hv). apply get_In in Hin.
    destruct (get k es) as [|w [|w' l]]; [destruct Hin| |destruct w; discriminate].
    destruct Hin as [->|[]]. destruct v; try congruence;
      apply option_map_inv in H as (a & _ & ->); discriminate.
Qed.

Lemma opt_named_str k es o : opt k d_str es = Some o -> named_str es k o.
Proof.
  intros H. split; [exact (opt_named _ _ _ H)|]. intros s. unfold opt in H. split.
  - intros ->. destruct (get k es) as [|v [|w l]] eqn:Hg; [congruence| |destruct v; discriminate].
    apply get_In. rewrite Hg. left. destruct v; try discriminate. simpl in H. congruence.
  - intros Hin. apply get_In in Hin.
    destruct (get k es) as [|w [|w' l]]; [destruct Hin| |destruct w; discriminate].
    destruct Hin as [->|[]]. simpl in H. congruence.
Qed.

Lemma dflt_named_flag k es b : dflt k false d_bool es = Some b -> named_flag es k b.
Proof.
  unfold dflt, named_flag. intros H. split.
  - intros ->. destruct (get k es) as [|v [|w l]] eqn:Hg; try congruence.
    apply get_In. rewrite Hg. left. destruct v; try discriminate. simpl in H. congruence.
  - intros Hin. apply get_In in Hin.
    destruct (get k es) as [|w [|w' l]]; [destruct Hin| |discriminate].
    destruct Hin as [->|[]]. simpl in H. congruence.
Qed.

Lemma req_has A k (d : json -> option A) es a : req k d es = Some a -> has es k.
Proof.
  unfold req, has. intros H. destruct (get k es) as [|v [|w l]] eqn:Hg; try discriminate.
  assert (In (k, v) es) as Hin by (apply get_In; rewrite Hg; left; auto).
  apply in_map_iff. exists (k, v). auto.
Qed.

Lemma req_has_str k es s : req k d_str es = Some s -> has_str es k s.
Proof.
  unfold req, has_str. intros H s'. destruct (get k es) as [|v [|w l]] eqn:Hg; try discriminate.
  destruct v; try discriminate. simpl in H. injection H as <-.
  rewrite <- get_In, Hg. simpl. split; [intros [F|[]]; congruence|intros ->; auto].
Qed.

Lemma req_value A k (d : json -> option A) es a v : req k d es = Some a -> In (k, v) es -> d v = Some a.
Proof.
  unfold req. intros H Hin. apply get_In in Hin.
  destruct (get k es) as [|w [|w' l]]; try discriminate. destruct Hin as [->|[]]. auto.
Qed.

Lemma dflt_value A k a0 (d : json -> option A) es a v : dflt k a0 d es = Some a -> In (k, v) es -> d v = Some a.
Proof.
  unfold dflt. intros H Hin. apply get_In in Hin.
  destruct (get k es) as [|w [|w' l]]; [destruct Hin| |discriminate]. destruct Hin as [->|[]]. auto.
Qed.

Arguments req_value [A k d es a v].
Arguments dflt_value [A k a0 d es a v].

Lemma in_without k v ks es : smem k ks = false -> In (k, v) (without ks es) <-> In (k, v) es.
Proof. intros H. rewrite <- !get_In, get_without, H. reflexivity. Qed.

Lemma has_without k ks es : has (without ks es) k -> has es k.
Proof.
  unfold has. intros H. apply in_map_iff in H as ([k' v] & <- & Hin). apply filter_In in Hin as [Hin _].
  apply in_map_iff. exists (k', v). auto.
Qed.

Lemma named_without k ks es A (o : option A) : smem k ks = false -> named (without ks es) k o -> named es k o.
Proof.
  intros Hk H. unfold named in *. rewrite H. split; intros (v & Hin & Hv); exists v;
    (split; [|exact Hv]); apply (in_without k v ks es Hk); exact Hin.
Qed.

Lemma named_str_without k ks es o : smem k ks = false -> named_str (without ks es) k o -> named_str es k o.
Proof.
  intros Hk [H H']. split; [apply (named_without _ _ Hk H)|]. intros s. rewrite H'. apply in_without; auto.
Qed.

Lemma named_flag_without k ks es b : smem k ks = false -> named_flag (without ks es) k b -> named_flag es k b.
Proof. intros Hk H. unfold named_flag in *. rewrite H. apply in_without; auto. Qed.

Lemma has_str_without k ks es b : smem k ks = false -> has_str (without ks es) k b -> has_str es k b.
Proof. intros Hk H s. unfold has_str in H. rewrite <- (H s). symmetry. apply in_without; auto. Qed.

Ltac name1 :=
  match goal with
  | H : opt ?k d_str ?es = Some _ |- named_str ?es ?k _ => exact (@opt_named_str _ _ _ H)
  | H : opt ?k _ ?es = Some _ |- named ?es ?k _ => exact (@opt_named _ _ _ _ _ H)
  | H : dflt ?k false d_bool ?es = Some _ |- named_flag ?es ?k _ => exact (@dflt_named_flag _ _ _ H)
  | H : req ?k d_str ?es = Some _ |- has_str ?es ?k _ => exact (@req_has_str _ _ _ H)
  | H : req ?k _ ?es = Some _ |- has ?es ?k => exact (@req_has _ _ _ _ _ H)
  end.

Ltac names H := binds H; injection H as <-; conj; try name1.

Section Names.
  Variable E : env.
  Variable X : exts.

  Lemma info_names es i : d_info E es = Some i -> info_named es i.
  Proof. unfold d_info, info_named. intros H. names H. Qed.

  Lemma info_named_without ks es i : disjoint info_keys ks -> info_named (without ks es) i -> info_named es i.
  Proof.
    intros Hd (H1 & H2 & H3 & H4 & H5).
    assert (forall k, In k info_keys -> smem k ks = false) as Hk by (intros k Hk; apply smem_false; exact (Hd k Hk)).
    unfold info_named. conj;
      first [eapply named_str_without; [|eassumption]|eapply named_without; [|eassumption]];
      apply Hk; apply smem_In; reflexivity.
  Qed.

  Lemma max_names A (d : json -> option A) es :
    (forall a, d_max d es = Some (MaxIncl a) -> has es "maximum")
    /\ (forall a, d_max d es = Some (MaxExcl a) -> has es "exclusiveMaximum").
  Proof.
    unfold d_max, first_of.
    destruct (find (fun kv => smem (fst kv) ["maximum"; "exclusiveMaximum"]) es) as [[k v]|] eqn:Hf;
      [|split; discriminate].
    apply find_some in Hf as [Hin Hk].
    assert (has es k) as Hh by (apply in_map_iff; exists (k, v); auto).
    simpl in Hk. destruct (String.eqb_spec k "maximum") as [->|Hn].
    - split; auto. intros a H. apply option_map_inv in H as (? & _ & ?). discriminate.
    - destruct (String.eqb_spec k "exclusiveMaximum") as [->|Hn']; [|discriminate].
      split; auto. intros a H. apply option_map_inv in H as (? & _ & ?). discriminate.
  Qed.

  Lemma min_names A (d : json -> option A) es :
    (forall a, d_min d es = Some (MinIncl a) -> has es "minimum")
    /\ (forall a, d_min d es = Some (MinExcl a) -> has es "exclusiveMinimum").
  Proof.
    unfold d_min, first_of.
    destruct (find (fun kv => smem (fst kv) ["minimum"; "exclusiveMinimum"]) es) as [[k v]|] eqn:Hf;
      [|split; discriminate].
    apply find_some in Hf as [Hin Hk].
    assert (has es k) as Hh by (apply in_map_iff; exists (k, v); auto).
    simpl in Hk. destruct (String.eqb_spec k "minimum") as [->|Hn].
    - split; auto. intros a H. apply option_map_inv in H as (? & _ & ?). discriminate.
    - destruct (String.eqb_spec k "exclusiveMinimum") as [->|Hn']; [|discriminate].
      split; auto. intros a H. apply option_map_inv in H as (? & _ & ?). discriminate.
  Qed.

  Lemma assoc_In A s (tbl : list (string * A)) a : assoc_name s tbl = Some a -> In (s, a) tbl.
  Proof.
    induction tbl as [|[n b] tbl IH]; simpl; [discriminate|].
    destruct (String.eqb_spec s n) as [->|]; intros H; [injection H as ->; auto|auto].
  Qed.

  Ltac less l := cbv beta iota;
    first [eapply named_str_without with (ks := l); [reflexivity|]
          | eapply named_without with (ks := l); [reflexivity|]
          | eapply has_str_without with (ks := l); [reflexivity|]
          | eapply has_without with (ks := l)].

  Lemma bounds_names A (d : json -> option A) B (d' : json -> option B) ks es m :
    disjoint ["maximum"; "exclusiveMaximum"; "minimum"; "exclusiveMinimum"; "multipleOf"] ks ->
    opt "multipleOf" d' (without ks es) = Some m ->
    bounds_named es (d_max d (without ks es)) (d_min d (without ks es)) m.
  Proof.
    intros Hd Hm. destruct (max_names d (without ks es)), (min_names d (without ks es)).
    unfold bounds_named. conj; try (intros a Ha; eapply has_without; eauto; fail).
    apply (@named_without _ ks); [|exact (@opt_named _ _ _ _ _ Hm)].
    apply smem_false. apply Hd. apply smem_In. reflexivity.
  Qed.

  Lemma tag_string A (tbl : list (string * A)) es k t n :
    req k (d_tag tbl) es = Some t -> In (k, JStr n) es -> In (n, t) tbl.
  Proof. intros H Hin. apply (req_value H) in Hin. simpl in Hin. apply assoc_In. auto. Qed.

  Arguments tag_string [A tbl es k t n].

  Ltac the_name Hin :=
    simpl in Hin; repeat (destruct Hin as [Hin|Hin]; [try discriminate Hin; injection Hin as <-; reflexivity|]);
    destruct Hin.
  Ltac apart := let k := fresh in let Hk := fresh in let Hk' := fresh in
    intros k Hk Hk'; simpl in Hk; repeat (destruct Hk as [<-|Hk]; [apply smem_In in Hk'; discriminate|]);
    destruct Hk.

  Lemma sub_names_ok es s : sub_body (d_ds E X) es = Some s -> subtype_named es s.
  Proof.
    unfold sub_body, subtype_named. intros H. apply obind_inv in H as (k & Hk & H).
    split; [exact (@req_has _ _ _ _ _ Hk)|].
    destruct k; unfold d_number, d_integer, d_string in H.
    - binds H. injection H as <-. split; [intros n Hn; pose proof (tag_string Hk Hn) as Hin; the_name Hin|].
      less constr:(["type"]). name1.
    - injection H as <-. split; [intros n Hn; pose proof (tag_string Hk Hn) as Hin; the_name Hin|exact I].
    - apply option_map_inv in H as (m & H & ->). binds H. injection H as <-.
      split; [intros n Hn; pose proof (tag_string Hk Hn) as Hin; the_name Hin|].
      eapply bounds_names; [|eassumption]; apart.
    - apply option_map_inv in H as (m & H & ->). binds H. injection H as <-.
      split; [intros n Hn; pose proof (tag_string Hk Hn) as Hin; the_name Hin|].
      eapply bounds_names; [|eassumption]; apart.
    - binds H. injection H as <-. split; [intros n Hn; pose proof (tag_string Hk Hn) as Hin; the_name Hin|].
      cbv beta iota; conj; less constr:(["type"]); name1.
    - apply option_map_inv in H as (m & H & ->). binds H. injection H as <-.
      split; [intros n Hn; pose proof (tag_string Hk Hn) as Hin; the_name Hin|].
      cbv beta iota; conj; less constr:(["type"]); name1.
    - injection H as <-. split; [intros n Hn; pose proof (tag_string Hk Hn) as Hin; the_name Hin|exact I].
  Qed.

  Definition sub_td := ["type"; "items"; "properties"; "required"; "maximum"; "exclusiveMaximum"; "minimum";
    "exclusiveMinimum"; "multipleOf"; "minLength"; "maxLength"; "pattern"; "contentEncoding"; "contentMediaType"].

  Lemma sub_named_without ks es (s : dsubx X) : disjoint sub_td ks ->
    subtype_named (without ks es) s -> subtype_named es s.
  Proof.
    intros Hd (H1 & H2 & H3).
    assert (forall k, In k sub_td -> smem k ks = false) as Hk by (intros k Hk; apply smem_false; exact (Hd k Hk)).
    Ltac in_td Hk := apply Hk; apply smem_In; reflexivity.
    split; [eapply has_without; eauto|]. split.
    - intros n Hn. apply H2. apply in_without; auto. in_td Hk.
    - destruct s; auto; unfold bounds_named in *.
      + eapply named_without; [|exact H3]. in_td Hk.
      + destruct H3 as (A1 & A2 & A3 & A4 & A5). conj; try (intros; eapply has_without; eauto; fail).
        eapply named_without; [|exact A5]. in_td Hk.
      + destruct H3 as (A1 & A2 & A3 & A4 & A5). conj; try (intros; eapply has_without; eauto; fail).
        eapply named_without; [|exact A5]. in_td Hk.
      + destruct H3 as (A1 & A2). split; (eapply named_without; [|eassumption]); in_td Hk.
      + destruct H3 as (A1 & A2 & A3 & A4 & A5).
        conj; first [eapply named_str_without; [|eassumption]|eapply named_without; [|eassumption]]; in_td Hk.
  Qed.

  Lemma misc_names es m : d_misc es = Some m ->
    named es "const" (m_const m) /\ named es "default" (m_default m)
    /\ named_str es "unit" (m_unit m) /\ named es "enum" (m_enum m) /\ named_str es "format" (m_format m)
    /\ named_flag es "readOnly" (m_ro m) /\ named_flag es "writeOnly" (m_wo m).
  Proof. unfold d_misc. intros H. names H. Qed.

  Lemma ds_names_ok es d : d_ds E X (JObj es) = Some d -> schema_named es d.
  Proof.
    rewrite d_ds_obj. unfold ds_body. intros H. binds H. injection H as <-.
    apply misc_names in B0 as (M1 & M2 & M3 & M4 & M5 & M6 & M7).
    split; [exact (@info_names _ _ B)|]. conj; auto; try name1.
    intros s Hs. cbn in Hs. apply sub_names_ok in Hs. eapply sub_named_without; [|exact Hs]. apart.
  Qed.

  Lemma ds_named_without ks es (d : dsx X) : disjoint (info_keys ++ ["const"; "default"; "unit"; "enum"; "format"; "oneOf";
      "readOnly"; "writeOnly"] ++ sub_td) ks -> schema_named (without ks es) d -> schema_named es d.
  Proof.
    intros Hd (H1 & H2 & H3 & H4 & H5 & H6 & H7 & H8 & H9 & H10).
    match type of Hd with disjoint ?l _ => set (all := l) in *;
      assert (forall k, In k all -> smem k ks = false) as Hk by (intros k Hk; apply smem_false; exact (Hd k Hk)) end.
    split; [eapply info_named_without; [|exact H1]; intros k Hi; apply Hd; apply in_or_app; auto|].
    conj; try (first [eapply named_str_without; [|eassumption]|eapply named_without; [|eassumption]
                     |eapply named_flag_without; [|eassumption]]; in_td Hk).
    intros s Hs. eapply sub_named_without; [|apply H10; exact Hs].
    intros k Hi. apply Hd. apply in_or_app; right. apply in_or_app; right. auto.
  Qed.

  Lemma variant_name A (tbl : list (string * A)) n a : d_variant tbl (JStr n) = Some a -> In (n, a) tbl.
  Proof. simpl. apply assoc_In. Qed.

  Ltac pairs Hin :=
    simpl in Hin; repeat (destruct Hin as [Hin|Hin]; [injection Hin as <- <-; reflexivity|]); destruct Hin.

  Lemma location_names n l : In (n, l) locations -> n = td_location l.
  Proof. intros Hin. pairs Hin. Qed.

  Lemma place_names es ks l b : disjoint ["in"; "name"] ks ->
    d_loc_name l (without ks es) = Some b -> place_named es b.
  Proof.
    intros Hd. unfold d_loc_name, place_named. intros H. binds H. injection H as <-. split.
    - intros n Hn. cbn. apply location_names.
      apply variant_name. eapply dflt_value; [exact B|]. apply in_without; auto.
      apply smem_false, Hd. left; auto.
    - eapply named_str_without with (ks := ks); [|name1]. apply smem_false, Hd. right; left; auto.
  Qed.

  Lemma known_names_ok es k : d_known es = Some k -> known_named es k.
  Proof.
    unfold d_known, known_named. intros H. apply obind_inv in H as (x & Hk & H).
    split; [exact (@req_has _ _ _ _ _ Hk)|].
    assert (forall n, In ("scheme", JStr n) es -> In (n, x) sec_names) as Hn.
    { intros n Hn. exact (tag_string Hk Hn). }
    destruct x; binds H;
      try (apply option_map_inv in H as (m & H & ->));
      try (injection H as <-); (split; [intros n Hs; pose proof (Hn n Hs) as Hin; the_name Hin|]).
    - exact I.
    - exact I.
    - unfold d_combo in H. destruct (without ["scheme"] es) as [|[c v] [|? ?]] eqn:Hc; try discriminate.
      assert (has es c) as Hh.
      { apply has_without with (ks := ["scheme"]). rewrite Hc. left; auto. }
      destruct (String.eqb_spec c "oneOf") as [->|].
      { apply option_map_inv in H as (? & _ & ->). auto. }
      destruct (String.eqb_spec c "allOf") as [->|]; [|discriminate].
      apply option_map_inv in H as (? & _ & ->). auto.
    - eapply place_names; [|eassumption]; apart.
    - split; [eapply place_names; [|eassumption]; apart|]. split; [less constr:(["scheme"]); name1|].
      intros n Hs. assert (In (n, x) qops) as Hin.
      { apply variant_name. eapply req_value; [exact B|]. apply in_without; auto. }
      pairs Hin.
    - unfold d_bearer in H. binds H. injection H as <-. conj; try (less constr:(["scheme"]); name1).
      + intros s Hs. apply (in_without "alg" (JStr s) ["scheme"]) in Hs; [|reflexivity].
        pose proof (dflt_value B0 Hs) as Hv. simpl in Hv. injection Hv as ->. reflexivity.
      + intros s Hs. apply (in_without "format" (JStr s) ["scheme"]) in Hs; [|reflexivity].
        pose proof (dflt_value B1 Hs) as Hv. simpl in Hv. injection Hv as ->. reflexivity.
      + intros s Hs. apply (in_without "in" (JStr s) ["scheme"]) in Hs; [|reflexivity].
        apply location_names, variant_name. exact (dflt_value B2 Hs).
    - less constr:(["scheme"]). name1.
    - unfold d_oauth2 in H. binds H. injection H as <-. conj; less constr:(["scheme"]); name1.
    - eapply place_names; [|eassumption]; apart.
  Qed.

  Definition known_td := ["scheme"; "oneOf"; "allOf"; "in"; "name"; "qop"; "authorization"; "alg"; "format";
    "identity"; "token"; "refresh"; "scopes"; "flow"].

  Lemma known_named_without ks es k : disjoint known_td ks ->
    known_named (without ks es) k -> known_named es k.
  Proof.
    intros Hd (H1 & H2 & H3).
    assert (forall k, In k known_td -> smem k ks = false) as Hk by (intros k0 Hk; apply smem_false; exact (Hd k0 Hk)).
    assert (forall b, place_named (without ks es) b -> place_named es b) as Hp.
    { intros b [P1 P2]. split; [intros n Hn; apply P1; apply in_without; auto; in_td Hk|].
      eapply named_str_without; [|exact P2]. in_td Hk. }
    split; [eapply has_without; eauto|]. split.
    - intros n Hn. apply H2. apply in_without; auto. in_td Hk.
    - destruct k as [| |[l|l]|b|q b|b|i|o|b]; auto; try (eapply has_without; eauto; fail).
      + destruct H3 as (A1 & A2 & A3). split; auto. split; [eapply has_without; eauto|].
        intros n Hn. apply A3. apply in_without; auto. in_td Hk.
      + destruct H3 as (A1 & A2 & A3 & A4 & A5).
        conj; try (eapply named_str_without; [|eassumption]; in_td Hk);
          intros n Hn; first [apply A3|apply A4|apply A5]; apply in_without; auto; in_td Hk.
      + eapply named_str_without; [|eassumption]. in_td Hk.
      + destruct H3 as (A1 & A2 & A3 & A4 & A5).
        conj; first [eapply named_str_without; [|eassumption]|eapply named_without; [|eassumption]
                    |eapply has_str_without; [|eassumption]]; in_td Hk.
  Qed.

  Lemma security_names es s : d_security E (JObj es) = Some s -> security_named es s.
  Proof.
    unfold d_security, d_flat, security_body, security_named. intros H. names H.
    cbn [ss_subtype]. unfold d_subtype in B3.
    destruct (d_known (without security_keys es)) as [k|] eqn:Hk.
    - injection B3 as <-. apply known_names_ok in Hk. eapply known_named_without; [|exact Hk]. apart.
    - unfold d_unknown in B3. binds B3. injection B3 as <-. less security_keys. name1.
  Qed.

  Lemma link_names es l : d_link E (JObj es) = Some l -> link_named es l.
  Proof. unfold d_link, d_struct, link_named. intros H. names H. Qed.

  Lemma add_resp_names es r : d_add_resp (JObj es) = Some r -> add_resp_named es r.
  Proof. unfold d_add_resp, d_struct, add_resp_named. intros H. names H. Qed.

  Lemma version_names es v : d_version (JObj es) = Some v -> version_named es v.
  Proof. unfold d_version, d_struct, version_named. intros H. names H. Qed.

  Lemma exp_resp_names es r : d_exp_resp X (JObj es) = Some r -> has_str es "contentType" (er_ctype r).
  Proof. unfold d_exp_resp, d_flat, exp_resp_body. intros H. names H. Qed.

  Lemma op_named es o : dflt "op" OpDefault d_ops es = Some o ->
    (o <> OpDefault <-> exists v, In ("op", v) es /\ v <> JNull).
  Proof.
    unfold dflt. intros H. split.
    - intros Ho. destruct (get "op" es) as [|v [|w l]] eqn:Hg; try congruence.
      exists v. split; [apply get_In; rewrite Hg; left; auto|]. intros ->. simpl in H. congruence.
    - intros (v & Hin & Hv). apply get_In in Hin.
      destruct (get "op" es) as [|w [|w' l]]; [destruct Hin| |discriminate].
      destruct Hin as [->|[]]. destruct v; try congruence;
        apply option_map_inv in H as (a & _ & ->); discriminate.
  Qed.

  Lemma form_names es f : d_form X (JObj es) = Some f -> form_named es f.
  Proof.
    unfold d_form, d_flat, form_body, form_named. intros H. names H. exact (@op_named _ _ B).
  Qed.

  Lemma interaction_names_ok ks es i : disjoint (info_keys ++ ["forms"; "uriVariables"]) ks ->
    interaction_body E X (without ks es) = Some i -> interaction_named es i.
  Proof.
    intros Hd. unfold interaction_body, interaction_named. intros H. binds H. injection H as <-.
    conj; [|eapply has_without with (ks := ks); name1|].
    - eapply info_named_without; [|exact (@info_names _ _ B)]. intros k Hi. apply Hd. apply in_or_app; auto.
    - eapply named_without with (ks := ks); [|name1]. apply smem_false, Hd. apply smem_In. reflexivity.
  Qed.

  Lemma property_names es p : d_property E X (JObj es) = Some p -> property_named es p.
  Proof.
    unfold d_property, d_flat, property_body, property_named. intros H. names H.
    - eapply interaction_names_ok; [|eassumption]. apart.
    - apply ds_names_ok in B1. eapply ds_named_without; [|exact B1]. apart.
  Qed.

  Lemma action_names es a : d_action E X (JObj es) = Some a -> action_named es a.
  Proof.
    unfold d_action, d_flat, action_body, action_named. intros H. names H.
    eapply interaction_names_ok; [|eassumption]. apart.
  Qed.

  Lemma event_names es e : d_event E X (JObj es) = Some e -> event_named es e.
  Proof.
    unfold d_event, d_flat, event_body, event_named. intros H. names H.
    eapply interaction_names_ok; [|eassumption]. apart.
  Qed.

  Lemma thing_names es t : d_thing E X (JObj es) = Some t -> thing_named es t.
  Proof.
    unfold d_thing, d_flat, thing_body, thing_named. intros H. names H.
    intros s Hs. pose proof (dflt_value B Hs) as Hv. unfold d_value in Hv. simpl in Hv. cbn. congruence.
  Qed.
End Names.

(** ** Operations *)

Lemma td_op_name s o : In (s, o) td_operations <-> s = op_name o.
Proof.
  split.
  - simpl. intros H. repeat (destruct H as [H|H]; [injection H as <- <-; reflexivity|]). destruct H.
  - intros ->. destruct o; simpl; tauto.
Qed.

Lemma op_name_inj o o' : op_name o = op_name o' -> o = o'.
Proof. destruct o, o'; simpl; intros H; try reflexivity; discriminate. Qed.

Lemma d_op_str s o : d_op (JStr s) = Some o <-> s = op_name o.
Proof.
  split.
  - intros H. apply td_op_name. unfold d_op in H. apply variant_name in H. revert H. simpl. tauto.
  - intros ->. apply d_op_rt.
Qed.

Lemma op_shown o : op_display o = op_name o.
Proof. destruct o; reflexivity. Qed.

Lemma op_table s o :
  (In (s, o) td_operations <-> s_op o = JStr s)
  /\ (In (s, o) td_operations <-> d_op (JStr s) = Some o)
  /\ (In (s, o) td_operations <-> op_display o = s).
Proof.
  pose proof (op_shown o). rewrite td_op_name, d_op_str. unfold s_op.
  repeat split; intros; congruence.
Qed.

Lemma op_table_one_to_one :
  NoDup (map fst td_operations) /\ NoDup (map snd td_operations) /\ forall o, In o (map snd td_operations).
Proof.
  split; [apply nodupb_ok; reflexivity|]. split.
  - repeat constructor; simpl; intuition discriminate.
  - intros o. destruct o; simpl; tauto.
Qed.
