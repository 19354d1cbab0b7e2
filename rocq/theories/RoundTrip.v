(** * Writing and reading back *)

From Coq Require Import String Bool ZArith Permutation Lia List.
From Coq Require Import Floats.SpecFloat.
From Verif Require Import Base MinMax Json Serde Types Spec SpecSerde Ser De SerdeFacts.
Import ListNotations.
Set Implicit Arguments.
Local Open Scope string_scope.
Local Open Scope list_scope.

Lemma obind_Some A B (o : option A) a (f : A -> option B) : o = Some a -> obind o f = f a.
Proof. intros ->. reflexivity. Qed.

(** Looking up literal names in written members. *)
Ltac gets :=
  repeat first [rewrite get_app | rewrite get_ofld | rewrite get_fld];
  cbn [String.eqb Ascii.eqb Bool.eqb app];
  repeat first [rewrite app_nil_r | rewrite app_nil_l].

Ltac lit_cases H :=
  cbn [In app] in H;
  repeat match type of H with
         | _ \/ _ => destruct H as [H|H]
         | False => destruct H
         end;
  try (rewrite <- H in *; clear H).

Ltac lookup :=
  match goal with
  | H : forall k, In k _ -> get k ?es = _ |- get _ ?es = _ =>
      rewrite H by (apply smem_In; reflexivity); gets; reflexivity
  end.
Ltac ofield S O tac :=
  erewrite obind_Some;
  [|apply opt_rt with (s := S) (o := O);
    [lookup|let a := fresh "a" in let Ha := fresh "Ha" in intros a Ha; tac]].
Ltac rfield tac :=
  erewrite obind_Some; [|eapply req_rt; [lookup|tac]].
Ltac dfield tac :=
  erewrite obind_Some; [|eapply dflt_rt; [lookup|tac]].

(** ** The recursion of the schema decoder *)

Section Unfold.
  Variable E : env.
  Variable X : exts.

  Lemma opt_ext A k (d d' : json -> option A) es :
    (forall v, In (k, v) es -> d v = d' v) -> opt k d es = opt k d' es.
  Proof.
    intros H. unfold opt. destruct (get k es) as [|v [|w l]] eqn:Eg; auto.
    assert (In v (get k es)) as Hi by (rewrite Eg; left; auto). apply get_In in Hi.
      rewrite (H v Hi). reflexivity.
  Qed.

  Lemma d_list_ext A (d d' : json -> option A) j :
    (forall v, jdepth v < jdepth j -> d v = d' v) -> d_list d j = d_list d' j.
  Proof.
    intros H. destruct j; auto. simpl. apply omap_all_ext. intros v Hv. apply H.
    apply jdepth_arr; auto.
  Qed.

  Lemma d_map_ext A (d d' : json -> option A) j :
    (forall v, jdepth v < jdepth j -> d v = d' v) -> d_map d j = d_map d' j.
  Proof.
    intros H. destruct j; auto. simpl. f_equal. apply omap_all_ext. intros [k v] Hv. simpl.
    rewrite H; auto. eapply jdepth_obj; eauto.
  Qed.

  Lemma without_In ks es k v : In (k, v) (without ks es) -> In (k, v) es.
  Proof. intros H. apply filter_In in H as [H _]. auto. Qed.

  Lemma sub_body_ext (r r' : json -> option (dsx X)) es :
    (forall k v w, In (k, v) es -> jdepth w <= jdepth v -> r w = r' w) ->
    sub_body (X := X) r es = sub_body r' es.
  Proof.
    intros H. unfold sub_body. destruct (req "type" (d_tag sub_names) es) as [[]|]; simpl; auto.
    - rewrite (@opt_ext _ "items" (d_boxed r) (d_boxed r')); auto.
      intros v Hv. apply without_In in Hv. unfold d_boxed.
      rewrite (H _ _ v Hv) by auto. destruct (r' v); auto. f_equal.
      apply d_list_ext. intros w Hw. eapply H; eauto. lia.
    - rewrite (@opt_ext _ "properties" (d_map r) (d_map r')); auto.
      intros v Hv. apply without_In in Hv.
      apply d_map_ext. intros w Hw. eapply H; eauto. lia.
  Qed.

  Lemma ds_body_ext (r r' : json -> option (dsx X)) es :
    (forall w, jdepth w < jdepth (JObj es) -> r w = r' w) ->
    ds_body E r es = ds_body E r' es.
  Proof.
    intros H. unfold ds_body.
    rewrite (@opt_ext _ "oneOf" (d_list r) (d_list r')).
    - rewrite (@sub_body_ext r r'); auto.
      intros k v w Hv Hw. apply without_In in Hv. apply H.
      pose proof (jdepth_obj _ _ _ Hv). lia.
    - intros v Hv. apply d_list_ext. intros w Hw. apply H.
      pose proof (jdepth_obj _ _ _ Hv). lia.
  Qed.

  Lemma d_ds_n_enough n m j : jdepth j < n -> jdepth j < m -> d_ds_n E X n j = d_ds_n E X m j.
  Proof.
    revert m j. induction n as [|n IH]; intros m j Hn Hm; [lia|].
    destruct m as [|m]; [lia|]. destruct j; simpl; auto.
    apply ds_body_ext. intros w Hw. apply IH; lia.
  Qed.

  (** The bound on the recursion is never met. *)
  Lemma d_ds_obj es : d_ds E X (JObj es) = ds_body E (d_ds E X) es.
  Proof.
    unfold d_ds at 1. cbn [d_ds_n d_flat]. apply ds_body_ext. intros w Hw.
    unfold d_ds. apply d_ds_n_enough; lia.
  Qed.

  Lemma d_ds_other j : (forall es, j <> JObj es) -> d_ds E X j = None.
  Proof. intros H. destruct j; try reflexivity. exfalso. eapply H; eauto. Qed.
End Unfold.

(** ** Pieces of objects *)

Section RT.
  Variable E : env.
  Variable X : exts.
  Variable mk : entries -> json.
  Hypothesis Hw : json_writer mk.

  Lemma multilang_rt m : tags_ok E m ->
    d_multilang E (s_multilang mk m) = Some m /\ s_multilang mk m <> JNull.
  Proof.
    intros [Hs Ht]. unfold s_multilang, s_map. split; [|apply writer_not_null; auto].
    destruct (writer_keeps Hw (mmap_nodup JStr m Hs)) as (es' & -> & Hp).
    apply Permutation_mmap_inv in Hp as (m' & Hp & ->). simpl.
    rewrite (@omap_all_mmap _ _ JStr _ (fun a => a) m').
    - rewrite mmap_id. simpl. f_equal. apply mof_Permutation; auto. apply Permutation_sym; auto.
    - intros k a Hin. simpl. rewrite Ht; auto.
      apply in_map_iff. exists (k, a). split; auto.
      eapply Permutation_in; [apply Permutation_sym|]; eauto.
  Qed.

  Lemma info_rt i es : info_ok E i ->
    (forall k, In k info_keys -> get k es = get k (info_es mk i)) ->
    d_info E es = Some i.
  Proof.
    intros Hi H. unfold d_info. unfold info_es in H.
    ofield (s_oom JStr) (i_attype i) ltac:(apply d_oom_str).
    ofield JStr (i_title i) ltac:(apply d_str_rt).
    ofield (s_multilang mk) (i_titles i) ltac:(apply multilang_rt, Hi; left; auto).
    ofield JStr (i_description i) ltac:(apply d_str_rt).
    ofield (s_multilang mk) (i_descriptions i) ltac:(apply multilang_rt, Hi; right; auto).
    destruct i; reflexivity.
  Qed.

  Definition misc_keys := ["const"; "default"; "unit"; "enum"; "readOnly"; "writeOnly"; "format"].

  Lemma value_opt_rt v : some_value v -> d_value (ser_value mk v) = Some v /\ ser_value mk v <> JNull.
  Proof.
    intros [H1 H2]. split; [apply d_value_rt; auto|apply ser_value_not_null; auto].
  Qed.

  Lemma misc_rt m es :
    all_some some_value (m_const m) -> all_some some_value (m_default m) ->
    all_some (Forall value_ok) (m_enum m) ->
    (forall k, In k misc_keys -> get k es = get k (misc1_es mk m ++ misc2_es mk m)) ->
    d_misc es = Some m.
  Proof.
    intros Hc Hd He H. unfold d_misc. unfold misc1_es, misc2_es in H.
    ofield (ser_value mk) (m_const m) ltac:(apply value_opt_rt, Hc; auto).
    ofield (ser_value mk) (m_default m) ltac:(apply value_opt_rt, Hd; auto).
    ofield JStr (m_unit m) ltac:(apply d_str_rt).
    ofield (s_list (ser_value mk)) (m_enum m)
      ltac:(apply d_list_rt; intros v Hv; apply d_value_rt; auto;
            apply He in Ha; rewrite Forall_forall in Ha; auto).
    dfield ltac:(apply (d_bool_rt (m_ro m))).
    dfield ltac:(apply (d_bool_rt (m_wo m))).
    ofield JStr (m_format m) ltac:(apply d_str_rt).
    destruct m; reflexivity.
  Qed.

  Lemma first_of_none k1 k2 es : get k1 es = [] -> get k2 es = [] -> first_of [k1; k2] es = None.
  Proof.
    intros H1 H2. unfold first_of. destruct (find _ es) as [[k v]|] eqn:Ef; auto.
    apply find_some in Ef as [Hin Hk]. simpl in Hk.
    destruct (String.eqb k k1) eqn:E1.
    - apply String.eqb_eq in E1; subst. apply get_In in Hin. rewrite H1 in Hin. destruct Hin.
    - destruct (String.eqb k k2) eqn:E2; [|discriminate].
      apply String.eqb_eq in E2; subst. apply get_In in Hin. rewrite H2 in Hin. destruct Hin.
  Qed.

  Lemma first_of_one k1 k2 k v es : In k [k1; k2] ->
    get k1 es = (if String.eqb k1 k then [v] else []) ->
    get k2 es = (if String.eqb k2 k then [v] else []) -> first_of [k1; k2] es = Some (k, v).
  Proof.
    intros Hk H1 H2. unfold first_of. destruct (find _ es) as [[k' v']|] eqn:Ef.
    - apply find_some in Ef as [Hin Hk']. cbn [fst] in Hk'. apply smem_In in Hk'.
      apply get_In in Hin.
      destruct Hk' as [<-|[<-|[]]]; [rewrite H1 in Hin|rewrite H2 in Hin].
      + destruct (String.eqb k1 k) eqn:E1; [|destruct Hin]. apply String.eqb_eq in E1; subst.
        destruct Hin as [->|[]]. auto.
      + destruct (String.eqb k2 k) eqn:E1; [|destruct Hin]. apply String.eqb_eq in E1; subst.
        destruct Hin as [->|[]]. auto.
    - exfalso. assert (In (k, v) es) as Hin.
      { apply get_In. destruct Hk as [->|[->|[]]]; [rewrite H1|rewrite H2];
          rewrite String.eqb_refl; left; auto. }
      apply (find_none _ _ Ef) in Hin. cbn [fst] in Hin.
      apply smem_In in Hk. congruence.
  Qed.

  Lemma d_max_rt A (d : json -> option A) (f : A -> json) o es :
    all_some (fun m => d (f (max_val m)) = Some (max_val m)) o ->
    (forall k, In k ["maximum"; "exclusiveMaximum"] -> get k es = get k (max_es f o)) ->
    d_max d es = o.
  Proof.
    intros Ho H. pose proof (H "maximum" ltac:(apply smem_In; reflexivity)) as H1.
    pose proof (H "exclusiveMaximum" ltac:(apply smem_In; reflexivity)) as H2.
    unfold d_max. destruct o as [[a|a]|].
    - rewrite (@first_of_one _ _ "maximum" (f a) es); auto; [|left; auto].
      pose proof (Ho _ eq_refl) as Ha. simpl in Ha. simpl. rewrite Ha. reflexivity.
    - rewrite (@first_of_one _ _ "exclusiveMaximum" (f a) es); auto; [|right; left; auto].
      pose proof (Ho _ eq_refl) as Ha. simpl in Ha. simpl. rewrite Ha. reflexivity.
    - rewrite first_of_none; auto.
  Qed.

  Lemma d_min_rt A (d : json -> option A) (f : A -> json) o es :
    all_some (fun m => d (f (min_val m)) = Some (min_val m)) o ->
    (forall k, In k ["minimum"; "exclusiveMinimum"] -> get k es = get k (min_es f o)) ->
    d_min d es = o.
  Proof.
    intros Ho H. pose proof (H "minimum" ltac:(apply smem_In; reflexivity)) as H1.
    pose proof (H "exclusiveMinimum" ltac:(apply smem_In; reflexivity)) as H2.
    unfold d_min. destruct o as [[a|a]|].
    - rewrite (@first_of_one _ _ "minimum" (f a) es); auto; [|left; auto].
      pose proof (Ho _ eq_refl) as Ha. simpl in Ha. simpl. rewrite Ha. reflexivity.
    - rewrite (@first_of_one _ _ "exclusiveMinimum" (f a) es); auto; [|right; left; auto].
      pose proof (Ho _ eq_refl) as Ha. simpl in Ha. simpl. rewrite Ha. reflexivity.
    - rewrite first_of_none; auto.
  Qed.

  Lemma max_within A (f : A -> json) o : within (max_es f o) ["maximum"; "exclusiveMaximum"].
  Proof.
    destruct o as [[a|a]|]; simpl; [| |apply within_none].
    - exact (@within_l _ ["maximum"] ["exclusiveMaximum"] (@within_fld _ _)).
    - exact (@within_r _ ["maximum"] ["exclusiveMaximum"] (@within_fld _ _)).
  Qed.

  Lemma min_within A (f : A -> json) o : within (min_es f o) ["minimum"; "exclusiveMinimum"].
  Proof.
    destruct o as [[a|a]|]; simpl; [| |apply within_none].
    - exact (@within_l _ ["minimum"] ["exclusiveMinimum"] (@within_fld _ _)).
    - exact (@within_r _ ["minimum"] ["exclusiveMinimum"] (@within_fld _ _)).
  Qed.

  Definition number_keys :=
    ["maximum"; "exclusiveMaximum"; "minimum"; "exclusiveMinimum"; "multipleOf"].
  Definition string_keys :=
    ["minLength"; "maxLength"; "pattern"; "contentEncoding"; "contentMediaType"].

  Lemma number_rt n es :
    all_some (fun m => finite (max_val m)) (n_max n) ->
    all_some (fun m => finite (min_val m)) (n_min n) -> all_some finite (n_mult n) ->
    (forall k, In k number_keys -> get k es = get k (number_es n)) -> d_number es = Some n.
  Proof.
    intros H1 H2 H3 H. unfold d_number. unfold number_es in H.
    assert (forall k, In k ["maximum"; "exclusiveMaximum"] -> get k (min_es s_f64 (n_min n)) = []) as N1.
    { intros k Hk. eapply within_get_nil; [apply min_within|]. lit_cases Hk;
        apply smem_false; reflexivity. }
    assert (forall k, In k ["minimum"; "exclusiveMinimum"] -> get k (max_es s_f64 (n_max n)) = []) as N2.
    { intros k Hk. eapply within_get_nil; [apply max_within|]. lit_cases Hk;
        apply smem_false; reflexivity. }
    erewrite obind_Some.
    2: { apply opt_rt with (s := s_f64) (o := n_mult n).
         - rewrite H by (apply smem_In; reflexivity). gets.
           rewrite (within_get_nil (max_within s_f64 (n_max n))) by (apply smem_false; reflexivity).
           rewrite (within_get_nil (min_within s_f64 (n_min n))) by (apply smem_false; reflexivity).
           reflexivity.
         - intros a Ha. apply d_f64_rt, H3; auto. }
    rewrite (@d_max_rt _ d_f64 s_f64 (n_max n)).
    - rewrite (@d_min_rt _ d_f64 s_f64 (n_min n)).
      + destruct n; reflexivity.
      + intros m Hm. apply d_f64_rt, H2; auto.
      + intros k Hk. rewrite H by (lit_cases Hk; apply smem_In; reflexivity).
        rewrite !get_app, N2 by auto. lit_cases Hk; gets; reflexivity.
    - intros m Hm. apply d_f64_rt, H1; auto.
    - intros k Hk. rewrite H by (lit_cases Hk; apply smem_In; reflexivity).
      rewrite !get_app, N1 by auto. lit_cases Hk; gets; reflexivity.
  Qed.

  Lemma integer_rt n es :
    all_some (fun m => in_i64 (max_val m)) (z_max n) ->
    all_some (fun m => in_i64 (min_val m)) (z_min n) -> all_some in_nz_u64 (z_mult n) ->
    (forall k, In k number_keys -> get k es = get k (integer_es n)) -> d_integer es = Some n.
  Proof.
    intros H1 H2 H3 H. unfold d_integer. unfold integer_es in H.
    assert (forall k, In k ["maximum"; "exclusiveMaximum"] -> get k (min_es JInt (z_min n)) = []) as N1.
    { intros k Hk. eapply within_get_nil; [apply min_within|]. lit_cases Hk;
        apply smem_false; reflexivity. }
    assert (forall k, In k ["minimum"; "exclusiveMinimum"] -> get k (max_es JInt (z_max n)) = []) as N2.
    { intros k Hk. eapply within_get_nil; [apply max_within|]. lit_cases Hk;
        apply smem_false; reflexivity. }
    erewrite obind_Some.
    2: { apply opt_rt with (s := JInt) (o := z_mult n).
         - rewrite H by (apply smem_In; reflexivity). gets.
           rewrite (within_get_nil (max_within JInt (z_max n))) by (apply smem_false; reflexivity).
           rewrite (within_get_nil (min_within JInt (z_min n))) by (apply smem_false; reflexivity).
           reflexivity.
         - intros a Ha. apply d_int_rt, H3; auto. }
    rewrite (@d_max_rt _ d_i64 JInt (z_max n)).
    - rewrite (@d_min_rt _ d_i64 JInt (z_min n)).
      + destruct n; reflexivity.
      + intros m Hm. apply d_int_rt, H2; auto.
      + intros k Hk. rewrite H by (lit_cases Hk; apply smem_In; reflexivity).
        rewrite !get_app, N2 by auto. lit_cases Hk; gets; reflexivity.
    - intros m Hm. apply d_int_rt, H1; auto.
    - intros k Hk. rewrite H by (lit_cases Hk; apply smem_In; reflexivity).
      rewrite !get_app, N1 by auto. lit_cases Hk; gets; reflexivity.
  Qed.

  Lemma string_rt s es :
    all_some in_u32 (s_min s) -> all_some in_u32 (s_max s) ->
    (forall k, In k string_keys -> get k es = get k (string_es s)) -> d_string es = Some s.
  Proof.
    intros H1 H2 H. unfold d_string. unfold string_es in H.
    ofield JInt (s_min s) ltac:(apply d_int_rt, H1; auto).
    ofield JInt (s_max s) ltac:(apply d_int_rt, H2; auto).
    ofield JStr (s_pattern s) ltac:(apply d_str_rt).
    ofield JStr (s_encoding s) ltac:(apply d_str_rt).
    ofield JStr (s_media s) ltac:(apply d_str_rt).
    destruct s; reflexivity.
  Qed.
End RT.
