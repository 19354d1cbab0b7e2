(** * Schemas with members of the wrong shape *)

From Coq Require Import String Bool ZArith Lia List.
From Verif Require Import Base MinMax Json Serde Types SpecSerde SpecDoc SpecMember Ser De SerdeFacts
  RoundTrip RoundTripDs ProtocolFacts DecodedFacts MemberFacts NameFacts.
Import ListNotations.
Set Implicit Arguments.
Local Open Scope string_scope.
Local Open Scope list_scope.

Lemma str_shape j s : d_str j = Some s -> is_str j.
Proof. destruct j; try discriminate. exists s0. reflexivity. Qed.

Lemma bool_shape j b : d_bool j = Some b -> is_bool j.
Proof. destruct j; try discriminate. exists b0. reflexivity. Qed.

Lemma list_shape A (d : json -> option A) j l : d_list d j = Some l -> is_arr j.
Proof. destruct j; try discriminate. exists l0. reflexivity. Qed.

Lemma map_shape A (d : json -> option A) j l : d_map d j = Some l -> is_obj j.
Proof. destruct j; try discriminate. eexists. reflexivity. Qed.

Lemma int_shape lo hi j n : d_int lo hi j = Some n -> is_int_in (fun n => (lo <= n <= hi)%Z) j.
Proof.
  intros H. pose proof (@int_inv _ _ _ _ H). destruct j; try discriminate. exists n0. split; auto.
  simpl in H. destruct ((lo <=? n0) && (n0 <=? hi))%Z; congruence.
Qed.

Lemma f64_shape j x : d_f64 j = Some x -> is_number j.
Proof. destruct j; try discriminate; intros _; [left|right]; eauto. Qed.

Lemma strs_shape j l : d_list d_str j = Some l -> is_strs j.
Proof.
  intros H. destruct j; try discriminate. eexists. split; [reflexivity|]. simpl in H.
  apply Forall_forall. intros v Hv. destruct (d_str v) eqn:Hs; [eapply str_shape; eauto|].
  exfalso. revert l H. induction l0 as [|a l0 IH]; simpl; [contradiction|].
  intros l H. destruct Hv as [<-|Hv].
  - rewrite Hs in H. discriminate.
  - destruct (d_str a); [|discriminate]. simpl in H. destruct (omap_all d_str l0); [|discriminate]. eauto.
Qed.

Lemma oom_str_shape j l : d_oom d_str j = Some l -> str_or_strs j.
Proof.
  unfold d_oom. destruct (d_str j) eqn:Hs; intros H; [left; eapply str_shape; eauto|].
  right. eapply strs_shape; eauto.
Qed.

Lemma multilang_shape E j m : d_multilang E j = Some m -> is_text_map j.
Proof.
  destruct j; try discriminate. simpl. intros H. eexists. split; [reflexivity|].
  destruct (omap_all _ es) as [l|] eqn:Hl; [|discriminate]. clear H. revert l Hl.
  induction es as [|[k v] es IH]; simpl; intros l Hl; constructor.
  - simpl in Hl. destruct (tag_ok E k); [|discriminate]. simpl.
    destruct (d_str v) eqn:Hs; [eapply str_shape; eauto|discriminate].
  - destruct (if tag_ok E k then _ else _); [|discriminate].
    destruct (omap_all _ es); [|discriminate]. eauto.
Qed.

Lemma opt_shape A k (d : json -> option A) (ok : json -> Prop) es o v :
  (forall j a, d j = Some a -> ok j) -> opt k d es = Some o -> In (k, v) es -> v <> JNull -> ok v.
Proof.
  intros Hok H Hin Hn. apply get_In in Hin. unfold opt in H.
  destruct (get k es) as [|w [|w' l]]; [destruct Hin| |destruct w; discriminate].
  destruct Hin as [->|[]]. destruct (d v) eqn:Hd; [eauto|]. destruct v; simpl in H; try discriminate.
  congruence.
Qed.

Lemma dflt_shape A k a0 (d : json -> option A) (ok : json -> Prop) es a v :
  (forall j a, d j = Some a -> ok j) -> dflt k a0 d es = Some a -> In (k, v) es -> ok v.
Proof.
  intros Hok H Hin. apply get_In in Hin. unfold dflt in H.
  destruct (get k es) as [|w [|w' l]]; [destruct Hin| |discriminate]. destruct Hin as [->|[]]. eauto.
Qed.

Section Shape.
  Variable E : env.
  Variable X : exts.

  Lemma ds_shape es d : d_ds E X (JObj es) = Some d ->
    (forall k ok v, In (k, ok) schema_shapes -> In (k, v) es -> v <> JNull -> ok v)
    /\ (forall k ok v, In (k, ok) flag_shapes -> In (k, v) es -> ok v).
  Proof.
    rewrite d_ds_obj. unfold ds_body. intros H. binds H. clear H.
    unfold d_info in *. unfold d_misc in *.
    repeat match goal with H : obind _ _ = Some _ |- _ => apply obind_inv in H as (? & ? & ?) end.
    split; intros k ok v Hk Hv; simpl in Hk;
      repeat (destruct Hk as [[= <- <-]|Hk];
        [first [ intros Hn; eapply opt_shape; [| |exact Hv|exact Hn]; [|eassumption]
               | eapply dflt_shape; [| |exact Hv]; [|eassumption] ];
         intros j a Ha; first [ exact (str_shape _ Ha) | exact (oom_str_shape _ Ha)
           | exact (multilang_shape _ _ Ha) | exact (list_shape _ _ Ha) | exact (bool_shape _ Ha) ]|]);
      destruct Hk.
  Qed.

  Lemma malformed_fails es : malformed es -> d_ds E X (JObj es) = None.
  Proof.
    intros H. destruct (d_ds E X (JObj es)) as [d|] eqn:Hd; auto. exfalso.
    destruct (ds_shape _ Hd) as [H1 H2].
    destruct H as [(k & ok & v & Hk & Hv & Hn & Hok)|(k & ok & v & Hk & Hv & Hok)]; apply Hok.
    - exact (H1 _ _ _ Hk Hv Hn).
    - exact (H2 _ _ _ Hk Hv).
  Qed.

  Lemma boxed_shape rec j b : d_boxed (X := X) rec j = Some b ->
    (forall j d, rec j = Some d -> is_obj j) -> obj_or_arr j.
  Proof.
    intros H Hr. unfold d_boxed in H. destruct (rec j) eqn:Hj; [left; eauto|].
    destruct (d_list rec j) eqn:Hl; [|discriminate]. right. eapply list_shape; eauto.
  Qed.

  Lemma ds_is_obj j d : d_ds E X j = Some d -> is_obj j.
  Proof. destruct j; try discriminate. eexists. reflexivity. Qed.

  Lemma tag_shape j k : d_tag sub_names j = Some k ->
    exists n, (j = JStr n /\ In n (map fst type_shapes)) \/ exists i, j = JInt i.
  Proof.
    destruct j; try discriminate; simpl; intros H.
    - exists "". right. eauto.
    - exists s. left. split; auto. clear -H.
      repeat (match type of H with (if String.eqb ?a ?b then _ else _) = _ =>
                destruct (String.eqb a b) eqn:He; [apply String.eqb_eq in He; subst; simpl; tauto|clear He] end).
      discriminate.
  Qed.

  Lemma sub_shape es s : sub_body (d_ds E X) es = Some s -> ~ ill_typed es.
  Proof.
    intros H Hill. unfold sub_body in H. apply obind_inv in H as (k & Hk & H).
    unfold req in Hk. destruct (get "type" es) as [|t [|t' l]] eqn:Ht; try discriminate.
    destruct Hill as [(v & Hv & Hn)|(n & shapes & m & ok & v & Hty & Hsh & Hm & Hv & Hnn & Hok)].
    { apply get_In in Hv. rewrite Ht in Hv. destruct Hv as [->|[]]. apply Hn. eapply tag_shape; eauto. }
    apply get_In in Hty. rewrite Ht in Hty. destruct Hty as [->|[]].
    assert (In (m, v) (without ["type"] es)) as Hv'.
    { apply get_In. rewrite get_without. apply get_In in Hv.
      destruct (smem m ["type"]) eqn:Hs; auto. apply smem_In in Hs. destruct Hs as [<-|[]].
      exfalso. simpl in Hsh. repeat (destruct Hsh as [[= <- <-]|Hsh];
        [simpl in Hm; repeat (destruct Hm as [[=]|Hm]); destruct Hm|]). destruct Hsh. }
    apply Hok. clear Hok Hv Ht.
    simpl in Hsh.
    repeat (destruct Hsh as [[= <- <-]|Hsh]; [simpl in Hk; injection Hk as <-; cbv beta iota in H|]);
      try destruct Hsh; simpl in Hm; try contradiction.
    - binds H. repeat (destruct Hm as [[= <- <-]|Hm];
        [eapply opt_shape; [| |exact Hv'|exact Hnn]; [|eassumption]; intros j a Ha|]); try destruct Hm.
      + exact (@boxed_shape _ _ _ Ha ds_is_obj).
      + eapply int_shape; eauto.
      + eapply int_shape; eauto.
    - apply option_map_inv in H as (n & H & _). unfold d_number in H. binds H.
      destruct Hm as [[= <- <-]|[]].
      eapply opt_shape; [| |exact Hv'|exact Hnn]; [|eassumption]; intros j a Ha. eapply f64_shape; eauto.
    - apply option_map_inv in H as (n & H & _). unfold d_integer in H. binds H.
      destruct Hm as [[= <- <-]|[]].
      eapply opt_shape; [| |exact Hv'|exact Hnn]; [|eassumption]; intros j a Ha. eapply int_shape; eauto.
    - binds H. repeat (destruct Hm as [[= <- <-]|Hm];
        [eapply opt_shape; [| |exact Hv'|exact Hnn]; [|eassumption]; intros j a Ha|]); try destruct Hm.
      + eapply map_shape; eauto.
      + eapply strs_shape; eauto.
    - apply option_map_inv in H as (n & H & _). unfold d_string in H. binds H.
      repeat (destruct Hm as [[= <- <-]|Hm];
        [eapply opt_shape; [| |exact Hv'|exact Hnn]; [|eassumption]; intros j a Ha|]); try destruct Hm;
        first [eapply int_shape; eauto | eapply str_shape; eauto].
  Qed.

  Lemma ill_typed_loses es d : ill_typed es -> d_ds E X (JObj es) = Some d -> ds_sub d = None.
  Proof.
    intros Hill. rewrite d_ds_obj. unfold ds_body. intros H. binds H.
    injection H as <-. simpl.
    destruct (sub_body (d_ds E X) (without ds_keys es)) eqn:Hs; auto. exfalso.
    apply (@sub_shape _ _ Hs).
    assert (forall k v, smem k ds_keys = false -> In (k, v) es -> In (k, v) (without ds_keys es)) as Hin.
    { intros k v Hk Hv. apply get_In. rewrite get_without, Hk. apply get_In. auto. }
    destruct Hill as [(v & Hv & Hn)|(n & shapes & m & ok & v & Hty & Hsh & Hm & Hv & Hnn & Hok)].
    - left. exists v. split; auto.
    - right. exists n, shapes, m, ok, v. repeat split; auto. apply Hin; auto.
      simpl in Hsh. repeat (destruct Hsh as [[= <- <-]|Hsh];
        [simpl in Hm; repeat (destruct Hm as [[= <- _]|Hm]; [reflexivity|]); destruct Hm|]). destruct Hsh.
  Qed.
End Shape.
