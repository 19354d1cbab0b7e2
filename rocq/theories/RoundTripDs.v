(** * Data schemas: writing and reading back *)

From Coq Require Import String Bool ZArith Permutation Lia List.
From Coq Require Import Floats.SpecFloat.
From Verif Require Import Base MinMax Json Serde Types Spec DsFacts SpecSerde Ser De SerdeFacts RoundTrip.
Import ListNotations.
Set Implicit Arguments.
Local Open Scope string_scope.
Local Open Scope list_scope.

(** ** Extensions *)

Section Piece.
  Variables (p : piece) (K : list string) (ok : pty p -> Prop) (mk : entries -> json).
  Hypothesis Hw : json_writer mk.
  Hypothesis Hp : round_trips p K ok.

  Lemma piece_within a : ok a -> within (p_ser p mk a) (map fst (p_ser p mk a)).
  Proof. intros Ha. apply within_incl; [apply (rt_written Hp Hw Ha)|apply incl_refl]. Qed.

  Lemma piece_nodup a : ok a -> NoDup (map fst (p_ser p mk a)).
  Proof. intros Ha. apply (rt_written Hp Hw Ha). Qed.

  Lemma piece_get_nil a k : ok a -> ~ In k K -> get k (p_ser p mk a) = [].
  Proof.
    intros Ha Hk. apply get_nil_iff. intros Hin. apply Hk.
    apply (rt_written Hp Hw Ha). auto.
  Qed.

  Lemma piece_disjoint a l : ok a -> disjoint K l -> disjoint (map fst (p_ser p mk a)) l.
  Proof. intros Ha Hd k Hk. apply Hd. apply (rt_written Hp Hw Ha). auto. Qed.

  (** What an extension reads in an object some of whose members were taken away. *)
  Lemma piece_rt a es ks l : ok a -> disjoint K l -> incl ks l ->
    (forall k, In k K -> get k es = get k (p_ser p mk a)) ->
    p_de p (without ks es) = Some a.
  Proof.
    intros Ha Hd Hi H. apply (rt_read Hp Hw Ha). intros k Hk. rewrite get_without.
    rewrite (proj2 (smem_false k ks)); auto. intros Hin. apply (Hd k Hk). auto.
  Qed.
End Piece.
Arguments piece_get_nil [p K ok mk].

Lemma incl_td l : inclb l td_names = true -> incl l td_names.
Proof. apply inclb_ok. Qed.

Lemma not_in_disjoint k l l' : disjoint l l' -> In k l' -> ~ In k l.
Proof. intros H Hk Hl. apply (H k); auto. Qed.

Section Ds.
  Variable E : env.
  Variable X : exts.
  Variable K : xnames.
  Variable V : xvalues X.
  Variable mk : entries -> json.
  Hypothesis Hw : json_writer mk.
  Hypothesis HX : exts_round_trip K V.
  Hypothesis HK : names_apart K.

  Notation ds_es := (@ds_es X mk).
  Notation sub_es := (@sub_es X mk).
  Notation d_ds := (d_ds E X).

  Definition subo_es (o : option (dsubx X)) : entries :=
    match o with Some s => sub_es s | None => [] end.

  Lemma ds_es_eq d :
    ds_es d = info_es mk (ds_info d) ++ misc1_es mk (ds_misc d)
              ++ ofld "oneOf" (s_list (s_ds mk)) (ds_one_of d)
              ++ misc2_es mk (ds_misc d) ++ subo_es (ds_sub d) ++ p_ser (x_ds X) mk (ds_other d).
  Proof. destruct d; reflexivity. Qed.

  Lemma sub_array_eq i mn mx o :
    sub_es (SArray i mn mx o) =
    fld "type" (JStr "array") ++ ofld "items" (@boxed_js X mk) i ++ ofld "min_items" JInt mn
    ++ ofld "max_items" JInt mx ++ p_ser (x_as X) mk o.
  Proof. reflexivity. Qed.

  Lemma sub_object_eq ps r o :
    sub_es (SObject ps r o) =
    fld "type" (JStr "object") ++ ofld "properties" (@s_dsmap X mk) ps
    ++ ofld "required" (s_list JStr) r ++ p_ser (x_os X) mk o.
  Proof. reflexivity. Qed.

  (** Names a subtype may write. *)
  Definition sub_written (s : dsubx X) : list string :=
    match s with
    | SArray _ _ _ o => "type" :: array_keys ++ map fst (p_ser (x_as X) mk o)
    | SObject _ _ o => "type" :: object_keys ++ map fst (p_ser (x_os X) mk o)
    | SNumber _ | SInteger _ => "type" :: number_keys
    | SString _ => "type" :: string_keys
    | SBoolean | SNull => ["type"]
    end.

  Definition subo_written (o : option (dsubx X)) : list string :=
    match o with Some s => sub_written s | None => [] end.

  Definition schema_names : list string :=
    "type" :: array_keys ++ object_keys ++ number_keys ++ string_keys.

  Lemma within_cons k es es' L : within es [k] -> within es' L -> within (es ++ es') (k :: L).
  Proof. intros H H'. exact (within_app H H'). Qed.

  Lemma number_within n : within (number_es n) number_keys.
  Proof.
    unfold number_es. exact (within_app (max_within _ _) (within_app (min_within _ _) (@within_ofld _ _ _ _))).
  Qed.

  Lemma integer_within n : within (integer_es n) number_keys.
  Proof.
    unfold integer_es. exact (within_app (max_within _ _) (within_app (min_within _ _) (@within_ofld _ _ _ _))).
  Qed.

  Ltac within_step :=
    first [apply within_fld | apply within_ofld
          | apply within_cons; [first [apply within_fld | apply within_ofld]|]].

  Lemma string_within s : within (string_es s) string_keys.
  Proof. unfold string_es, string_keys. repeat within_step. Qed.

  Lemma info_within i : within (info_es mk i) info_keys.
  Proof. unfold info_es, info_keys. repeat within_step. Qed.

  Lemma sub_within s : subtype_ok V s -> within (sub_es s) (sub_written s).
  Proof.
    destruct s; intros Hs.
    - rewrite sub_array_eq. cbn [sub_written array_keys app]. repeat within_step.
      eapply piece_within; [exact Hw|apply (xr_as HX)|apply Hs].
    - simpl. apply within_fld.
    - cbn [sub_written]. apply within_cons; [apply within_fld|apply number_within].
    - cbn [sub_written]. apply within_cons; [apply within_fld|apply integer_within].
    - rewrite sub_object_eq. cbn [sub_written object_keys app]. repeat within_step.
      eapply piece_within; [exact Hw|apply (xr_os HX)|apply Hs].
    - cbn [sub_written]. apply within_cons; [apply within_fld|apply string_within].
    - simpl. apply within_fld.
  Qed.

  Lemma subo_within o : all_some (subtype_ok V) o -> within (subo_es o) (subo_written o).
  Proof. destruct o; intros H; [apply sub_within; auto|apply within_none]. Qed.

  (** Names in [sub_written]: either of the crate, or of an extension. *)
  Lemma sub_written_In s k : subtype_ok V s -> In k (sub_written s) ->
    In k schema_names \/ In k (k_as K) \/ In k (k_os K).
  Proof.
    assert (forall l, inclb l schema_names = true -> In k l -> In k schema_names) as HI.
    { intros l Hl. apply inclb_ok; auto. }
    destruct s; cbn [sub_written]; intros Hs Hk.
    - change ("type" :: array_keys ++ map fst (p_ser (x_as X) mk o))
        with (("type" :: array_keys) ++ map fst (p_ser (x_as X) mk o)) in Hk.
      apply in_app_or in Hk as [Hk|Hk].
      + left. revert Hk. apply HI. reflexivity.
      + right; left. apply (rt_written (xr_as HX) Hw) in Hk; auto. apply Hs.
    - left. revert Hk. apply HI. reflexivity.
    - left. revert Hk. apply HI. reflexivity.
    - left. revert Hk. apply HI. reflexivity.
    - change ("type" :: object_keys ++ map fst (p_ser (x_os X) mk o))
        with (("type" :: object_keys) ++ map fst (p_ser (x_os X) mk o)) in Hk.
      apply in_app_or in Hk as [Hk|Hk].
      + left. revert Hk. apply HI. reflexivity.
      + right; right. apply (rt_written (xr_os HX) Hw) in Hk; auto. apply Hs.
    - left. revert Hk. apply HI. reflexivity.
    - left. revert Hk. apply HI. reflexivity.
  Qed.

  Lemma sub_written_nodup s : subtype_ok V s -> NoDup (sub_written s).
  Proof.
    destruct s; cbn [sub_written]; intros Hs; try (apply nodupb_ok; reflexivity).
    - change ("type" :: array_keys ++ map fst (p_ser (x_as X) mk o))
        with (("type" :: array_keys) ++ map fst (p_ser (x_as X) mk o)).
      apply disjoint_NoDup; [apply nodupb_ok; reflexivity| |].
      + eapply piece_nodup; [exact Hw|apply (xr_as HX)|apply Hs].
      + eapply piece_disjoint; [exact Hw|apply (xr_as HX)|apply Hs|].
        intros k Hk Hin. apply (na_as HK Hk). revert Hin. apply incl_td. reflexivity.
    - change ("type" :: object_keys ++ map fst (p_ser (x_os X) mk o))
        with (("type" :: object_keys) ++ map fst (p_ser (x_os X) mk o)).
      apply disjoint_NoDup; [apply nodupb_ok; reflexivity| |].
      + eapply piece_nodup; [exact Hw|apply (xr_os HX)|apply Hs].
      + eapply piece_disjoint; [exact Hw|apply (xr_os HX)|apply Hs|].
        intros k Hk Hin. apply (na_os HK Hk). revert Hin. apply incl_td. reflexivity.
  Qed.

  (** Names a schema may write. *)
  Definition ds_written (d : dsx X) : list string :=
    ds_keys ++ subo_written (ds_sub d) ++ map fst (p_ser (x_ds X) mk (ds_other d)).

  Lemma ds_within d : node_ok E V d -> within (ds_es d) (ds_written d).
  Proof.
    intros (Hi & Hc & Hd & He & Hs & Ho). rewrite ds_es_eq. unfold ds_written, ds_keys.
    rewrite <- app_assoc. apply within_app; [apply info_within|].
    unfold misc1_es, misc2_es. rewrite <- !app_assoc. cbn [app]. repeat within_step.
    apply within_app; [apply subo_within; auto|].
    eapply piece_within; [exact Hw|apply (xr_ds HX)|auto].
  Qed.

  Lemma schema_names_td k : In k schema_names -> In k td_names.
  Proof. apply incl_td. reflexivity. Qed.

  Lemma ds_keys_td k : In k ds_keys -> In k td_names.
  Proof. apply incl_td. reflexivity. Qed.

  Lemma ds_keys_schema_names k : In k ds_keys -> ~ In k schema_names.
  Proof.
    intros H. unfold ds_keys, info_keys in H. lit_cases H; apply smem_false; reflexivity.
  Qed.

  Lemma subo_written_In o k : all_some (subtype_ok V) o -> In k (subo_written o) ->
    In k schema_names \/ In k (k_as K) \/ In k (k_os K).
  Proof. destruct o; intros Hs Hk; [eapply sub_written_In; eauto|destruct Hk]. Qed.

  (** A name of [DataSchema] itself is not written by the subtype. *)
  Lemma subo_get_nil o k : all_some (subtype_ok V) o -> In k td_names -> ~ In k schema_names ->
    get k (subo_es o) = [].
  Proof.
    intros Ho Hk Hn. eapply within_get_nil; [apply subo_within; auto|].
    intros Hin. destruct (subo_written_In _ Ho Hin) as [H|[H|H]]; auto.
    - apply (na_as HK (k:=k)); auto.
    - apply (na_os HK (k:=k)); auto.
  Qed.

  Lemma dsx_get_nil o k : v_ds V o -> In k td_names -> get k (p_ser (x_ds X) mk o) = [].
  Proof.
    intros Ho Hk. apply (piece_get_nil Hw (xr_ds HX)); auto. intros H. apply (na_ds HK (k:=k)); auto.
  Qed.

  Lemma subo_written_nodup o : all_some (subtype_ok V) o -> NoDup (subo_written o).
  Proof. destruct o; intros H; [apply sub_written_nodup; auto|constructor]. Qed.

  Lemma ds_written_nodup d : node_ok E V d -> NoDup (ds_written d).
  Proof.
    intros (Hi & Hc & Hd & He & Hs & Ho). unfold ds_written.
    apply disjoint_NoDup; [apply nodupb_ok; reflexivity| |].
    - apply disjoint_NoDup; [apply subo_written_nodup; auto| |].
      + eapply piece_nodup; [exact Hw|apply (xr_ds HX)|auto].
      + eapply piece_disjoint; [exact Hw|apply (xr_ds HX)|auto|].
        intros k Hk Hin. destruct (subo_written_In _ Hs Hin) as [H|[H|H]].
        * apply (na_ds HK Hk), schema_names_td; auto.
        * apply (na_ds_as HK _ Hk); auto.
        * apply (na_ds_os HK _ Hk); auto.
    - intros k Hk Hin. apply in_app_or in Hk as [Hk|Hk].
      + destruct (subo_written_In _ Hs Hk) as [H|[H|H]].
        * exact (ds_keys_schema_names Hin H).
        * apply (na_as HK H), ds_keys_td; auto.
        * apply (na_os HK H), ds_keys_td; auto.
      + assert (In k (k_ds K)) as Hk' by (apply (rt_written (xr_ds HX) Hw Ho); auto).
        apply (na_ds HK Hk'), ds_keys_td; auto.
  Qed.

  (** ** Reading back *)

  Definition sub_reads : list string := schema_names ++ k_as K ++ k_os K.
  Definition ds_reads : list string := ds_keys ++ sub_reads ++ k_ds K.

  Lemma boxed_rt b :
    (forall d, In d (boxed_list b) -> d_ds (s_ds mk d) = Some d) ->
    d_boxed d_ds (@boxed_js X mk b) = Some b /\ @boxed_js X mk b <> JNull.
  Proof.
    intros H. destruct b as [d|l].
    - change (@boxed_js X mk (BElem d)) with (s_ds mk d).
      split; [|apply writer_not_null; auto]. unfold d_boxed.
      rewrite (H d) by (left; auto). auto.
    - change (@boxed_js X mk (BVec l)) with (s_list (s_ds mk) l).
      split; [|discriminate]. unfold d_boxed. rewrite d_ds_other by discriminate.
      destruct (@d_list_rt _ d_ds (s_ds mk) l) as [-> _]; auto.
  Qed.

  Ltac lookup_without :=
    rewrite !get_without; cbn [smem existsb String.eqb Ascii.eqb Bool.eqb orb array_keys object_keys].

  Lemma sub_rt s es : subtype_ok V s ->
    (forall d, In d (sub_children s) -> d_ds (s_ds mk d) = Some d) ->
    (forall k, In k sub_reads -> get k es = get k (sub_es s)) ->
    sub_body d_ds es = Some s.
  Proof.
    intros Hs Hc H.
    assert (forall k, In k schema_names -> get k es = get k (sub_es s)) as HL.
    { intros k Hk. apply H. apply in_or_app; auto. }
    assert (forall k, In k (k_as K) -> get k es = get k (sub_es s)) as HA.
    { intros k Hk. apply H. apply in_or_app. right. apply in_or_app; auto. }
    assert (forall k, In k (k_os K) -> get k es = get k (sub_es s)) as HO.
    { intros k Hk. apply H. apply in_or_app. right. apply in_or_app; auto. }
    clear H. unfold sub_body.
    assert (forall k, In k schema_names -> k <> "type" -> get k (without ["type"] es) = get k (sub_es s)) as HC.
    { intros k Hk Hn. rewrite get_without. rewrite (proj2 (smem_false k ["type"])); auto.
      intros [F|[]]; congruence. }
    destruct s as [i mn mx o| |n|n|ps r o|s|].
    - destruct Hs as (H1 & H2 & H3).
      rewrite sub_array_eq in *.
      assert (forall k, In k td_names -> get k (p_ser (x_as X) mk o) = []) as HN.
      { intros k Hk. apply (piece_get_nil Hw (xr_as HX)); auto.
        intros Hin. apply (na_as HK (k:=k)); auto. }
      erewrite obind_Some.
      2: { eapply req_rt; [rewrite HL by (apply smem_In; reflexivity); gets;
             rewrite HN by (apply smem_In; reflexivity); reflexivity|reflexivity]. }
      cbn [assoc_name String.eqb Ascii.eqb Bool.eqb].
      erewrite obind_Some.
      2: { apply opt_rt with (s := @boxed_js X mk) (o := i).
           - rewrite HC by (try (apply smem_In; reflexivity); discriminate). gets.
             rewrite HN by (apply smem_In; reflexivity). gets. reflexivity.
           - intros b ->. apply boxed_rt. intros d Hd. apply Hc. auto. }
      erewrite obind_Some.
      2: { apply opt_rt with (s := JInt) (o := mn).
           - rewrite HC by (try (apply smem_In; reflexivity); discriminate). gets.
             rewrite HN by (apply smem_In; reflexivity). gets. reflexivity.
           - intros b ->. apply d_int_rt, H1; auto. }
      erewrite obind_Some.
      2: { apply opt_rt with (s := JInt) (o := mx).
           - rewrite HC by (try (apply smem_In; reflexivity); discriminate). gets.
             rewrite HN by (apply smem_In; reflexivity). gets. reflexivity.
           - intros b ->. apply d_int_rt, H2; auto. }
      erewrite obind_Some; [reflexivity|].
      eapply (piece_rt Hw (xr_as HX)) with (l := td_names); eauto; [apply (na_as HK)|apply incl_td; reflexivity|].
      intros k Hk. pose proof (na_as HK Hk) as Hn. rewrite get_without.
      rewrite (proj2 (smem_false k ["type"])) by (intros Hin; apply Hn; revert Hin; apply incl_td; reflexivity).
      rewrite HA by auto. rewrite !get_app, get_fld, !get_ofld.
      rewrite !(neq_lit Hn) by reflexivity. reflexivity.
    - erewrite obind_Some.
      2: { eapply req_rt; [rewrite HL by (apply smem_In; reflexivity); reflexivity|reflexivity]. }
      reflexivity.
    - erewrite obind_Some.
      2: { eapply req_rt; [rewrite HL by (apply smem_In; reflexivity); cbn [Ser.sub_es]; gets;
             rewrite (within_get_nil (number_within n)) by (apply smem_false; reflexivity); reflexivity
             |reflexivity]. }
      cbn [assoc_name String.eqb Ascii.eqb Bool.eqb].
      destruct Hs as (H1 & H2 & H3). rewrite (@number_rt n); auto.
      intros k Hk. rewrite HC by (unfold number_keys in Hk; lit_cases Hk; try discriminate; apply smem_In; reflexivity).
      cbn [Ser.sub_es]. rewrite get_app, get_fld.
      unfold number_keys in Hk; lit_cases Hk; reflexivity.
    - erewrite obind_Some.
      2: { eapply req_rt; [rewrite HL by (apply smem_In; reflexivity); cbn [Ser.sub_es]; gets;
             rewrite (within_get_nil (integer_within n)) by (apply smem_false; reflexivity); reflexivity
             |reflexivity]. }
      cbn [assoc_name String.eqb Ascii.eqb Bool.eqb].
      destruct Hs as (H1 & H2 & H3). rewrite (@integer_rt n); auto.
      intros k Hk. rewrite HC by (unfold number_keys in Hk; lit_cases Hk; try discriminate; apply smem_In; reflexivity).
      cbn [Ser.sub_es]. rewrite get_app, get_fld.
      unfold number_keys in Hk; lit_cases Hk; reflexivity.
    - destruct Hs as (H1 & H3).
      rewrite sub_object_eq in *.
      assert (forall k, In k td_names -> get k (p_ser (x_os X) mk o) = []) as HN.
      { intros k Hk. apply (piece_get_nil Hw (xr_os HX)); auto.
        intros Hin. apply (na_os HK (k:=k)); auto. }
      erewrite obind_Some.
      2: { eapply req_rt; [rewrite HL by (apply smem_In; reflexivity); gets;
             rewrite HN by (apply smem_In; reflexivity); reflexivity|reflexivity]. }
      cbn [assoc_name String.eqb Ascii.eqb Bool.eqb].
      erewrite obind_Some.
      2: { apply opt_rt with (s := @s_dsmap X mk) (o := ps).
           - rewrite HC by (try (apply smem_In; reflexivity); discriminate). gets.
             rewrite HN by (apply smem_In; reflexivity). gets. reflexivity.
           - intros b ->. apply d_map_rt; auto. intros k d Hd. apply Hc. simpl.
             apply in_map_iff. exists (k, d). auto. }
      erewrite obind_Some.
      2: { apply opt_rt with (s := s_list JStr) (o := r).
           - rewrite HC by (try (apply smem_In; reflexivity); discriminate). gets.
             rewrite HN by (apply smem_In; reflexivity). gets. reflexivity.
           - intros b ->. apply d_list_rt. auto. }
      erewrite obind_Some; [reflexivity|].
      eapply (piece_rt Hw (xr_os HX)) with (l := td_names); eauto; [apply (na_os HK)|apply incl_td; reflexivity|].
      intros k Hk. pose proof (na_os HK Hk) as Hn. rewrite get_without.
      rewrite (proj2 (smem_false k ["type"])) by (intros Hin; apply Hn; revert Hin; apply incl_td; reflexivity).
      rewrite HO by auto. rewrite !get_app, get_fld, !get_ofld.
      rewrite !(neq_lit Hn) by reflexivity. reflexivity.
    - erewrite obind_Some.
      2: { eapply req_rt; [rewrite HL by (apply smem_In; reflexivity); cbn [Ser.sub_es]; gets;
             rewrite (within_get_nil (string_within s)) by (apply smem_false; reflexivity); reflexivity
             |reflexivity]. }
      cbn [assoc_name String.eqb Ascii.eqb Bool.eqb].
      destruct Hs as (H1 & H2). rewrite (@string_rt s); auto.
      intros k Hk. rewrite HC by (unfold string_keys in Hk; lit_cases Hk; try discriminate; apply smem_In; reflexivity).
      cbn [Ser.sub_es]. rewrite get_app, get_fld.
      unfold string_keys in Hk; lit_cases Hk; reflexivity.
    - erewrite obind_Some.
      2: { eapply req_rt; [rewrite HL by (apply smem_In; reflexivity); reflexivity|reflexivity]. }
      reflexivity.
  Qed.

  Lemma ds_reads_keys k : In k ds_keys -> In k ds_reads.
  Proof. intros H. apply in_or_app; auto. Qed.

  Lemma ds_reads_sub k : In k sub_reads -> In k ds_reads.
  Proof. intros H. apply in_or_app. right. apply in_or_app; auto. Qed.

  Lemma ds_reads_ext k : In k (k_ds K) -> In k ds_reads.
  Proof. intros H. apply in_or_app. right. apply in_or_app; auto. Qed.

  (** No schema part is read from members of another part. *)
  Lemma sub_reads_not_ds k : In k sub_reads -> ~ In k ds_keys.
  Proof.
    intros H Hk. apply in_app_or in H as [H|H]; [exact (ds_keys_schema_names Hk H)|].
    apply in_app_or in H as [H|H].
    - exact (na_as HK H (ds_keys_td Hk)).
    - exact (na_os HK H (ds_keys_td Hk)).
  Qed.

  Lemma sub_reads_not_ext k : In k sub_reads -> ~ In k (k_ds K).
  Proof.
    intros H Hk. apply in_app_or in H as [H|H].
    - exact (na_ds HK Hk (schema_names_td H)).
    - apply in_app_or in H as [H|H].
      + exact (na_ds_as HK _ Hk H).
      + exact (na_ds_os HK _ Hk H).
  Qed.

  Lemma misc_get (d : dsx X) k : In k misc_keys -> get k (info_es mk (ds_info d)) = [] /\ In k ds_keys.
  Proof.
    intros Hk. split.
    - eapply within_get_nil; [apply info_within|].
      unfold misc_keys in Hk. lit_cases Hk; apply smem_false; reflexivity.
    - revert Hk. apply inclb_ok. reflexivity.
  Qed.

  Lemma info_keys_ds k : In k info_keys -> In k ds_keys.
  Proof. apply inclb_ok. reflexivity. Qed.

  Lemma sub_none r es : get "type" es = [] -> sub_body (X := X) r es = None.
  Proof. intros H. unfold sub_body, req. rewrite H. reflexivity. Qed.

  Lemma ds_own_get k d : node_ok E V d -> In k ds_keys ->
    get k (ds_es d) = get k (info_es mk (ds_info d) ++ misc1_es mk (ds_misc d)
              ++ ofld "oneOf" (s_list (s_ds mk)) (ds_one_of d) ++ misc2_es mk (ds_misc d)).
  Proof.
    intros (Hi & Hc & Hd & He & Hs & Ho) Hk. rewrite ds_es_eq, !get_app.
    rewrite (subo_get_nil Hs (ds_keys_td Hk) (ds_keys_schema_names Hk)).
    rewrite (dsx_get_nil _ Ho (ds_keys_td Hk)). rewrite !app_nil_r. reflexivity.
  Qed.

  Lemma ds_own_within (d : dsx X) :
    within (info_es mk (ds_info d) ++ misc1_es mk (ds_misc d)
            ++ ofld "oneOf" (s_list (s_ds mk)) (ds_one_of d) ++ misc2_es mk (ds_misc d)) ds_keys.
  Proof.
    unfold ds_keys. apply within_app; [apply info_within|].
    unfold misc1_es, misc2_es. rewrite <- !app_assoc. repeat within_step.
  Qed.

  Lemma ds_other_get k d : node_ok E V d -> ~ In k ds_keys ->
    get k (ds_es d) = get k (subo_es (ds_sub d)) ++ get k (p_ser (x_ds X) mk (ds_other d)).
  Proof.
    intros Hd Hk. pose proof (within_get_nil (ds_own_within d) Hk) as H.
    rewrite ds_es_eq, !get_app. rewrite !get_app in H.
    apply app_eq_nil in H as [-> H]. apply app_eq_nil in H as [-> H].
    apply app_eq_nil in H as [-> ->]. reflexivity.
  Qed.

  Lemma ds_body_rt d es : node_ok E V d ->
    (forall e, In e (ds_children d) -> d_ds (s_ds mk e) = Some e) ->
    (forall k, In k ds_reads -> get k es = get k (ds_es d)) ->
    ds_body E d_ds es = Some d.
  Proof.
    intros Hn Hc H. pose proof Hn as (Hi & H1 & H2 & H3 & Hs & Ho).
    unfold ds_body.
    rewrite (obind_Some _ (a := ds_info d)).
    2: { apply (info_rt Hw); auto. intros k Hk. rewrite H by (apply ds_reads_keys, info_keys_ds; auto).
         rewrite ds_own_get by (auto using info_keys_ds).
         unfold info_keys in Hk. unfold misc1_es, misc2_es. lit_cases Hk; gets; reflexivity. }
    rewrite (obind_Some _ (a := ds_misc d)).
    2: { apply (misc_rt Hw); auto. intros k Hk. destruct (misc_get d Hk) as [Hg Hin].
         rewrite H by (apply ds_reads_keys; auto). rewrite ds_own_get by auto.
         rewrite get_app, Hg. unfold misc_keys in Hk. unfold misc1_es, misc2_es.
         lit_cases Hk; gets; reflexivity. }
    rewrite (obind_Some _ (a := ds_one_of d)).
    2: { apply opt_rt with (s := s_list (s_ds mk)).
         - rewrite H by (apply ds_reads_keys, smem_In; reflexivity).
           rewrite ds_own_get by (auto; apply smem_In; reflexivity).
           unfold info_es, misc1_es, misc2_es. gets. reflexivity.
         - intros l Hl. apply d_list_rt. intros e He. apply Hc. unfold ds_children. rewrite Hl.
           apply in_or_app; auto. }
    assert (forall k, In k (k_ds K) -> ~ In k ds_keys) as HD.
    { intros k Hk Hin. exact (na_ds HK Hk (ds_keys_td Hin)). }
    rewrite (obind_Some _ (a := ds_other d)).
    2: { apply (rt_read (xr_ds HX) Hw Ho). intros k Hk. rewrite get_without.
         rewrite (proj2 (smem_false k ds_keys)) by auto.
         rewrite H by (apply ds_reads_ext; auto). rewrite ds_other_get by auto.
         rewrite (within_get_nil (subo_within Hs)); auto.
         intros Hin. destruct (subo_written_In _ Hs Hin) as [F|[F|F]].
         - exact (na_ds HK Hk (schema_names_td F)).
         - exact (na_ds_as HK _ Hk F).
         - exact (na_ds_os HK _ Hk F). }
    assert (forall k, In k sub_reads ->
              get k (without ds_keys es) = get k (subo_es (ds_sub d))) as HS.
    { intros k Hk. rewrite get_without.
      rewrite (proj2 (smem_false k ds_keys)) by (apply sub_reads_not_ds; auto).
      rewrite H by (apply ds_reads_sub; auto).
      rewrite ds_other_get by (auto; apply sub_reads_not_ds; auto).
      rewrite (piece_get_nil Hw (xr_ds HX)) by (auto; apply sub_reads_not_ext; auto).
      apply app_nil_r. }
    assert (sub_body d_ds (without ds_keys es) = ds_sub d) as ->.
    { unfold ds_children in Hc. destruct (ds_sub d) as [s|].
      - apply sub_rt; auto. intros e He. apply Hc. apply in_or_app; auto.
      - apply sub_none. rewrite HS; auto. apply in_or_app. left. left. auto. }
    destruct d; reflexivity.
  Qed.

  Lemma ds_rt_es d es : schema_ok E V d ->
    (forall k, In k ds_reads -> get k es = get k (ds_es d)) -> d_ds (JObj es) = Some d.
  Proof.
    revert es. induction d as [i m o s x IH1 IH2] using ds_ind'. intros es Hd H.
    rewrite d_ds_obj. apply ds_body_rt; auto.
    - apply Hd. apply sub_self.
    - intros e He.
      assert (schema_ok E V e) as Hoe.
      { intros e' He'. apply Hd. eapply sub_child; eauto. }
      unfold s_ds.
      destruct (writer_get Hw (ds_within (Hoe e (sub_self _)))
                  (ds_written_nodup (Hoe e (sub_self _)))) as (es' & -> & Hg).
      unfold ds_children in He. cbn [ds_one_of ds_sub] in He. apply in_app_or in He as [He|He].
      + destruct o as [l|]; [|destruct He]. eapply IH1; eauto.
      + destruct s as [s|]; [|destruct He]. eapply IH2; eauto.
  Qed.

  Theorem ds_rt d : schema_ok E V d -> d_ds (s_ds mk d) = Some d /\ s_ds mk d <> JNull.
  Proof.
    intros Hd. split; [|apply writer_not_null; auto]. unfold s_ds.
    destruct (writer_get Hw (ds_within (Hd d (sub_self _)))
                (ds_written_nodup (Hd d (sub_self _)))) as (es' & -> & Hg).
    apply ds_rt_es; auto.
  Qed.

  Lemma dsmap_rt m : schemas_ok E V m ->
    d_dsmap E X (s_dsmap mk m) = Some m /\ s_dsmap mk m <> JNull.
  Proof. intros [H1 H2]. apply d_map_rt; auto. intros k d Hin. apply ds_rt. eauto. Qed.
End Ds.
