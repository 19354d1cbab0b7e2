(** * Lemmas behind the data schema property file, and its examples *)

From Coq Require Import String Bool ZArith QArith Floats.SpecFloat Lia List.
From Verif Require Import Base MinMax Json Serde Types DsBuilder Builder Spec SpecNum SpecCalls SpecThing
  DsFacts ConvFacts DsProgFacts NumFacts SchemaFacts BoundFacts HList Protocol Samples SampleFacts.
Import ListNotations.
Set Implicit Arguments.
Local Open Scope string_scope.
Local Open Scope list_scope.

Notation uop := (dsop unit unit unit).

Definition the_schema : ds unit unit unit.
Proof. let r := eval vm_compute in (dbuild lamp_schema) in match r with Some ?d => exact d end. Defined.
Lemma the_schema_built : dbuild lamp_schema = Some the_schema.
Proof. reflexivity. Qed.

(** ** Things *)

Lemma things_rw E X ord title x p (t : thing E X) :
  order_ok ord -> thing_program ord title x p = Some (Ok t) ->
  forall d e, schema_in (thing_body t) d -> sub_ds e d ->
    ~ (m_ro (ds_misc e) = true /\ m_wo (ds_misc e) = true).
Proof.
  intros Ho Ht. apply (@built_schemas E X (@rw_ok _ _ _) ord title x p t); auto.
  - intros q d. apply built_rw.
  - unfold rw_ok. intros d. rewrite misc_tagged. auto.
Qed.

Lemma things_specialized E X ord title x p (t : thing E X) :
  order_ok ord -> thing_program ord title x p = Some (Ok t) ->
  forall d e, schema_in (thing_body t) d -> sub_ds e d -> specializations e = 1%nat.
Proof.
  intros Ho Ht. apply (@built_schemas E X (fun e => specializations e = 1%nat) ord title x p t); auto.
  - intros q d. apply built_specialized.
  - intros d. rewrite specializations_tagged. auto.
Qed.

Lemma things_required E X ord title x p (t : thing E X) :
  order_ok ord -> thing_program ord title x p = Some (Ok t) ->
  forall d e, schema_in (thing_body t) d -> sub_ds e d -> required_declared e.
Proof.
  intros Ho Ht. apply (@built_schemas E X (@required_declared _ _ _) ord title x p t); auto.
  - intros q d. apply built_required.
  - intros d. apply required_tagged.
Qed.

Lemma things_const E X ord title x p (t : thing E X) :
  order_ok ord -> thing_program ord title x p = Some (Ok t) ->
  forall d e, schema_in (thing_body t) d -> sub_ds e d ->
    m_const (ds_misc e) <> None -> m_ro (ds_misc e) = true.
Proof.
  intros Ho Ht. apply (@built_schemas E X (fun e => m_const (ds_misc e) <> None -> m_ro (ds_misc e) = true) ord title x p t); auto.
  - intros q d. apply const_read_only.
  - intros d. rewrite misc_tagged. auto.
Qed.

Lemma says_unique DS AS OS (p : list (dsop DS AS OS)) d d' : ds_says Some p d -> ds_says Some p d' -> d = d'.
Proof. intros H H'. refine (@ds_says_fun _ _ _ Some _ p d d' H H'). congruence. Qed.

(** ** Examples *)

Lemma flags_used :
  (exists d, dbuild ([DFinish tt; DBool; DReadOnly] : list uop) = Some d
             /\ m_ro (ds_misc d) = true /\ m_wo (ds_misc d) = false)
  /\ (exists d, dbuild ([DFinish tt; DBool; DWriteOnly] : list uop) = Some d
                /\ m_ro (ds_misc d) = false /\ m_wo (ds_misc d) = true)
  /\ dbuild ([DFinish tt; DBool; DWriteOnly; DReadOnly] : list uop) = None
  /\ (exists e, sub_ds e the_schema /\ e <> the_schema /\ m_ro (ds_misc e) = true)
  /\ (exists d e, schema_in (thing_body the_lamp) d /\ sub_ds e d /\ m_ro (ds_misc e) = true).
Proof.
  split; [eexists; split; [reflexivity|split; reflexivity]|].
  split; [eexists; split; [reflexivity|split; reflexivity]|].
  split; [reflexivity|]. split.
  - eexists. split; [eapply sub_prop; [reflexivity|right; left; reflexivity|];
      eapply sub_one_of; [reflexivity|left; reflexivity|]; apply sub_self|].
    split; [discriminate|reflexivity].
  - do 2 eexists. split; [apply in_checked; eapply chk_property; [left; reflexivity|reflexivity]|].
    split; [eapply sub_prop; [reflexivity|right; left; reflexivity|];
      eapply sub_one_of; [reflexivity|left; reflexivity|]; apply sub_self|]. reflexivity.
Qed.

Lemma specializations_used :
  (exists e, sub_ds e the_schema /\ ds_one_of e <> None)
  /\ (exists e, sub_ds e the_schema /\ m_const (ds_misc e) <> None)
  /\ (exists e, sub_ds e the_schema /\ m_enum (ds_misc e) <> None)
  /\ (exists e, sub_ds e the_schema /\ e <> the_schema /\ ds_sub e <> None)
  /\ dbuild ([DFinish tt; DBool; DEnum (JBool true)] : list uop) = None
  /\ dbuild ([DFinish tt; DUnit "m"] : list uop) = None.
Proof.
  split.
  { eexists. split; [eapply sub_prop; [reflexivity|right; left; reflexivity|]; apply sub_self|discriminate]. }
  split.
  { eexists. split; [eapply sub_prop; [reflexivity|right; left; reflexivity|];
      eapply sub_one_of; [reflexivity|right; left; reflexivity|]; apply sub_self|discriminate]. }
  split.
  { eexists. split; [eapply sub_prop; [reflexivity|right; left; reflexivity|];
      eapply sub_one_of; [reflexivity|left; reflexivity|]; apply sub_self|discriminate]. }
  split.
  { eexists. split; [eapply sub_prop; [reflexivity|left; reflexivity|]; apply sub_self|].
    split; discriminate. }
  split; reflexivity.
Qed.

Lemma omap_ex A B (f : A -> B) o v : option_map f o = Some v -> exists d, o = Some d /\ f d = v.
Proof. destruct o as [d|]; simpl; intros H; [|discriminate]. injection H as H. eauto. Qed.

Lemma content_used :
  (exists d, dbuild ([DFinish tt; DEnum (JInt 1); DEnum (JInt 2); DUnit "a"; DUnit "b"] : list uop)
             = Some d /\ m_enum (ds_misc d) = Some [JInt 1; JInt 2] /\ m_unit (ds_misc d) = Some "b")
  /\ (exists d, dbuild ([DFinish tt; DTuple tt;
                        DAppend [DFinish tt; DObject tt; DProperty "x" true [DFinish tt; DBool]];
                        DAppend [DFinish tt; DNull]] : list uop) = Some d
        /\ map (fun c => length (ds_children c)) (ds_children d) = [1%nat; 0%nat]).
Proof.
  split.
  - destruct (@omap_ex _ _ (fun d : ds unit unit unit => (m_enum (ds_misc d), m_unit (ds_misc d)))
      (dbuild [DFinish tt; DEnum (JInt 1); DEnum (JInt 2); DUnit "a"; DUnit "b"])
      (Some [JInt 1; JInt 2], Some "b") eq_refl) as (d & H1 & H2).
    exists d. injection H2. auto.
  - apply (@omap_ex _ _ (fun d : ds unit unit unit => map (fun c => length (ds_children c)) (ds_children d))).
    reflexivity.
Qed.

Lemma const_used :
  exists d, dbuild ([DUnit "m"; DFinish tt] ++ DConstant (JInt 7) :: [DFormat "f"; DInfo (ITitle "seven")] : list uop)
            = Some d /\ m_unit (ds_misc d) = Some "m" /\ m_format (ds_misc d) = Some "f".
Proof.
  destruct (@omap_ex _ _ (fun d : ds unit unit unit => (m_unit (ds_misc d), m_format (ds_misc d)))
    (dbuild ([DUnit "m"; DFinish tt] ++ DConstant (JInt 7) :: [DFormat "f"; DInfo (ITitle "seven")]))
    (Some "m", Some "f") eq_refl) as (d & H1 & H2).
  exists d. injection H2. auto.
Qed.

Definition number_thing (calls : list uop) : option (thing sample_env http_exts) :=
  ok_thing (run id_order (one_property sample_env http_exts "p" tt tt tt calls)).

Definition empty_number : thing sample_env http_exts.
Proof. let r := eval vm_compute in (number_thing [DNumber; DNumMin (MinExcl (f64_of_Z 3)); DNumMax (MaxExcl (f64_of_Z 3))])
       in match r with Some ?t => exact t end. Defined.
Definition empty_integer : thing sample_env http_exts.
Proof. let r := eval vm_compute in (number_thing [DInteger; DIntMin (MinExcl 3%Z); DIntMax (MaxExcl 4%Z)])
       in match r with Some ?t => exact t end. Defined.
Definition infinite_thing : thing sample_env http_exts.
Proof. let r := eval vm_compute in (number_thing [DNumber; DNumMax (MaxIncl (S754_infinity false))])
       in match r with Some ?t => exact t end. Defined.
Definition nan_thing : thing sample_env http_exts.
Proof. let r := eval vm_compute in (number_thing [DNumber; DNumMult S754_nan])
       in match r with Some ?t => exact t end. Defined.

Lemma bounds_iff_refuted :
  (exists (a : minimum f64) (b : maximum f64) t,
      run id_order (one_property sample_env http_exts "p" tt tt tt [DNumber; DNumMin a; DNumMax b]) = Some (Ok t)
      /\ ~ exists q, min_admits a q /\ max_admits b q)
  /\ (exists (a : minimum Z) (b : maximum Z) t,
      run id_order (one_property sample_env http_exts "p" tt tt tt [DInteger; DIntMin a; DIntMax b]) = Some (Ok t)
      /\ ~ exists n, zmin_admits a n /\ zmax_admits b n)
  /\ (exists (a : minimum f64) (b : maximum f64) e,
      run id_order (one_property sample_env http_exts "p" tt tt tt [DNumber; DNumMin a; DNumMax b]) = Some (Err e)
      /\ exists q, min_admits a q /\ max_admits b q)
  /\ (exists (a : minimum Z) (b : maximum Z) e,
      run id_order (one_property sample_env http_exts "p" tt tt tt [DInteger; DIntMin a; DIntMax b]) = Some (Err e)
      /\ exists n, zmin_admits a n /\ zmax_admits b n).
Proof.
  split.
  { exists (MinExcl (f64_of_Z 3)), (MaxExcl (f64_of_Z 3)), empty_number. split; [reflexivity|].
    intros (q & H1 & H2). unfold min_admits, max_admits, f_lt_q, q_lt_f in *.
    destruct (fval (f64_of_Z 3)) as [v|] eqn:Ev; [|vm_compute in Ev; discriminate].
    apply (Qlt_irrefl v). eapply Qlt_trans; eauto. }
  split.
  { exists (MinExcl 3%Z), (MaxExcl 4%Z), empty_integer. split; [reflexivity|].
    intros (n & H1 & H2). simpl in *. lia. }
  split.
  { exists (MinIncl (f64_of_Z 3)), (MaxExcl (f64_of_Z 5)), InvalidMinMax. split; [reflexivity|].
    exists (4 # 1)%Q. split; vm_compute; congruence. }
  exists (MinIncl 3%Z), (MaxExcl 5%Z), InvalidMinMax. split; [reflexivity|].
  exists 4%Z. simpl. lia.
Qed.

Lemma inclusive_bounds E X ord : order_ok ord -> forall title n x xi xp xd,
  (forall u v, f64_ok u = true -> f64_ok v = true -> f64_finite u = true -> f64_finite v = true ->
    ((exists t, thing_program ord title x
                  (one_property E X n xi xp xd [DNumber; DNumMin (MinIncl u); DNumMax (MaxIncl v)]) = Some (Ok t))
     <-> exists q, min_admits (MinIncl u) q /\ max_admits (MaxIncl v) q))
  /\ (forall u v,
    ((exists t, thing_program ord title x
                  (one_property E X n xi xp xd [DInteger; DIntMin (MinIncl u); DIntMax (MaxIncl v)]) = Some (Ok t))
     <-> exists k, zmin_admits (MinIncl u) k /\ zmax_admits (MaxIncl v) k)).
Proof.
  intros Ho title n x xi xp xd. split; intros u v.
  - intros. apply (number_inclusive E X Ho title n x xi xp xd); auto.
  - apply (integer_inclusive E X Ho title n x xi xp xd).
Qed.

Lemma exclusive_bounds E X ord : order_ok ord -> forall title n x xi xp xd,
  (forall u v, f64_ok u = true -> f64_ok v = true -> f64_finite u = true -> f64_finite v = true ->
    ((exists q, min_admits (MinExcl u) q /\ max_admits (MaxExcl v) q)
     <-> (exists t, thing_program ord title x
                      (one_property E X n xi xp xd [DNumber; DNumMin (MinExcl u); DNumMax (MaxExcl v)]) = Some (Ok t))
         /\ f64_eqb u v = false))
  /\ (forall u v,
    ((exists k, zmin_admits (MinExcl u) k /\ zmax_admits (MaxExcl v) k)
     <-> (exists t, thing_program ord title x
                      (one_property E X n xi xp xd [DInteger; DIntMin (MinExcl u); DIntMax (MaxExcl v)]) = Some (Ok t))
         /\ v <> u /\ v <> (u + 1)%Z)).
Proof.
  intros Ho title n x xi xp xd. split; intros u v.
  - intros. apply (number_exclusive E X Ho title n x xi xp xd); auto.
  - apply (integer_exclusive E X Ho title n x xi xp xd).
Qed.

Lemma mixed_bounds E X ord : order_ok ord -> forall title n x xi xp xd,
  (forall a b, ~ same_kind a b ->
    ~ exists t, thing_program ord title x (one_property E X n xi xp xd [DNumber; DNumMin a; DNumMax b]) = Some (Ok t))
  /\ (forall a b, ~ same_kind a b ->
    ~ exists t, thing_program ord title x (one_property E X n xi xp xd [DInteger; DIntMin a; DIntMax b]) = Some (Ok t)).
Proof.
  intros Ho title n x xi xp xd. split; intros a b.
  - apply (@number_mixed E X ord Ho title n x xi xp xd).
  - apply (@integer_mixed E X ord Ho title n x xi xp xd).
Qed.

Lemma numbers_used :
  f64_ok (f64_of_Z 3) = true /\ f64_finite (f64_of_Z 3) = true
  /\ (exists v, fval (f64_of_Z (-3)) = Some v /\ (v == -3 # 1)%Q)
  /\ ~ same_kind (MinIncl 1%Z) (MaxExcl 2%Z).
Proof.
  split; [reflexivity|]. split; [reflexivity|]. split; [|intros []].
  eexists. split; [reflexivity|]. vm_compute. reflexivity.
Qed.

(** ** Comparisons *)
Section Reverse.
  Variable T : Type.
  Variable cmp : T -> T -> option comparison.
  Variable eqb : T -> T -> bool.
  Hypothesis Hcmp : ordered cmp.
  Hypothesis Heqb : forall x y, eqb x y = true <-> cmp x y = Some Eq.

  Lemma reverse_any a b :
    maxmin_cmp cmp b a = option_map CompOpp (minmax_cmp cmp a b)
    /\ maxmin_eqb eqb b a = minmax_eqb eqb a b
    /\ (minmax_eqb eqb a b = true <-> minmax_cmp cmp a b = Some Eq)
    /\ (same_kind a b -> minmax_cmp cmp a b = cmp (min_val a) (max_val b)
                         /\ maxmin_cmp cmp b a = cmp (max_val b) (min_val a))
    /\ (~ same_kind a b ->
        (minmax_cmp cmp a b = Some Gt <-> le_of cmp (max_val b) (min_val a))
        /\ minmax_cmp cmp a b <> Some Lt).
  Proof.
    pose proof (ord_dual Hcmp) as Hd. split; [reflexivity|]. split; [reflexivity|].
    destruct a as [x|x], b as [y|y]; unfold maxmin_cmp; simpl; (split; [|split]); try (apply Heqb);
      try (intros; exfalso; tauto); try (intros _; split; [reflexivity|symmetry; apply Hd]);
      try (intros _; unfold le_of; rewrite (Hd x y));
      destruct (cmp x y) as [[]|]; simpl; intuition congruence.
  Qed.
End Reverse.

Lemma reverse_cmp : cross_lawful i64_cmp Z.eqb /\ cross_lawful f64_cmp f64_eqb.
Proof.
  split; intros a b.
  - apply reverse_any; [apply i64_ordered|apply i64_eqb_cmp].
  - apply reverse_any; [apply f64_ordered|apply f64_eqb_cmp].
Qed.

Lemma greater_empty :
  (forall a b, minmax_cmp i64_cmp a b = Some Gt -> ~ exists n, zmin_admits a n /\ zmax_admits b n)
  /\ (forall a b, f64_ok (min_val a) = true -> f64_ok (max_val b) = true ->
        f64_finite (min_val a) = true -> f64_finite (max_val b) = true ->
        minmax_cmp f64_cmp a b = Some Gt -> ~ exists q, min_admits a q /\ max_admits b q).
Proof.
  split.
  - intros [x|x] [y|y]; unfold minmax_cmp, i64_cmp; simpl; intros H (n & H1 & H2);
      destruct (Z.compare_spec x y); try discriminate; lia.
  - intros a b H1 H2 H3 H4 H (q & Hq). eapply (@minmax_gt_empty a b); eauto.
    + destruct a; simpl; auto.
    + destruct b; simpl; auto.
Qed.

Lemma bounds_lawful :
  lawful (min_cmp i64_cmp) (min_eqb Z.eqb) /\ lawful (max_cmp i64_cmp) (max_eqb Z.eqb)
  /\ lawful (min_cmp f64_cmp) (min_eqb f64_eqb) /\ lawful (max_cmp f64_cmp) (max_eqb f64_eqb).
Proof.
  split; [|split; [|split]];
    try (apply min_lawful; [apply i64_ordered|apply i64_eqb_cmp]);
    try (apply max_lawful; [apply i64_ordered|apply i64_eqb_cmp]);
    try (apply min_lawful; [apply f64_ordered|apply f64_eqb_cmp]);
    try (apply max_lawful; [apply f64_ordered|apply f64_eqb_cmp]).
Qed.

Lemma bounds_inclusion :
  (forall a b, min_cmp i64_cmp a b <> None ->
     (le_of (min_cmp i64_cmp) a b <-> forall n, min_allows i64_cmp b n -> min_allows i64_cmp a n))
  /\ (forall a b, max_cmp i64_cmp a b <> None ->
     (le_of (max_cmp i64_cmp) a b <-> forall n, max_allows i64_cmp a n -> max_allows i64_cmp b n))
  /\ (forall a b, min_cmp f64_cmp a b <> None ->
     (le_of (min_cmp f64_cmp) a b <-> forall n, min_allows f64_cmp b n -> min_allows f64_cmp a n))
  /\ (forall a b, max_cmp f64_cmp a b <> None ->
     (le_of (max_cmp f64_cmp) a b <-> forall n, max_allows f64_cmp a n -> max_allows f64_cmp b n)).
Proof.
  split; [|split; [|split]]; intros a b H;
    [apply min_inclusion|apply max_inclusion|apply min_inclusion|apply max_inclusion];
    auto using i64_ordered, f64_ordered.
Qed.

Lemma bounds_inclusion_q :
  (forall a b, f64_ok (min_val a) = true -> f64_ok (min_val b) = true ->
     f64_finite (min_val a) = true -> f64_finite (min_val b) = true -> min_cmp f64_cmp a b <> None ->
     (le_of (min_cmp f64_cmp) a b <-> forall q, min_admits b q -> min_admits a q))
  /\ (forall a b, f64_ok (max_val a) = true -> f64_ok (max_val b) = true ->
     f64_finite (max_val a) = true -> f64_finite (max_val b) = true -> max_cmp f64_cmp a b <> None ->
     (le_of (max_cmp f64_cmp) a b <-> forall q, max_admits a q -> max_admits b q)).
Proof.
  split; intros a b H1 H2 H3 H4 H;
    [apply min_inclusion_q|apply max_inclusion_q]; auto; destruct a, b; simpl; auto.
Qed.

(** ** Non-finite numbers *)
Lemma non_finite_refuted :
  (exists t d k b,
      run id_order (one_property sample_env http_exts "p" tt tt tt [DNumber; DNumMax (MaxIncl (S754_infinity false))])
      = Some (Ok t)
      /\ checked_schema (thing_body t) d /\ ds_sub d = Some (SNumber k)
      /\ n_max k = Some b /\ f64_finite (max_val b) = false)
  /\ (exists t d k m,
      run id_order (one_property sample_env http_exts "p" tt tt tt [DNumber; DNumMult S754_nan])
      = Some (Ok t)
      /\ checked_schema (thing_body t) d /\ ds_sub d = Some (SNumber k)
      /\ n_mult k = Some m /\ f64_finite m = false).
Proof.
  split.
  - exists infinite_thing. do 3 eexists. split; [reflexivity|].
    split; [eapply chk_property; [left; reflexivity|reflexivity]|]. split; [reflexivity|]. split; reflexivity.
  - exists nan_thing. do 3 eexists. split; [reflexivity|].
    split; [eapply chk_property; [left; reflexivity|reflexivity]|]. split; [reflexivity|]. split; reflexivity.
Qed.

Lemma nan_used :
  run id_order (one_property sample_env http_exts "p" tt tt tt [DNumber; DNumMin (MinExcl S754_nan)])
  = Some (Err NanMinMax)
  /\ exists d e k a, checked_schema (thing_body the_lamp) d /\ sub_ds e d /\ ds_sub e = Some (SNumber k)
       /\ n_min k = Some a /\ e <> d.
Proof.
  split; [reflexivity|]. do 4 eexists.
  split; [eapply chk_property; [left; reflexivity|reflexivity]|].
  split; [eapply sub_prop; [reflexivity|right; right; left; reflexivity|];
          eapply sub_item; [reflexivity|]; apply sub_self|].
  split; [reflexivity|]. split; [reflexivity|discriminate].
Qed.
