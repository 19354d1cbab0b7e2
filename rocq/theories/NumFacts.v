(** * Facts about numbers, bounds and their comparison *)

From Coq Require Import ZArith QArith Qpower Lia Lqa Bool Floats.SpecFloat.
From Coq Require Import String List.
From Verif Require Import MinMax SpecNum.
Set Implicit Arguments.
Local Open Scope Z_scope.

(** ** The order of floats is the order of the numbers they stand for *)

Lemma digits2_bounds m :
  2 ^ (Zpos (digits2_pos m) - 1) <= Zpos m < 2 ^ Zpos (digits2_pos m).
Proof.
  assert (Hs : forall d, 1 <= d -> 2 ^ (Z.succ d - 1) = 2 * 2 ^ (d - 1) /\ 2 ^ Z.succ d = 2 * 2 ^ d).
  { intros d Hd. split; [|apply Z.pow_succ_r; lia].
    replace (Z.succ d - 1) with (Z.succ (d - 1)) by lia. apply Z.pow_succ_r; lia. }
  induction m as [m IH|m IH|]; simpl digits2_pos.
  - rewrite Pos2Z.inj_succ, (Pos2Z.inj_xI m). destruct (Hs (Zpos (digits2_pos m))) as [-> ->]; lia.
  - rewrite Pos2Z.inj_succ, (Pos2Z.inj_xO m). destruct (Hs (Zpos (digits2_pos m))) as [-> ->]; lia.
  - simpl. lia.
Qed.

Definition ok_parts (m : positive) (e : Z) : Prop :=
  -1074 <= e /\ Zpos m < 2 ^ 53 /\ (-1074 < e -> 2 ^ 52 <= Zpos m).

Lemma f64_ok_parts s m e : f64_ok (S754_finite s m e) = true -> ok_parts m e.
Proof.
  unfold f64_ok, valid_binary, bounded, canonical_mantissa, fexp, emin, f64_prec, f64_emax.
  intros H. apply andb_prop in H as [H _]. apply Zeq_bool_eq in H.
  pose proof (digits2_bounds m) as [Hlo Hhi]. remember (Zpos (digits2_pos m)) as d.
  assert (Hd : 1 <= d) by lia.
  assert (Hd53 : d <= 53) by lia.
  split; [lia|]. split.
  - eapply Z.lt_le_trans; [exact Hhi|]. apply Z.pow_le_mono_r; lia.
  - intros He. assert (d = 53) by lia. subst d. replace 52 with (53 - 1) by reflexivity. congruence.
Qed.

(** A float in units of 2^-1074. *)
Definition units (m : positive) (e : Z) : Z := Zpos m * 2 ^ (e + 1074).

Lemma units_pos m e : -1074 <= e -> 0 < units m e.
Proof. intros H. unfold units. apply Z.mul_pos_pos; [lia|]. apply Z.pow_pos_nonneg; lia. Qed.

Lemma units_lt m1 e1 m2 e2 :
  ok_parts m1 e1 -> ok_parts m2 e2 -> e1 < e2 -> units m1 e1 < units m2 e2.
Proof.
  intros (A1 & A2 & A3) (B1 & B2 & B3) He. unfold units.
  assert (H2 : 2 ^ 52 <= Zpos m2) by (apply B3; lia).
  assert (Hp : 2 ^ (e2 + 1074) = 2 ^ (e2 - e1 - 1) * 2 * 2 ^ (e1 + 1074)).
  { replace (e2 + 1074) with ((e2 - e1 - 1) + 1 + (e1 + 1074)) by lia.
    rewrite !(Z.pow_add_r 2 _ (e1 + 1074)), Z.pow_add_r by lia. reflexivity. }
  rewrite Hp.
  assert (0 < 2 ^ (e1 + 1074)) by (apply Z.pow_pos_nonneg; lia).
  assert (1 <= 2 ^ (e2 - e1 - 1)).
  { replace 1 with (2 ^ 0) by reflexivity. apply Z.pow_le_mono_r; lia. }
  change (2 ^ 53) with (2 * 2 ^ 52) in A2.
  rewrite !Z.mul_assoc. apply Z.mul_lt_mono_pos_r; auto. nia.
Qed.

Lemma units_cmp m1 e1 m2 e2 :
  ok_parts m1 e1 -> ok_parts m2 e2 ->
  match e1 ?= e2 with
  | Lt => Lt | Gt => Gt
  | Eq => Pos.compare_cont Eq m1 m2
  end = (units m1 e1 ?= units m2 e2).
Proof.
  intros H1 H2. destruct (Z.compare_spec e1 e2) as [->|H|H].
  - unfold units. change (Pos.compare_cont Eq m1 m2) with (Zpos m1 ?= Zpos m2).
    apply Zmult_compare_compat_r. apply Z.lt_gt. apply Z.pow_pos_nonneg; destruct H1; lia.
  - symmetry. apply Z.compare_lt_iff. apply units_lt; auto.
  - symmetry. apply Z.compare_gt_iff. apply units_lt; auto.
Qed.

Definition sunits (x : f64) : Z :=
  match x with
  | S754_finite false m e => units m e
  | S754_finite true m e => - units m e
  | _ => 0
  end.

Lemma f64_cmp_units x y :
  f64_ok x = true -> f64_ok y = true -> f64_finite x = true -> f64_finite y = true ->
  f64_cmp x y = Some (sunits x ?= sunits y).
Proof.
  destruct x as [s1|s1| |s1 m1 e1], y as [s2|s2| |s2 m2 e2]; cbn [f64_finite]; try discriminate;
    intros O1 O2 _ _; unfold f64_cmp; cbn [SFcompare sunits].
  - reflexivity.
  - apply f64_ok_parts in O2. destruct O2 as (O2 & _). pose proof (@units_pos m2 e2 O2).
    destruct s2; f_equal; symmetry; [apply Z.compare_gt_iff|apply Z.compare_lt_iff]; lia.
  - apply f64_ok_parts in O1. destruct O1 as (O1 & _). pose proof (@units_pos m1 e1 O1).
    destruct s1; f_equal; symmetry; [apply Z.compare_lt_iff|apply Z.compare_gt_iff]; lia.
  - apply f64_ok_parts in O1. apply f64_ok_parts in O2.
    pose proof (@units_pos m1 e1 (proj1 O1)). pose proof (@units_pos m2 e2 (proj1 O2)).
    destruct s1, s2; f_equal.
    + rewrite Z.compare_opp.
      pose proof (units_cmp O1 O2) as Hc. rewrite (Z.compare_antisym (units m1 e1)), <- Hc.
      destruct (e1 ?= e2); reflexivity.
    + symmetry. apply Z.compare_lt_iff. lia.
    + symmetry. apply Z.compare_gt_iff. lia.
    + apply units_cmp; auto.
Qed.

Lemma fval_units x q :
  f64_ok x = true -> fval x = Some q -> (q == inject_Z (sunits x) * (2 # 1) ^ (-1074))%Q.
Proof.
  destruct x as [s|s| |s m e]; cbn [fval sunits]; try discriminate; intros O H; injection H as <-.
  - symmetry. apply Qmult_0_l.
  - apply f64_ok_parts in O as (O & _). unfold units.
    assert (Hp : ((2 # 1) ^ e == inject_Z (2 ^ (e + 1074)) * (2 # 1) ^ (-1074))%Q).
    { transitivity ((2 # 1) ^ (e + 1074) * (2 # 1) ^ (-1074))%Q.
      - replace e with (e + 1074 + -1074) at 1 by lia. apply Qpower_plus. discriminate.
      - apply Qmult_comp; [|reflexivity]. symmetry. apply (Zpower_Qpower 2 (e + 1074)). lia. }
    rewrite Hp, Qmult_assoc. apply Qmult_comp; [|reflexivity].
    rewrite <- inject_Z_mult. destruct s; [|reflexivity].
    replace (Zneg m * 2 ^ (e + 1074)) with (- (Zpos m * 2 ^ (e + 1074))) by
      (change (Zneg m) with (- Zpos m); rewrite Z.mul_opp_l; reflexivity). reflexivity.
Qed.

Lemma f64_finite_val x : f64_finite x = true <-> exists q, fval x = Some q.
Proof.
  destruct x; simpl; split; try discriminate; eauto; intros [q H]; discriminate.
Qed.

Lemma f64_cmp_val x y p q :
  f64_ok x = true -> f64_ok y = true -> fval x = Some p -> fval y = Some q ->
  f64_cmp x y = Some (p ?= q)%Q.
Proof.
  intros O1 O2 E1 E2. rewrite f64_cmp_units; auto;
    [|apply f64_finite_val; eauto|apply f64_finite_val; eauto].
  f_equal. rewrite (fval_units _ O1 E1), (fval_units _ O2 E2).
  assert (Hpos : (0 < (2 # 1) ^ (-1074))%Q) by (apply Qpower_0_lt; reflexivity).
  destruct (Z.compare_spec (sunits x) (sunits y)) as [H|H|H]; symmetry.
  - rewrite H. apply Qeq_alt. reflexivity.
  - apply -> Qlt_alt. apply Qmult_lt_compat_r; auto. unfold Qlt. simpl. lia.
  - apply -> Qgt_alt. apply Qmult_lt_compat_r; auto. unfold Qlt. simpl. lia.
Qed.

(** ** Lexicographic key of floats *)

Definition fkey (x : f64) : Z * Z * Z :=
  match x with
  | S754_infinity true => (-2, 0, 0)
  | S754_finite true m e => (-1, - e, Zneg m)
  | S754_zero _ => (0, 0, 0)
  | S754_finite false m e => (1, e, Zpos m)
  | S754_infinity false => (2, 0, 0)
  | S754_nan => (0, 0, 0)
  end.

Definition lex (x y : Z * Z * Z) : comparison :=
  match x, y with
  | (a, b, c), (a', b', c') =>
      match a ?= a' with
      | Eq => match b ?= b' with Eq => c ?= c' | r => r end
      | r => r
      end
  end.

Definition nan (x : f64) : Prop := x = S754_nan.

Lemma f64_cmp_key x y :
  f64_cmp x y = if f64_is_nan x || f64_is_nan y then None else Some (lex (fkey x) (fkey y)).
Proof.
  destruct x as [s1|[]| |[] m1 e1], y as [s2|[]| |[] m2 e2]; try reflexivity;
    unfold f64_cmp; cbn [SFcompare f64_is_nan orb fkey lex Z.compare Pos.compare Pos.compare_cont].
  f_equal. rewrite Z.compare_opp. rewrite (Z.compare_antisym e1 e2).
  destruct (e1 ?= e2); reflexivity.
Qed.

Lemma lex_lt x y : lex x y = Lt <->
  let '(a, b, c) := x in let '(a', b', c') := y in
  a < a' \/ (a = a' /\ (b < b' \/ (b = b' /\ c < c'))).
Proof.
  destruct x as [[a b] c], y as [[a' b'] c']. simpl.
  destruct (Z.compare_spec a a'), (Z.compare_spec b b'), (Z.compare_spec c c'); split; intros Hx;
    try discriminate; try reflexivity; lia.
Qed.

Lemma lex_eq x y : lex x y = Eq <-> x = y.
Proof.
  destruct x as [[a b] c], y as [[a' b'] c']. simpl.
  destruct (Z.compare_spec a a'), (Z.compare_spec b b'), (Z.compare_spec c c'); split; intros Hx;
    try discriminate; try reflexivity; try congruence; inversion Hx; lia.
Qed.

Lemma lex_opp x y : lex y x = CompOpp (lex x y).
Proof.
  destruct x as [[a b] c], y as [[a' b'] c']. simpl.
  rewrite (Z.compare_antisym a a'), (Z.compare_antisym b b'), (Z.compare_antisym c c').
  destruct (a ?= a'), (b ?= b'), (c ?= c'); reflexivity.
Qed.

Lemma lex_trans x y z : lex x y = Lt -> lex y z = Lt -> lex x z = Lt.
Proof. destruct x as [[a b] c], y as [[a' b'] c'], z as [[a'' b''] c'']. intros H1 H2. apply lex_lt in H1, H2. apply lex_lt. lia. Qed.

(** ** Comparisons that order their type *)

Record ordered T (cmp : T -> T -> option comparison) : Prop := {
  ord_dual : forall x y, cmp y x = option_map CompOpp (cmp x y);
  ord_same : forall x y z, cmp x y = Some Eq -> cmp x z = cmp y z;
  ord_trans : forall x y z, cmp x y = Some Lt -> cmp y z = Some Lt -> cmp x z = Some Lt;
  ord_refl : forall x y, cmp x y <> None -> cmp x x = Some Eq;
}.

Lemma i64_ordered : ordered i64_cmp.
Proof.
  unfold i64_cmp. constructor; simpl.
  - intros x y. rewrite Z.compare_antisym. reflexivity.
  - intros x y z H. injection H as H. apply Z.compare_eq in H. subst; auto.
  - intros x y z H1 H2. injection H1 as H1. injection H2 as H2. f_equal.
    rewrite Z.compare_lt_iff in *. lia.
  - intros x y _. f_equal. apply Z.compare_refl.
Qed.

Lemma f64_ordered : ordered f64_cmp.
Proof.
  constructor; intros x y; rewrite !f64_cmp_key.
  - rewrite orb_comm. destruct (f64_is_nan x || f64_is_nan y); simpl; auto. rewrite lex_opp. auto.
  - intros z. rewrite !f64_cmp_key. destruct (f64_is_nan x), (f64_is_nan y), (f64_is_nan z); simpl; try discriminate; auto.
    intros H. injection H as H. apply lex_eq in H. rewrite H. auto.
  - intros z. rewrite !f64_cmp_key. destruct (f64_is_nan x), (f64_is_nan y), (f64_is_nan z); simpl; try discriminate.
    intros H1 H2. injection H1 as H1. injection H2 as H2. f_equal. eapply lex_trans; eauto.
  - destruct (f64_is_nan x), (f64_is_nan y); simpl; try congruence.
    intros _. f_equal. apply lex_eq. auto.
Qed.

Lemma i64_eqb_cmp x y : Z.eqb x y = true <-> i64_cmp x y = Some Eq.
Proof.
  unfold i64_cmp. rewrite Z.eqb_eq. split; [intros ->; rewrite Z.compare_refl; auto|].
  intros H. injection H as H. apply Z.compare_eq; auto.
Qed.

Lemma f64_eqb_cmp x y : f64_eqb x y = true <-> f64_cmp x y = Some Eq.
Proof. unfold f64_eqb, SFeqb, f64_cmp. destruct (SFcompare x y) as [[]|]; split; congruence. Qed.

(** ** The orders of bounds *)

Section BoundOrders.
  Variable T : Type.
  Variable cmp : T -> T -> option comparison.
  Variable eqb : T -> T -> bool.
  Hypothesis Hcmp : ordered cmp.
  Hypothesis Heqb : forall x y, eqb x y = true <-> cmp x y = Some Eq.

  Lemma cmp_gt x y : cmp x y = Some Gt <-> cmp y x = Some Lt.
  Proof. rewrite (ord_dual Hcmp x y). destruct (cmp x y) as [[]|]; simpl; split; congruence. Qed.

  Lemma cmp_eq_sym x y : cmp x y = Some Eq <-> cmp y x = Some Eq.
  Proof. rewrite (ord_dual Hcmp x y). destruct (cmp x y) as [[]|]; simpl; split; congruence. Qed.

  Lemma lt_lt x y z : cmp x y = Some Lt -> cmp y z = Some Lt -> cmp x z = Some Lt.
  Proof. apply (ord_trans Hcmp). Qed.
  Lemma eq_any x y z c : cmp x y = Some Eq -> cmp y z = Some c -> cmp x z = Some c.
  Proof. intros H. rewrite (ord_same Hcmp _ _ z H). auto. Qed.
  Lemma any_eq x y z c : cmp x y = Some c -> cmp y z = Some Eq -> cmp x z = Some c.
  Proof.
    intros H H'. apply cmp_eq_sym in H'. rewrite (ord_dual Hcmp z x), (ord_same Hcmp _ _ x H').
    rewrite (ord_dual Hcmp x y), H. simpl. rewrite CompOpp_involutive. auto.
  Qed.
  Lemma lt_irrefl x : cmp x x <> Some Lt.
  Proof. intros H. assert (cmp x x = Some Eq) by (apply (ord_refl Hcmp) with x; congruence). congruence. Qed.

  Notation le := (le_of cmp).
  Notation lt := (lt_of cmp).

  Lemma t_lt_le x y : lt x y -> le x y.
  Proof. unfold lt_of, le_of. auto. Qed.
  Lemma t_le_trans x y z : le x y -> le y z -> le x z.
  Proof. unfold le_of. intros [H|H] [H'|H']; eauto using lt_lt, eq_any, any_eq. Qed.
  Lemma t_lt_le_trans x y z : lt x y -> le y z -> lt x z.
  Proof. unfold lt_of, le_of. intros H [H'|H']; eauto using lt_lt, any_eq. Qed.
  Lemma t_le_lt_trans x y z : le x y -> lt y z -> lt x z.
  Proof. unfold lt_of, le_of. intros [H|H] H'; eauto using lt_lt, eq_any. Qed.
  Lemma t_le_refl x y : cmp x y <> None -> le x x.
  Proof. intros H. right. eapply (ord_refl Hcmp); eauto. Qed.
  Lemma t_not_lt x y : lt x y -> ~ le y x.
  Proof. intros H H'. apply (@lt_irrefl x). eapply t_lt_le_trans; eauto. Qed.
  Lemma t_gt x y : cmp x y = Some Gt -> lt y x.
  Proof. apply cmp_gt. Qed.
  Lemma t_some x y : cmp x y <> None -> cmp y x <> None.
  Proof. rewrite (ord_dual Hcmp x y). destruct (cmp x y); simpl; congruence. Qed.
  Lemma t_le_antisym x y : le x y -> le y x -> cmp x y = Some Eq.
  Proof. intros [H|H] H'; auto. exfalso. eapply t_not_lt; eauto. Qed.
  Lemma t_le_some x y : le x y -> cmp x y <> None.
  Proof. intros [H|H]; congruence. Qed.

  Lemma min_le_iff a b : le_of (min_cmp cmp) a b <->
    match a, b with
    | MinIncl x, MinIncl y | MinExcl x, MinExcl y | MinIncl x, MinExcl y => le x y
    | MinExcl _, MinIncl _ => False
    end.
  Proof.
    destruct a as [x|x], b as [y|y]; unfold le_of; simpl; try tauto;
      destruct (cmp x y) as [[]|]; intuition congruence.
  Qed.

  Lemma min_lt_iff a b : lt_of (min_cmp cmp) a b <->
    match a, b with
    | MinIncl x, MinIncl y | MinExcl x, MinExcl y => lt x y
    | MinIncl x, MinExcl y => le x y
    | MinExcl _, MinIncl _ => False
    end.
  Proof.
    destruct a as [x|x], b as [y|y]; unfold le_of, lt_of; simpl; try tauto;
      destruct (cmp x y) as [[]|]; intuition congruence.
  Qed.

  Lemma max_le_iff a b : le_of (max_cmp cmp) a b <->
    match a, b with
    | MaxIncl x, MaxIncl y | MaxExcl x, MaxExcl y | MaxExcl x, MaxIncl y => le x y
    | MaxIncl _, MaxExcl _ => False
    end.
  Proof.
    destruct a as [x|x], b as [y|y]; unfold le_of; simpl; try tauto;
      destruct (cmp x y) as [[]|]; intuition congruence.
  Qed.

  Lemma max_lt_iff a b : lt_of (max_cmp cmp) a b <->
    match a, b with
    | MaxIncl x, MaxIncl y | MaxExcl x, MaxExcl y => lt x y
    | MaxExcl x, MaxIncl y => le x y
    | MaxIncl _, MaxExcl _ => False
    end.
  Proof.
    destruct a as [x|x], b as [y|y]; unfold le_of, lt_of; simpl; try tauto;
      destruct (cmp x y) as [[]|]; intuition congruence.
  Qed.

  Hint Resolve t_lt_le t_le_trans t_lt_le_trans t_le_lt_trans t_le_antisym : t.

  Lemma min_lawful : lawful (min_cmp cmp) (min_eqb eqb).
  Proof.
    constructor.
    - intros [x|x] [y|y]; simpl; try apply (ord_dual Hcmp); rewrite (ord_dual Hcmp x y);
        destruct (cmp x y) as [[]|]; reflexivity.
    - intros [x|x] [y|y]; simpl; rewrite ?Heqb; try tauto;
        destruct (cmp x y) as [[]|]; split; congruence.
    - intros [x|x] [y|y] [z|z]; rewrite !min_le_iff; try tauto; eauto with t.
    - intros [x|x] [y|y] [z|z]; rewrite !min_le_iff, !min_lt_iff; try tauto; eauto with t.
    - intros [x|x] [y|y] [z|z]; rewrite !min_le_iff, !min_lt_iff; try tauto; eauto with t.
    - intros [x|x] [y|y]; simpl; intros H; apply (ord_refl Hcmp) with y; destruct (cmp x y); congruence.
    - intros [x|x] [y|y]; rewrite !min_le_iff; simpl; rewrite ?Heqb; try tauto; eauto with t.
  Qed.

  Lemma max_lawful : lawful (max_cmp cmp) (max_eqb eqb).
  Proof.
    constructor.
    - intros [x|x] [y|y]; simpl; try apply (ord_dual Hcmp); rewrite (ord_dual Hcmp x y);
        destruct (cmp x y) as [[]|]; reflexivity.
    - intros [x|x] [y|y]; simpl; rewrite ?Heqb; try tauto;
        destruct (cmp x y) as [[]|]; split; congruence.
    - intros [x|x] [y|y] [z|z]; rewrite !max_le_iff; try tauto; eauto with t.
    - intros [x|x] [y|y] [z|z]; rewrite !max_le_iff, !max_lt_iff; try tauto; eauto with t.
    - intros [x|x] [y|y] [z|z]; rewrite !max_le_iff, !max_lt_iff; try tauto; eauto with t.
    - intros [x|x] [y|y]; simpl; intros H; apply (ord_refl Hcmp) with y; destruct (cmp x y); congruence.
    - intros [x|x] [y|y]; rewrite !max_le_iff; simpl; rewrite ?Heqb; try tauto; eauto with t.
  Qed.

  (** Inclusion of what bounds allow. *)
  Lemma min_inclusion a b : min_cmp cmp a b <> None ->
    (le_of (min_cmp cmp) a b <-> forall x, min_allows cmp b x -> min_allows cmp a x).
  Proof.
    intros Hn. rewrite min_le_iff. split.
    - destruct a as [x|x], b as [y|y]; simpl; intros H z Hz; try tauto; eauto with t.
    - destruct a as [x|x], b as [y|y]; simpl in *; intros H;
        destruct (cmp x y) as [[]|] eqn:E; try congruence; try (left; exact E); try (right; exact E);
        exfalso.
      + apply t_gt in E. apply (@t_not_lt y x); auto. apply H. eapply t_le_refl with x. unfold lt_of in E. congruence.
      + apply (@lt_irrefl y). eapply eq_any; [|eapply (H y)].
        * apply cmp_eq_sym; auto.
        * apply cmp_eq_sym in E. eapply t_le_refl with x. congruence.
      + apply t_gt in E. apply (@t_not_lt y x); auto. apply t_lt_le. apply H. eapply t_le_refl with x. unfold lt_of in E. congruence.
      + apply t_gt in E. apply (@lt_irrefl x). apply H. auto.
  Qed.

  Lemma max_inclusion a b : max_cmp cmp a b <> None ->
    (le_of (max_cmp cmp) a b <-> forall x, max_allows cmp a x -> max_allows cmp b x).
  Proof.
    intros Hn. rewrite max_le_iff. split.
    - destruct a as [x|x], b as [y|y]; simpl; intros H z Hz; try tauto; eauto with t.
    - destruct a as [x|x], b as [y|y]; simpl in *; intros H;
        destruct (cmp x y) as [[]|] eqn:E; try congruence; try (left; exact E); try (right; exact E);
        exfalso.
      + apply t_gt in E. apply (@t_not_lt y x); auto. apply H. eapply t_le_refl with y. apply t_some. unfold lt_of in E. congruence.
      + apply (@lt_irrefl x). eapply any_eq; [|apply cmp_eq_sym; exact E].
        apply (H x). eapply t_le_refl with y. congruence.
      + apply t_gt in E. apply (@t_not_lt y x); auto. apply t_lt_le. apply H. eapply t_le_refl with y. apply t_some. unfold lt_of in E. congruence.
      + apply t_gt in E. apply (@lt_irrefl y). apply H. auto.
  Qed.
End BoundOrders.

(** ** Bounds and numbers *)

Definition fin_min (a : minimum f64) : Prop :=
  match a with MinIncl x | MinExcl x => f64_ok x = true /\ f64_finite x = true end.
Definition fin_max (b : maximum f64) : Prop :=
  match b with MaxIncl x | MaxExcl x => f64_ok x = true /\ f64_finite x = true end.

Ltac vals :=
  repeat match goal with
  | H : _ /\ _ |- _ => destruct H
  | H : f64_finite ?x = true |- _ => apply f64_finite_val in H as [? H]
  end.

Ltac qcases :=
  match goal with
  | O1 : f64_ok ?x = true, O2 : f64_ok ?y = true, E1 : fval ?x = Some ?p, E2 : fval ?y = Some ?q
    |- context [f64_cmp ?x ?y] =>
      rewrite (f64_cmp_val _ _ O1 O2 E1 E2)
  end.

Local Open Scope Q_scope.

Lemma min_inclusion_q a b : fin_min a -> fin_min b -> min_cmp f64_cmp a b <> None ->
  (le_of (min_cmp f64_cmp) a b <-> forall q, min_admits b q -> min_admits a q).
Proof.
  intros Ha Hb. unfold le_of.
  destruct a as [x|x], b as [y|y]; simpl in *; vals; qcases; unfold f_le_q, f_lt_q;
    repeat match goal with E : fval _ = Some _ |- _ => rewrite E; clear E end;
    match goal with |- context [?p ?= ?q] => destruct (Qcompare_spec p q) as [Hpq|Hpq|Hpq]; rename p into u; rename q into v end;
    intros Hn; split; intros Hc; try congruence; auto; try (intros q Hq; lra);
    try (destruct Hc; discriminate).
  - exfalso. specialize (Hc v). lra.
  - exfalso. specialize (Hc v). lra.
  - exfalso. specialize (Hc v). lra.
  - exfalso. specialize (Hc u). lra.
Qed.

Lemma max_inclusion_q a b : fin_max a -> fin_max b -> max_cmp f64_cmp a b <> None ->
  (le_of (max_cmp f64_cmp) a b <-> forall q, max_admits a q -> max_admits b q).
Proof.
  intros Ha Hb. unfold le_of.
  destruct a as [x|x], b as [y|y]; simpl in *; vals; qcases; unfold q_le_f, q_lt_f;
    repeat match goal with E : fval _ = Some _ |- _ => rewrite E; clear E end;
    match goal with |- context [?p ?= ?q] => destruct (Qcompare_spec p q) as [Hpq|Hpq|Hpq]; rename p into u; rename q into v end;
    intros Hn; split; intros Hc; try congruence; auto; try (intros q Hq; lra);
    try (destruct Hc; discriminate).
  - exfalso. specialize (Hc u). lra.
  - exfalso. specialize (Hc u). lra.
  - exfalso. specialize (Hc u). lra.
  - exfalso. specialize (Hc v). lra.
Qed.

(** Comparing a minimum with a maximum. *)
Lemma minmax_gt_empty a b : fin_min a -> fin_max b ->
  minmax_cmp f64_cmp a b = Some Gt -> forall q, ~ (min_admits a q /\ max_admits b q).
Proof.
  intros Ha Hb. 
  destruct a as [x|x], b as [y|y]; simpl in *; vals; qcases; unfold q_le_f, q_lt_f, f_le_q, f_lt_q;
    repeat match goal with E : fval _ = Some _ |- _ => rewrite E; clear E end;
    match goal with |- context [?p ?= ?q] => destruct (Qcompare_spec p q) as [Hpq|Hpq|Hpq] end;
    intros Hn; try discriminate; intros q [Q1 Q2]; lra.
Qed.

Lemma inclusive_iff x y : f64_ok x = true -> f64_ok y = true -> f64_finite x = true -> f64_finite y = true ->
  (le_of f64_cmp x y <-> exists q, min_admits (MinIncl x) q /\ max_admits (MaxIncl y) q).
Proof.
  intros ? ? ? ?. unfold le_of. simpl. vals. qcases. unfold q_le_f, f_le_q.
    repeat match goal with E : fval _ = Some _ |- _ => rewrite E; clear E end.
  match goal with |- context [?p ?= ?q] => destruct (Qcompare_spec p q) as [Hpq|Hpq|Hpq]; rename p into u; rename q into v end;
    split; intros Hc; auto.
  - exists u. lra.
  - exists u. lra.
  - destruct Hc; discriminate.
  - destruct Hc as (q & Q1 & Q2). lra.
Qed.

Lemma exclusive_iff x y : f64_ok x = true -> f64_ok y = true -> f64_finite x = true -> f64_finite y = true ->
  (lt_of f64_cmp x y <-> exists q, min_admits (MinExcl x) q /\ max_admits (MaxExcl y) q).
Proof.
  intros. unfold lt_of. simpl. vals. qcases. unfold q_lt_f, f_lt_q.
    repeat match goal with E : fval _ = Some _ |- _ => rewrite E; clear E end.
  match goal with |- context [?p ?= ?q] => destruct (Qcompare_spec p q) as [Hpq|Hpq|Hpq]; rename p into u; rename q into v end;
    split; intros Hc; auto; try discriminate.
  - destruct Hc as (q & Q1 & Q2). lra.
  - exists ((u + v) / 2). split; [apply Qlt_shift_div_l|apply Qlt_shift_div_r]; lra.
  - destruct Hc as (q & Q1 & Q2). lra.
Qed.
