(** * Writing and reading all floats *)

From Coq Require Import String Ascii Bool NArith ZArith QArith Qpower Lia Decimal DecimalN List.
From Coq Require Import Floats.SpecFloat.
From Verif Require Import Base MinMax Json JsonText SpecNum SpecJsonText JsonTextFacts ExactFloats SpecFloatText.
Import ListNotations.
Set Implicit Arguments.
Local Open Scope list_scope.

(** ** Rounding what needs none *)

Lemma digits2_double p : digits2_pos (p~0) = Pos.succ (digits2_pos p).
Proof. reflexivity. Qed.

Lemma shift_pow m t : (Z.pos m * 2 ^ Z.of_nat t)%Z = Z.pos (Nat.iter t xO m).
Proof.
  induction t as [|t IH]; [cbn; lia|]. rewrite Nat2Z.inj_succ, Z.pow_succ_r by lia.
  change (Nat.iter (S t) xO m) with (xO (Nat.iter t xO m)). rewrite (Pos2Z.inj_xO (Nat.iter t xO m)), <- IH. ring.
Qed.

Lemma digits2_shift m t : Z.pos (digits2_pos (Nat.iter t xO m)) = (Z.pos (digits2_pos m) + Z.of_nat t)%Z.
Proof.
  induction t as [|t IH]; [cbn; lia|]. change (Nat.iter (S t) xO m) with (xO (Nat.iter t xO m)).
  rewrite digits2_double. lia.
Qed.

Lemma iter_nat A (f : A -> A) p x : iter_pos f p x = Nat.iter (Pos.to_nat p) f x.
Proof.
  assert (Hadd : forall a b y, Nat.iter (a + b) f y = Nat.iter a f (Nat.iter b f y)).
  { intros a b y. induction a as [|a IH]; [reflexivity|]. cbn. f_equal. exact IH. }
  revert x. induction p as [p IH|p IH|]; intros x; cbn [iter_pos].
  - rewrite !IH, <- Hadd. rewrite Pos2Nat.inj_xI. replace (S (2 * Pos.to_nat p)) with (Pos.to_nat p + Pos.to_nat p + 1)%nat by lia.
    rewrite (Hadd _ 1%nat). reflexivity.
  - rewrite !IH, <- Hadd. rewrite Pos2Nat.inj_xO. f_equal. lia.
  - reflexivity.
Qed.

Lemma shr_shift m t : Nat.iter t shr_1 {| shr_m := Z.pos (Nat.iter t xO m); shr_r := false; shr_s := false |}
  = {| shr_m := Z.pos m; shr_r := false; shr_s := false |}.
Proof.
  revert m. induction t as [|t IH]; intros m; [reflexivity|].
  assert (H : forall A (f : A -> A) n y, Nat.iter (S n) f y = Nat.iter n f (f y)).
  { intros A f n y. induction n as [|n IHn]; [reflexivity|]. cbn in *. f_equal. exact IHn. }
  rewrite H. change (Nat.iter (S t) xO m) with (xO (Nat.iter t xO m)). cbn [shr_1 orb]. apply IH.
Qed.

Lemma round_exact neg m e t : bounded f64_prec f64_emax m e = true ->
  binary_round_aux f64_prec f64_emax neg (Z.pos m * 2 ^ Z.of_nat t) (e - Z.of_nat t) loc_Exact = S754_finite neg m e.
Proof.
  intros H. unfold bounded, canonical_mantissa in H. apply andb_true_iff in H as [Hc Hb]. apply Zeq_bool_eq in Hc.
  assert (Hs : forall t, shr_fexp f64_prec f64_emax (Z.pos (Nat.iter t xO m)) (e - Z.of_nat t) loc_Exact
                = ({| shr_m := Z.pos m; shr_r := false; shr_s := false |}, e)).
  { clear t. intros t. unfold shr_fexp. cbn [Zdigits2 shr_record_of_loc]. rewrite digits2_shift.
    replace (Z.pos (digits2_pos m) + Z.of_nat t + (e - Z.of_nat t))%Z with (Z.pos (digits2_pos m) + e)%Z by lia.
    rewrite Hc. replace (e - (e - Z.of_nat t))%Z with (Z.of_nat t) by lia. unfold shr.
    destruct (Z.of_nat t) as [|p|p] eqn:Et; [|rewrite iter_nat|lia].
    - assert (t = 0)%nat as -> by lia. cbn [Nat.iter nat_rect]. f_equal. lia.
    - replace (Pos.to_nat p) with t by lia. rewrite shr_shift. f_equal. lia. }
  unfold binary_round_aux. rewrite shift_pow, Hs. cbn [shr_m loc_of_shr_record round_nearest_even].
  assert (H0 := Hs O). cbn [Nat.iter nat_rect] in H0. replace (e - Z.of_nat 0)%Z with e in H0 by lia. 
  change (Nat.iter 0 xO m) with m in H0. rewrite H0. cbn [shr_m]. rewrite Hb. reflexivity.
Qed.

(** ** The number nearest to a number that is a float *)

Lemma log2_digits p : (Z.pos p < 2 ^ Z.pos (digits2_pos p))%Z.
Proof.
  induction p as [p IH|p IH|]; cbn [digits2_pos]; [| |reflexivity]; rewrite Pos2Z.inj_succ, Z.pow_succ_r by lia;
    [rewrite (Pos2Z.inj_xI p)|rewrite (Pos2Z.inj_xO p)]; lia.
Qed.

Lemma nearest_exact neg n k m e : bounded f64_prec f64_emax m e = true ->
  (Z.of_N n * 10 ^ Z.max k 0 * 2 ^ Z.max (- e) 0 = Z.pos m * 2 ^ Z.max e 0 * 10 ^ Z.max (- k) 0)%Z ->
  nearest neg n k = S754_finite neg m e.
Proof.
  intros Hb H. destruct n as [|n].
  { exfalso. change (Z.of_N 0) with 0%Z in H. rewrite !Z.mul_0_l in H. assert (0 < Z.pos m * 2 ^ Z.max e 0 * 10 ^ Z.max (- k) 0)%Z; [|lia].
    repeat apply Z.mul_pos_pos; try lia; apply Z.pow_pos_nonneg; lia. }
  unfold nearest. set (num := (Z.of_N (N.pos n) * 10 ^ Z.max k 0)%Z) in *. set (den := (10 ^ Z.max (- k) 0)%Z) in *.
  assert (Hnum : (0 < num)%Z) by (apply Z.mul_pos_pos; [lia|apply Z.pow_pos_nonneg; lia]).
  assert (Hden : (0 < den)%Z) by (apply Z.pow_pos_nonneg; lia).
  set (s := (Zdigits2 den + 64)%Z).
  assert (Hd : (den < 2 ^ Zdigits2 den)%Z) by (destruct den; try lia; apply log2_digits).
  assert (Hd0 : (0 <= Zdigits2 den)%Z) by (destruct den; cbn; lia).
  assert (Hm : (Z.pos m < 2 ^ 53)%Z).
  { unfold bounded, canonical_mantissa in Hb. apply andb_true_iff in Hb as [Hc _]. apply Zeq_bool_eq in Hc. unfold fexp in Hc.
    assert (Z.pos (digits2_pos m) <= 53)%Z by (unfold f64_prec in Hc; lia).
    apply Z.lt_le_trans with (1 := log2_digits m). apply Z.pow_le_mono_r; lia. }
  assert (Hse : (0 <= s + e)%Z).
  { destruct (Z.le_gt_cases 0 e) as [He|He]; [unfold s; lia|].
    rewrite (Z.max_r e 0), (Z.max_l (- e) 0), Z.mul_1_r in H by lia.
    assert (2 ^ (- e) < 2 ^ (53 + Zdigits2 den))%Z as Hlt.
    { apply Z.le_lt_trans with (num * 2 ^ (- e))%Z.
      - assert (0 < 2 ^ (- e))%Z by (apply Z.pow_pos_nonneg; lia). nia.
      - rewrite H, Z.pow_add_r by lia. apply Z.mul_lt_mono_nonneg; lia. }
    apply Z.pow_lt_mono_r_iff in Hlt; unfold s; lia. }
  assert (Hq : (num * 2 ^ s = Z.pos m * 2 ^ (s + e) * den)%Z).
  { destruct (Z.le_gt_cases 0 e) as [He|He].
    - rewrite (Z.max_l e 0), (Z.max_r (- e) 0), Z.mul_1_r in H by lia. rewrite H, Z.pow_add_r by (unfold s; lia). ring.
    - rewrite (Z.max_r e 0), (Z.max_l (- e) 0), Z.mul_1_r in H by lia.
      replace (2 ^ s)%Z with (2 ^ (- e) * 2 ^ (s + e))%Z by (rewrite <- Z.pow_add_r by lia; f_equal; lia).
      rewrite Z.mul_assoc, H. ring. }
  rewrite Hq, Z.mod_mul, Z.div_mul, Z.eqb_refl by lia.
  assert (R := @round_exact neg m e (Z.to_nat (s + e)) Hb). rewrite Z2Nat.id in R by lia.
  replace (e - (s + e))%Z with (- s)%Z in R by lia. exact R.
Qed.

(** ** Digits *)

Lemma dvalue_from ds a : fold_left (fun a c => 10 * a + (N_of_ascii c - 48))%N ds a = (a * 10 ^ N.of_nat (List.length ds) + dvalue ds)%N.
Proof.
  unfold dvalue. revert a. induction ds as [|c ds IH]; intros a; cbn [fold_left List.length]; [cbn; lia|].
  rewrite IH, (IH (10 * 0 + _)%N). rewrite Nat2N.inj_succ, N.pow_succ_r'. lia.
Qed.

Lemma dvalue_app a b : dvalue (a ++ b) = (dvalue a * 10 ^ N.of_nat (List.length b) + dvalue b)%N.
Proof. unfold dvalue at 1. rewrite fold_left_app, dvalue_from. reflexivity. Qed.

Ltac asc := match goal with |- context [N_of_ascii ?c] => let v := eval vm_compute in (N_of_ascii c) in change (N_of_ascii c) with v end.

Lemma acc_value u a : N.pos (Pos.of_uint_acc u a) = (N.pos a * 10 ^ N.of_nat (List.length (w_uint u)) + dvalue (w_uint u))%N.
Proof.
  rewrite <- dvalue_from. revert a.
  induction u; intros a; cbn [Pos.of_uint_acc w_uint fold_left]; [reflexivity|rewrite IHu; f_equal; asc; lia ..].
Qed.

Lemma dvalue_cons c ds : dvalue (c :: ds) = ((N_of_ascii c - 48) * 10 ^ N.of_nat (List.length ds) + dvalue ds)%N.
Proof. unfold dvalue at 1. cbn [fold_left]. rewrite dvalue_from. f_equal. Qed.

Lemma uint_value u : N.of_uint u = dvalue (w_uint u).
Proof.
  induction u; [reflexivity|exact IHu|cbn [w_uint]; rewrite dvalue_cons; unfold N.of_uint, Pos.of_uint; rewrite acc_value; reflexivity ..].
Qed.

Lemma digit_char c f : digit c = Some f -> forall u, w_uint (f u) = c :: w_uint u.
Proof.
  intros H u. unfold digit in H.
  assert (Hc : c = ascii_of_N (N_of_ascii c)) by (symmetry; apply ascii_N_embedding).
  destruct (N_of_ascii c) as [|p]; [discriminate H|].
  do 6 (destruct p as [p|p|]; try discriminate H); injection H as <-; rewrite Hc; reflexivity.
Qed.

Lemma read_value ds r : (forall c, In c ds -> (48 <= N_of_ascii c <= 57)%N) -> no_digit r ->
  exists u, p_digits (ds ++ r) = (ds, u, r) /\ N.of_uint u = dvalue ds.
Proof.
  intros H Hr. assert (exists u, p_digits (ds ++ r) = (ds, u, r) /\ w_uint u = ds) as (u & H1 & H2).
  { induction ds as [|c ds IH].
    - exists Nil. split; [|reflexivity]. destruct r as [|c r]; [reflexivity|]. cbn in Hr |- *. rewrite Hr. reflexivity.
    - destruct IH as (u & Hu & Hw); [intros; apply H; right; auto|]. destruct (@digit_some c) as [f Hf]; [apply H; left; auto|].
      exists (f u). cbn. rewrite Hf, Hu. split; [reflexivity|]. rewrite (digit_char _ Hf), Hw. reflexivity. }
  exists u. split; [exact H1|]. rewrite uint_value, H2. reflexivity.
Qed.

(** ** Reading *)

Definition rounded (neg : bool) (n : N) (k : Z) : option f64 :=
  let x := nearest neg n k in if f64_finite x then Some x else None.

Lemma digit_not c d : (48 <= N_of_ascii c <= 57)%N -> (N_of_ascii d < 48 \/ 57 < N_of_ascii d)%N -> Ascii.eqb c d = false.
Proof. intros H Hd. destruct (Ascii.eqb_spec c d) as [->|]; [lia|reflexivity]. Qed.

Lemma exponent_read (exp : chars) k : (exp = [] \/ exists c g ds, exp = c :: g ++ ds /\ (c = "e"%char \/ c = "E"%char)
             /\ (g = [] \/ g = ["+"%char] \/ g = ["-"%char]) /\ digits ds) ->
  exponent_value exp k -> r_exponent exp = k /\ no_digit exp /\ Ascii.eqb (hd "e"%char exp) "." = false.
Proof.
  intros He Hk.
  assert (Hd : forall ds, digits ds -> exists u, p_digits ds = (ds, u, []) /\ N.of_uint u = dvalue ds).
  { intros ds [_ H]. destruct (@read_value ds [] H I) as (u & H1 & H2). rewrite app_nil_r in H1. eauto. }
  assert (Hc : forall c r, exp = c :: r -> (c = "e"%char \/ c = "E"%char)).
  { intros c r ->. destruct He as [F|(c' & g & ds & F & Hc & _)]; [discriminate F|]. injection F as -> _. exact Hc. }
  destruct Hk as [|c ds Hds|c ds Hds|c ds Hds].
  - repeat split.
  - destruct (Hd _ Hds) as (u & H1 & H2).
    assert (Hs : r_sign ds = (false, ds)).
    { destruct Hds as [Hn Hds]. destruct ds as [|d ds]; [reflexivity|]. unfold r_sign.
      rewrite !digit_not; [reflexivity|apply Hds; left; auto|left; cbn; lia|apply Hds; left; auto|left; cbn; lia]. }
    destruct (Hc _ _ eq_refl) as [-> | ->]; (split; [|split; reflexivity]); unfold r_exponent; cbn [Ascii.eqb Bool.eqb orb]; rewrite Hs, H1, H2; reflexivity.
  - destruct (Hd _ Hds) as (u & H1 & H2).
    destruct (Hc _ _ eq_refl) as [-> | ->]; (split; [|split; reflexivity]); unfold r_exponent, r_sign; cbn [Ascii.eqb Bool.eqb orb]; rewrite H1, H2; reflexivity.
  - destruct (Hd _ Hds) as (u & H1 & H2).
    destruct (Hc _ _ eq_refl) as [-> | ->]; (split; [|split; reflexivity]); unfold r_exponent, r_sign; cbn [Ascii.eqb Bool.eqb orb]; rewrite H1, H2; reflexivity.
Qed.

Lemma parts_read (neg : bool) (int frac ds exp : chars) k : number_parts (if neg then ["-"%char] else []) int frac exp ->
  (frac = [] /\ ds = [] \/ frac = "."%char :: ds) -> exponent_value exp k ->
  r_float ((if neg then ["-"%char] else []) ++ int ++ frac ++ exp) = rounded neg (dvalue (int ++ ds)) (k - Z.of_nat (List.length ds)).
Proof.
  intros [_ [Hn Hi] _ Hf He] Hds Hk. destruct (exponent_read He Hk) as (Hr & Hnd & Hdot).
  assert (Hsign : r_sign ((if neg then ["-"%char] else []) ++ int ++ frac ++ exp) = (neg, int ++ frac ++ exp)).
  { destruct neg; [reflexivity|]. destruct int as [|c int]; [congruence|]. cbn [app]. unfold r_sign.
    rewrite !digit_not; [reflexivity|apply Hi; left; auto|left; cbn; lia|apply Hi; left; auto|left; cbn; lia]. }
  unfold r_float. rewrite Hsign.
  destruct (@read_value int (frac ++ exp) Hi) as (u & H1 & H2).
  { destruct Hds as [[-> _]| ->]; [exact Hnd|reflexivity]. }
  rewrite H1.
  assert (Hfr : exists v, r_fraction (frac ++ exp) = (ds, v, exp) /\ N.of_uint v = dvalue ds).
  { destruct Hds as [[-> ->]| ->].
    - exists Nil. split; [|reflexivity]. cbn [app]. unfold r_fraction. destruct exp as [|c exp]; [reflexivity|]. cbn [hd] in Hdot. rewrite Hdot. reflexivity.
    - destruct Hf as [F|(ds' & F & [_ Hd])]; [discriminate F|]. injection F as <-.
      destruct (@read_value ds exp Hd Hnd) as (v & H3 & H4). exists v. split; [exact H3|exact H4]. }
  destruct Hfr as (v & H3 & H4). rewrite H3, H2, H4, Hr, dvalue_app, nat_N_Z. reflexivity.
Qed.

(** ** Numbers *)

Lemma pow_split b k : (0 < b)%Z -> (inject_Z b ^ k == inject_Z (b ^ Z.max k 0) / inject_Z (b ^ Z.max (- k) 0))%Q.
Proof.
  intros Hb. destruct (Z.le_gt_cases 0 k) as [Hk|Hk].
  - rewrite (Z.max_l k 0), (Z.max_r (- k) 0) by lia. rewrite (Zpower_Qpower b k) by lia. change (inject_Z (b ^ 0)) with 1%Q.
    generalize (inject_Z b ^ k)%Q. intros q. field.
  - rewrite (Z.max_r k 0), (Z.max_l (- k) 0) by lia. rewrite (Zpower_Qpower b (- k)) by lia. change (inject_Z (b ^ 0)) with 1%Q.
    rewrite <- (Z.opp_involutive k) at 1. rewrite (Qpower_opp (inject_Z b) (- k)). unfold Qdiv. rewrite Qmult_1_l. reflexivity.
Qed.

Lemma same_number a k b e : (inject_Z a * (10 # 1) ^ k == inject_Z b * (2 # 1) ^ e)%Q ->
  (a * 10 ^ Z.max k 0 * 2 ^ Z.max (- e) 0 = b * 2 ^ Z.max e 0 * 10 ^ Z.max (- k) 0)%Z.
Proof.
  change (10 # 1)%Q with (inject_Z 10). change (2 # 1)%Q with (inject_Z 2). rewrite !pow_split by lia.
  assert (H10 : (0 < 10 ^ Z.max (- k) 0)%Z) by (apply Z.pow_pos_nonneg; lia).
  assert (H2 : (0 < 2 ^ Z.max (- e) 0)%Z) by (apply Z.pow_pos_nonneg; lia).
  generalize dependent (10 ^ Z.max (- k) 0)%Z. generalize dependent (2 ^ Z.max (- e) 0)%Z.
  generalize (10 ^ Z.max k 0)%Z, (2 ^ Z.max e 0)%Z. intros u v [|d2|d2] H2 [|d1|d1] H1 H; try lia.
  unfold Qeq, Qdiv, Qmult, Qinv, inject_Z in H. cbn [Qnum Qden] in H. rewrite !Pos.mul_1_l in H. lia.
Qed.

Lemma number_same a k b e : (a * 10 ^ Z.max k 0 * 2 ^ Z.max (- e) 0 = b * 2 ^ Z.max e 0 * 10 ^ Z.max (- k) 0)%Z ->
  (inject_Z a * (10 # 1) ^ k == inject_Z b * (2 # 1) ^ e)%Q.
Proof.
  change (10 # 1)%Q with (inject_Z 10). change (2 # 1)%Q with (inject_Z 2). rewrite !pow_split by lia.
  assert (H10 : (0 < 10 ^ Z.max (- k) 0)%Z) by (apply Z.pow_pos_nonneg; lia).
  assert (H2 : (0 < 2 ^ Z.max (- e) 0)%Z) by (apply Z.pow_pos_nonneg; lia).
  generalize dependent (10 ^ Z.max (- k) 0)%Z. generalize dependent (2 ^ Z.max (- e) 0)%Z.
  generalize (10 ^ Z.max k 0)%Z, (2 ^ Z.max e 0)%Z. intros u v [|d2|d2] H2 [|d1|d1] H1 H; try lia.
  unfold Qeq, Qdiv, Qmult, Qinv, inject_Z. cbn [Qnum Qden]. rewrite !Pos.mul_1_l. lia.
Qed.

(** A text that stands for a float is read as that float. *)
Lemma exact_read s neg n q y : text_value s neg n q -> f64_ok y = true -> is_number y q -> (forall b, y = S754_zero b -> b = neg) ->
  r_float s = Some y.
Proof.
  intros [int ds frac exp k -> Hp Hds Hk -> Hq] Hok (v & Hv & Hvq) Hz.
  rewrite (parts_read _ Hp Hds Hk). rewrite Hq in Hvq. clear Hq q.
  set (n := dvalue (int ++ ds)) in *. set (k' := (k - Z.of_nat (List.length ds))%Z) in *. clearbody n k'.
  unfold rounded. destruct y as [b|b| |b m e]; try discriminate Hv; injection Hv as <-.
  - rewrite (Hz b eq_refl). assert (n = 0)%N as ->; [|reflexivity].
    assert (H : (inject_Z (if neg then - Z.of_N n else Z.of_N n) * (10 # 1) ^ k' == inject_Z 0 * (2 # 1) ^ 0)%Q) by (rewrite <- Hvq; reflexivity).
    apply same_number in H. rewrite !Z.mul_0_l in H.
    assert (0 < 10 ^ Z.max k' 0)%Z by (apply Z.pow_pos_nonneg; lia). change (2 ^ Z.max (- 0) 0)%Z with 1%Z in H. destruct neg; nia.
  - symmetry in Hvq. apply same_number in Hvq. cbn in Hok.
    assert (P1 : (0 < 10 ^ Z.max k' 0)%Z) by (apply Z.pow_pos_nonneg; lia).
    assert (P2 : (0 < 10 ^ Z.max (- k') 0)%Z) by (apply Z.pow_pos_nonneg; lia).
    assert (P3 : (0 < 2 ^ Z.max e 0)%Z) by (apply Z.pow_pos_nonneg; lia).
    assert (P4 : (0 < 2 ^ Z.max (- e) 0)%Z) by (apply Z.pow_pos_nonneg; lia).
    assert (Hb : neg = b /\ (Z.of_N n * 10 ^ Z.max k' 0 * 2 ^ Z.max (- e) 0 = Z.pos m * 2 ^ Z.max e 0 * 10 ^ Z.max (- k') 0)%Z).
    { set (A := (10 ^ Z.max k' 0)%Z) in *. set (B := (10 ^ Z.max (- k') 0)%Z) in *.
      set (C := (2 ^ Z.max e 0)%Z) in *. set (D := (2 ^ Z.max (- e) 0)%Z) in *.
      assert (0 < Z.pos m * C * B)%Z by (repeat apply Z.mul_pos_pos; lia).
      assert (0 <= Z.of_N n * A * D)%Z by (repeat apply Z.mul_nonneg_nonneg; lia).
      destruct neg, b; split; try reflexivity; try rewrite <- Pos2Z.opp_pos in Hvq; lia. }
    destruct Hb as [-> Hb]. rewrite (@nearest_exact b n k' m e Hok Hb). reflexivity.
Qed.

(** ** Writing *)

Lemma uint_digits n : digits (w_uint (N.to_uint n)) /\ dvalue (w_uint (N.to_uint n)) = n
  /\ forall ds, w_uint (N.to_uint n) = "0"%char :: ds -> ds = [].
Proof.
  split; [|split].
  - split.
    + intros F. assert (P := plain_to_uint n). rewrite F in P. discriminate P.
    + intros c. generalize (N.to_uint n). induction u; cbn; [intros []|intros [<-|H]; [cbn; lia|auto] ..].
  - rewrite <- uint_value. apply Unsigned.of_to.
  - intros ds F. assert (P := plain_to_uint n). rewrite F in P. destruct ds; [reflexivity|discriminate P].
Qed.

Lemma exact_written x : f64_finite x = true ->
  float_text (w_float x) /\ exists n q, text_value (w_float x) (minus x) n q /\ is_number x q.
Proof.
  intros Hx.
  assert (Hd0 : digits ["0"%char]) by (split; [discriminate|intros c [<-|[]]; cbn; lia]).
  assert (Hsg : forall b : bool, (if b then ["-"%char] else []) = ([] : chars) \/ (if b then ["-"%char] else []) = ["-"%char]) by (intros []; auto).
  assert (HA : forall (b : bool) n, number_parts (if b then ["-"%char] else []) (w_uint (N.to_uint n)) ["."; "0"]%char []).
  { intros b n. destruct (uint_digits n) as (U1 & _ & U3). constructor; auto. right. exists ["0"%char]. auto. }
  assert (HB : forall (b : bool) n p, number_parts (if b then ["-"%char] else []) (w_uint (N.to_uint n)) [] (["e"; "-"]%char ++ w_uint (N.to_uint p))).
  { intros b n p. destruct (uint_digits n) as (U1 & _ & U3). destruct (uint_digits p) as (V1 & _ & _). constructor; auto.
    right. exists "e"%char, ["-"%char], (w_uint (N.to_uint p)). auto 6. }
  assert (HC : forall (b : bool) m n e, (Z.of_N n = Z.pos m * 2 ^ e)%Z -> (0 <= e)%Z -> let s := (if b then ["-"%char] else []) ++ w_uint (N.to_uint n) ++ ["."; "0"]%char in
    float_text s /\ exists n q, text_value s b n q /\ is_number (S754_finite b m e) q).
  { intros b m n e Hn He s. split.
    - exists (if b then ["-"%char] else []), (w_uint (N.to_uint n)), ["."; "0"]%char, []. split; [rewrite app_nil_r; reflexivity|].
      split; [apply HA|left; discriminate].
    - eexists _, _. split.
      + eapply tv_intro with (ds := ["0"%char]) (exp := []); [rewrite app_nil_r; reflexivity|apply HA|right; reflexivity|constructor|reflexivity|reflexivity].
      + eexists. split; [reflexivity|]. symmetry. apply number_same. rewrite dvalue_app, (proj1 (proj2 (uint_digits n))).
        change (dvalue ["0"%char]) with 0%N. change (10 ^ N.of_nat (List.length ["0"%char]))%N with 10%N.
        change (Z.max (0 - Z.of_nat (List.length ["0"%char])) 0) with 0%Z.
        change (Z.max (- (0 - Z.of_nat (List.length ["0"%char]))) 0) with 1%Z.
        rewrite (Z.max_l e 0), (Z.max_r (- e) 0) by lia. change (10 ^ 1)%Z with 10%Z. change (10 ^ 0)%Z with 1%Z. change (2 ^ 0)%Z with 1%Z.
        replace (Z.of_N (n * 10 + 0)) with (Z.of_N n * 10)%Z by lia. rewrite Hn.
        destruct b; [change (Z.neg m) with (- Z.pos m)%Z|]; ring. }
  destruct x as [b|b| |b m e]; try discriminate Hx.
  - split.
    + exists (if b then ["-"%char] else []), ["0"%char], ["."; "0"]%char, []. split; [destruct b; reflexivity|].
      split; [exact (HA b 0%N)|left; discriminate].
    + exists 0%N, 0%Q. split; [|exists 0%Q; split; reflexivity].
      eapply tv_intro with (int := ["0"%char]) (ds := ["0"%char]) (frac := ["."; "0"]%char) (exp := []);
        [destruct b; reflexivity|exact (HA b 0%N)|right; reflexivity|constructor|reflexivity|destruct b; reflexivity].
  - destruct e as [|p|p].
    + apply HC; [|lia]. cbn [w_float]. change (2 ^ Z.to_N 0)%N with 1%N. change (2 ^ 0)%Z with 1%Z. lia.
    + apply HC; [|lia]. rewrite N2Z.inj_mul, N2Z.inj_pow. reflexivity.
    + cbn [w_float]. set (n := (N.pos m * 5 ^ N.pos p)%N). cbn [minus]. split.
      * exists (if b then ["-"%char] else []), (w_uint (N.to_uint n)), [], (["e"; "-"]%char ++ w_uint (N.to_uint (N.pos p))).
        split; [reflexivity|]. split; [apply HB|right; discriminate].
      * eexists _, _. split.
        -- eapply tv_intro with (ds := []) (frac := []); [reflexivity|apply HB|left; split; reflexivity|apply ev_minus, uint_digits|reflexivity|reflexivity].
        -- eexists. split; [reflexivity|]. symmetry. apply number_same. rewrite app_nil_r, !(proj1 (proj2 (uint_digits _))).
           cbn [List.length]. replace (- Z.of_N (N.pos p) - Z.of_nat 0)%Z with (Z.neg p) by lia.
           change (Z.max (Z.neg p) 0) with 0%Z. change (Z.max (- Z.neg p) 0) with (Z.pos p).
           change (10 ^ 0)%Z with 1%Z. change (2 ^ 0)%Z with 1%Z.
           assert (Hn : Z.of_N n = (Z.pos m * 5 ^ Z.pos p)%Z) by (unfold n; rewrite N2Z.inj_mul, N2Z.inj_pow; reflexivity).
           change 10%Z with (5 * 2)%Z. rewrite Z.pow_mul_l, Hn. destruct b; [change (Z.neg m) with (- Z.pos m)%Z|]; ring.
Qed.

Lemma exact_faithful x : f64_ok x = true -> f64_finite x = true -> faithful exact_floats x.
Proof.
  intros Hok Hx. destruct (exact_written x Hx) as (H1 & n & q & H2 & H3). split; [exact H1|].
  eapply exact_read; eauto. intros b ->. reflexivity.
Qed.
