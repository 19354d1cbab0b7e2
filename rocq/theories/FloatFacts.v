(** * Integers as floats *)

From Coq Require Import String Bool ZArith Lia List.
From Coq Require Import Floats.SpecFloat.
From Verif Require Import Base MinMax.
Local Open Scope Z_scope.

Lemma digits_pow p : 2 ^ (Z.pos (digits2_pos p) - 1) <= Z.pos p < 2 ^ Z.pos (digits2_pos p).
Proof.
  induction p as [p IH|p IH|]; cbn [digits2_pos]; try (rewrite Pos2Z.inj_succ).
  - replace (Z.succ (Z.pos (digits2_pos p)) - 1) with (Z.succ (Z.pos (digits2_pos p) - 1)) by lia.
    rewrite !Z.pow_succ_r by lia. lia.
  - replace (Z.succ (Z.pos (digits2_pos p)) - 1) with (Z.succ (Z.pos (digits2_pos p) - 1)) by lia.
    rewrite !Z.pow_succ_r by lia. lia.
  - cbv. intuition discriminate.
Qed.

Lemma digits_le p k : 0 <= k -> Z.pos p < 2 ^ k -> Z.pos (digits2_pos p) <= k.
Proof.
  intros Hk Hp. destruct (digits_pow p) as [H _].
  assert (2 ^ (Z.pos (digits2_pos p) - 1) < 2 ^ k) by lia.
  apply Z.pow_lt_mono_r_iff in H0; lia.
Qed.

Lemma Zdigits_le m k : 0 <= k -> 0 <= m < 2 ^ k -> Zdigits2 m <= k.
Proof.
  intros Hk Hm. destruct m as [|p|p]; cbn [Zdigits2]; [lia| |lia]. apply digits_le; lia.
Qed.

Lemma shr_1_le r : 0 <= shr_m r -> 0 <= shr_m (shr_1 r) <= shr_m r.
Proof. destruct r as [[|[p|p|]|p] a b]; cbn [shr_m shr_1]; lia. Qed.

Lemma iter_shr_le p r : 0 <= shr_m r -> 0 <= shr_m (iter_pos shr_1 p r) <= shr_m r.
Proof.
  revert r. induction p as [p IH|p IH|]; intros r H; cbn [iter_pos].
  - assert (H1 := shr_1_le r H). assert (H2 := IH (shr_1 r) ltac:(lia)).
    assert (H3 := IH (iter_pos shr_1 p (shr_1 r)) ltac:(lia)). lia.
  - assert (H2 := IH r H). assert (H3 := IH (iter_pos shr_1 p r) ltac:(lia)). lia.
  - apply shr_1_le; auto.
Qed.

Lemma shr_le r e n : 0 <= shr_m r ->
  0 <= shr_m (fst (shr r e n)) <= shr_m r /\ snd (shr r e n) = e + Z.max 0 n.
Proof.
  intros H. unfold shr. destruct n as [|p|p]; cbn [fst snd].
  - lia.
  - split; [apply iter_shr_le; auto|lia].
  - lia.
Qed.

(** Every integer of [serde_json::Number] is a finite float. *)
Lemma f64_of_pos_finite s m : Z.pos m <= 2 ^ 64 -> f64_finite (binary_round f64_prec f64_emax s m 0) = true.
Proof.
  intros Hm. unfold binary_round, f64_prec, f64_emax. rewrite Z.add_0_r.
  assert (HD : 1 <= Z.pos (digits2_pos m) <= 65)
    by (split; [lia|apply digits_le; [lia|]; eapply Z.le_lt_trans; [exact Hm|reflexivity]]).
  set (D := Z.pos (digits2_pos m)) in *.
  assert (Hf : -52 <= fexp 53 1024 D <= 12) by (unfold fexp, SpecFloat.emin; lia).
  set (f := fexp 53 1024 D) in *.
  (* the aligned mantissa *)
  assert (Ha : exists mz ez, shl_align m 0 f = (mz, ez) /\ -52 <= ez <= 0 /\ Z.pos mz < 2 ^ 117).
  { assert (Hmm : Z.pos m < 2 ^ 65) by (eapply Z.le_lt_trans; [exact Hm|reflexivity]).
    unfold shl_align. rewrite Z.sub_0_r. destruct f as [|p|p].
    - exists m, 0. repeat split; lia.
    - exists m, 0. repeat split; lia.
    - exists (shift_pos p m), (Z.neg p). repeat split; try lia.
      rewrite shift_pos_correct, Z.pow_pos_fold.
      assert (2 ^ Z.pos p <= 2 ^ 52) by (apply Z.pow_le_mono_r; lia).
      replace (2 ^ 117) with (2 ^ 52 * 2 ^ 65) by reflexivity.
      apply Z.lt_le_trans with (2 ^ Z.pos p * 2 ^ 65).
      + apply Z.mul_lt_mono_pos_l; [apply Z.pow_pos_nonneg; lia|auto].
      + apply Z.mul_le_mono_nonneg_r; [lia|auto]. }
  destruct Ha as (mz & ez & -> & Hez & Hmz).
  unfold binary_round_aux, shr_fexp at 1. cbn [shr_record_of_loc].
  set (n1 := fexp 53 1024 (Zdigits2 (Z.pos mz) + ez) - ez).
  assert (Hn1 : n1 <= 117 - 53 + 52 + 60).
  { assert (Hd := Zdigits_le (Z.pos mz) 117 ltac:(lia) ltac:(lia)). unfold n1, fexp, SpecFloat.emin. lia. }
  destruct (shr_le {| shr_m := Z.pos mz; shr_r := false; shr_s := false |} ez n1) as [H1 E1];
    [cbn [shr_m]; lia|].
  destruct (shr {| shr_m := Z.pos mz; shr_r := false; shr_s := false |} ez n1) as [r1 e1].
  cbn [fst snd shr_m] in *.
  set (m2 := round_nearest_even (shr_m r1) (loc_of_shr_record r1)).
  assert (Hm2 : 0 <= m2 <= 2 ^ 117).
  { unfold m2, round_nearest_even. destruct (loc_of_shr_record r1) as [|[]]; try lia.
    destruct (Z.even (shr_m r1)); lia. }
  unfold shr_fexp. cbn [shr_record_of_loc].
  set (n2 := fexp 53 1024 (Zdigits2 m2 + e1) - e1).
  destruct (shr_le {| shr_m := m2; shr_r := false; shr_s := false |} e1 n2) as [H2 E2];
    [cbn [shr_m]; lia|].
  assert (Hd := Zdigits_le m2 118 ltac:(lia)
                  ltac:(split; [lia|eapply Z.le_lt_trans; [apply Hm2|reflexivity]])).
  destruct (shr {| shr_m := m2; shr_r := false; shr_s := false |} e1 n2) as [r2 e2].
  cbn [fst snd shr_m] in *.
  assert (He2 : e2 <= 971) by (subst n2; unfold fexp, SpecFloat.emin in *; lia).
  destruct (shr_m r2) as [|p|p]; [reflexivity| |lia].
  destruct (Z.leb_spec e2 (1024 - 53)); [reflexivity|lia].
Qed.

Lemma f64_of_Z_finite n : - 2 ^ 63 <= n < 2 ^ 64 -> f64_finite (f64_of_Z n) = true.
Proof.
  intros H. unfold f64_of_Z, binary_normalize. destruct n as [|p|p]; [reflexivity| |];
    apply f64_of_pos_finite; lia.
Qed.
