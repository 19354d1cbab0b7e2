(** * The reader of texts and the grammar *)

From Coq Require Import String Ascii Bool NArith ZArith Decimal Lia List.
From Coq Require Import Floats.SpecFloat.
From Verif Require Import Base MinMax Json JsonText SpecSerde SpecDoc SpecJsonText SpecSyntax JsonTextFacts.
Import ListNotations.
Set Implicit Arguments.
Local Open Scope string_scope.
Local Open Scope list_scope.

(** ** Space *)

Lemma space_blank c : is_space c = true <-> In (N_of_ascii c) [32; 9; 10; 13]%N.
Proof.
  unfold is_space. cbn [In]. set (n := N_of_ascii c). rewrite !orb_true_iff, !N.eqb_eq. intuition auto.
Qed.

Lemma skip_blank w s : blank w -> skip (w ++ s) = skip s.
Proof.
  induction w as [|c w IH]; intros H; [reflexivity|]. cbn. rewrite (proj2 (space_blank c)) by (apply H; left; reflexivity).
  apply IH. intros c' H'. apply H. right. exact H'.
Qed.

Lemma blank_nil : blank [].
Proof. intros c []. Qed.

Lemma skip_split s : exists w, s = w ++ skip s /\ blank w.
Proof.
  induction s as [|c s IH]; cbn; [exists []; split; [reflexivity|apply blank_nil]|].
  destruct (is_space c) eqn:Q; [|exists []; split; [reflexivity|apply blank_nil]].
  destruct IH as (w & E & H). exists (c :: w). split; [cbn; congruence|]. intros c' [<-|H']; [apply space_blank, Q|exact (H c' H')].
Qed.

Lemma skip_head s c r : skip s = c :: r -> exists w, s = w ++ c :: r /\ blank w.
Proof. intros H. destruct (skip_split s) as (w & E & Hw). rewrite H in E. eauto. Qed.

Lemma skip_nil s : skip s = [] <-> blank s.
Proof.
  split.
  - intros H. destruct (skip_split s) as (w & E & Hw). rewrite H, app_nil_r in E. subst. exact Hw.
  - intros H. rewrite <- (app_nil_r s), skip_blank by exact H. reflexivity.
Qed.

Lemma blank_stop w r : blank w -> stop r -> stop (w ++ r).
Proof.
  destruct w as [|c w]; intros H Hr; [exact Hr|]. specialize (H c (or_introl eq_refl)). apply space_blank in H.
  cbn. revert H. clear. destruct c as [[] [] [] [] [] [] [] []]; try discriminate; repeat split.
Qed.

(** ** Strings *)

Lemma get_some A (x y : A) : Some x = Some y -> x = y.
Proof. congruence. Qed.

Lemma hex_is c n : hex_value c = Some n <-> hex_digit_is c n.
Proof.
  unfold hex_value, hex_digit_is. set (a := N_of_ascii c). clearbody a.
  destruct (N.leb_spec 48 a), (N.leb_spec a 57), (N.leb_spec 97 a), (N.leb_spec a 102), (N.leb_spec 65 a), (N.leb_spec a 70); cbn;
    (split; [intros Q; first [discriminate Q|injection Q as <-]; lia|intros Q; first [exfalso; lia|f_equal; lia]]).
Qed.

Lemma hex4_unit a b c d n : hex4 a b c d = Some n <-> code_unit [a; b; c; d] n.
Proof.
  unfold hex4. split.
  - destruct (hex_value a) as [na|] eqn:Qa; [|discriminate]. destruct (hex_value b) as [nb|] eqn:Qb; [|discriminate].
    destruct (hex_value c) as [nc|] eqn:Qc; [|discriminate]. destruct (hex_value d) as [nd|] eqn:Qd; [|discriminate].
    cbn [obind]. intros H. apply get_some in H.
    replace n with (((na * 16 + nb) * 16 + nc) * 16 + nd)%N by lia.
    constructor; apply hex_is; assumption.
  - intros H. inversion H as [a' b' c' d' na nb nc nd Ha Hb Hc Hd]; subst. apply hex_is in Ha, Hb, Hc, Hd. rewrite Ha, Hb, Hc, Hd.
    cbn [obind]. f_equal. lia.
Qed.

Lemma hex_small c n : hex_digit_is c n -> (n < 16)%N.
Proof. unfold hex_digit_is. lia. Qed.

Lemma unit_small x n : code_unit x n -> (n < 65536)%N.
Proof. intros H. inversion H as [a' b' c' d' na nb nc nd Ha Hb Hc Hd]; subst. apply hex_small in Ha, Hb, Hc, Hd. lia. Qed.

Lemma is_high_high n : is_high n = true <-> high n.
Proof. unfold is_high, high. rewrite andb_true_iff, !N.leb_le. lia. Qed.
Lemma is_low_low n : is_low n = true <-> low n.
Proof. unfold is_low, low. rewrite andb_true_iff, !N.leb_le. lia. Qed.

Lemma div_mod_64 q r : (r < 64 -> (q * 64 + r) / 64 = q /\ (q * 64 + r) mod 64 = r)%N.
Proof.
  intros H. split; symmetry; [apply (N.div_unique _ _ _ r)|apply (N.mod_unique _ _ q)]; lia.
Qed.

Lemma utf8_point n : (n < 1114112)%N -> exists b, utf8 n = map ascii_of_N b /\ code_point b n.
Proof.
  intros H. unfold utf8. eexists. split; [reflexivity|].
  assert (D : forall m, (exists q r, m / 64 = q /\ m mod 64 = r /\ m = q * 64 + r /\ r < 64)%N).
  { intros m. exists (m / 64)%N, (m mod 64)%N. repeat split; [rewrite N.mul_comm; apply N.div_mod; lia|apply N.mod_lt; lia]. }
  replace 4096%N with (64 * 64)%N by reflexivity. replace 262144%N with (64 * 64 * 64)%N by reflexivity.
  rewrite <- !N.div_div by lia.
  destruct (D n) as (n1 & r1 & -> & -> & E1 & R1). destruct (D n1) as (n2 & r2 & -> & -> & E2 & R2).
  destruct (D n2) as (n3 & r3 & -> & -> & E3 & R3).
  destruct (N.ltb_spec n 128); [apply cp_1; lia|].
  destruct (N.ltb_spec n 2048); [subst n; apply cp_2; lia|].
  destruct (N.ltb_spec n 65536); [subst n n1; apply cp_3; lia|].
  subst n n1 n2. apply cp_4; lia.
Qed.

Lemma point_utf8 b n : code_point b n -> utf8 n = map ascii_of_N b.
Proof.
  unfold utf8. intros H. f_equal. destruct H.
  - destruct (N.ltb_spec a 128); [reflexivity|lia].
  - destruct (N.ltb_spec (a * 64 + b) 128); [lia|]. destruct (N.ltb_spec (a * 64 + b) 2048); [|lia].
    destruct (div_mod_64 a H0) as [-> ->]. reflexivity.
  - set (m := ((a * 64 + b) * 64 + c)%N) in *. destruct (N.ltb_spec m 128); [lia|]. destruct (N.ltb_spec m 2048); [lia|].
    destruct (N.ltb_spec m 65536); [|unfold m in *; lia].
    replace 4096%N with (64 * 64)%N by reflexivity. rewrite <- !N.div_div by lia. unfold m.
    destruct (div_mod_64 (a * 64 + b) H1) as [-> ->]. destruct (div_mod_64 a H0) as [-> ->]. reflexivity.
  - set (m := (((a * 64 + b) * 64 + c) * 64 + d)%N) in *. destruct (N.ltb_spec m 128); [lia|]. destruct (N.ltb_spec m 2048); [lia|].
    destruct (N.ltb_spec m 65536); [lia|].
    replace 4096%N with (64 * 64)%N by reflexivity. replace 262144%N with (64 * 64 * 64)%N by reflexivity.
    rewrite <- !N.div_div by lia. unfold m.
    destruct (div_mod_64 ((a * 64 + b) * 64 + c) H2) as [-> ->]. destruct (div_mod_64 (a * 64 + b) H1) as [-> ->].
    destruct (div_mod_64 a H0) as [-> ->]. reflexivity.
Qed.

Lemma short_is e a : unescape e = Some a <-> exists n, In (e, n) short_escapes /\ a = ascii_of_N n.
Proof.
  split.
  - destruct e as [[] [] [] [] [] [] [] []]; intros H; try discriminate H; injection H as <-;
      (eexists; split; [unfold short_escapes; cbn; eauto 10|reflexivity]).
  - intros (n & H & ->). unfold short_escapes in H. cbn in H. repeat destruct H as [[= <- <-]|H]; try reflexivity. destruct H.
Qed.

Lemma string_text_read t s : string_text t s -> forall r, p_string (t ++ quote :: r) = Some (s, r).
Proof.
  induction 1 as [|c t s Hc Hq Hb _ IH|e n t s He _ IH|x n b t s Hx Hh Hl Hp _ IH|x h y l b t s Hx Hh Hy Hl Hp _ IH]; intros r.
  - reflexivity.
  - cbn [app p_string]. destruct (Ascii.eqb_spec c quote); [contradiction|]. destruct (Ascii.eqb_spec c backslash); [contradiction|].
    destruct (N.ltb_spec (N_of_ascii c) 32); [lia|]. rewrite IH. reflexivity.
  - assert (unescape e = Some (ascii_of_N n)) as Q by (apply short_is; eauto).
    cbn [app p_string]. change (Ascii.eqb "\" quote) with false. change (Ascii.eqb "\" backslash) with true. cbn match.
    rewrite Q, IH. reflexivity.
  - destruct Hx as [x1 x2 x3 x4 na nb nc nd Ha Hb Hc Hd]. set (n := (((na * 16 + nb) * 16 + nc) * 16 + nd)%N) in *.
    assert (hex4 x1 x2 x3 x4 = Some n) as Q by (apply hex4_unit; constructor; assumption).
    cbn [app p_string]. change (Ascii.eqb "\" quote) with false. change (Ascii.eqb "\" backslash) with true. cbn match.
    change (unescape "u") with (@None ascii). cbn match. change (Ascii.eqb "u" "u") with true. cbn match. rewrite Q. cbn [obind].
    destruct (is_low n) eqn:Ql; [apply is_low_low in Ql; contradiction|]. destruct (is_high n) eqn:Qh; [apply is_high_high in Qh; contradiction|].
    rewrite IH, (point_utf8 Hp). reflexivity.
  - destruct Hx as [x1 x2 x3 x4 na nb nc nd Ha Hb Hc Hd]. set (h := (((na * 16 + nb) * 16 + nc) * 16 + nd)%N) in *.
    assert (hex4 x1 x2 x3 x4 = Some h) as Q by (apply hex4_unit; constructor; assumption).
    destruct Hy as [y1 y2 y3 y4 ma mb mc md Ga Gb Gc Gd]. set (l := (((ma * 16 + mb) * 16 + mc) * 16 + md)%N) in *.
    assert (hex4 y1 y2 y3 y4 = Some l) as Q' by (apply hex4_unit; constructor; assumption).
    cbn [app p_string]. change (Ascii.eqb "\" quote) with false. change (Ascii.eqb "\" backslash) with true. cbn match.
    change (unescape "u") with (@None ascii). cbn match. change (Ascii.eqb "u" "u") with true. cbn match. rewrite Q. cbn [obind].
    destruct (is_low h) eqn:Ql; [apply is_low_low in Ql; unfold low, high in *; lia|]. rewrite (proj2 (is_high_high h) Hh).
    cbn [andb]. rewrite Q'. cbn [obind]. rewrite (proj2 (is_low_low l) Hl), IH.
    replace (65536 + 1024 * (h - 55296) + (l - 56320))%N with (65536 + (h - 55296) * 1024 + (l - 56320))%N by lia.
    rewrite (point_utf8 Hp). reflexivity.
Qed.

Lemma before_some a o x r : before a o = Some (x, r) -> exists y, o = Some (y, r) /\ x = a ++ y.
Proof. destruct o as [[y r']|]; [|discriminate]. cbn. intros H. injection H as <- <-. eauto. Qed.

Lemma string_read_text n : forall t s r, length t <= n -> p_string t = Some (s, r) -> exists t', t = t' ++ quote :: r /\ string_text t' s.
Proof.
  induction n as [|n IH]; intros t s r Hn H; (destruct t as [|c t]; [discriminate H|]); [cbn in Hn; lia|]. cbn [p_string] in H. cbn in Hn.
  destruct (Ascii.eqb_spec c quote).
  { injection H as <- <-. subst. exists []. split; [reflexivity|constructor]. }
  destruct (Ascii.eqb_spec c backslash).
  - subst c. destruct t as [|e t]; [discriminate|]. cbn in Hn. destruct (unescape e) as [a|] eqn:Q.
    + apply before_some in H as (y & H & ->). apply IH in H as (t' & -> & H); [|lia]. apply short_is in Q as (m & Hm & ->).
      exists (backslash :: e :: t'). split; [reflexivity|]. exact (st_short Hm H).
    + destruct (Ascii.eqb_spec e "u"); [|discriminate]. subst e. destruct t as [|x1 [|x2 [|x3 [|x4 t]]]]; try discriminate. cbn in Hn.
      destruct (hex4 x1 x2 x3 x4) as [m|] eqn:Qm; [|discriminate]. cbn [obind] in H. apply hex4_unit in Qm.
      destruct (is_low m) eqn:Ql; [discriminate|]. destruct (is_high m) eqn:Qh.
      * destruct t as [|b [|u [|y1 [|y2 [|y3 [|y4 t]]]]]]; try discriminate. cbn in Hn.
        destruct (Ascii.eqb_spec b backslash), (Ascii.eqb_spec u "u"); cbn [andb] in H; try discriminate. subst b u.
        destruct (hex4 y1 y2 y3 y4) as [l|] eqn:Qy; [|discriminate]. cbn [obind] in H. apply hex4_unit in Qy.
        destruct (is_low l) eqn:Q2; [|discriminate]. apply before_some in H as (y & H & ->). apply IH in H as (t' & -> & H); [|lia].
        apply is_high_high in Qh. apply is_low_low in Q2.
        destruct (@utf8_point (65536 + 1024 * (m - 55296) + (l - 56320))) as (bs & -> & Hb); [unfold high, low in *; lia|].
        exists (backslash :: "u"%char :: [x1; x2; x3; x4] ++ backslash :: "u"%char :: [y1; y2; y3; y4] ++ t'). split; [reflexivity|].
        apply (st_pair Qm Qh Qy Q2); [|exact H].
        replace (65536 + (m - 55296) * 1024 + (l - 56320))%N with (65536 + 1024 * (m - 55296) + (l - 56320))%N by lia. exact Hb.
      * apply before_some in H as (y & H & ->). apply IH in H as (t' & -> & H); [|lia].
        destruct (@utf8_point m) as (bs & -> & Hb); [apply unit_small in Qm; lia|].
        exists (backslash :: "u"%char :: [x1; x2; x3; x4] ++ t'). split; [reflexivity|].
        apply (st_code Qm); [rewrite <- is_high_high; congruence|rewrite <- is_low_low; congruence|exact Hb|exact H].
  - destruct (N.ltb_spec (N_of_ascii c) 32); [discriminate|]. apply before_some in H as (y & H & ->).
    apply IH in H as (t' & -> & H); [|lia]. exists (c :: t'). split; [reflexivity|]. constructor; auto.
Qed.

(** ** Numbers *)

Lemma digit_range c f : digit c = Some f -> (48 <= N_of_ascii c <= 57)%N.
Proof. destruct c as [[] [] [] [] [] [] [] []]; intros H; try discriminate H; cbn; lia. Qed.

Notation horner := (fun n c => 10 * n + (Z.of_N (N_of_ascii c) - 48))%Z.

Lemma p_digits_split s : forall ds u r, p_digits s = (ds, u, r) ->
  s = ds ++ r /\ (forall c, In c ds -> (48 <= N_of_ascii c <= 57)%N) /\ no_digit r
  /\ (forall a, Z.pos (Pos.of_uint_acc u a) = fold_left horner ds (Z.pos a))
  /\ Z.of_N (N.of_uint u) = decimal ds.
Proof.
  induction s as [|c s IH]; intros ds u r H; cbn [p_digits] in H.
  - injection H as <- <- <-. split; [reflexivity|]. split; [intros c []|]. split; [exact I|]. split; reflexivity.
  - destruct (digit c) as [f|] eqn:Q.
    + destruct (p_digits s) as [[ds' u'] r']. injection H as <- <- <-. destruct (IH _ _ _ eq_refl) as (-> & H1 & H2 & H3 & H4).
      split; [reflexivity|]. split; [intros c' [<-|Hc]; [exact (digit_range _ Q)|exact (H1 c' Hc)]|]. split; [exact H2|].
      unfold decimal in *. unfold N.of_uint in *. cbn [fold_left].
      destruct c as [[] [] [] [] [] [] [] []]; try discriminate Q; injection Q as <-;
        (split; [intros a; cbn [Pos.of_uint_acc]; rewrite H3; f_equal; cbn [N_of_ascii N_of_digits]; lia|]);
        cbn [Pos.of_uint Z.of_N]; first [exact H4|rewrite H3; reflexivity].
    + injection H as <- <- <-. split; [reflexivity|]. split; [intros c' []|]. split; [exact Q|]. split; reflexivity.
Qed.

Lemma decimal_read ds r : (forall c, In c ds -> (48 <= N_of_ascii c <= 57)%N) -> no_digit r ->
  exists u, p_digits (ds ++ r) = (ds, u, r) /\ Z.of_N (N.of_uint u) = decimal ds.
Proof.
  intros H Hr. destruct (digits_read ds r H Hr) as [u Hu]. exists u. split; [exact Hu|]. apply p_digits_split in Hu. tauto.
Qed.

Lemma decimal_nonneg ds : (forall c, In c ds -> (48 <= N_of_ascii c <= 57)%N) -> (0 <= decimal ds)%Z.
Proof.
  intros H. destruct (@decimal_read ds [] H I) as (u & _ & <-). lia.
Qed.

Definition fits (neg : bool) (z : Z) : bool :=
  ((- 9223372036854775808 <=? z) && (z <=? 18446744073709551615))%Z && negb (neg && (z =? 0)%Z).

Definition signed (neg : bool) (z : Z) : Z := if neg then (- z)%Z else z.
Definition sign_of (neg : bool) : chars := if neg then ["-"%char] else [].

Lemma fits_integer neg ds : fits neg (signed neg (decimal ds)) = true <-> exists z, integer_is (sign_of neg) ds z.
Proof.
  unfold fits, integer_is. rewrite !andb_true_iff, !Z.leb_le, negb_true_iff. destruct neg; cbn [signed sign_of andb].
  - rewrite Z.eqb_neq. split.
    + intros [[H1 H2] H3]. exists (- decimal ds)%Z. split; [lia|]. right. auto.
    + intros (z & H & [[F _]|(_ & -> & H3)]); [discriminate F|]. lia.
  - split.
    + intros [[H1 H2] _]. exists (decimal ds). split; [lia|]. left. auto.
    + intros (z & H & [(_ & ->)|[F _]]); [|discriminate F]. lia.
Qed.

Lemma integer_value neg ds z : integer_is (sign_of neg) ds z -> z = signed neg (decimal ds).
Proof. intros [_ [[H ->]|(H & -> & _)]]; destruct neg; cbn in *; congruence. Qed.

Section Grammar.
  Variable F : floats.

  (** The number that the parts make *)
  Definition number_of (neg : bool) (int frac exp : chars) : option json :=
    match frac, exp with
    | [], [] =>
        if fits neg (signed neg (decimal int)) then Some (JInt (signed neg (decimal int)))
        else option_map JFloat (fl_read F (sign_of neg ++ int))
    | _, _ => option_map JFloat (fl_read F (sign_of neg ++ int ++ frac ++ exp))
    end.

  Lemma number_of_text neg int frac exp j : number_parts (sign_of neg) int frac exp -> number_of neg int frac exp = Some j ->
    value_text F (sign_of neg ++ int ++ frac ++ exp) j.
  Proof.
    intros Hp H.
    assert (G : (frac = [] -> exp = [] -> fits neg (signed neg (decimal int)) = false) ->
      option_map JFloat (fl_read F (sign_of neg ++ int ++ frac ++ exp)) = Some j -> value_text F (sign_of neg ++ int ++ frac ++ exp) j).
    { intros Hi Q. destruct (fl_read F _) as [x|] eqn:Qx; [|discriminate]. cbn in Q. injection Q as <-.
      apply vt_float; [exact Hp| |exact Qx]. intros E1 E2 z Hz. specialize (Hi E1 E2).
      assert (fits neg (signed neg (decimal int)) = true) by (apply fits_integer; eauto). congruence. }
    unfold number_of in H. destruct frac as [|c f]; [destruct exp as [|c e]|].
    - destruct (fits neg (signed neg (decimal int))) eqn:Q.
      + injection H as <-. cbn [app]. rewrite app_nil_r. apply fits_integer in Q as [z Hz].
        rewrite <- (integer_value _ Hz). apply vt_int; assumption.
      + apply G; [auto|]. cbn [app]. rewrite app_nil_r. exact H.
    - apply G; [discriminate|exact H].
    - apply G; [discriminate|exact H].
  Qed.

  Lemma parts_read neg int frac exp r : number_parts (sign_of neg) int frac exp -> stop r ->
    p_number F ((sign_of neg ++ int ++ frac ++ exp) ++ r) = option_map (fun j => (j, r)) (number_of neg int frac exp).
  Proof.
    intros [_ [Hin Hid] H0 Hf He] Hr. rewrite <- !app_assoc.
    destruct (exp_head r He Hr) as [N1 N2].
    assert (no_digit (frac ++ exp ++ r)) as N3.
    { destruct Hf as [->|(ds & -> & _)]; [exact N1|reflexivity]. }
    destruct (@decimal_read int (frac ++ exp ++ r) Hid N3) as (u & Hu & Hz).
    assert (p_number F (sign_of neg ++ int ++ frac ++ exp ++ r) = p_unsigned F neg (int ++ frac ++ exp ++ r)) as ->.
    { destruct neg; [reflexivity|]. cbn [app sign_of]. destruct int as [|c i]; [congruence|]. cbn [app p_number].
      destruct (@digit_some c) as [d Hd]; [apply Hid; left; reflexivity|]. rewrite (digit_not_minus _ Hd). reflexivity. }
    unfold p_unsigned. rewrite Hu. rewrite (plain_digits (conj Hin Hid) H0).
    rewrite (fraction_read _ Hf N1 (fun _ => N2)). cbn [obind fst snd]. rewrite (exponent_read r He Hr). cbn [obind fst snd].
    rewrite Hz. fold (sign_of neg). fold (signed neg (decimal int)). unfold number_of. fold (fits neg (signed neg (decimal int))).
    destruct frac; [destruct exp|]; [destruct (fits neg (signed neg (decimal int))); [reflexivity|]| |];
      (destruct (fl_read F _); reflexivity).
  Qed.

  Lemma plain_zero ds : plain ds = true -> ds <> [] /\ forall r, ds = "0"%char :: r -> r = [].
  Proof.
    destruct ds as [|c [|c' ds]]; cbn; [discriminate| |].
    - intros _. split; [discriminate|]. intros r H. injection H as _ <-. reflexivity.
    - intros H. split; [discriminate|]. intros r Q. injection Q as -> _. discriminate H.
  Qed.

  Lemma fraction_split s f r : p_fraction s = Some (f, r) -> s = f ++ r /\ (f = [] \/ exists ds, f = "."%char :: ds /\ digits ds).
  Proof.
    destruct s as [|c s]; cbn [p_fraction]; intros H; [injection H as <- <-; auto|].
    destruct (Ascii.eqb_spec c "."); [|injection H as <- <-; auto]. subst c.
    destruct (p_digits s) as [[ds u] r'] eqn:Q. destruct ds as [|d ds]; [discriminate|]. injection H as <- <-.
    apply p_digits_split in Q as (-> & H1 & _). split; [reflexivity|]. right. exists (d :: ds). split; [reflexivity|]. split; [discriminate|exact H1].
  Qed.

  Lemma exponent_split s e r : p_exponent s = Some (e, r) -> s = e ++ r /\
    (e = [] \/ exists c g ds, e = c :: g ++ ds /\ (c = "e"%char \/ c = "E"%char)
       /\ (g = [] \/ g = ["+"%char] \/ g = ["-"%char]) /\ digits ds).
  Proof.
    destruct s as [|c s]; cbn [p_exponent]; intros H; [injection H as <- <-; auto|].
    destruct (Ascii.eqb c "e" || Ascii.eqb c "E") eqn:Qc; [|injection H as <- <-; auto].
    assert (c = "e"%char \/ c = "E"%char) as Hc by (apply orb_prop in Qc as [Qc|Qc]; apply Ascii.eqb_eq in Qc; auto).
    assert (exists g s2, s = g ++ s2 /\ (g = [] \/ g = ["+"%char] \/ g = ["-"%char])
      /\ match p_digits s2 with ([], _, _) => None | (ds, _, r) => Some (c :: g ++ ds, r) end = Some (e, r)) as (g & s2 & -> & Hg & H').
    { destruct s as [|g s]; [eexists [], []; eauto|].
      destruct (Ascii.eqb g "+" || Ascii.eqb g "-") eqn:Qg; [|exists [], (g :: s); auto].
      exists [g], s. split; [reflexivity|]. split; [|exact H].
      apply orb_prop in Qg as [Qg|Qg]; apply Ascii.eqb_eq in Qg; subst; auto. }
    clear H. destruct (p_digits s2) as [[ds u] r'] eqn:Q. destruct ds as [|d ds]; [discriminate|]. injection H' as <- <-.
    apply p_digits_split in Q as (-> & H1 & _). split; [cbn; rewrite <- app_assoc; reflexivity|]. right. exists c, g, (d :: ds).
    split; [reflexivity|]. split; [exact Hc|]. split; [exact Hg|]. split; [discriminate|exact H1].
  Qed.

  Lemma unsigned_text neg s j r : p_unsigned F neg s = Some (j, r) ->
    exists t, s = t ++ r /\ value_text F (sign_of neg ++ t) j.
  Proof.
    unfold p_unsigned. destruct (p_digits s) as [[ds u] s2] eqn:Q. destruct (plain ds) eqn:Qp; [|discriminate].
    destruct (p_fraction s2) as [[f s3]|] eqn:Qf; [|discriminate]. cbn [obind fst snd].
    destruct (p_exponent s3) as [[e s4]|] eqn:Qe; [|discriminate]. cbn [obind fst snd].
    apply p_digits_split in Q as (-> & Hd & _ & _ & Hz). apply fraction_split in Qf as [-> Hf]. apply exponent_split in Qe as [-> He].
    rewrite Hz. fold (sign_of neg). fold (signed neg (decimal ds)). fold (fits neg (signed neg (decimal ds))).
    intros H. assert (number_of neg ds f e = Some j /\ s4 = r) as [Hn ->].
    { unfold number_of. destruct f; [destruct e|]; [destruct (fits neg (signed neg (decimal ds))); [injection H as <- <-; auto|]| |];
        (destruct (fl_read F _) as [x|]; [|discriminate]; cbn in H; injection H as <- <-; auto). }
    exists (ds ++ f ++ e). split; [rewrite <- !app_assoc; reflexivity|]. apply number_of_text; [|exact Hn].
    apply plain_zero in Qp as [Q1 Q2]. split; auto; [destruct neg; cbn; auto|split; auto].
  Qed.

  Lemma number_text s j r : p_number F s = Some (j, r) -> exists t, s = t ++ r /\ value_text F t j.
  Proof.
    destruct s as [|c s]; [discriminate|]. cbn [p_number]. destruct (Ascii.eqb_spec c "-"); intros H; apply unsigned_text in H as (t & E & H).
    - subst. exists ("-"%char :: t). auto.
    - exists t. auto.
  Qed.

  (** ** The grammar is read *)

  Lemma p_value_blank d w s : blank w -> p_value F d (w ++ s) = p_value F d s.
  Proof. intros H. destruct d; cbn [p_value]; rewrite skip_blank by exact H; reflexivity. Qed.

  Scheme value_text_min := Minimality for value_text Sort Prop
  with elements_text_min := Minimality for elements_text Sort Prop
  with members_text_min := Minimality for members_text Sort Prop
  with member_text_min := Minimality for member_text Sort Prop.
  Combined Scheme texts_ind from value_text_min, elements_text_min, members_text_min, member_text_min.

  Definition read_value (t : chars) (j : json) : Prop :=
    (exists c s, t = c :: s /\ starter c)
    /\ forall d r, jdepth j <= d -> stop r -> p_value F d (t ++ r) = Some (j, r).

  Definition read_elements (t : chars) (l : list json) : Prop :=
    length l <= length t
    /\ (forall r, exists c s, skip (t ++ r) = c :: s /\ starter c)
    /\ forall d n r, (forall j, In j l -> jdepth j <= d) -> length l <= n ->
         p_items (p_value F d) n (t ++ "]"%char :: r) = Some (l, r).

  Definition read_members (t : chars) (es : list (string * json)) : Prop :=
    length es <= length t
    /\ (forall r, exists c s, skip (t ++ r) = c :: s /\ starter c)
    /\ forall d n r, (forall k j, In (k, j) es -> jdepth j <= d) -> length es <= n ->
         p_members (p_value F d) n (t ++ "}"%char :: r) = Some (es, r).

  Definition read_member (t : chars) (k : string) (j : json) : Prop :=
    1 <= length t
    /\ (forall r, exists c s, skip (t ++ r) = c :: s /\ starter c)
    /\ forall d r, jdepth j <= d -> stop r ->
         exists b, blank b /\ p_member (p_value F d) (t ++ r) = Some ((k, j), b ++ r).

  Lemma number_head neg int frac exp : number_parts (sign_of neg) int frac exp ->
    (exists c s f, sign_of neg ++ int ++ frac ++ exp = c :: s /\ digit c = Some f)
    \/ (exists s, sign_of neg ++ int ++ frac ++ exp = "-"%char :: s).
  Proof.
    intros [_ [Hn Hd] _ _ _]. destruct neg; cbn; [right; eauto|left]. destruct int as [|c i]; [congruence|].
    destruct (@digit_some c) as [f Hf]; [apply Hd; left; reflexivity|]. cbn. eauto.
  Qed.

  Lemma number_reads neg int frac exp j : number_parts (sign_of neg) int frac exp -> number_of neg int frac exp = Some j ->
    jdepth j = 0 -> read_value (sign_of neg ++ int ++ frac ++ exp) j.
  Proof.
    intros Hp Hn _. pose proof (number_head _ Hp) as Hh. split; [exact (number_start Hh)|].
    intros d r _ Hr. rewrite (@number_case F d _ Hh), parts_read, Hn by assumption. reflexivity.
  Qed.

  Lemma sign_neg sign int frac exp : number_parts sign int frac exp -> exists neg, sign = sign_of neg.
  Proof. intros [[->| ->] _ _ _ _]; [exists false|exists true]; reflexivity. Qed.

  Lemma skip_start (t : chars) c s r : t = c :: s -> starter c -> skip (t ++ r) = c :: s ++ r.
  Proof. intros -> [H _]. cbn. rewrite H. reflexivity. Qed.

  Lemma texts_read :
    (forall t j, value_text F t j -> read_value t j)
    /\ (forall t l, elements_text F t l -> read_elements t l)
    /\ (forall t es, members_text F t es -> read_members t es)
    /\ (forall t k j, member_text F t k j -> read_member t k j).
  Proof.
    apply texts_ind.
    - split; [eexists _, _; split; [reflexivity|repeat split]|]. intros d r _ _. destruct d; reflexivity.
    - split; [eexists _, _; split; [reflexivity|repeat split]|]. intros d r _ _. destruct d; reflexivity.
    - split; [eexists _, _; split; [reflexivity|repeat split]|]. intros d r _ _. destruct d; reflexivity.
    - intros sign int z Hp Hz. destruct (sign_neg Hp) as [neg ->].
      replace (sign_of neg ++ int) with (sign_of neg ++ int ++ [] ++ []) by (cbn; rewrite app_nil_r; reflexivity).
      apply number_reads; [exact Hp| |reflexivity]. unfold number_of. rewrite (proj2 (fits_integer neg int)) by eauto.
      rewrite (integer_value _ Hz). reflexivity.
    - intros sign int frac exp x Hp Hi Hx. destruct (sign_neg Hp) as [neg ->]. apply number_reads; [exact Hp| |reflexivity].
      unfold number_of. destruct frac as [|c f]; [destruct exp as [|c e]|]; [|rewrite Hx; reflexivity..].
      destruct (fits neg (signed neg (decimal int))) eqn:Q.
      + apply fits_integer in Q as [z Hz]. destruct (Hi eq_refl eq_refl z Hz).
      + cbn [app] in Hx. rewrite app_nil_r in Hx. rewrite Hx. reflexivity.
    - intros t s Hs. split; [eexists _, _; split; [reflexivity|repeat split]|]. intros d r _ _.
      assert (p_value F d ((quote :: t ++ [quote]) ++ r)
        = option_map (fun x => (JStr (string_of_list_ascii (fst x)), snd x)) (p_string ((t ++ [quote]) ++ r))) as E by (destruct d; reflexivity).
      change (""""%char) with quote. rewrite E, <- app_assoc. cbn [app]. rewrite (string_text_read Hs). cbn.
      rewrite string_of_list_ascii_of_string. reflexivity.
    - intros w Hw. split; [eexists _, _; split; [reflexivity|repeat split]|]. intros d r Hd _. destruct d as [|d]; [cbn in Hd; lia|].
      cbn [app]. rewrite <- app_assoc. cbn [app p_value]. change (skip ("["%char :: ?s)) with ("["%char :: s). cbn match.
      change (Ascii.eqb "[" "n") with false. change (Ascii.eqb "[" "t") with false. change (Ascii.eqb "[" "f") with false.
      change (Ascii.eqb "[" quote) with false. change (Ascii.eqb "[" "[") with true. cbn match.
      rewrite skip_blank by exact Hw. reflexivity.
    - intros t l _ (Hl & Hs & Hr). split; [eexists _, _; split; [reflexivity|repeat split]|]. intros d r Hd _.
      destruct d as [|d]; [cbn in Hd; lia|].
      cbn [app]. rewrite <- app_assoc. cbn [app p_value]. change (skip ("["%char :: ?s)) with ("["%char :: s). cbn match.
      change (Ascii.eqb "[" "n") with false. change (Ascii.eqb "[" "t") with false. change (Ascii.eqb "[" "f") with false.
      change (Ascii.eqb "[" quote) with false. change (Ascii.eqb "[" "[") with true. cbn match.
      destruct (Hs ("]"%char :: r)) as (c & s & -> & _ & -> & _). rewrite Hr; [reflexivity| |rewrite app_length; lia].
      intros j Hj. pose proof (jdepth_arr j l Hj). lia.
    - intros w Hw. split; [eexists _, _; split; [reflexivity|repeat split]|]. intros d r Hd _. destruct d as [|d]; [cbn in Hd; lia|].
      cbn [app]. rewrite <- app_assoc. cbn [app p_value]. change (skip ("{"%char :: ?s)) with ("{"%char :: s). cbn match.
      change (Ascii.eqb "{" "n") with false. change (Ascii.eqb "{" "t") with false. change (Ascii.eqb "{" "f") with false.
      change (Ascii.eqb "{" quote) with false. change (Ascii.eqb "{" "[") with false. change (Ascii.eqb "{" "{") with true. cbn match.
      rewrite skip_blank by exact Hw. reflexivity.
    - intros t es _ (Hl & Hs & Hr). split; [eexists _, _; split; [reflexivity|repeat split]|]. intros d r Hd _.
      destruct d as [|d]; [cbn in Hd; lia|].
      cbn [app]. rewrite <- app_assoc. cbn [app p_value]. change (skip ("{"%char :: ?s)) with ("{"%char :: s). cbn match.
      change (Ascii.eqb "{" "n") with false. change (Ascii.eqb "{" "t") with false. change (Ascii.eqb "{" "f") with false.
      change (Ascii.eqb "{" quote) with false. change (Ascii.eqb "{" "[") with false. change (Ascii.eqb "{" "{") with true. cbn match.
      destruct (Hs ("}"%char :: r)) as (c & s & -> & _ & _ & ->). rewrite Hr; [reflexivity| |rewrite app_length; lia].
      intros k j Hj. pose proof (jdepth_obj k j es Hj). lia.
    - intros a t b j Ha _ [(c & s & Et & Hc) Hr] Hb. split; [rewrite !app_length, Et; cbn; lia|]. split.
      + intros r. exists c, (s ++ b ++ r). split; [|exact Hc]. rewrite <- !app_assoc, skip_blank by exact Ha. apply skip_start; assumption.
      + intros d n r Hd Hn. destruct n as [|n]; [cbn in Hn; lia|]. rewrite <- !app_assoc. cbn [p_items]. rewrite p_value_blank by exact Ha.
        rewrite Hr; [|apply Hd; left; reflexivity|apply blank_stop; [exact Hb|apply stop_bracket]].
        cbn [obind fst snd]. rewrite skip_blank by exact Hb. reflexivity.
    - intros a t b j s l Ha _ [(c & s' & Et & Hc) Hr] Hb _ (Hl & _ & Hs). split; [rewrite !app_length, Et; cbn; lia|]. split.
      + intros r. exists c, (s' ++ b ++ ","%char :: s ++ r). split; [|exact Hc]. rewrite <- !app_assoc, skip_blank by exact Ha. cbn [app].
        apply skip_start; assumption.
      + intros d n r Hd Hn. destruct n as [|n]; [cbn in Hn; lia|]. rewrite <- !app_assoc. cbn [app p_items]. rewrite p_value_blank by exact Ha.
        rewrite Hr; [|apply Hd; left; reflexivity|apply blank_stop; [exact Hb|apply stop_comma]].
        cbn [obind fst snd]. rewrite skip_blank by exact Hb. change (skip (","%char :: ?s)) with (","%char :: s).
        change (Ascii.eqb "," ",") with true. cbn match. rewrite Hs; [reflexivity|intros; apply Hd; right; assumption|cbn in Hn; lia].
    - intros t k j _ (Hl & Hs & Hr). split; [exact Hl|]. split; [exact Hs|].
      intros d n r Hd Hn. destruct n as [|n]; [cbn in Hn; lia|]. cbn [p_members].
      destruct (Hr d ("}"%char :: r)) as (b & Hb & ->); [apply (Hd k); left; reflexivity|apply stop_brace|].
      cbn [obind fst snd]. rewrite skip_blank by exact Hb. reflexivity.
    - intros t k j s es _ (Hl & Hs & Hr) _ (Hl' & _ & Hr'). split; [rewrite app_length; cbn; lia|]. split.
      + intros r. rewrite <- app_assoc. apply Hs.
      + intros d n r Hd Hn. destruct n as [|n]; [cbn in Hn; lia|]. cbn [p_members]. rewrite <- app_assoc.
        destruct (Hr d ((","%char :: s) ++ "}"%char :: r)) as (b & Hb & ->); [apply (Hd k); left; reflexivity|apply stop_comma|].
        cbn [obind fst snd]. rewrite skip_blank by exact Hb. cbn [app]. change (skip (","%char :: ?s)) with (","%char :: s).
        change (Ascii.eqb "," ",") with true. cbn match. rewrite Hr'; [reflexivity|intros k' j' Hj; apply (Hd k'); right; assumption|cbn in Hn; lia].
    - intros a k name b c t j d Ha Hk Hb Hc _ [_ Hr] Hd. split; [rewrite !app_length; cbn; lia|]. split.
      + intros r. eexists quote, _. rewrite <- app_assoc, skip_blank by exact Ha. split; [reflexivity|repeat split].
      + intros n r Hn Hst. exists d. split; [exact Hd|]. unfold p_member. rewrite <- app_assoc, skip_blank by exact Ha. rewrite <- app_assoc.
        cbn [app]. change (skip (quote :: ?s)) with (quote :: s). change (Ascii.eqb quote quote) with true. cbn match.
        rewrite <- app_assoc. cbn [app]. change (""""%char) with quote. change (skip (quote :: ?s)) with (quote :: s).
        change (Ascii.eqb quote quote) with true. cbn match. rewrite (string_text_read Hk). cbn [obind fst snd].
        rewrite <- app_assoc, skip_blank by exact Hb. cbn [app]. change (skip (":"%char :: ?s)) with (":"%char :: s).
        change (Ascii.eqb ":" ":") with true. cbn match. rewrite <- !app_assoc, p_value_blank by exact Hc.
        rewrite Hr; [|exact Hn|apply blank_stop; assumption]. cbn [obind fst snd]. rewrite string_of_list_ascii_of_string. reflexivity.
  Qed.

  (** ** What is read is in the grammar *)

  Definition sound (d : nat) : Prop := forall s j r, p_value F d s = Some (j, r) ->
    exists a t, s = a ++ t ++ r /\ blank a /\ value_text F t j.

  Lemma items_text d : sound d -> forall n s l r, p_items (p_value F d) n s = Some (l, r) ->
    exists t, s = t ++ "]"%char :: r /\ elements_text F t l.
  Proof.
    intros IHd. induction n as [|n IH]; intros s l r H; [discriminate|]. cbn [p_items] in H.
    destruct (p_value F d s) as [[j r']|] eqn:Q; [|discriminate]. cbn [obind fst snd] in H. apply IHd in Q as (a & t & -> & Ha & Ht).
    destruct (skip r') as [|c r2] eqn:Qs; [discriminate|]. apply skip_head in Qs as (b & -> & Hb).
    destruct (Ascii.eqb_spec c ",").
    - subst c. destruct (p_items (p_value F d) n r2) as [[l' r3]|] eqn:Q2; [|discriminate]. cbn in H. injection H as <- <-.
      apply IH in Q2 as (t2 & -> & H2). exists (a ++ t ++ b ++ ","%char :: t2). split; [rewrite <- !app_assoc; reflexivity|].
      constructor; assumption.
    - destruct (Ascii.eqb_spec c "]"); [|discriminate]. subst c. injection H as <- <-.
      exists (a ++ t ++ b). split; [rewrite <- !app_assoc; reflexivity|]. constructor; assumption.
  Qed.

  (** The space after the value of a member is read with what follows. *)
  Lemma member_read_text d : sound d -> forall s k j r, p_member (p_value F d) s = Some ((k, j), r) ->
    forall b r', r = b ++ r' -> blank b -> exists t, s = t ++ r' /\ member_text F t k j.
  Proof.
    intros IHd s k j r H b r' -> Hb. unfold p_member in H. destruct (skip s) as [|c s1] eqn:Qs; [discriminate|].
    apply skip_head in Qs as (a & -> & Ha). destruct (Ascii.eqb_spec c quote); [|discriminate]. subst c.
    destruct (p_string s1) as [[name s2]|] eqn:Qn; [|discriminate]. cbn [obind fst snd] in H.
    apply (@string_read_text (length s1)) in Qn as (tn & -> & Hn); [|lia].
    destruct (skip s2) as [|c s3] eqn:Qs; [discriminate|]. apply skip_head in Qs as (w & -> & Hw).
    destruct (Ascii.eqb_spec c ":"); [|discriminate]. subst c.
    destruct (p_value F d s3) as [[x r2]|] eqn:Q; [|discriminate]. cbn [obind fst snd] in H. injection H as <- <- ->.
    apply IHd in Q as (w2 & t & -> & Hw2 & Ht).
    exists (a ++ (quote :: tn ++ [quote]) ++ w ++ ":"%char :: w2 ++ t ++ b). split; [repeat (rewrite <- !app_assoc; cbn [app]); reflexivity|].
    constructor; auto. rewrite list_ascii_string. exact Hn.
  Qed.

  Lemma members_read_text d : sound d -> forall n s es r, p_members (p_value F d) n s = Some (es, r) ->
    exists t, s = t ++ "}"%char :: r /\ members_text F t es.
  Proof.
    intros IHd. induction n as [|n IH]; intros s es r H; [discriminate|]. cbn [p_members] in H.
    destruct (p_member (p_value F d) s) as [[[k j] r']|] eqn:Q; [|discriminate]. cbn [obind fst snd] in H.
    destruct (skip r') as [|c r2] eqn:Qs; [discriminate|]. apply skip_head in Qs as (b & E & Hb).
    destruct (@member_read_text d IHd _ _ _ _ Q _ _ E Hb) as (t & -> & Ht). clear Q E.
    destruct (Ascii.eqb_spec c ",").
    - subst c. destruct (p_members (p_value F d) n r2) as [[l' r3]|] eqn:Q2; [|discriminate]. cbn in H. injection H as <- <-.
      apply IH in Q2 as (t2 & -> & H2). exists (t ++ ","%char :: t2). split; [rewrite <- !app_assoc; reflexivity|].
      constructor; assumption.
    - destruct (Ascii.eqb_spec c "}"); [|discriminate]. subst c. injection H as <- <-. exists t. split; [reflexivity|]. constructor. exact Ht.
  Qed.

  Lemma word_split w s r : p_word w s = Some r -> s = w ++ r.
  Proof.
    revert s. induction w as [|a w IH]; intros s H; cbn in H; [injection H as <-; reflexivity|].
    destruct s as [|c s]; [discriminate|]. destruct (Ascii.eqb_spec a c); [|discriminate]. subst. cbn. f_equal. auto.
  Qed.

  Lemma read_sound d : sound d.
  Proof.
    assert (W : forall c w v s j r, value_text F (c :: w) v -> option_map (pair v) (p_word w s) = Some (j, r) ->
      exists t, c :: s = t ++ r /\ value_text F t j).
    { intros c w v s j r Hv H. destruct (p_word w s) as [r'|] eqn:Q; [|discriminate]. cbn in H. injection H as <- <-.
      apply word_split in Q as ->. exists (c :: w). auto. }
    induction d as [|d IH]; intros s j r H; cbn [p_value] in H; (destruct (skip s) as [|c s'] eqn:Qs; [discriminate|]);
      apply skip_head in Qs as (a & -> & Ha);
      (cut (exists t, c :: s' = t ++ r /\ value_text F t j); [intros (t & Et & Ht); exists a, t; rewrite Et; auto|]);
      (destruct (Ascii.eqb_spec c "n"); [subst c; eapply W; [|exact H]; exact (vt_null F)|]);
      (destruct (Ascii.eqb_spec c "t"); [subst c; eapply W; [|exact H]; exact (vt_true F)|]);
      (destruct (Ascii.eqb_spec c "f"); [subst c; eapply W; [|exact H]; exact (vt_false F)|]);
      (destruct (Ascii.eqb_spec c quote);
        [subst c; destruct (p_string s') as [[k s2]|] eqn:Q; [|discriminate]; cbn in H; injection H as <- <-;
         apply (@string_read_text (length s')) in Q as (t & -> & Ht); [|lia];
         exists (quote :: t ++ [quote]); split; [cbn; rewrite <- app_assoc; reflexivity|];
         apply vt_str; rewrite list_ascii_string; exact Ht|]).
    - destruct (Ascii.eqb c "["); [discriminate|]. destruct (Ascii.eqb c "{"); [discriminate|]. exact (number_text _ H).
    - destruct (Ascii.eqb_spec c "[").
      { subst c. destruct (skip s') as [|c2 r2] eqn:Qs; [discriminate|]. destruct (Ascii.eqb_spec c2 "]").
        - injection H as <- <-. subst c2. apply skip_head in Qs as (w & -> & Hw).
          exists ("["%char :: w ++ ["]"%char]). split; [cbn; rewrite <- app_assoc; reflexivity|]. constructor. exact Hw.
        - destruct (p_items (p_value F d) (length s') s') as [[l r3]|] eqn:Q; [|discriminate]. cbn in H. injection H as <- <-.
          apply (items_text IH) in Q as (t & -> & Ht). exists ("["%char :: t ++ ["]"%char]).
          split; [cbn; rewrite <- app_assoc; reflexivity|]. constructor. exact Ht. }
      destruct (Ascii.eqb_spec c "{").
      { subst c. destruct (skip s') as [|c2 r2] eqn:Qs; [discriminate|]. destruct (Ascii.eqb_spec c2 "}").
        - injection H as <- <-. subst c2. apply skip_head in Qs as (w & -> & Hw).
          exists ("{"%char :: w ++ ["}"%char]). split; [cbn; rewrite <- app_assoc; reflexivity|]. constructor. exact Hw.
        - destruct (p_members (p_value F d) (length s') s') as [[l r3]|] eqn:Q; [|discriminate]. cbn in H. injection H as <- <-.
          apply (members_read_text IH) in Q as (t & -> & Ht). exists ("{"%char :: t ++ ["}"%char]).
          split; [cbn; rewrite <- app_assoc; reflexivity|]. constructor. exact Ht. }
      exact (number_text _ H).
  Qed.

  (** Depth, whatever floats are read as *)
  Lemma read_depth d : forall s j r, p_value F d s = Some (j, r) -> jdepth j <= d.
  Proof.
    assert (N : forall s j r, p_number F s = Some (j, r) -> jdepth j = 0).
    { assert (U : forall neg s j r, p_unsigned F neg s = Some (j, r) -> jdepth j = 0).
      { intros neg s j r. unfold p_unsigned. destruct (p_digits s) as [[ds u] s2]. destruct (plain ds); [|discriminate].
        destruct (p_fraction s2) as [[f s3]|]; [|discriminate]. cbn [obind fst snd].
        destruct (p_exponent s3) as [[e s4]|]; [|discriminate]. cbn [obind fst snd].
        assert (G : forall t, (let? x := fl_read F t in Some (JFloat x, s4)) = Some (j, r) -> jdepth j = 0).
        { intros t H. destruct (fl_read F t); [|discriminate]. cbn in H. injection H as <- <-. reflexivity. }
        destruct f; [destruct e|]; [|apply G..]. destruct (_ && _); [|apply G]. intros H. injection H as <- <-. reflexivity. }
      intros s j r. destruct s as [|c s]; [discriminate|]. cbn [p_number]. destruct (Ascii.eqb c "-"); apply U. }
    assert (W : forall w v s j r, jdepth v = 0 -> option_map (pair v) (p_word w s) = Some (j, r) -> jdepth j = 0).
    { intros w v s j r Hd H. destruct (p_word w s); [|discriminate]. cbn in H. injection H as <- <-. exact Hd. }
    induction d as [|d IH]; intros s j r H; cbn [p_value] in H; (destruct (skip s) as [|c s']; [discriminate|]);
      (destruct (Ascii.eqb c "n"); [apply W in H; [lia|reflexivity]|]);
      (destruct (Ascii.eqb c "t"); [apply W in H; [lia|reflexivity]|]);
      (destruct (Ascii.eqb c "f"); [apply W in H; [lia|reflexivity]|]);
      (destruct (Ascii.eqb c quote); [destruct (p_string s') as [[k s2]|]; [|discriminate]; cbn in H; injection H as <- <-; cbn; lia|]).
    - destruct (Ascii.eqb c "["); [discriminate|]. destruct (Ascii.eqb c "{"); [discriminate|]. apply N in H. lia.
    - destruct (Ascii.eqb c "[").
      { destruct (skip s') as [|c2 r2]; [discriminate|]. destruct (Ascii.eqb c2 "]").
        - injection H as <- <-. cbn. lia.
        - destruct (p_items (p_value F d) (length s') s') as [[l r3]|] eqn:Q; [|discriminate]. cbn in H. injection H as <- <-.
          apply depth_arr. clear - IH Q. revert l r3 Q. generalize (length s') as n. intros n. revert s'.
          induction n as [|n IHn]; intros s l r Hp; [discriminate|]. cbn [p_items] in Hp.
          destruct (p_value F d s) as [[a r']|] eqn:Q; [|discriminate]. cbn [obind fst snd] in Hp. apply IH in Q.
          destruct (skip r') as [|c r2]; [discriminate|]. destruct (Ascii.eqb c ",").
          + destruct (p_items (p_value F d) n r2) as [[l' r3]|] eqn:Q2; [|discriminate]. cbn in Hp. injection Hp as <- <-.
            intros j [<-|Hj]; [exact Q|exact (IHn _ _ _ Q2 j Hj)].
          + destruct (Ascii.eqb c "]"); [|discriminate]. injection Hp as <- <-. intros j [<-|[]]. exact Q. }
      destruct (Ascii.eqb c "{").
      { destruct (skip s') as [|c2 r2]; [discriminate|]. destruct (Ascii.eqb c2 "}").
        - injection H as <- <-. cbn. lia.
        - destruct (p_members (p_value F d) (length s') s') as [[l r3]|] eqn:Q; [|discriminate]. cbn in H. injection H as <- <-.
          apply depth_obj. clear - IH Q. revert l r3 Q. generalize (length s') as n. intros n. revert s'.
          induction n as [|n IHn]; intros s l r Hp; [discriminate|]. cbn [p_members] in Hp.
          destruct (p_member (p_value F d) s) as [[[k0 a] r']|] eqn:Q; [|discriminate]. cbn [obind fst snd] in Hp.
          assert (Ha : jdepth a <= d).
          { unfold p_member in Q. destruct (skip s) as [|c s1]; [discriminate|]. destruct (Ascii.eqb c quote); [|discriminate].
            destruct (p_string s1) as [[k s2]|]; [|discriminate]. cbn [obind fst snd] in Q. destruct (skip s2) as [|c2 s3]; [discriminate|].
            destruct (Ascii.eqb c2 ":"); [|discriminate]. destruct (p_value F d s3) as [[x r2]|] eqn:Q'; [|discriminate].
            cbn in Q. injection Q as <- <- <-. eauto. }
          destruct (skip r') as [|c r2]; [discriminate|]. destruct (Ascii.eqb c ",").
          + destruct (p_members (p_value F d) n r2) as [[l' r3]|] eqn:Q2; [|discriminate]. cbn in Hp. injection Hp as <- <-.
            intros k j [[= <- <-]|Hj]; [exact Ha|exact (IHn _ _ _ Q2 k j Hj)].
          + destruct (Ascii.eqb c "}"); [|discriminate]. injection Hp as <- <-. intros k j [[= <- <-]|[]]. exact Ha. }
      apply N in H. lia.
  Qed.

  (** ** Texts *)

  Lemma syntax_exact s j : from_text F s = Some j <-> json_text F (list_ascii_of_string s) j /\ ~ nested 128 j.
  Proof.
    unfold from_text. rewrite nested_depth. split.
    - destruct (p_value F depth_limit (list_ascii_of_string s)) as [[a r]|] eqn:Q; [|discriminate].
      cbn [obind fst snd]. destruct (skip r) eqn:Qr; [|discriminate]. intros H. injection H as <-.
      pose proof (read_depth _ _ Q) as Hd. unfold depth_limit in Hd. split; [|lia].
      apply read_sound in Q as (w & t & E & Hw & Ht). exists w, t, r. rewrite skip_nil in Qr. auto.
    - intros [(a & t & b & -> & Ha & Ht & Hb) Hd]. rewrite p_value_blank by exact Ha.
      destruct (proj1 texts_read _ _ Ht) as [_ Hr]. rewrite Hr; [|unfold depth_limit; lia|].
      + cbn [obind fst snd]. rewrite (proj2 (skip_nil b) Hb). reflexivity.
      + rewrite <- (app_nil_r b). apply blank_stop; [exact Hb|exact I].
  Qed.

  Lemma syntax_unique s j j' : json_text F s j -> json_text F s j' -> j = j'.
  Proof.
    intros (a & t & b & E & Ha & Ht & Hb) (a' & t' & b' & E' & Ha' & Ht' & Hb'). subst s.
    destruct (proj1 texts_read _ _ Ht) as [_ Hr]. destruct (proj1 texts_read _ _ Ht') as [_ Hr'].
    assert (S : forall b, blank b -> stop b) by (intros x Hx; rewrite <- (app_nil_r x); apply blank_stop; [exact Hx|exact I]).
    specialize (Hr (Nat.max (jdepth j) (jdepth j')) b ltac:(lia) (S _ Hb)).
    specialize (Hr' (Nat.max (jdepth j) (jdepth j')) b' ltac:(lia) (S _ Hb')).
    rewrite <- (@p_value_blank _ a) in Hr by exact Ha. rewrite <- (@p_value_blank _ a') in Hr' by exact Ha'. congruence.
  Qed.

  Lemma syntax_written j : document j -> (forall x, float_in x j -> faithful F x) -> json_text F (list_ascii_of_string (to_text F j)) j.
  Proof.
    intros Hd Hf. unfold to_text. rewrite list_ascii_string.
    destruct (@value_read F j (conj Hd Hf) (jdepth j)) as [H _]. specialize (H (le_n _) [] I). rewrite app_nil_r in H.
    apply read_sound in H as (a & t & E & Ha & Ht). exists a, t, []. auto using blank_nil.
  Qed.
End Grammar.
