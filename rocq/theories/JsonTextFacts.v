(** * Writing documents as text and reading them *)

From Coq Require Import String Ascii Bool NArith ZArith Decimal DecimalN DecimalFacts Lia List.
From Coq Require Import Floats.SpecFloat.
From Verif Require Import Base MinMax Json JsonText SpecSerde SpecDoc SpecJsonText.
Import ListNotations.
Set Implicit Arguments.
Local Open Scope string_scope.
Local Open Scope list_scope.

(** ** Strings *)

Lemma escape_read c r : p_string (escape c ++ r) = before [c] (p_string r).
Proof. destruct c as [[] [] [] [] [] [] [] []]; reflexivity. Qed.

Lemma escapes_read cs r : p_string (flat_map escape cs ++ quote :: r) = Some (cs, r).
Proof.
  induction cs as [|c cs IH]; [reflexivity|]. cbn [flat_map]. rewrite <- app_assoc, escape_read, IH. reflexivity.
Qed.

Lemma string_read s r : p_string (flat_map escape (list_ascii_of_string s) ++ [quote] ++ r) = Some (list_ascii_of_string s, r).
Proof. apply escapes_read. Qed.

(** ** Numbers *)

(** What may follow a number *)
Definition stop (r : chars) : Prop :=
  match r with
  | [] => True
  | c :: _ => digit c = None /\ Ascii.eqb c "." = false /\ Ascii.eqb c "e" || Ascii.eqb c "E" = false
  end.

Definition no_digit (r : chars) : Prop := match r with [] => True | c :: _ => digit c = None end.

Lemma stop_digit r : stop r -> no_digit r.
Proof. destruct r; [auto|]. intros [H _]. exact H. Qed.

Lemma uint_read u r : no_digit r -> p_digits (w_uint u ++ r) = (w_uint u, u, r).
Proof.
  intros H. induction u; cbn [w_uint app p_digits]; [|cbn; rewrite IHu; reflexivity..].
  destruct r as [|c r]; [reflexivity|]. cbn in H |- *. rewrite H. reflexivity.
Qed.

Lemma digit_some c : (48 <= N_of_ascii c <= 57)%N -> exists f, digit c = Some f.
Proof.
  intros H. unfold digit. set (n := N_of_ascii c) in *. clearbody n.
  assert (n = 48 \/ n = 49 \/ n = 50 \/ n = 51 \/ n = 52 \/ n = 53 \/ n = 54 \/ n = 55 \/ n = 56 \/ n = 57)%N as Hn by lia.
  repeat destruct Hn as [->|Hn]; try subst n; eexists; reflexivity.
Qed.

Lemma digits_read ds r : (forall c, In c ds -> (48 <= N_of_ascii c <= 57)%N) -> no_digit r -> exists u, p_digits (ds ++ r) = (ds, u, r).
Proof.
  intros H Hr. induction ds as [|c ds IH].
  - exists Nil. destruct r as [|c r]; [reflexivity|]. cbn in Hr |- *. rewrite Hr. reflexivity.
  - destruct IH as [u Hu]; [intros; apply H; right; auto|]. destruct (@digit_some c) as [f Hf]; [apply H; left; auto|].
    exists (f u). cbn. rewrite Hf, Hu. reflexivity.
Qed.

Lemma nzhead_head d : match nzhead d with D0 _ => False | _ => True end.
Proof. induction d; cbn; auto. Qed.

Lemma plain_unorm d : plain (w_uint (unorm d)) = true.
Proof.
  unfold unorm. pose proof (nzhead_head d) as H. destruct (nzhead d); cbn in *; try reflexivity; try contradiction;
    destruct (w_uint u); reflexivity.
Qed.

Lemma plain_to_uint n : plain (w_uint (N.to_uint n)) = true.
Proof.
  rewrite <- (Unsigned.of_to n) at 1. rewrite Unsigned.to_of. apply plain_unorm.
Qed.

Lemma plain_digits ds : digits ds -> (forall r, ds = "0"%char :: r -> r = []) -> plain ds = true.
Proof.
  intros [H _] H0. destruct ds as [|c [|c' ds]]; [congruence|reflexivity|]. cbn. destruct (Ascii.eqb_spec c "0"); [|reflexivity].
  subst c. discriminate (H0 _ eq_refl).
Qed.

Lemma stop_fraction r : stop r -> p_fraction r = Some ([], r).
Proof. destruct r; [auto|]. intros (_ & H & _). cbn. rewrite H. reflexivity. Qed.

Lemma stop_exponent r : stop r -> p_exponent r = Some ([], r).
Proof. destruct r; [auto|]. intros (_ & _ & H). cbn. rewrite H. reflexivity. Qed.

Lemma w_uint_head n : exists c s f, w_uint (N.to_uint n) = c :: s /\ digit c = Some f.
Proof.
  pose proof (plain_to_uint n) as H.
  destruct (N.to_uint n); cbn [w_uint] in *; try discriminate H; eexists _, _, _; (split; [reflexivity|reflexivity]).
Qed.

Lemma digit_not_minus c f : digit c = Some f -> Ascii.eqb c "-" = false.
Proof. intros H. destruct (Ascii.eqb_spec c "-"); [subst; discriminate|reflexivity]. Qed.

Section Read.
  Variable F : floats.

  Lemma int_read z r : (- 2 ^ 63 <= z < 2 ^ 64)%Z -> stop r -> p_number F (w_int z ++ r) = Some (JInt z, r).
  Proof.
    intros Hz Hr. unfold w_int. rewrite <- app_assoc. destruct (z <? 0)%Z eqn:Q.
    - cbn [app p_number]. change (Ascii.eqb "-" "-") with true. cbn match. unfold p_unsigned.
      rewrite uint_read by (apply stop_digit, Hr). rewrite plain_to_uint, stop_fraction by exact Hr. cbn [obind fst snd].
      rewrite stop_exponent by exact Hr. cbn [obind fst snd]. rewrite Unsigned.of_to, N2Z.inj_abs_N. apply Z.ltb_lt in Q.
      replace (- Z.abs z)%Z with z by lia.
      replace (-9223372036854775808 <=? z)%Z with true by lia.
      replace (z <=? 18446744073709551615)%Z with true by lia.
      replace (z =? 0)%Z with false by lia. reflexivity.
    - cbn [app]. destruct (w_uint_head (Z.abs_N z)) as (c & s & f & Hc & Hd).
      assert (p_number F (w_uint (N.to_uint (Z.abs_N z)) ++ r) = p_unsigned F false (w_uint (N.to_uint (Z.abs_N z)) ++ r)) as ->
        by (rewrite Hc; cbn [app p_number]; rewrite (digit_not_minus _ Hd); reflexivity).
      unfold p_unsigned.
      rewrite uint_read by (apply stop_digit, Hr). rewrite plain_to_uint, stop_fraction by exact Hr. cbn [obind fst snd].
      rewrite stop_exponent by exact Hr. cbn [obind fst snd]. rewrite Unsigned.of_to, N2Z.inj_abs_N. apply Z.ltb_ge in Q.
      replace (Z.abs z)%Z with z by lia.
      replace (-9223372036854775808 <=? z)%Z with true by lia.
      replace (z <=? 18446744073709551615)%Z with true by lia. reflexivity.
  Qed.

  Lemma fraction_read f r : (f = [] \/ exists ds, f = "."%char :: ds /\ digits ds) -> no_digit r ->
    (f = [] -> match r with c :: _ => Ascii.eqb c "." = false | [] => True end) -> p_fraction (f ++ r) = Some (f, r).
  Proof.
    intros [->|(ds & -> & Hn & Hd)] Hr H0.
    - specialize (H0 eq_refl). destruct r as [|c r]; [reflexivity|]. cbn. rewrite H0. reflexivity.
    - cbn [app p_fraction]. change (Ascii.eqb "." ".") with true. cbn match. destruct (digits_read ds r Hd Hr) as [u ->].
      destruct ds; [congruence|reflexivity].
  Qed.

  Lemma exponent_read e r :
    (e = [] \/ exists c g ds, e = c :: g ++ ds /\ (c = "e"%char \/ c = "E"%char)
       /\ (g = [] \/ g = ["+"%char] \/ g = ["-"%char]) /\ digits ds) ->
    stop r -> p_exponent (e ++ r) = Some (e, r).
  Proof.
    intros [->|(c & g & ds & -> & Hc & Hg & Hn & Hd)] Hr; [apply stop_exponent, Hr|].
    cbn [app p_exponent]. rewrite <- app_assoc.
    replace (Ascii.eqb c "e" || Ascii.eqb c "E") with true by (destruct Hc as [-> | ->]; reflexivity).
    destruct (digits_read ds r Hd (stop_digit _ Hr)) as [u Hu].
    assert (exists d ds', ds = d :: ds' /\ Ascii.eqb d "+" = false /\ Ascii.eqb d "-" = false) as (d & ds' & E & E1 & E2).
    { destruct ds as [|d ds']; [congruence|]. exists d, ds'. split; [reflexivity|].
      destruct (@digit_some d) as [f Hf]; [apply Hd; left; reflexivity|].
      split; [destruct (Ascii.eqb_spec d "+"); [subst; discriminate|reflexivity]|exact (digit_not_minus _ Hf)]. }
    destruct Hg as [-> |[-> | ->]]; cbn [app].
    - replace (match ds ++ r with [] => ([], []) | g :: s2 => if Ascii.eqb g "+" || Ascii.eqb g "-" then ([g], s2) else ([], ds ++ r) end)
        with (@nil ascii, ds ++ r) by (rewrite E; cbn; rewrite E1, E2; reflexivity).
      rewrite Hu. rewrite E. reflexivity.
    - change (Ascii.eqb "+" "+" || Ascii.eqb "+" "-") with true. cbn match. rewrite Hu. rewrite E. reflexivity.
    - change (Ascii.eqb "-" "+" || Ascii.eqb "-" "-") with true. cbn match. rewrite Hu. rewrite E. reflexivity.
  Qed.

  Lemma exp_head e r : 
    (e = [] \/ exists c g ds, e = c :: g ++ ds /\ (c = "e"%char \/ c = "E"%char)
       /\ (g = [] \/ g = ["+"%char] \/ g = ["-"%char]) /\ digits ds) ->
    stop r -> no_digit (e ++ r) /\ match e ++ r with c :: _ => Ascii.eqb c "." = false | [] => True end.
  Proof.
    intros [->|(c & g & ds & -> & Hc & _)] Hr.
    - split; [apply stop_digit, Hr|]. destruct r; [exact I|]. apply Hr.
    - cbn. destruct Hc as [-> | ->]; split; reflexivity.
  Qed.

  Lemma float_read x r : faithful F x -> stop r -> p_number F (fl_write F x ++ r) = Some (JFloat x, r).
  Proof.
    intros [(sg & i & f & e & E & [Hs [Hin Hid] H0 Hf He] & Hfe) Hx] Hr. rewrite E in Hx |- *. rewrite <- !app_assoc.
    destruct (exp_head r He Hr) as [N1 N2].
    assert (no_digit (f ++ e ++ r)) as N3.
    { destruct Hf as [->|(ds & -> & _)]; [exact N1|reflexivity]. }
    destruct (digits_read i (f ++ e ++ r) Hid N3) as [u Hu].
    assert (p_number F (sg ++ i ++ f ++ e ++ r) = p_unsigned F (match sg with [] => false | _ => true end) (i ++ f ++ e ++ r)) as ->.
    { destruct Hs as [->| ->]; [|reflexivity]. cbn [app]. destruct i as [|c i]; [congruence|]. cbn [app p_number].
      destruct (@digit_some c) as [d Hd]; [apply Hid; left; reflexivity|]. rewrite (digit_not_minus _ Hd). reflexivity. }
    unfold p_unsigned. rewrite Hu. rewrite (plain_digits (conj Hin Hid) H0).
    rewrite (fraction_read _ Hf N1 (fun _ => N2)). cbn [obind fst snd]. rewrite (exponent_read r He Hr). cbn [obind fst snd].
    replace (if match sg with [] => false | _ => true end then ["-"%char] else []) with sg by (destruct Hs as [-> | ->]; reflexivity).
    rewrite Hx. destruct f; [destruct e|]; [destruct Hfe; congruence|reflexivity..].
  Qed.

  (** ** Values *)

  (** Written values start with something else than space, a comma or a closing bracket. *)
  Definition starter (c : ascii) : Prop := is_space c = false /\ Ascii.eqb c "]" = false /\ Ascii.eqb c "}" = false.

  Definition well (j : json) : Prop := document j /\ forall x, float_in x j -> faithful F x.

  Lemma digit_starter c f : digit c = Some f -> starter c.
  Proof. destruct c as [[] [] [] [] [] [] [] []]; try discriminate; repeat split. Qed.

  Lemma number_start s : (exists c s' f, s = c :: s' /\ digit c = Some f) \/ (exists s', s = "-"%char :: s') ->
    exists c s', s = c :: s' /\ starter c.
  Proof.
    intros [(c & s' & f & -> & H)|(s' & ->)]; eexists _, _; (split; [reflexivity|]); [exact (digit_starter _ H)|repeat split].
  Qed.

  Lemma int_start z : (exists c s' f, w_int z = c :: s' /\ digit c = Some f) \/ (exists s', w_int z = "-"%char :: s').
  Proof.
    unfold w_int. destruct (z <? 0)%Z; [right; eexists; reflexivity|left]. cbn [app]. apply w_uint_head.
  Qed.

  Lemma float_start x : float_text (fl_write F x) ->
    (exists c s' f, fl_write F x = c :: s' /\ digit c = Some f) \/ (exists s', fl_write F x = "-"%char :: s').
  Proof.
    intros (sg & i & f & e & -> & [[->| ->] [Hin Hid] _ _ _] & _); [left|right; eexists; reflexivity].
    destruct i as [|c i]; [congruence|]. destruct (@digit_some c) as [d Hd]; [apply Hid; left; reflexivity|].
    cbn. eauto.
  Qed.

  Lemma value_start j : well j -> exists c s, w_json F j = c :: s /\ starter c.
  Proof.
    intros [Hd Hf]. destruct j as [|[]| z|x|s|l|es]; try (eexists _, _; split; [reflexivity|repeat split; fail]).
    - apply number_start, int_start.
    - inversion Hd; subst. cbn [w_json]. rewrite H0. apply number_start, float_start, Hf. constructor.
  Qed.

  Lemma skip_starter c s : starter c -> skip (c :: s) = c :: s.
  Proof. intros [H _]. cbn. rewrite H. reflexivity. Qed.

  (** Numbers come last among the cases. *)
  Lemma number_case d s : (exists c s' f, s = c :: s' /\ digit c = Some f) \/ (exists s', s = "-"%char :: s') ->
    forall r, p_value F d (s ++ r) = p_number F (s ++ r).
  Proof.
    intros [(c & s' & f & -> & H)|(s' & ->)] r; [|destruct d; reflexivity].
    destruct c as [[] [] [] [] [] [] [] []]; try discriminate H; destruct d; reflexivity.
  Qed.

  Definition reads (d : nat) (j : json) : Prop := forall r, stop r -> p_value F d (w_json F j ++ r) = Some (j, r).
  Definition fails (d : nat) (j : json) : Prop := forall r, stop r -> p_value F d (w_json F j ++ r) = None.

  Lemma stop_comma r : stop (","%char :: r).
  Proof. repeat split. Qed.
  Lemma stop_bracket r : stop ("]"%char :: r).
  Proof. repeat split. Qed.
  Lemma stop_brace r : stop ("}"%char :: r).
  Proof. repeat split. Qed.

  Lemma commas_cons a b l : commas (a :: b :: l) = a ++ ","%char :: commas (b :: l).
  Proof. reflexivity. Qed.

  Lemma items_read d l : (forall j, In j l -> reads d j) -> l <> [] -> forall n r, length l <= n ->
    p_items (p_value F d) n (commas (map (w_json F) l) ++ "]"%char :: r) = Some (l, r).
  Proof.
    induction l as [|a [|b l] IH]; intros H Hn n r Hl; [congruence| |].
    - destruct n; [cbn in Hl; lia|]. cbn [map commas p_items]. rewrite (H a (or_introl eq_refl) _ (stop_bracket r)). reflexivity.
    - destruct n; [cbn in Hl; lia|]. cbn [map]. rewrite commas_cons, <- app_assoc. cbn [app p_items].
      rewrite (H a (or_introl eq_refl) _ (stop_comma _)). cbn [obind snd fst].
      change (skip (","%char :: ?s)) with (","%char :: s). change (Ascii.eqb "," ",") with true. cbn match.
      change (w_json F b :: map (w_json F) l) with (map (w_json F) (b :: l)).
      rewrite IH; [reflexivity| |discriminate|cbn in *; lia]. intros j Hj. apply H. right. exact Hj.
  Qed.

  Lemma items_fail d l : (forall j, In j l -> reads d j \/ fails d j) -> (exists j, In j l /\ fails d j) -> forall n r,
    p_items (p_value F d) n (commas (map (w_json F) l) ++ "]"%char :: r) = None.
  Proof.
    induction l as [|a [|b l] IH]; intros H (j & Hj & Hf) n r; [destruct Hj| |]; (destruct n; [reflexivity|]).
    - destruct Hj as [->|[]]. cbn [map commas p_items]. rewrite (Hf _ (stop_bracket r)). reflexivity.
    - cbn [map]. rewrite commas_cons, <- app_assoc. cbn [app p_items].
      destruct (H a (or_introl eq_refl)) as [Ha|Ha]; rewrite (Ha _ (stop_comma _)); [|reflexivity]. cbn [obind snd fst].
      change (skip (","%char :: ?s)) with (","%char :: s). change (Ascii.eqb "," ",") with true. cbn match.
      change (w_json F b :: map (w_json F) l) with (map (w_json F) (b :: l)).
      rewrite IH; [reflexivity| |].
      + intros j' Hj'. apply H. right. exact Hj'.
      + destruct Hj as [->|Hj]; [|eauto]. exfalso. specialize (Ha [] I). specialize (Hf [] I). congruence.
  Qed.

  Notation w_member := (fun kv => w_string (fst kv) ++ ":"%char :: w_json F (snd kv)).

  Lemma member_step d k j r : p_member (p_value F d) (w_member (k, j) ++ r)
    = let? x := p_value F d (w_json F j ++ r) in Some ((k, fst x), snd x).
  Proof.
    unfold p_member, w_string. cbn [fst snd]. rewrite <- app_assoc. cbn [app]. rewrite <- app_assoc.
    change (skip (quote :: ?s)) with (quote :: s). change (Ascii.eqb quote quote) with true. cbn match.
    rewrite string_read. cbn [obind fst snd app].
    change (skip (":"%char :: ?s)) with (":"%char :: s). change (Ascii.eqb ":" ":") with true. cbn match.
    rewrite string_of_list_ascii_of_string. reflexivity.
  Qed.

  Lemma members_read d (es : entries) : (forall k j, In (k, j) es -> reads d j) -> es <> [] -> forall n r, length es <= n ->
    p_members (p_value F d) n (commas (map w_member es) ++ "}"%char :: r) = Some (es, r).
  Proof.
    induction es as [|[k a] [|b l] IH]; intros H Hn n r Hl; [congruence| |].
    - destruct n; [cbn in Hl; lia|]. cbn [map commas p_members]. rewrite member_step, (H k a (or_introl eq_refl) _ (stop_brace r)). reflexivity.
    - destruct n; [cbn in Hl; lia|]. cbn [map]. rewrite commas_cons, <- app_assoc. cbn [app p_members].
      rewrite member_step, (H k a (or_introl eq_refl) _ (stop_comma _)). cbn [obind snd fst].
      change (skip (","%char :: ?s)) with (","%char :: s). change (Ascii.eqb "," ",") with true. cbn match.
      change (?x :: map w_member l) with (map w_member (b :: l)).
      rewrite IH; [reflexivity| |discriminate|cbn in *; lia]. intros k' j Hj. apply (H k'). right. exact Hj.
  Qed.

  Lemma members_fail d (es : entries) : (forall k j, In (k, j) es -> reads d j \/ fails d j) -> (exists k j, In (k, j) es /\ fails d j) ->
    forall n r, p_members (p_value F d) n (commas (map w_member es) ++ "}"%char :: r) = None.
  Proof.
    induction es as [|[k a] [|b l] IH]; intros H (k' & j & Hj & Hf) n r; [destruct Hj| |]; (destruct n; [reflexivity|]).
    - destruct Hj as [[= <- <-]|[]]. cbn [map commas p_members]. rewrite member_step, (Hf _ (stop_brace r)). reflexivity.
    - cbn [map]. rewrite commas_cons, <- app_assoc. cbn [app p_members]. rewrite member_step.
      destruct (H k a (or_introl eq_refl)) as [Ha|Ha]; rewrite (Ha _ (stop_comma _)); [|reflexivity]. cbn [obind snd fst].
      change (skip (","%char :: ?s)) with (","%char :: s). change (Ascii.eqb "," ",") with true. cbn match.
      change (?x :: map w_member l) with (map w_member (b :: l)).
      rewrite IH; [reflexivity| |].
      + intros k2 j' Hj'. apply (H k2). right. exact Hj'.
      + destruct Hj as [[= <- <-]|Hj]; [|eauto]. exfalso. specialize (Ha [] I). specialize (Hf [] I). congruence.
  Qed.

  Lemma commas_length l : length l <= S (length (commas l)).
  Proof.
    induction l as [|a [|b l] IH]; [cbn; lia|cbn; lia|]. rewrite commas_cons, app_length. cbn [length] in *. lia.
  Qed.

  Lemma commas_start a l s c : a = c :: s -> exists s', commas (a :: l) = c :: s'.
  Proof. intros ->. destruct l; cbn; eauto. Qed.

  (** An array and an object, one level down *)
  Lemma array_case d l r : l <> [] -> (forall j, In j l -> well j) ->
    p_value F (S d) (w_json F (JArr l) ++ r)
    = option_map (fun x => (JArr (fst x), snd x))
        (p_items (p_value F d) (length (commas (map (w_json F) l) ++ "]"%char :: r)) (commas (map (w_json F) l) ++ "]"%char :: r)).
  Proof.
    intros Hn Hw. change (w_json F (JArr l)) with ("["%char :: commas (map (w_json F) l) ++ ["]"%char]).
    cbn [app]. rewrite <- app_assoc. cbn [app].
    destruct l as [|a l]; [congruence|]. destruct (value_start (Hw a (or_introl eq_refl))) as (c & s & Ha & Hc).
    assert (exists s', commas (map (w_json F) (a :: l)) = c :: s') as [s' Hs] by exact (commas_start (map (w_json F) l) Ha).
    rewrite Hs. cbn [app].
    cbn [p_value]. change (skip ("["%char :: ?s)) with ("["%char :: s). cbn match.
    change (Ascii.eqb "[" "n") with false. change (Ascii.eqb "[" "t") with false. change (Ascii.eqb "[" "f") with false.
    change (Ascii.eqb "[" quote) with false. change (Ascii.eqb "[" "[") with true. cbn match.
    rewrite (skip_starter _ Hc). destruct Hc as (_ & -> & _). reflexivity.
  Qed.

  Lemma object_case d (es : entries) r : es <> [] ->
    p_value F (S d) (w_json F (JObj es) ++ r)
    = option_map (fun x => (JObj (fst x), snd x))
        (p_members (p_value F d) (length (commas (map w_member es) ++ "}"%char :: r)) (commas (map w_member es) ++ "}"%char :: r)).
  Proof.
    intros Hn. change (w_json F (JObj es)) with ("{"%char :: commas (map w_member es) ++ ["}"%char]).
    cbn [app]. rewrite <- app_assoc. cbn [app].
    destruct es as [|a l]; [congruence|].
    assert (exists s', commas (map w_member (a :: l)) = quote :: s') as [s' Hs].
    { apply (@commas_start (w_member a) (map w_member l) (flat_map escape (list_ascii_of_string (fst a)) ++ [quote] ++ ":"%char :: w_json F (snd a)) quote).
      unfold w_string. cbn [app]. rewrite <- app_assoc. reflexivity. }
    rewrite Hs. cbn [app].
    cbn [p_value]. change (skip ("{"%char :: ?s)) with ("{"%char :: s). cbn match.
    change (Ascii.eqb "{" "n") with false. change (Ascii.eqb "{" "t") with false. change (Ascii.eqb "{" "f") with false.
    change (Ascii.eqb "{" quote) with false. change (Ascii.eqb "{" "[") with false. change (Ascii.eqb "{" "{") with true. cbn match.
    change (skip (quote :: ?s)) with (quote :: s). change (Ascii.eqb quote "}") with false. reflexivity.
  Qed.

  Lemma too_deep d j : d < jdepth j -> d = 0 -> fails d j.
  Proof. intros H -> r _. destruct j; cbn in H; try lia; reflexivity. Qed.

  Lemma empty_array d r : p_value F (S d) (w_json F (JArr []) ++ r) = Some (JArr [], r).
  Proof. reflexivity. Qed.
  Lemma empty_object d r : p_value F (S d) (w_json F (JObj []) ++ r) = Some (JObj [], r).
  Proof. reflexivity. Qed.

  Lemma well_arr l : well (JArr l) -> forall j, In j l -> well j.
  Proof. intros [Hd Hf] j Hj. inversion Hd; subst. split; [auto|]. intros x Hx. apply Hf. econstructor; eauto. Qed.
  Lemma well_obj es : well (JObj es) -> forall k j, In (k, j) es -> well j.
  Proof. intros [Hd Hf] k j Hj. inversion Hd; subst. split; [eauto|]. intros x Hx. apply Hf. eapply fi_obj; eauto. Qed.

  Lemma deepest_arr l n : n < fold_right (fun j n => Nat.max (jdepth j) n) 0 l -> exists j, In j l /\ n < jdepth j.
  Proof.
    induction l as [|a l IH]; cbn; [lia|]. intros H. destruct (Nat.lt_ge_cases n (jdepth a)) as [Q|Q]; [eauto|].
    destruct IH as (j & Hj & Hn); [lia|eauto].
  Qed.
  Lemma deepest_obj (es : entries) n : n < fold_right (fun kv n => Nat.max (jdepth (snd kv)) n) 0 es -> exists k j, In (k, j) es /\ n < jdepth j.
  Proof.
    induction es as [|[k a] l IH]; cbn; [lia|]. intros H. destruct (Nat.lt_ge_cases n (jdepth a)) as [Q|Q]; [eauto|].
    destruct IH as (k' & j & Hj & Hn); [lia|eauto].
  Qed.

  Lemma value_read j : well j -> forall d, (jdepth j <= d -> reads d j) /\ (d < jdepth j -> fails d j).
  Proof.
    induction j as [|b|z|x|s|l IH|es IH] using json_ind'; intros Hw d.
    - split; [intros _ r _; destruct d; reflexivity|cbn; lia].
    - split; [intros _ r _; destruct d, b; reflexivity|cbn; lia].
    - split; [|cbn; lia]. intros _ r Hr. cbn [w_json]. rewrite (number_case _ (int_start z)).
      destruct Hw as [Hd _]. inversion Hd; subst. apply int_read; auto.
    - split; [|cbn; lia]. intros _ r Hr. destruct Hw as [Hd Hf]. inversion Hd; subst. cbn [w_json]. rewrite H0.
      assert (faithful F x) as Hx by (apply Hf; constructor).
      rewrite (number_case _ (float_start _ (proj1 Hx))). apply float_read; auto.
    - split; [|cbn; lia]. intros _ r _. cbn [w_json]. unfold w_string. cbn [app]. rewrite <- app_assoc.
      assert (p_value F d (quote :: flat_map escape (list_ascii_of_string s) ++ [quote] ++ r)
        = option_map (fun x => (JStr (string_of_list_ascii (fst x)), snd x)) (p_string (flat_map escape (list_ascii_of_string s) ++ [quote] ++ r))) as ->
        by (destruct d; reflexivity).
      rewrite string_read. cbn. rewrite string_of_list_ascii_of_string. reflexivity.
    - assert (forall j, In j l -> well j) as Hl by (apply well_arr, Hw). split.
      + intros Hd r Hr. destruct d as [|d]; [cbn in Hd; lia|]. destruct l as [|a l]; [apply empty_array|].
        rewrite array_case by (auto; discriminate). rewrite items_read; [reflexivity| |discriminate|].
        * intros j Hj. apply IH; auto. apply jdepth_arr in Hj. lia.
        * rewrite app_length. pose proof (commas_length (map (w_json F) (a :: l))) as L. rewrite map_length in L. cbn [length] in *. lia.
      + intros Hd. destruct d as [|d]; [apply too_deep; auto|]. intros r Hr.
        destruct l as [|a l]; [cbn in Hd; lia|]. rewrite array_case by (auto; discriminate). rewrite items_fail; [reflexivity| |].
        * intros j Hj. destruct (Nat.le_gt_cases (jdepth j) d) as [Q|Q]; [left|right]; apply IH; auto.
        * destruct (deepest_arr (a :: l) (n := d)) as (j & Hj & Q); [cbn in *; lia|]. exists j. split; [exact Hj|]. apply IH; auto.
    - assert (forall k j, In (k, j) es -> well j) as Hl by (apply well_obj, Hw). split.
      + intros Hd r Hr. destruct d as [|d]; [cbn in Hd; lia|]. destruct es as [|a l]; [apply empty_object|].
        rewrite object_case by discriminate. rewrite members_read; [reflexivity| |discriminate|].
        * intros k j Hj. apply (IH k); eauto. apply jdepth_obj in Hj. lia.
        * rewrite app_length. pose proof (commas_length (map w_member (a :: l))) as L. rewrite map_length in L. cbn [length] in *. lia.
      + intros Hd. destruct d as [|d]; [apply too_deep; auto|]. intros r Hr.
        destruct es as [|a l]; [cbn in Hd; lia|]. rewrite object_case by discriminate. rewrite members_fail; [reflexivity| |].
        * intros k j Hj. destruct (Nat.le_gt_cases (jdepth j) d) as [Q|Q]; [left|right]; apply (IH k); eauto.
        * destruct (deepest_obj (a :: l) (n := d)) as (k & j & Hj & Q); [cbn in *; lia|]. exists k, j. split; [exact Hj|]. apply (IH k); eauto.
  Qed.

  Lemma list_ascii_string s : list_ascii_of_string (string_of_list_ascii s) = s.
  Proof. apply list_ascii_of_string_of_list_ascii. Qed.

  Lemma text_read j : well j -> from_text F (to_text F j) = if Nat.leb (jdepth j) depth_limit then Some j else None.
  Proof.
    intros Hw. unfold from_text, to_text. rewrite list_ascii_string. destruct (value_read Hw depth_limit) as [H1 H2].
    destruct (Nat.leb_spec (jdepth j) depth_limit) as [Q|Q].
    - specialize (H1 Q [] I). rewrite app_nil_r in H1. rewrite H1. reflexivity.
    - specialize (H2 Q [] I). rewrite app_nil_r in H2. rewrite H2. reflexivity.
  Qed.
End Read.

(** ** Nesting *)

Lemma nested_depth n j : nested n j <-> n <= jdepth j.
Proof.
  split.
  - induction 1 as [j|n j l Hj _ IH| |n k j es Hj _ IH|]; [lia| |cbn; lia| |cbn; lia].
    + apply jdepth_arr in Hj. lia.
    + apply jdepth_obj in Hj. lia.
  - revert n. induction j as [|b|z|x|s|l IH|es IH] using json_ind'; intros n Hn;
      try (cbn in Hn; assert (n = 0) as -> by lia; constructor).
    + destruct n as [|n]; [constructor|]. destruct l as [|a l].
      * cbn in Hn. assert (n = 0) as -> by lia. constructor.
      * destruct n as [|n]; [apply ne_arr with a; [left; reflexivity|constructor]|].
        destruct (deepest_arr (a :: l) (n := n)) as (j & Hj & Q); [cbn in *; lia|]. apply ne_arr with j; [exact Hj|]. apply IH; auto.
    + destruct n as [|n]; [constructor|]. destruct es as [|[k a] l].
      * cbn in Hn. assert (n = 0) as -> by lia. constructor.
      * destruct n as [|n]; [apply ne_obj with k a; [left; reflexivity|constructor]|].
        destruct (deepest_obj ((k, a) :: l) (n := n)) as (k' & j & Hj & Q); [cbn in *; lia|].
        apply ne_obj with k' j; [exact Hj|]. apply (IH k'); auto.
Qed.

Definition faithful_in F j := forall x, float_in x j -> faithful F x.

Lemma text_shallow F j : document j -> faithful_in F j -> ~ nested 128 j -> from_text F (to_text F j) = Some j.
Proof.
  intros Hd Hf Hn. rewrite text_read by (split; auto). rewrite nested_depth in Hn.
  replace (Nat.leb (jdepth j) depth_limit) with true; [reflexivity|]. symmetry. apply Nat.leb_le. unfold depth_limit. lia.
Qed.

Lemma text_deep F j : document j -> faithful_in F j -> nested 128 j -> from_text F (to_text F j) = None.
Proof.
  intros Hd Hf Hn. rewrite text_read by (split; auto). rewrite nested_depth in Hn.
  replace (Nat.leb (jdepth j) depth_limit) with false; [reflexivity|]. symmetry. apply Nat.leb_gt. unfold depth_limit. lia.
Qed.

Lemma text_injective F j j' : document j -> faithful_in F j -> document j' -> faithful_in F j' -> to_text F j = to_text F j' -> j = j'.
Proof.
  intros Hd Hf Hd' Hf' H. unfold to_text in H. apply (f_equal list_ascii_of_string) in H. rewrite !list_ascii_string in H.
  destruct (@value_read F j (conj Hd Hf) (Nat.max (jdepth j) (jdepth j'))) as [H1 _].
  destruct (@value_read F j' (conj Hd' Hf') (Nat.max (jdepth j) (jdepth j'))) as [H2 _].
  specialize (H1 ltac:(lia) [] I). specialize (H2 ltac:(lia) [] I). rewrite H in H1. congruence.
Qed.

(** ** What is read *)

Section Image.
  Variable F : floats.
  Hypothesis Hfin : forall s x, fl_read F s = Some x -> f64_finite x = true.

  Lemma unsigned_document neg s j r : p_unsigned F neg s = Some (j, r) -> document j /\ jdepth j = 0.
  Proof.
    unfold p_unsigned. destruct (p_digits s) as [[ds u] s2]. destruct (plain ds); [|discriminate].
    destruct (p_fraction s2) as [[f s3]|]; [|discriminate]. cbn [obind fst snd].
    destruct (p_exponent s3) as [[e s4]|]; [|discriminate]. cbn [obind fst snd].
    set (z := if neg then _ else _). assert (forall t, (let? x := fl_read F t in Some (JFloat x, s4)) = Some (j, r) -> document j /\ jdepth j = 0) as G.
    { intros t H. destruct (fl_read F t) as [x|] eqn:Q; [|discriminate]. cbn in H. injection H as <- <-.
      split; [constructor; eauto|reflexivity]. }
    destruct f, e; eauto.
    destruct ((-9223372036854775808 <=? z)%Z && (z <=? 18446744073709551615)%Z && negb (neg && (z =? 0)%Z)) eqn:Q; eauto.
    intros H. injection H as <- <-. split; [|reflexivity]. constructor. apply andb_prop in Q as [Q _]. lia.
  Qed.

  Lemma number_document s j r : p_number F s = Some (j, r) -> document j /\ jdepth j = 0.
  Proof. destruct s as [|c s]; [discriminate|]. cbn [p_number]. destruct (Ascii.eqb c "-"); apply unsigned_document. Qed.

  Definition good_at (d : nat) (j : json) : Prop := document j /\ jdepth j <= d.

  Lemma items_document d : (forall s j r, p_value F d s = Some (j, r) -> good_at d j) ->
    forall n s l r, p_items (p_value F d) n s = Some (l, r) -> forall j, In j l -> good_at d j.
  Proof.
    intros H. induction n as [|n IH]; intros s l r Hp; [discriminate|]. cbn [p_items] in Hp.
    destruct (p_value F d s) as [[a r']|] eqn:Q; [|discriminate]. cbn [obind fst snd] in Hp. apply H in Q.
    destruct (skip r') as [|c r2]; [discriminate|]. destruct (Ascii.eqb c ",").
    - destruct (p_items (p_value F d) n r2) as [[l' r3]|] eqn:Q2; [|discriminate]. cbn in Hp. injection Hp as <- <-.
      intros j [<-|Hj]; [exact Q|exact (IH _ _ _ Q2 j Hj)].
    - destruct (Ascii.eqb c "]"); [|discriminate]. injection Hp as <- <-. intros j [<-|[]]. exact Q.
  Qed.

  Lemma members_document d : (forall s j r, p_value F d s = Some (j, r) -> good_at d j) ->
    forall n s l r, p_members (p_value F d) n s = Some (l, r) -> forall k j, In (k, j) l -> good_at d j.
  Proof.
    intros H.
    assert (forall s x r, p_member (p_value F d) s = Some (x, r) -> good_at d (snd x)) as M.
    { intros s x r Hp. unfold p_member in Hp. destruct (skip s) as [|c s1]; [discriminate|]. destruct (Ascii.eqb c quote); [|discriminate].
      destruct (p_string s1) as [[k s2]|]; [|discriminate]. cbn [obind fst snd] in Hp. destruct (skip s2) as [|c2 s3]; [discriminate|].
      destruct (Ascii.eqb c2 ":"); [|discriminate]. destruct (p_value F d s3) as [[a r']|] eqn:Q; [|discriminate].
      cbn in Hp. injection Hp as <- <-. cbn. eauto. }
    induction n as [|n IH]; intros s l r Hp; [discriminate|]. cbn [p_members] in Hp.
    destruct (p_member (p_value F d) s) as [[[k0 a] r']|] eqn:Q; [|discriminate]. cbn [obind fst snd] in Hp. apply M in Q. cbn [snd] in Q.
    destruct (skip r') as [|c r2]; [discriminate|]. destruct (Ascii.eqb c ",").
    - destruct (p_members (p_value F d) n r2) as [[l' r3]|] eqn:Q2; [|discriminate]. cbn in Hp. injection Hp as <- <-.
      intros k j [[= <- <-]|Hj]; [exact Q|exact (IH _ _ _ Q2 k j Hj)].
    - destruct (Ascii.eqb c "}"); [|discriminate]. injection Hp as <- <-. intros k j [[= <- <-]|[]]. exact Q.
  Qed.

  Lemma depth_arr l d : (forall j, In j l -> jdepth j <= d) -> jdepth (JArr l) <= S d.
  Proof.
    intros H. cbn. apply le_n_S. induction l as [|a l IH]; cbn; [lia|].
    pose proof (H a (or_introl eq_refl)). specialize (IH (fun j Hj => H j (or_intror Hj))). lia.
  Qed.
  Lemma depth_obj (es : entries) d : (forall k j, In (k, j) es -> jdepth j <= d) -> jdepth (JObj es) <= S d.
  Proof.
    intros H. cbn. apply le_n_S. induction es as [|[k a] l IH]; cbn; [lia|].
    pose proof (H k a (or_introl eq_refl)). specialize (IH (fun k' j Hj => H k' j (or_intror Hj))). lia.
  Qed.

  Lemma value_document d : forall s j r, p_value F d s = Some (j, r) -> good_at d j.
  Proof.
    assert (forall w v s j r, document v -> jdepth v = 0 -> option_map (pair v) (p_word w s) = Some (j, r) -> forall d, good_at d j) as W.
    { intros w v s j r Hv Hd H d'. destruct (p_word w s); [|discriminate]. cbn in H. injection H as <- <-. split; [exact Hv|lia]. }
    induction d as [|d IH]; intros s j r H; cbn [p_value] in H; (destruct (skip s) as [|c s']; [discriminate|]);
      (destruct (Ascii.eqb c "n"); [eapply W; [| |exact H]; [constructor|reflexivity]|]);
      (destruct (Ascii.eqb c "t"); [eapply W; [| |exact H]; [constructor|reflexivity]|]);
      (destruct (Ascii.eqb c "f"); [eapply W; [| |exact H]; [constructor|reflexivity]|]);
      (destruct (Ascii.eqb c quote);
        [destruct (p_string s') as [[k s2]|]; [|discriminate]; cbn in H; injection H as <- <-; split; [constructor|cbn; lia]|]).
    - destruct (Ascii.eqb c "["); [discriminate|]. destruct (Ascii.eqb c "{"); [discriminate|].
      apply number_document in H as [H1 H2]. split; [exact H1|lia].
    - destruct (Ascii.eqb c "[").
      { destruct (skip s') as [|c2 r2]; [discriminate|]. destruct (Ascii.eqb c2 "]").
        - injection H as <- <-. split; [constructor; intros ? []|cbn; lia].
        - destruct (p_items (p_value F d) (length s') s') as [[l r3]|] eqn:Q; [|discriminate]. cbn in H. injection H as <- <-.
          pose proof (items_document IH _ _ Q) as G. split; [constructor; intros; apply G; auto|]. apply depth_arr. intros; apply G; auto. }
      destruct (Ascii.eqb c "{").
      { destruct (skip s') as [|c2 r2]; [discriminate|]. destruct (Ascii.eqb c2 "}").
        - injection H as <- <-. split; [constructor; intros ? ? []|cbn; lia].
        - destruct (p_members (p_value F d) (length s') s') as [[l r3]|] eqn:Q; [|discriminate]. cbn in H. injection H as <- <-.
          pose proof (members_document IH _ _ Q) as G. split; [constructor; intros k j Hj; exact (proj1 (G k j Hj))|].
          apply depth_obj. intros k j Hj. exact (proj2 (G k j Hj)). }
      apply number_document in H as [H1 H2]. split; [exact H1|lia].
  Qed.

  Lemma text_document s j : from_text F s = Some j -> document j /\ ~ nested 128 j.
  Proof.
    unfold from_text. destruct (p_value F depth_limit (list_ascii_of_string s)) as [[a r]|] eqn:Q; [|discriminate].
    cbn [obind fst snd]. destruct (skip r); [|discriminate]. intros H. injection H as <-. apply value_document in Q as [H1 H2].
    split; [exact H1|]. rewrite nested_depth. unfold depth_limit in H2. lia.
  Qed.
End Image.
