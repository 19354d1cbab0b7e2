(** The error of a build is the earliest defect (C64). *)
From Coq Require Import String Bool ZArith Permutation Lia List.
From Verif Require Import Base MinMax Json Serde Types DsBuilder Builder Spec SpecCalls SpecThing
  DsFacts ConvFacts CheckFacts DsProgFacts ProgFacts SaysFacts BuildFacts ThingFacts SpecFirst.
Import ListNotations.
Set Implicit Arguments.
Local Open Scope string_scope.
Local Open Scope list_scope.

Lemma not_after_refl p : not_after p p.
Proof. induction p; simpl; auto. Qed.

Lemma not_after_both p : forall q, not_after p q -> not_after q p -> p = q.
Proof.
  induction p as [|a p IH]; intros [|b q]; simpl; auto; try tauto.
  intros [H|[-> H]] [H'|[E H']]; try lia. f_equal; auto.
Qed.

Notation located := (position -> error -> Prop).

(** ** Results and the first defect *)
Definition first A (D : located) (r : result error A) : Prop :=
  match r with
  | Ok _ => forall p e, ~ D p e
  | Err e => exists p, D p e /\ forall q e', D q e' -> not_after p q
  end.

(** At [n], then as in [D]. *)
Definition under (n : nat) (D : located) : located := fun p e => exists q, p = n :: q /\ D q e.
Definition either (D1 D2 : located) : located := fun p e => D1 p e \/ D2 p e.
Definition here (P : error -> Prop) : located := fun p e => p = [] /\ P e.
Definition nowhere : located := fun _ _ => False.
Definition from (n : nat) (D : located) : Prop := forall p e, D p e -> exists m q, p = m :: q /\ n <= m.

Lemma first_ext A (D D' : located) (r : result error A) :
  (forall p e, D p e <-> D' p e) -> first D r -> first D' r.
Proof.
  intros H. destruct r as [a|e]; simpl.
  - intros F p e Hd. apply (F p e), H, Hd.
  - intros (p & Hp & Hm). exists p. split; [apply H; auto|]. intros q e' Hq. apply (Hm q e'), H, Hq.
Qed.

Lemma first_under A n (D : located) (r : result error A) : first D r -> first (under n D) r.
Proof.
  destruct r as [a|e]; simpl.
  - intros F p e (q & _ & Hd). apply (F q e Hd).
  - intros (p & Hp & Hm). exists (n :: p). split; [exists p; auto|].
    intros q e' (q' & -> & Hd). simpl. right. split; eauto.
Qed.

Lemma first_ok A (a : A) : first nowhere (Ok a).
Proof. intros p e []. Qed.

Lemma first_seq A B n (D1 D2 : located) (r : result error A) (f : A -> result error B) :
  first D1 r -> (forall a, r = Ok a -> first D2 (f a)) -> from (S n) D2 ->
  first (either (under n D1) D2) (rbind r f).
Proof.
  intros F1 F2 Hf. apply (first_under n) in F1. destruct r as [a|e]; simpl in *.
  - specialize (F2 a eq_refl). destruct (f a) as [b|e]; simpl in *.
    + intros p e [Hd|Hd]; [apply (F1 p e Hd)|apply (F2 p e Hd)].
    + destruct F2 as (p & Hp & Hm). exists p. split; [right; auto|].
      intros q e' [Hd|Hd]; [destruct (F1 q e' Hd)|eauto].
  - destruct F1 as (p & Hp & Hm). exists p. split; [left; auto|].
    intros q e' [Hd|Hd]; [eauto|]. destruct Hp as (p' & -> & _).
    destruct (Hf q e' Hd) as (m & q' & -> & Hle). simpl. left. lia.
Qed.

Lemma first_skip A B (D : located) (r : result error A) (f : A -> result error B) a :
  r = Ok a -> first D (f a) -> first D (rbind r f).
Proof. intros -> H. exact H. Qed.

Lemma first_value A B (D : located) (r : result error A) (g : A -> B) :
  first D r -> first D (rbind r (fun a => Ok (g a))).
Proof. destruct r; simpl; auto. Qed.

Lemma first_here A (P : error -> Prop) (r : result error A) :
  match r with Ok _ => forall e, ~ P e | Err e => P e end -> first (here P) r.
Proof.
  destruct r as [a|e]; simpl.
  - intros H p e [_ He]. apply (H e He).
  - intros H. exists []. split; [split; auto|]. simpl. auto.
Qed.

Lemma from_under n m D : n <= m -> from n (under m D).
Proof. intros H p e (q & -> & _). eauto. Qed.
Lemma from_either n D1 D2 : from n D1 -> from n D2 -> from n (either D1 D2).
Proof. intros H1 H2 p e [H|H]; eauto. Qed.
Lemma from_nowhere n : from n nowhere.
Proof. intros p e []. Qed.

(** ** Loops *)

(** The [i]-th element of [l], with what precedes it; [pre] precedes [l]. *)
Definition each A (D : list A -> A -> located) (pre l : list A) : located := fun p e =>
  exists i a q, nth_error l i = Some a /\ p = length pre + i :: q /\ D (pre ++ firstn i l) a q e.

Lemma each_nil A (D : list A -> A -> located) pre p e : ~ each D pre [] p e.
Proof. intros (i & a & q & H & _). destruct i; discriminate. Qed.

Lemma each_cons A (D : list A -> A -> located) pre a l p e :
  each D pre (a :: l) p e <-> either (under (length pre) (D pre a)) (each D (pre ++ [a]) l) p e.
Proof.
  split.
  - intros ([|i] & b & q & H & -> & Hd).
    + left. simpl in H. injection H as <-. simpl in Hd. rewrite app_nil_r in Hd.
      exists q. split; auto. f_equal. lia.
    + right. exists i, b, q. split; [exact H|]. rewrite app_length. simpl in *. rewrite <- app_assoc. simpl.
      split; auto. f_equal. lia.
  - intros [(q & -> & Hd)|(i & b & q & H & -> & Hd)].
    + exists 0, a, q. simpl. rewrite app_nil_r. split; [|split]; auto. f_equal. lia.
    + exists (S i), b, q. simpl. rewrite <- app_assoc in Hd. rewrite app_length. simpl in *.
      split; [|split]; auto. f_equal. lia.
Qed.

Lemma from_each A (D : list A -> A -> located) pre l n : n <= length pre -> from n (each D pre l).
Proof. intros Hn p e (i & a & q & _ & -> & _). exists (length pre + i), q. split; auto. lia. Qed.

Lemma first_cons A B C (D : list A -> A -> located) pre a l (r : result error B) (f : B -> result error C) :
  first (D pre a) r -> (forall b, r = Ok b -> first (each D (pre ++ [a]) l) (f b)) ->
  first (each D pre (a :: l)) (rbind r f).
Proof.
  intros H1 H2. eapply first_ext; [intros p e; symmetry; apply each_cons|].
  apply first_seq; auto. apply from_each. rewrite app_length. simpl. lia.
Qed.

Lemma first_for_each A (D : A -> located) (f : A -> result error unit) l : forall pre,
  (forall a, In a l -> first (D a) (f a)) -> first (each (fun _ => D) pre l) (rfor_each f l).
Proof.
  induction l as [|a l IH]; intros pre H.
  - intros p e. apply each_nil.
  - change (rfor_each f (a :: l)) with (rbind (f a) (fun _ => rfor_each f l)).
    apply first_cons; [apply H; simpl; auto|]. intros _ _. apply IH. intros b Hb. apply H. simpl; auto.
Qed.

Lemma first_map_all A B (D : A -> located) (f : A -> result error B) l : forall pre,
  (forall a, In a l -> first (D a) (f a)) -> first (each (fun _ => D) pre l) (rmap_all f l).
Proof.
  induction l as [|a l IH]; intros pre H.
  - intros p e. apply each_nil.
  - change (rmap_all f (a :: l)) with (rbind (f a) (fun b => rbind (rmap_all f l) (fun l' => Ok (b :: l')))).
    apply first_cons; [apply H; simpl; auto|]. intros b _. apply first_value. apply IH.
    intros c Hc. apply H. simpl; auto.
Qed.

Lemma first_opt A B (D : list A -> located) (f : list A -> result error B) o :
  (forall p e, ~ D [] p e) -> (forall l, o = Some l -> first (D l) (f l)) -> first (D (olist o)) (ropt f o).
Proof.
  intros Hn H. destruct o as [l|]; simpl; [|auto].
  specialize (H l eq_refl). destruct (f l); auto.
Qed.

(** One per element, without what precedes it *)
Definition every A (D : A -> located) (l : list A) : located := fun p e =>
  exists i a q, nth_error l i = Some a /\ p = i :: q /\ D a q e.

Lemma each_every A (D : A -> located) l p e : each (fun _ => D) [] l p e <-> every D l p e.
Proof. unfold each, every. simpl. tauto. Qed.

Lemma first_every A (D : A -> located) (f : A -> result error unit) l :
  (forall a, In a l -> first (D a) (f a)) -> first (every D l) (rfor_each f l).
Proof. intros H. eapply first_ext; [intros p e; apply each_every|apply first_for_each; auto]. Qed.

Lemma first_every_map A B (D : A -> located) (f : A -> result error B) l :
  (forall a, In a l -> first (D a) (f a)) -> first (every D l) (rmap_all f l).
Proof. intros H. eapply first_ext; [intros p e; apply each_every|apply first_map_all; auto]. Qed.

Lemma every_nil A (D : A -> located) p e : ~ every D [] p e.
Proof. intros (i & a & q & H & _). destruct i; discriminate. Qed.

Ltac froms := repeat (apply from_either || apply from_nowhere || (apply from_under; lia)).

Section Build.
  Variable E : env.
  Variable X : exts.
  Notation dsx := (dsx X).
  Notation TG := (tag_parse E).
  Variable ord : order.
  Hypothesis Hord : order_ok ord.

  Definition bad_in (T : string -> Prop) (e : error) : Prop := exists s, T s /\ invalid E s /\ e = InvalidLanguageTag s.

  Lemma first_conv A T (a : A) r : conv TG T a r -> first (here (bad_in T)) r.
  Proof.
    intros H. apply first_here. destruct r as [b|e]; simpl in *.
    - destruct H as [_ H]. intros e (s & Hs & Hn & _). apply (H s Hs Hn).
    - destruct H as (s & Hs & Hn & ->). exists s. auto.
  Qed.

  Lemma judge_value A OK (Bad : error -> Prop) (a b : A) r : judge OK Bad a r -> r = Ok b -> b = a /\ OK.
  Proof. intros H ->. exact H. Qed.

  Section State.
    Variable s : tstate E X.
    Notation y := (body_of s).
    Hypothesis Hwf : tb_wf s.

    (** *** Security definitions *)
    Definition d_scheme (pre : list (string * security_scheme)) (nc : string * security_scheme) : located :=
      either (under 0 (here (bad_in (sec_tag (snd nc)))))
        (either (under 1 (here (fun e => In (fst nc) (map fst pre) /\ e = DuplicatedSecurityDefinition (fst nc)))) nowhere).

    Lemma secdefs_first l : forall pre,
      first (each d_scheme pre l) (secdefs_build E ord l (mof (map (named_of (sec_tagged E ord)) pre))).
    Proof.
      induction l as [|[n c] l IH]; intros pre; cbn [secdefs_build].
      - intros p e. apply each_nil.
      - set (acc := mof (map (named_of (sec_tagged E ord)) pre)).
        assert (R : rbind (sec_build E ord c) (fun c' => if mhas n acc then Err (DuplicatedSecurityDefinition n)
                      else secdefs_build E ord l (minsert n c' acc))
          = rbind (rbind (sec_build E ord c) (fun c' =>
                     rbind (if mhas n acc then Err (DuplicatedSecurityDefinition n) else Ok tt) (fun _ => Ok c')))
              (fun c' => secdefs_build E ord l (minsert n c' acc))).
        { destruct (sec_build E ord c); simpl; auto. destruct (mhas n acc); auto. }
        rewrite R. clear R. apply first_cons.
        + unfold d_scheme. cbn [fst snd]. apply first_seq; [eapply first_conv; apply conv_sec; auto| |froms].
          intros c' _. apply first_seq; [|intros; apply first_ok|froms]. apply first_here.
          unfold acc. destruct (mhas n _) eqn:Em.
          * apply mhas_mof in Em. rewrite map_fst_named in Em. auto.
          * apply mhas_mof_false in Em. rewrite map_fst_named in Em. tauto.
        + intros c' Ec. pose proof (conv_sec E Hord c) as Hc.
          destruct (sec_build E ord c) as [c''|] eqn:Eb; simpl in *; [|discriminate].
          destruct (mhas n acc); simpl in Ec; [discriminate|]. injection Ec as <-. destruct Hc as [-> _].
          specialize (IH (pre ++ [(n, c)])). rewrite (map_app (named_of (sec_tagged E ord))) in IH.
          change (map (named_of (sec_tagged E ord)) [(n, c)]) with [(n, sec_tagged E ord c)] in IH.
          rewrite mof_snoc in IH. exact IH.
    Qed.

    (** *** Combinations *)
    Definition d_combo : located := here (fun e => exists k c n,
      In (k, c) (y_secdefs y) /\ combined c n /\ ~ In n (secnames y) /\ e = MissingSchemaDefinition n).

    Lemma combos_first : NoDup (secnames y) -> first d_combo (check_combos ord (the_defs ord s)).
    Proof.
      intros Hn. apply first_here. pose proof (@combos_judge E X ord Hord s Hn) as J.
      destruct (check_combos ord (the_defs ord s)) as [u|e] eqn:Ec; simpl in J.
      - destruct J as [_ J]. intros e (k & c & n & Hk & Hc & Hno & _). apply Hno. eapply J; eauto.
      - unfold check_combos in Ec. apply rfor_each_Err in Ec as (n & Hin & En).
        destruct (mhas n (the_defs ord s)) eqn:Em; [discriminate|]. injection En as <-.
        apply mhas_defs_false in Em. apply in_flat_map in Hin as ([k c'] & Hk & Hc).
        apply order_In in Hk; auto. apply In_mof in Hk. apply in_map_iff in Hk as ([k0 c] & Ek & Hk).
        inversion Ek; subst. exists k, c, n. split; [exact Hk|]. split; [|auto].
        apply combo_names_In. exact Hc.
    Qed.

    (** *** Forms *)
    Definition d_security (f : form X) : located :=
      every (fun n => here (fun e => ~ In n (secnames y) /\ e = UndefinedSecurity n)) (olist (f_security f)).
    Definition d_ops c (l : list form_op) : located :=
      every (fun o => here (fun e => ~ In o (ops_of c) /\ e = InvalidOpInForm c o)) l.

    Lemma security_first f : first (d_security f) (check_security (the_defs ord s) (f_security f)).
    Proof.
      unfold d_security, check_security. destruct (f_security f) as [l|]; [|intros p e; apply every_nil].
      apply first_every. intros n _. apply first_here. destruct (mhas n (the_defs ord s)) eqn:Em.
      - apply mhas_defs in Em. tauto.
      - apply mhas_defs_false in Em. auto.
    Qed.

    Lemma check_ops_each c allowed l :
      check_ops c allowed l = rfor_each (fun o => if allowed o then Ok tt else Err (InvalidOpInForm c o)) l.
    Proof.
      unfold check_ops. induction l as [|o l IH]; simpl; auto. destruct (allowed o); simpl; auto.
    Qed.

    Lemma ops_first c allowed l :
      (forall o, allowed o = true <-> In o (ops_of c)) -> first (d_ops c l) (check_ops c allowed l).
    Proof.
      intros Ha. rewrite check_ops_each. apply first_every. intros o _. apply first_here.
      specialize (Ha o). destruct (allowed o).
      - intros e [Hn _]. apply Hn, Ha; auto.
      - split; auto. intros Hin. apply Ha in Hin. discriminate.
    Qed.

    Definition d_responses (f : form X) : located :=
      every (fun r => here (fun e => exists n, ar_schema r = Some n /\ ~ In n (map fst (y_schemas y))
                                               /\ e = MissingSchemaDefinition n)) (olist (f_additional f)).

    Definition d_form (f : form X) : located :=
      either (under 0 (d_security f))
        (either (under 1 (match f_op f with
                          | OpDefault => here (fun e => e = MissingOpInForm)
                          | OpCustom l => d_ops CtxThing l
                          end))
           (either (under 2 (d_responses f)) nowhere)).

    Lemma form_first f : first (d_form f) (thing_form_build (the_defs ord s) (the_schemas ord s) f).
    Proof.
      unfold d_form, thing_form_build.
      apply first_seq; [apply security_first|intros _ _|froms].
      apply first_seq; [|intros _ _|froms].
      { destruct (f_op f) as [|l]; [apply first_here; auto|]. apply ops_first. apply op_thing_iff. }
      apply first_seq; [|intros; apply first_ok|froms].
      apply first_every. intros r _. apply first_here. destruct (ar_schema r) as [n|].
      - destruct (mhas n (the_schemas ord s)) eqn:Em.
        + intros e (n' & En & Hn & _). injection En as <-. apply Hn. apply mhas_In in Em.
          unfold the_schemas in Em. rewrite mkeys_mmap in Em. exact Em.
        + exists n. split; auto. split; auto. intros Hn. assert (mhas n (the_schemas ord s) = true); [|congruence].
          apply mhas_In. unfold the_schemas. rewrite mkeys_mmap. exact Hn.
      - intros e (n & En & _). discriminate.
    Qed.

    (** *** Affordances *)
    Definition d_uri (m : list (string * dsx)) : located :=
      here (fun e => (exists n d, In (n, d) m /\ is_aggregate d) /\ e = InvalidUriVariables).

    Lemma uri_first (m : amap dsx) :
      first (d_uri m) (if uri_has_aggregates ord m then Err InvalidUriVariables else Ok tt).
    Proof.
      apply first_here. destruct (uri_has_aggregates ord m) eqn:Eu.
      - split; auto. apply (@uri_aggregates_iff X ord Hord m). exact Eu.
      - intros e [Hx _]. assert (uri_has_aggregates ord m = true); [|congruence].
        apply (@uri_aggregates_iff X ord Hord m). exact Hx.
    Qed.

    Definition d_aff_form k (f : form X) : located :=
      either (under 0 (match f_op f with OpDefault => nowhere | OpCustom l => d_ops (ctx_of k) l end))
        (either (under 1 (d_security f)) nowhere).

    Definition d_ia k (i : interaction X) : located :=
      either (under 0 (every (d_aff_form k) (ia_forms i)))
        (either (under 1 (d_uri (olist (ia_uri i)))) nowhere).

    Lemma rbind_unit (r : result error unit) : r = rbind r (fun _ => Ok tt).
    Proof. destruct r as [[]|]; auto. Qed.

    Lemma aff_form_first k f : first (d_aff_form k f) (check_form (the_defs ord s) k f).
    Proof.
      unfold d_aff_form, check_form. apply first_seq; [|intros _ _|froms].
      - destruct (f_op f) as [|l]; [apply first_ok|]. apply ops_first. apply op_allowed_iff.
      - rewrite (rbind_unit (check_security _ _)).
        apply first_seq; [apply security_first|intros; apply first_ok|froms].
    Qed.

    Lemma ia_check_first k info (ib : ia_b X) :
      first (d_ia k (ia_of info ib)) (ia_check ord (the_defs ord s) k ib).
    Proof.
      unfold d_ia, ia_check. simpl ia_forms. simpl ia_uri. rewrite olist_nonempty.
      apply first_seq; [apply first_every; intros; apply aff_form_first|intros _ _|froms].
      rewrite (rbind_unit (if uri_has_aggregates ord (ib_uri ib) then _ else _)).
      apply first_seq; [apply uri_first|intros; apply first_ok|froms].
    Qed.

    Definition d_bounds (l : list (option dsx)) : located :=
      every (fun o => here (fun e => exists d e' b, o = Some d /\ sub_ds e' d /\ ds_sub e' = Some b /\ bounds_defect e b)) l.

    Lemma bounds_first (l : list (option dsx)) :
      first (d_bounds l) (rfor_each (fun o => match o with Some d => check ord d | None => Ok tt end) l).
    Proof.
      apply first_every. intros [d|] _; apply first_here.
      - destruct (check ord d) as [[]|e] eqn:Ec.
        + apply check_ok in Ec; auto. intros e (d' & e' & b & Ed & Hs & Eb & Hb). injection Ed as <-.
          eapply defect_not_accepted; eauto.
        + apply check_err in Ec as (e' & b & Hs & Es & Hd); auto. exists d, e', b. auto.
      - intros e (d & e' & b & Ed & _). discriminate.
    Qed.

    Definition d_aff k (pre : list (string * part X)) (na : string * part X) : located :=
      either (under 0 (every (d_aff_form k) (ia_forms (pt_ia (snd na)))))
     (either (under 1 (d_uri (olist (ia_uri (pt_ia (snd na))))))
     (either (under 2 (d_bounds (pt_checked (snd na))))
     (either (under 3 (here (fun e => In (fst na) (map fst pre) /\ e = DuplicatedAffordance k (fst na))))
     (either (under 4 (here (bad_in (part_tag (snd na))))) nowhere)))).

    Lemma rbind_assoc A B C (r : result error A) (f : A -> result error B) (g : B -> result error C) :
      rbind (rbind r f) g = rbind r (fun a => rbind (f a) g).
    Proof. destruct r; auto. Qed.

    Section Fold.
      Variables (A B : Type) (k : affordance_type) (get_ia : A -> ia_b X) (get_ds : A -> list (option dsx)).
      Variables (pt : A -> part X) (g : A -> B) (bld : A -> result error B).
      Hypothesis Hforms : forall a, ia_forms (pt_ia (pt a)) = ib_forms (get_ia a).
      Hypothesis Huri : forall a, olist (ia_uri (pt_ia (pt a))) = ib_uri (get_ia a).
      Hypothesis Hds : forall a, pt_checked (pt a) = get_ds a.

      Lemma fold_first l : forall pre,
        (forall n a, In (n, a) l -> conv TG (part_tag (pt a)) (g a) (bld a)) ->
        first (each (d_aff k) (map (named_of pt) pre) (map (named_of pt) l))
          (affordances_fold ord (the_defs ord s) k get_ia get_ds bld l (mof (map (named_of g) pre))).
      Proof.
        induction l as [|[n a] l IH]; intros pre Hb; cbn [affordances_fold].
        - intros p e. apply each_nil.
        - set (acc := mof (map (named_of g) pre)).
          set (R1 := rfor_each (check_form (the_defs ord s) k) (ib_forms (get_ia a))).
          set (R2 := if uri_has_aggregates ord (ib_uri (get_ia a)) then Err InvalidUriVariables else Ok tt).
          set (R3 := rfor_each (fun o => match o with Some d => check ord d | None => Ok tt end) (get_ds a)).
          set (R4 := if mhas n acc then Err (DuplicatedAffordance k n) else Ok tt).
          assert (R : rbind (ia_check ord (the_defs ord s) k (get_ia a)) (fun _ =>
                      rbind R3 (fun _ => if mhas n acc then Err (DuplicatedAffordance k n)
                        else rbind (bld a) (fun b => affordances_fold ord (the_defs ord s) k get_ia get_ds bld l (minsert n b acc))))
            = rbind (rbind R1 (fun _ => rbind R2 (fun _ => rbind R3 (fun _ => rbind R4 (fun _ => rbind (bld a) (fun b => Ok b))))))
                (fun b => affordances_fold ord (the_defs ord s) k get_ia get_ds bld l (minsert n b acc))).
          { unfold ia_check. fold R1. fold R2. destruct R1; simpl; auto. destruct R2; simpl; auto.
            destruct R3; simpl; auto. unfold R4. destruct (mhas n acc); simpl; auto. destruct (bld a); auto. }
          rewrite R. clear R. cbn [map]. apply first_cons.
          + unfold d_aff. cbn [named_of fst snd]. rewrite Hforms, Huri, Hds.
            apply first_seq; [apply first_every; intros; apply aff_form_first|intros _ _|froms].
            apply first_seq; [apply uri_first|intros _ _|froms].
            apply first_seq; [apply bounds_first|intros _ _|froms].
            apply first_seq; [|intros _ _|froms].
            { apply first_here. unfold R4, acc. rewrite map_fst_named. destruct (mhas n _) eqn:Em.
              - apply mhas_mof in Em. rewrite map_fst_named in Em. auto.
              - apply mhas_mof_false in Em. rewrite map_fst_named in Em. tauto. }
            apply first_seq; [eapply first_conv; eapply Hb; simpl; eauto|intros; apply first_ok|froms].
          + intros b Eb. assert (Hv : bld a = Ok b).
            { destruct R1; simpl in Eb; [|discriminate]. destruct R2; simpl in Eb; [|discriminate].
              destruct R3; simpl in Eb; [|discriminate]. destruct R4; simpl in Eb; [|discriminate].
              destruct (bld a); simpl in Eb; [|discriminate]. auto. }
            pose proof (Hb n a (or_introl eq_refl)) as Hc. rewrite Hv in Hc. destruct Hc as [-> _].
            specialize (IH (pre ++ [(n, a)]) (fun n' a' H => Hb n' a' (or_intror H))).
            rewrite !map_app in IH.
            change (map (named_of g) [(n, a)]) with [(n, g a)] in IH.
            change (map (named_of pt) [(n, a)]) with [named_of pt (n, a)] in IH.
            rewrite mof_snoc in IH. exact IH.
      Qed.

      Lemma affordances_first (l : list (string * A)) :
        (forall n a, In (n, a) l -> conv TG (part_tag (pt a)) (g a) (bld a)) ->
        first (each (d_aff k) [] (map (named_of pt) l))
          (affordances_build ord (the_defs ord s) k get_ia get_ds bld l).
      Proof.
        intros Hb. unfold affordances_build. destruct l as [|a l]; [intros p e; apply each_nil|].
        apply first_value. apply (fold_first (a :: l) []). exact Hb.
      Qed.
    End Fold.

    (** *** Links *)
    Definition d_link (l : link) : located :=
      either (under 0 (here (fun e => (exists z, l_sizes l = Some z /\ l_rel l <> Some "icon") /\ e = SizesWithRelNotIcon)))
        (either (under 1 (every (fun t => here (fun e => invalid E t /\ e = InvalidLanguageTag t)) (olist (l_hreflang l)))) nowhere).

    Lemma link_first l : In l (olist (tb_links s)) -> first (d_link (link_of l)) (link_build E l).
    Proof.
      intros Hin. pose proof (tw_links Hwf _ Hin) as Hh. unfold link_build.
      destruct (lb_href l) as [h|] eqn:Eh; [|congruence].
      set (b := match lb_sizes l with Some _ => _ | None => _ end).
      set (K := fun hl => {| l_href := h; l_type := lb_type l; l_rel := lb_rel l; l_anchor := lb_anchor l;
                  l_sizes := lb_sizes l; l_hreflang := nonempty hl |}).
      assert (R : (if b then Err SizesWithRelNotIcon else rbind (rmap_all (parse_tag TG) (lb_hreflang l)) (fun hl => Ok (K hl)))
        = rbind (if b then Err SizesWithRelNotIcon else Ok tt) (fun _ =>
            rbind (rmap_all (parse_tag TG) (lb_hreflang l)) (fun hl => Ok (K hl)))).
      { destruct b; auto. }
      unfold K in R. rewrite R. clear R. unfold d_link. simpl l_sizes. simpl l_rel. simpl l_hreflang.
      rewrite olist_nonempty. apply first_seq; [|intros _ _|froms].
      - apply first_here. unfold b. clear b K. destruct (lb_sizes l) as [z|]; [|intros e [(z & Ez & _) _]; discriminate].
        destruct (lb_rel l) as [r|].
        + destruct (String.eqb_spec r "icon") as [->|Hr]; simpl.
          * intros e [(z' & _ & H) _]. apply H. auto.
          * split; auto. exists z. split; auto. congruence.
        + split; auto. exists z. split; auto. discriminate.
      - apply first_seq; [|intros; apply first_ok|froms]. apply first_every_map. intros t _.
        apply first_here. unfold parse_tag, invalid. destruct (TG t); [|auto].
        intros e [H _]. discriminate.
    Qed.

    (** *** Everything *)
    Definition d_all : located :=
      either (under 0 (each d_scheme [] (y_secdefs y)))
     (either (under 1 d_combo)
     (either (under 2 (here (bad_in (@uri_tag X (y_schemas y)))))
     (either (under 3 (every d_form (y_forms y)))
     (either (under 4 (d_uri (y_uris y)))
     (either (under 5 (here (bad_in (@uri_tag X (y_uris y)))))
     (either (under 6 (each (d_aff AProperty) [] (parts y AProperty)))
     (either (under 7 (each (d_aff AAction) [] (parts y AAction)))
     (either (under 8 (each (d_aff AEvent) [] (parts y AEvent)))
     (either (under 9 (every d_link (y_links y)))
     (either (under 10 (here (bad_in (fun t => In t (mkeys (y_titles y))))))
     (either (under 11 (here (bad_in (fun t => In t (mkeys (y_descriptions y)))))) nowhere))))))))))).

    Lemma property_part_tag (u : uproperty X) t : property_tag (property_of u) t <-> part_tag (property_part (property_of u)) t.
    Proof.
      split.
      - intros [[H|(k & d & Hin & Hd)]|H].
        + apply pt_info; auto.
        + eapply pt_uri; eauto.
        + eapply pt_schema; eauto. simpl. auto.
      - intros [H|n d Hin Hd|d Hin Hd].
        + left; left; auto.
        + left; right; exists n, d; auto.
        + right. simpl in Hin. destruct Hin as [Ed|[]]. injection Ed as <-. auto.
    Qed.

    Lemma action_part_tag (u : action_b X) t : action_tag (action_of u) t <-> part_tag (action_part (action_of u)) t.
    Proof.
      split.
      - intros [[H|(k & d & Hin & Hd)]|[(d & Ed & Hd)|(d & Ed & Hd)]].
        + apply pt_info; auto.
        + eapply pt_uri; eauto.
        + eapply pt_schema; eauto. simpl in *. auto.
        + eapply pt_schema; eauto. simpl in *. auto.
      - intros [H|n d Hin Hd|d Hin Hd].
        + left; left; auto.
        + left; right; exists n, d; auto.
        + right. simpl in Hin. destruct Hin as [Ed|[Ed|[]]]; [left|right]; exists d; auto.
    Qed.

    Lemma event_part_tag (u : event_b X) t : event_tag (event_of u) t <-> part_tag (event_part (event_of u)) t.
    Proof.
      split.
      - intros [[H|(k & d & Hin & Hd)]|[(d & Ed & Hd)|[(d & Ed & Hd)|[(d & Ed & Hd)|(d & Ed & Hd)]]]].
        + apply pt_info; auto.
        + eapply pt_uri; eauto.
        + eapply pt_schema; eauto. simpl in *. auto.
        + eapply pt_schema; eauto. simpl in *. auto.
        + eapply pt_schema; eauto. simpl in *. auto.
        + eapply pt_schema; eauto. simpl in *. auto.
      - intros [H|n d Hin Hd|d Hin Hd].
        + left; left; auto.
        + left; right; exists n, d; auto.
        + right. simpl in Hin. destruct Hin as [Ed|[Ed|[Ed|[Ed|[]]]]].
          * left. exists d. auto.
          * right; left. exists d. auto.
          * right; right; left. exists d. auto.
          * right; right; right. exists d. auto.
    Qed.

    Lemma parts_p : parts y AProperty = map (named_of (fun u => property_part (property_of u))) (tb_properties s).
    Proof. simpl. rewrite map_map. apply map_ext. intros [n u]. reflexivity. Qed.
    Lemma parts_a : parts y AAction = map (named_of (fun u => action_part (action_of u))) (tb_actions s).
    Proof. simpl. rewrite map_map. apply map_ext. intros [n u]. reflexivity. Qed.
    Lemma parts_e : parts y AEvent = map (named_of (fun u => event_part (event_of u))) (tb_events s).
    Proof. simpl. rewrite map_map. apply map_ext. intros [n u]. reflexivity. Qed.

    Lemma every_map A B (h : A -> B) (D : B -> located) l p e :
      every D (map h l) p e <-> every (fun a => D (h a)) l p e.
    Proof.
      split.
      - intros (i & b & q & Hi & Hp & Hd). rewrite nth_error_map in Hi.
        destruct (nth_error l i) as [a|] eqn:Ei; [|discriminate]. injection Hi as <-. exists i, a, q. auto.
      - intros (i & a & q & Hi & Hp & Hd). exists i, (h a), q. rewrite nth_error_map, Hi. auto.
    Qed.

    Lemma first_tags (o : option (list (string * string))) :
      first (here (bad_in (fun t => In t (mkeys (olist o))))) (ropt (ml_build ord TG) o).
    Proof.
      destruct o as [m|]; simpl.
      - pose proof (first_conv _ _ _ (conv_ml_build TG Hord m)) as F. destruct (ml_build ord TG m); exact F.
      - intros p e (_ & t & [] & _).
    Qed.

    Lemma tbuild_first : first (d_all) (tbuild ord s).
    Proof.
      unfold d_all, tbuild.
      apply first_seq; [apply (secdefs_first (tb_secdefs s) [])| |froms].
      intros defs Hdefs. destruct (judge_value _ _ _ (secdefs_judge Hord s) Hdefs) as [-> [Hsec _]].
      apply first_seq; [apply combos_first; auto|intros _ _|froms].
      pose proof (tw_schemas Hwf) as Hsch.
      assert (Hcs : conv TG (@uri_tag X (tb_schemas s)) (the_schemas ord s)
                (map_build ord (@ds_build (pty (x_ds X)) (pty (x_as X)) (pty (x_os X)) ord TG) (tb_schemas s))).
      { destruct Hsch. apply conv_uri; auto. }
      apply first_seq; [eapply first_conv; exact Hcs| |froms].
      intros schemas Hs. rewrite Hs in Hcs. clear Hs. destruct Hcs as [-> _].
      apply first_seq; [|intros ? _|froms].
      { apply (@first_opt _ _ (fun l => every d_form l)); [intros p e; apply every_nil|].
        intros l _. apply first_every_map. intros f _. apply form_first. }
      eapply first_skip with (a := the_context ord s).
      { destruct (tw_context Hwf) as [cs Ec]. unfold the_context, context_build. rewrite Ec. destruct cs; reflexivity. }
      apply first_seq; [|intros ? _|froms].
      { simpl y_uris. destruct (tb_uri s) as [m|]; [apply uri_first|].
        intros p e (_ & (n & d & [] & _) & _). }
      apply first_seq; [|intros ? _|froms].
      { simpl y_uris. destruct (tb_uri s) as [m|] eqn:Em.
        - destruct (tw_uri Hwf Em) as [H1 H2].
          pose proof (first_conv _ _ _ (@conv_uri E X ord Hord m H1 H2)) as F. simpl ropt.
          destruct (map_build ord (@ds_build (pty (x_ds X)) (pty (x_as X)) (pty (x_os X)) ord TG) m); exact F.
        - intros p e (_ & t & (k & d & [] & _) & _). }
      apply first_seq; [|intros ? _|froms].
      { rewrite parts_p. eapply affordances_first with (g := fun u => property_tagged E ord (property_of u)); try reflexivity.
        - intros u. apply olist_nonempty.
        - intros n u Hin. eapply conv_ext; [intros t; apply property_part_tag|].
          apply conv_property; auto. eapply (tw_properties Hwf); eauto. }
      apply first_seq; [|intros ? _|froms].
      { rewrite parts_a. eapply affordances_first with (g := fun u => action_tagged E ord (action_of u)); try reflexivity.
        - intros u. apply olist_nonempty.
        - intros n u Hin. eapply conv_ext; [intros t; apply action_part_tag|].
          apply conv_action; auto. eapply (tw_actions Hwf); eauto. }
      apply first_seq; [|intros ? _|froms].
      { rewrite parts_e. eapply affordances_first with (g := fun u => event_tagged E ord (event_of u)); try reflexivity.
        - intros u. apply olist_nonempty.
        - intros n u Hin. eapply conv_ext; [intros t; apply event_part_tag|].
          apply conv_event; auto. eapply (tw_events Hwf); eauto. }
      apply first_seq; [|intros ? _|froms].
      { simpl y_links. eapply first_ext; [intros p e; symmetry; apply every_map|].
        apply (@first_opt _ _ (fun l => every (fun a => d_link (link_of a)) l)); [intros p e; apply every_nil|].
        intros l El. apply first_every_map. intros lk Hlk. apply link_first. rewrite El. exact Hlk. }
      apply first_seq; [apply first_tags|intros ? _|froms].
      apply first_seq; [apply first_tags|intros; apply first_ok|froms].
    Qed.

    (** *** The positions of the specification *)

    Lemma aff_defect_at k p e :
      each (d_aff k) [] (parts y k) p e -> defect_at E y (rank k :: p) e.
    Proof.
      intros (i & [n a] & q & Hi & -> & Hd). simpl app in Hd. simpl length. simpl plus.
      destruct Hd as [Hd|[Hd|[Hd|[Hd|[Hd|[]]]]]]; destruct Hd as (q1 & -> & Hd); cbn [fst snd] in Hd.
      - destruct Hd as (j & f & q2 & Hj & -> & Hd).
        destruct Hd as [Hd|[Hd|[]]]; destruct Hd as (q3 & -> & Hd).
        + destruct (f_op f) as [|l] eqn:Eo; [destruct Hd|]. destruct Hd as (m & o & q4 & Hm & -> & -> & Hn & ->).
          eapply at_aff_op; eauto.
        + destruct Hd as (m & o & q4 & Hm & -> & -> & Hn & ->). eapply at_aff_security; eauto.
      - destruct Hd as (-> & (v & d & Hin & Ha) & ->). eapply at_aff_uri; eauto.
      - destruct Hd as (m & o & q2 & Hm & -> & -> & d & e' & b & -> & Hs & Eb & Hb). eapply at_aff_bounds; eauto.
      - destruct Hd as (-> & Hin & ->). eapply at_aff_twice; eauto.
      - destruct Hd as (-> & t & Ht & Hn & ->). eapply at_aff_tag; eauto.
    Qed.

    Lemma d_all_iff p e : d_all p e <-> defect_at E y p e.
    Proof.
      split.
      - intros H. unfold d_all in H.
        destruct H as [H|[H|[H|[H|[H|[H|[H|[H|[H|[H|[H|[H|[]]]]]]]]]]]]]; destruct H as (q & -> & H).
        + destruct H as (i & [n c] & q1 & Hi & -> & Hd). simpl in Hd. simpl length. simpl plus.
          destruct Hd as [Hd|[Hd|[]]]; destruct Hd as (q2 & -> & -> & Hd).
          * destruct Hd as (t & (m & Em & Ht) & Hn & ->). eapply at_scheme_tag; eauto.
          * destruct Hd as [Hin ->]. eapply at_scheme_twice; eauto.
        + destruct H as (-> & k & c & n & Hk & Hc & Hn & ->). eapply at_combo; eauto.
        + destruct H as (-> & t & (k & d & Hin & Hd) & Hn & ->). eapply at_schema_tag; eauto.
        + destruct H as (i & f & q1 & Hi & -> & Hd).
          destruct Hd as [Hd|[Hd|[Hd|[]]]]; destruct Hd as (q2 & -> & Hd).
          * destruct Hd as (j & n & q3 & Hj & -> & -> & Hn & ->). eapply at_form_security; eauto.
          * destruct (f_op f) as [|l] eqn:Eo.
            -- destruct Hd as [-> ->]. eapply at_form_default; eauto.
            -- destruct Hd as (j & n & q3 & Hj & -> & -> & Hn & ->). eapply at_form_op; eauto.
          * destruct Hd as (j & r & q3 & Hj & -> & -> & n & En & Hn & ->). eapply at_form_response; eauto.
        + destruct H as (-> & (n & d & Hin & Ha) & ->). eapply at_uri; eauto.
        + destruct H as (-> & t & (k & d & Hin & Hd) & Hn & ->). eapply at_uri_tag; eauto.
        + apply (aff_defect_at H).
        + apply (aff_defect_at H).
        + apply (aff_defect_at H).
        + destruct H as (i & l & q1 & Hi & -> & Hd). destruct Hd as [Hd|[Hd|[]]]; destruct Hd as (q2 & -> & Hd).
          * destruct Hd as (-> & (z & Ez & Hr) & ->). eapply at_link_sizes; eauto.
          * destruct Hd as (j & t & q3 & Hj & -> & -> & Hn & ->). eapply at_link_tag; eauto.
        + destruct H as (-> & t & Ht & Hn & ->). eapply at_title; eauto.
        + destruct H as (-> & t & Ht & Hn & ->). eapply at_description; eauto.
      - intros H. unfold d_all.
        assert (Haff : forall k q e, each (d_aff k) [] (parts y k) q e ->
          either (under 6 (each (d_aff AProperty) [] (parts y AProperty)))
         (either (under 7 (each (d_aff AAction) [] (parts y AAction)))
         (either (under 8 (each (d_aff AEvent) [] (parts y AEvent))) nowhere)) (rank k :: q) e).
        { intros [] q e0 Hq; [left|right; left|right; right; left]; exists q; auto. }
        assert (Hin : forall k i n a q e, nth_error (parts y k) i = Some (n, a) ->
                  d_aff k (firstn i (parts y k)) (n, a) q e ->
                  each (d_aff k) [] (parts y k) (i :: q) e).
        { intros k i n a q e0 Hi Hd. exists i, (n, a), q. auto. }
        assert (Hafter : forall k i n a q e, nth_error (parts y k) i = Some (n, a) ->
                  d_aff k (firstn i (parts y k)) (n, a) q e ->
                  d_all (rank k :: i :: q) e).
        { intros k i n a q e0 Hi Hd. specialize (Haff k (i :: q) e0 (Hin _ _ _ _ _ _ Hi Hd)).
          unfold d_all. do 6 right. destruct Haff as [H1|[H1|[H1|[]]]]; [left|right; left|right; right; left]; exact H1. }
        destruct H.
        + left. eexists. split; [reflexivity|]. exists i, (n, c), [0]. split; [auto|]. split; [auto|].
          left. exists []. split; auto. split; auto. exists s0. split; [exists m; auto|auto].
        + left. eexists. split; [reflexivity|]. exists i, (n, c), [1]. split; [auto|]. split; [auto|].
          right. left. exists []. split; auto. split; auto.
        + right; left. eexists. split; [reflexivity|]. split; auto. exists k, c, n. auto.
        + do 2 right; left. eexists. split; [reflexivity|]. split; auto. exists s0. split; [exists n, d; auto|auto].
        + do 3 right; left. eexists. split; [reflexivity|]. exists i, f, [0; j]. split; auto. split; auto.
          left. exists [j]. split; auto. exists j, n, []. repeat (split; auto).
        + do 3 right; left. eexists. split; [reflexivity|]. exists i, f, [1]. split; auto. split; auto.
          right. left. exists []. split; auto. rewrite H0. split; auto.
        + do 3 right; left. eexists. split; [reflexivity|]. exists i, f, [1; j]. split; auto. split; auto.
          right. left. exists [j]. split; auto. rewrite H0. exists j, o, []. repeat (split; auto).
        + do 3 right; left. eexists. split; [reflexivity|]. exists i, f, [2; j]. split; auto. split; auto.
          right. right. left. exists [j]. split; auto. exists j, r, []. split; auto. split; auto. split; auto.
          exists n. auto.
        + do 4 right; left. eexists. split; [reflexivity|]. split; auto. split; auto. exists n, d. auto.
        + do 5 right; left. eexists. split; [reflexivity|]. split; auto. exists s0. split; [exists n, d; auto|auto].
        + apply (Hafter _ _ _ _ _ _ H). left. eexists. split; [reflexivity|]. exists j, f, [0; m]. split; auto.
          split; auto. left. eexists. split; [reflexivity|]. rewrite H1. exists m, o, []. repeat (split; auto).
        + apply (Hafter _ _ _ _ _ _ H). left. eexists. split; [reflexivity|]. exists j, f, [1; m]. split; auto.
          split; auto. right. left. eexists. split; [reflexivity|]. exists m, s0, []. repeat (split; auto).
        + apply (Hafter _ _ _ _ _ _ H). right; left. eexists. split; [reflexivity|]. split; auto. split; auto.
          exists v, d. auto.
        + apply (Hafter _ _ _ _ _ _ H). do 2 right; left. eexists. split; [reflexivity|].
          exists m, (Some d), []. split; auto. split; auto. split; auto. exists d, e', b. auto.
        + apply (Hafter _ _ _ _ _ _ H). do 3 right; left. eexists. split; [reflexivity|]. split; auto.
        + apply (Hafter _ _ _ _ _ _ H). do 4 right; left. eexists. split; [reflexivity|]. split; auto.
          exists s0. auto.
        + do 9 right; left. eexists. split; [reflexivity|]. exists i, l, [0]. split; auto. split; auto.
          left. eexists. split; [reflexivity|]. split; auto. split; auto. exists z. auto.
        + do 9 right; left. eexists. split; [reflexivity|]. exists i, l, [1; j]. split; auto. split; auto.
          right; left. eexists. split; [reflexivity|]. exists j, s0, []. repeat (split; auto).
        + do 10 right; left. eexists. split; [reflexivity|]. split; auto. exists s0. auto.
        + do 11 right; left. eexists. split; [reflexivity|]. split; auto. exists s0. auto.
    Qed.
  End State.
End Build.

Section Statements.
  Variable E : env.
  Variable X : exts.

  Lemma first_defect ord title x (p : list (top E X)) r :
    order_ok ord -> thing_program ord title x p = Some r ->
    forall y, declares p y ->
      ((exists t, r = Ok t) <-> forall q e, ~ defect_at E y q e)
      /\ (forall e, r = Err e -> exists q, defect_at E y q e /\ earliest E y q).
  Proof.
    intros Ho Hr y Hy. unfold thing_program in Hr.
    destruct (trun p (thing_new E X title x)) as [s|] eqn:Er; [|discriminate]. simpl in Hr. injection Hr as <-.
    pose proof (trun_says _ _ _ Er) as Hs.
    assert (Hwf : tb_wf s) by (eapply tb_says_wf; eauto).
    assert (Hd : declares p (body_of s)) by (eapply tb_says_declares; eauto).
    assert (y = body_of s) as -> by (eapply declares_fun; eauto).
    pose proof (tbuild_first Ho Hwf) as F.
    assert (F' : first (defect_at E (body_of s)) (tbuild ord s)) by (eapply first_ext; [intros; apply d_all_iff|exact F]).
    clear F. rename F' into F.
    destruct (tbuild ord s) as [t|e]; simpl in F.
    - split; [split; eauto|discriminate].
    - split.
      + split; [intros (t & Ht); discriminate|]. intros Hn. destruct F as (q & Hq & _). destruct (Hn q e Hq).
      + intros e' He. injection He as <-. exact F.
  Qed.

  (** At an ordered position one error only. *)
  Lemma ordered_error (y : body X) q e q' e' :
    defect_at E y q e -> defect_at E y q' e' -> q = q' -> ~ unordered q -> e = e'.
  Proof.
    intros H. destruct H; intros H' Eq Hu; try (destruct (Hu I)); try (destruct k; destruct (Hu I)).
    all: destruct H'; try discriminate Eq; try (destruct k; discriminate Eq); try (destruct k0; discriminate Eq);
      try congruence; destruct k, k0; try discriminate Eq; congruence.
  Qed.

  Lemma same_place ord1 ord2 title x (p : list (top E X)) e1 e2 :
    order_ok ord1 -> order_ok ord2 ->
    thing_program ord1 title x p = Some (Err e1) -> thing_program ord2 title x p = Some (Err e2) ->
    forall y, declares p y ->
      exists q, defect_at E y q e1 /\ defect_at E y q e2 /\ earliest E y q /\ (unordered q \/ e1 = e2).
  Proof.
    intros O1 O2 H1 H2 y Hy.
    destruct (first_defect _ _ O1 H1 Hy) as [_ F1]. destruct (first_defect _ _ O2 H2 Hy) as [_ F2].
    destruct (F1 e1 eq_refl) as (q1 & D1 & M1). destruct (F2 e2 eq_refl) as (q2 & D2 & M2).
    assert (q1 = q2) as <- by (apply not_after_both; [eapply M1|eapply M2]; eauto).
    exists q1. split; [|split; [|split]]; auto.
    assert (Hu : unordered q1 \/ ~ unordered q1).
    { unfold unordered. repeat match goal with |- context [match ?z with _ => _ end] => destruct z end; auto. }
    destruct Hu as [Hu|Hu]; auto. right. eapply ordered_error; eauto.
  Qed.
End Statements.
