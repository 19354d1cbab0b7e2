(** A sample program with several defects (C64). *)
From Coq Require Import String Bool ZArith Lia List.
From Verif Require Import Base MinMax Json Serde Types DsBuilder Builder Spec SpecCalls SpecThing
  ConvFacts DsProgFacts ProgFacts SaysFacts Protocol Samples SampleFacts SpecFirst FirstFacts.
Import ListNotations.
Set Implicit Arguments.
Local Open Scope string_scope.
Local Open Scope list_scope.

Definition tangled : list hop :=
  [ TDescriptions [("", "")];
    TLinkWith [LHref "x"; LSizes "1x1"];
    TFinish;
    TAction "a" tt tt [AInput bad_bounds];
    TProperty "p" tt tt (map (@PDs http_exts) [DFinish tt; DBool]);
    TProperty "q" tt tt (map (@PDs http_exts) bad_bounds ++
      [PIa (IForm no_method [FHref "/"; FOp ReadProperty; FOp InvokeAction; FOp QueryAction])]);
    TProperty "p" tt tt (map (@PDs http_exts) bad_bounds) ].

(** What it declares. *)
Definition declared (p : list hop) : body http_exts :=
  match trun p (thing_new sample_env http_exts "Lamp" tt) with
  | Some s => body_of s
  | None => body_of (thing_new sample_env http_exts "Lamp" tt)
  end.
Definition tangled_body : body http_exts.
Proof.
  let r := eval cbv -[http_exts sample_env] in (declared tangled) in exact r.
Defined.

Lemma declares_run (p : list hop) r : run id_order p = Some r -> declares p (declared p).
Proof.
  unfold thing_program, declared.
  destruct (trun p (thing_new sample_env http_exts "Lamp" tt)) as [s|] eqn:Es; [|discriminate].
  intros _. eapply tb_says_declares. eapply trun_says. exact Es.
Qed.

Lemma tangled_fails : run id_order tangled = Some (Err (InvalidOpInForm CtxProperty InvokeAction)).
Proof. reflexivity. Qed.

Lemma tangled_declares : declares tangled tangled_body.
Proof.
  assert (Eb : declared tangled = tangled_body) by reflexivity. rewrite <- Eb. exact (declares_run _ tangled_fails).
Qed.

Lemma tangled_defects :
  Forall (fun qe => defect_at sample_env tangled_body (fst qe) (snd qe))
    [ ([6; 1; 0; 0; 0; 1], InvalidOpInForm CtxProperty InvokeAction);
      ([6; 1; 0; 0; 0; 2], InvalidOpInForm CtxProperty QueryAction);
      ([6; 1; 2; 0], InvalidMinMax);
      ([6; 2; 3], DuplicatedAffordance AProperty "p");
      ([7; 0; 2; 0], InvalidMinMax);
      ([9; 0; 0], SizesWithRelNotIcon);
      ([11], InvalidLanguageTag "") ].
Proof.
  repeat apply Forall_cons; [..|apply Forall_nil]; cbn [fst snd].
  - eapply (@at_aff_op sample_env http_exts tangled_body AProperty); try reflexivity. simpl. intuition discriminate.
  - eapply (@at_aff_op sample_env http_exts tangled_body AProperty); try reflexivity. simpl. intuition discriminate.
  - eapply (@at_aff_bounds sample_env http_exts tangled_body AProperty); try reflexivity.
    + eapply sub_prop; [reflexivity|left; reflexivity|]. eapply sub_item; [reflexivity|]. apply sub_self.
    + reflexivity.
    + simpl. do 2 eexists. split; [reflexivity|]. split; [reflexivity|]. simpl. intros [_ H]. apply H. reflexivity.
  - eapply (@at_aff_twice sample_env http_exts tangled_body AProperty); [reflexivity|]. simpl. auto.
  - eapply (@at_aff_bounds sample_env http_exts tangled_body AAction); try reflexivity.
    + eapply sub_prop; [reflexivity|left; reflexivity|]. eapply sub_item; [reflexivity|]. apply sub_self.
    + reflexivity.
    + simpl. do 2 eexists. split; [reflexivity|]. split; [reflexivity|]. simpl. intros [_ H]. apply H. reflexivity.
  - eapply at_link_sizes; [reflexivity|reflexivity|discriminate].
  - eapply at_description; [simpl; auto|reflexivity].
Qed.

Lemma tangled_earliest : earliest sample_env tangled_body [6; 1; 0; 0; 0; 1].
Proof.
  destruct (first_defect _ _ id_order_ok tangled_fails tangled_declares) as [_ F].
  destruct (F _ eq_refl) as (q & Hq & Hm).
  pose proof (Forall_inv tangled_defects) as H1. cbn [fst snd] in H1. pose proof (Hm _ _ H1) as Hle.
  assert (q = [6; 1; 0; 0; 0; 1]) as <-; [|exact Hm].
  clear Hm H1 F. inversion Hq as [| | | | | | | | | |k i n a j f l m o Hi Hj Ho Hl Hn Eq Ee| | |k i n a m d e' b e Hi Hc Hs Es Hb Eq Ee| | | | | |]; subst.
  - destruct k; try discriminate. clear Hq Hn. simpl in Hle.
    destruct i as [|[|i]]; [| |lia].
    + simpl in Hi. injection Hi as <- <-. destruct j; discriminate.
    + simpl in Hi. injection Hi as <- <-. destruct j as [|j]; [|lia]. simpl in Hj. injection Hj as <-.
      simpl in Ho. injection Ho as <-. destruct m as [|[|m]]; [discriminate|reflexivity|lia].
  - destruct Hb.
Qed.
