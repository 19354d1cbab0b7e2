(** Calls on different members commute. *)
From Coq Require Import String Bool ZArith List.
From Verif Require Import Base MinMax Json Serde Types DsBuilder Builder Spec SpecCalls SpecThing.
Import ListNotations.
Set Implicit Arguments.
Local Open Scope string_scope.
Local Open Scope list_scope.

Section Commute.
  Variable E : env.
  Variable X : exts.

  Lemma tstep_commute (o1 o2 : top E X) s :
    target o1 <> target o2 -> target o1 <> VStatus -> target o2 <> VStatus ->
    (let? s' := tstep o1 s in tstep o2 s') = (let? s' := tstep o2 s in tstep o1 s').
  Proof.
    intros Hd H1 H2.
    destruct o1, o2; simpl in Hd, H1, H2; try congruence; clear Hd H1 H2; unfold tstep, when_extended, obind;
      repeat match goal with
             | |- context [if String.eqb ?a ?b then _ else _] => destruct (String.eqb a b)
             | |- context [sec_run ?p] => destruct (sec_run p) as [[[? []] ?]|]
             | |- context [link_run ?p] => destruct (link_run p)
             | |- context [form_run ?x ?p] => destruct (form_run x p)
             | |- context [dbuild ?p] => destruct (dbuild p)
             | |- context [prop_run ?a ?b ?p] => destruct (prop_run a b p)
             | |- context [action_run ?a ?b ?p] => destruct (action_run a b p)
             | |- context [event_run ?a ?b ?p] => destruct (event_run a b p)
             end; try reflexivity.
    all: simpl; destruct (tb_extended s) eqn:Ex; simpl; rewrite ?Ex; reflexivity.
  Qed.

  Lemma tstep_finish (o : top E X) s s1 s2 :
    (let? s' := tstep o s in tstep TFinish s') = Some s1 ->
    (let? s' := tstep TFinish s in tstep o s') = Some s2 -> s1 = s2.
  Proof.
    destruct o; unfold tstep, when_extended, obind;
      repeat match goal with
             | |- context [if String.eqb ?a ?b then _ else _] => destruct (String.eqb a b)
             | |- context [sec_run ?p] => destruct (sec_run p) as [[[? []] ?]|]
             | |- context [link_run ?p] => destruct (link_run p)
             | |- context [form_run ?x ?p] => destruct (form_run x p)
             | |- context [dbuild ?p] => destruct (dbuild p)
             | |- context [prop_run ?a ?b ?p] => destruct (prop_run a b p)
             | |- context [action_run ?a ?b ?p] => destruct (action_run a b p)
             | |- context [event_run ?a ?b ?p] => destruct (event_run a b p)
             end; simpl; destruct (tb_extended s) eqn:Ex; simpl; rewrite ?Ex; intros H1 H2; try discriminate;
      inversion H1; inversion H2; subst; reflexivity.
  Qed.

  Lemma orun_app O S (step : O -> S -> option S) p q s :
    orun step (p ++ q) s = (let? s' := orun step p s in orun step q s').
  Proof.
    revert s. induction p as [|o p IH]; simpl; intros s; auto.
    destruct (step o s); simpl; auto.
  Qed.

  Lemma swap_program ord title x (p q : list (top E X)) o1 o2 :
    target o1 <> target o2 -> target o1 <> VStatus -> target o2 <> VStatus ->
    thing_program ord title x (p ++ o1 :: o2 :: q) = thing_program ord title x (p ++ o2 :: o1 :: q).
  Proof.
    intros Hd H1 H2. unfold thing_program, trun. rewrite !orun_app. 
    destruct (orun (@tstep E X) p (thing_new E X title x)) as [s|]; simpl; auto.
    pose proof (@tstep_commute o1 o2 s Hd H1 H2) as H. unfold obind in *.
    destruct (tstep o1 s) as [s1|], (tstep o2 s) as [s2|]; rewrite ?H; auto; rewrite <- ?H; auto.
  Qed.

  Lemma swap_finish ord title x (p q : list (top E X)) o r1 r2 :
    thing_program ord title x (p ++ o :: TFinish :: q) = Some r1 ->
    thing_program ord title x (p ++ TFinish :: o :: q) = Some r2 -> r1 = r2.
  Proof.
    unfold thing_program, trun. rewrite !orun_app. 
    destruct (orun (@tstep E X) p (thing_new E X title x)) as [s|]; [|discriminate].
    cbn [obind orun].
    destruct (tstep o s) as [s1|] eqn:E1; [|discriminate]. cbn [obind].
    destruct (tstep TFinish s1) as [s1'|] eqn:E2; [|discriminate].
    destruct (tstep TFinish s) as [s2|] eqn:E3; [|discriminate]. cbn [obind].
    destruct (tstep o s2) as [s2'|] eqn:E4; [|discriminate]. cbn [obind].
    assert (s1' = s2') as ->.
    { eapply tstep_finish; [rewrite E1; exact E2|rewrite E3; exact E4]. }
    destruct (orun (@tstep E X) q s2'); simpl; congruence.
  Qed.
End Commute.
