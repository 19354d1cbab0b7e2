(** * The error reported (C64)

    [SpecFirst.v] gives every defect of a description a position, in the order in which build looks for them. *)

From Coq Require Import String Bool ZArith List.
From Verif Require Import Base MinMax Json Serde Types DsBuilder Builder Spec SpecCalls SpecThing SpecFirst FirstFacts
  Protocol Samples SampleFacts FirstSamples.
Import ListNotations.
Set Implicit Arguments.
Local Open Scope string_scope.
Local Open Scope list_scope.

(** A build succeeds exactly when there is no defect; otherwise it reports one with none before it. *)
Theorem C64_first_defect :
  forall E X ord title x p (r : result error (thing E X)),
    order_ok ord -> thing_program ord title x p = Some r ->
    forall y, declares p y ->
      ((exists t, r = Ok t) <-> forall q e, ~ defect_at E y q e)
      /\ (forall e, r = Err e -> exists q, defect_at E y q e /\ earliest E y q).
Proof. exact first_defect. Qed.
Print Assumptions C64_first_defect.

(** The iteration order of the maps does not change the position, and the error only at the [unordered] positions. *)
Theorem C64_same_place :
  forall E X ord1 ord2 title x (p : list (top E X)) e1 e2,
    order_ok ord1 -> order_ok ord2 ->
    thing_program ord1 title x p = Some (Err e1) -> thing_program ord2 title x p = Some (Err e2) ->
    forall y, declares p y ->
      exists q, defect_at E y q e1 /\ defect_at E y q e2 /\ earliest E y q /\ (unordered q \/ e1 = e2).
Proof. exact same_place. Qed.
Print Assumptions C64_same_place.

(** Seven defects of one program; the second operation of the second property is reported. *)
Example C64_used :
  declares tangled tangled_body
  /\ Forall (fun qe => defect_at sample_env tangled_body (fst qe) (snd qe))
       [ ([6; 1; 0; 0; 0; 1], InvalidOpInForm CtxProperty InvokeAction);
         ([6; 1; 0; 0; 0; 2], InvalidOpInForm CtxProperty QueryAction);
         ([6; 1; 2; 0], InvalidMinMax);
         ([6; 2; 3], DuplicatedAffordance AProperty "p");
         ([7; 0; 2; 0], InvalidMinMax);
         ([9; 0; 0], SizesWithRelNotIcon);
         ([11], InvalidLanguageTag "") ]
  /\ run id_order tangled = Some (Err (InvalidOpInForm CtxProperty InvokeAction))
  /\ earliest sample_env tangled_body [6; 1; 0; 0; 0; 1].
Proof.
  split; [exact tangled_declares|]. split; [exact tangled_defects|]. split; [exact tangled_fails|].
  exact tangled_earliest.
Qed.

(** The error may depend on the order: titles with two invalid tags. *)
Example C64_order_used :
  exists p : list hop,
    run id_order p = Some (Err (InvalidLanguageTag "")) /\ run rev_order p = Some (Err (InvalidLanguageTag "?")).
Proof. exists [TTitles [("", ""); ("?", "")]]. split; reflexivity. Qed.
