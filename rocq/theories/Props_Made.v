(** * What the builders can make (C63)

    [SpecMade.v] says by conditions on the value alone which data schemas and which Things can be made. *)

From Coq Require Import String Bool ZArith List.
From Verif Require Import Base MinMax Json Serde Types DsBuilder Builder Spec SpecThing SpecMade MadeFacts ThingMadeFacts RemakeFacts
  Protocol Samples SampleFacts DsExamples MakeSamples.
Import ListNotations.
Set Implicit Arguments.
Local Open Scope string_scope.
Local Open Scope list_scope.

Theorem C63_schema_exact :
  forall DS AS OS (d : ds DS AS OS), (exists p : list (dsop DS AS OS), dbuild p = Some d) <-> schema_made any_tag d.
Proof. exact made_exact. Qed.
Print Assumptions C63_schema_exact.

(** The schema of the lamp can be made; schemas breaking one condition each can not. *)
Example C63_used :
  schema_made any_tag the_schema
  /\ schema_made any_tag (schema_of plain_misc None (Some (SArray (Some (BVec [flag; flag])) None None tt)))
  /\ (forall p : list uop,
        dbuild p <> Some (schema_of plain_misc None (Some (SArray (Some (BVec [flag; flag])) (Some 1%Z) None tt)))
        /\ dbuild p <> Some (schema_of plain_misc (Some []) None)
        /\ dbuild p <> Some (schema_of plain_misc None (Some (SObject (Some [("a", flag)]) (Some ["b"]) tt)))
        /\ dbuild p <> Some (schema_of plain_misc None None)
        /\ dbuild p <> Some (schema_of {| m_const := None; m_default := None; m_unit := None; m_enum := None;
                                          m_ro := true; m_wo := true; m_format := None |} None (Some SBoolean))).
Proof.
  split; [|split].
  - apply C63_schema_exact. eexists. exact the_schema_built.
  - apply C63_schema_exact.
    exists [DFinish tt; DTuple tt; DAppend [DFinish tt; DBool]; DAppend [DFinish tt; DBool]]. reflexivity.
  - intros p.
    assert (forall d : ds unit unit unit, dbuild p = Some d -> node_made any_tag d) as H
      by (intros d Hd; refine (proj1 (C63_schema_exact d) (ex_intro _ p Hd) d _); constructor).
    split; [|split; [|split; [|split]]]; intros Hp; apply H in Hp.
    + destruct (nm_tuple Hp eq_refl) as [F _]. discriminate F.
    + exact (nm_one_of Hp eq_refl).
    + destruct (nm_required Hp "b" eq_refl (or_introl eq_refl)) as (m & c & Hm & Hc).
      injection Hm as <-. destruct Hc as [F|[]]. discriminate F.
    + discriminate (nm_one Hp).
    + exact (nm_rw Hp (conj eq_refl eq_refl)).
Qed.

(** ** Things *)

Theorem C63_thing_only :
  forall E X (ord : order) title x p (t : thing E X),
    order_ok ord -> thing_program ord title x p = Some (Ok t) -> thing_made t.
Proof. exact built_thing_made. Qed.
Print Assumptions C63_thing_only.

Theorem C63_thing_exact :
  forall E X (ord : order), order_ok ord -> forall t : thing E X, tags_stable E ->
    (exists title x p, thing_program ord title x p = Some (Ok t)) <-> thing_made t.
Proof. exact things_exact. Qed.
Print Assumptions C63_thing_exact.

(** The lamp and the small Thing can be built.  Things differing from the small one in one respect each
    can not: a context that is a list of one entry, the standard context twice, a scheme required twice, a pre-shared key
    with an identity, a property with a limited length. *)
Example C63_things_used :
  order_ok id_order /\ tags_stable sample_env
  /\ run id_order lamp = Some (Ok the_lamp)
  /\ thing_made small_thing
  /\ (exists title x p, thing_program id_order title x p = Some (Ok small_thing))
  /\ (forall title x p,
        thing_program id_order title x p <> Some (Ok (small (JArr [JStr TD_CONTEXT_11]) [] [] None))
        /\ thing_program id_order title x p <> Some (Ok (small (JArr [JStr TD_CONTEXT_11; JStr TD_CONTEXT_11]) [] [] None))
        /\ thing_program id_order title x p <> Some (Ok (small (JStr TD_CONTEXT_11) ["a"; "a"] [("a", psk None)] None))
        /\ thing_program id_order title x p <> Some (Ok (small (JStr TD_CONTEXT_11) [] [("a", psk (Some "me"))] None))
        /\ thing_program id_order title x p
           <> Some (Ok (small (JStr TD_CONTEXT_11) [] [] (Some [("p", text_property
                {| s_min := None; s_max := Some 4%Z; s_pattern := None; s_encoding := None; s_media := None |})])))).
Proof.
  split; [exact id_order_ok|]. split; [exact sample_idem|]. split; [exact (proj1 lamp_ok)|].
  split; [exact small_thing_made|]. split; [exact (proj2 (C63_thing_exact id_order_ok _ sample_idem) small_thing_made)|].
  intros title x p. split; [|split; [|split; [|split]]]; intros H; apply (C63_thing_only _ _ _ id_order_ok) in H.
  - destruct (tm_context H) as [F|(js & Hn & F & _)]; [discriminate F|]. injection F as <-. apply Hn. reflexivity.
  - destruct (tm_context H) as [F|(js & _ & F & Hj)]; [discriminate F|]. injection F as <-.
    destruct (Hj _ (or_introl eq_refl)) as [(s & G & Hs)|(m & G & _)]; [|discriminate G]. injection G as <-. apply Hs. reflexivity.
  - destruct (tm_security H) as [F _]. inversion F as [|a l Ha _]. apply Ha. left. reflexivity.
  - destruct (tm_secdefs H) as [_ F]. discriminate (sm_psk (F _ _ (or_introl eq_refl)) eq_refl).
  - destruct (tm_properties H) as [_ F]. destruct (F _ eq_refl) as [_ G].
    discriminate (pm_string (G _ _ (or_introl eq_refl)) eq_refl).
Qed.
