(** * What reading does not check (C65)

    [SpecThing.v] says what it means that a Thing has the defect an error of [build] names; [SpecLax.v] which of
    these errors are meant here. *)

From Coq Require Import String Bool List.
From Verif Require Import Base Json Serde Types DsBuilder Builder De Protocol Samples SampleFacts SpecThing SpecSerde SpecExt SpecDoc SpecMember SpecTyped SpecRead
  SpecShape SpecMade SpecLax ReadFacts ExtTypedFacts DsExamples MakeSamples LaxFacts LaxSamples.
Import ListNotations.
Set Implicit Arguments.
Local Open Scope string_scope.
Local Open Scope list_scope.

(** A Thing that was read has no defect but the ones named there .. *)
Theorem C65_at_most :
  forall E X (T : xvalues X), exts_read_typed T ->
  forall j (t : thing E X) e, document j -> d_thing E X j = Some t -> defect E (thing_body t) e -> unnoticed E e.
Proof. exact read_noticed. Qed.
Print Assumptions C65_at_most.

(** .. and is consistent when it has none of these. *)
Theorem C65_consistent :
  forall E X (T : xvalues X), exts_read_typed T ->
  forall j (t : thing E X), document j -> d_thing E X j = Some t ->
    (consistent (parsable E) (thing_body t) <-> forall e, unnoticed E e -> ~ defect E (thing_body t) e).
Proof. exact read_consistent. Qed.
Print Assumptions C65_consistent.

(** Each of them, for all names, places and operations, is found in some Thing read from a document
    in the shape of a Thing Description. *)
Theorem C65_exact :
  forall E e,
    (exists j (t : thing E http_exts), document j /\ conforms E (Object PThing) j /\ d_thing E http_exts j = Some t
       /\ defect E (thing_body t) e)
    <-> unnoticed E e.
Proof. exact lax_exact. Qed.
Print Assumptions C65_exact.

(** No calls of the builders make a Thing with a defect. *)
Theorem C65_not_built :
  forall E X (ord : order) (t : thing E X) e, order_ok ord -> tags_stable E -> defect E (thing_body t) e ->
  forall title x p, thing_program ord title x p <> Some (Ok t).
Proof. exact defective_unbuilt. Qed.
Print Assumptions C65_not_built.

(** A property that can be invoked, under a security scheme nobody defined, is read but not built. *)
Example C65_used :
  exts_read_typed http_typed /\ order_ok id_order /\ tags_stable sample_env
  /\ document muddle /\ conforms sample_env (Object PThing) muddle
  /\ exists t, d_thing sample_env http_exts muddle = Some t
       /\ defect sample_env (thing_body t) (InvalidOpInForm CtxProperty InvokeAction)
       /\ defect sample_env (thing_body t) (UndefinedSecurity "who")
       /\ ~ consistent (parsable sample_env) (thing_body t)
       /\ forall title x p, thing_program id_order title x p <> Some (Ok t).
Proof.
  split; [exact http_read_typed|]. split; [exact id_order_ok|]. split; [exact sample_idem|].
  split; [apply muddle_clean|]. split; [apply muddle_clean|].
  destruct muddle_read as (t & Ht & H1 & H2). exists t. split; [exact Ht|]. split; [exact H1|]. split; [exact H2|]. split.
  - intros F. apply (C65_consistent http_read_typed (proj1 muddle_clean) Ht) in H2; [exact H2|exact F|exact I].
  - exact (C65_not_built _ id_order_ok sample_idem H1).
Qed.
