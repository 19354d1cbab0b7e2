(** * Equality of Things (C51) *)

From Coq Require Import String Bool ZArith List.
From Coq Require Import Floats.SpecFloat.
From Verif Require Import Base MinMax Json Serde Types DsBuilder Builder HList Ser De Protocol Samples Spec SpecCalls
  SpecThing SpecSerde SpecExt SpecDoc SpecMember SpecTyped SampleFacts DsExamples ExchangeMore Equal SpecEqual EqualFacts
  EqualSamples.
Import ListNotations.
Set Implicit Arguments.
Local Open Scope string_scope.
Local Open Scope list_scope.

(** Hypotheses: [eqs_exact D Q]: dates are compared as [D] gives them (for
    [OffsetDateTime], as instants), extensions exactly; [thing_typed]: the invariants of the
    Rust types, which every Thing has. *)

(** Two Things are equal exactly if they have the same fields throughout, up to the sign of
    zeros and the way dates are given, and have no NaN. *)
Theorem C51_equal :
  forall E X (D : date E -> date E) (Q : eqs E X), eqs_exact D Q ->
  forall (T : xvalues X) (t t' : thing E X), thing_typed T t -> thing_typed T t' ->
  (thing_eqb Q t t' = true <-> without_nan t /\ plain D t = plain D t').
Proof. exact equal_iff. Qed.
Print Assumptions C51_equal.

(** Missing for reflexivity: Things with NaN, see [C51_refuted]. *)
Theorem C51_reflexive_partial :
  forall E X (D : date E -> date E) (Q : eqs E X), eqs_exact D Q ->
  forall (T : xvalues X) (t : thing E X), thing_typed T t -> (thing_eqb Q t t = true <-> without_nan t).
Proof. exact equal_refl. Qed.
Print Assumptions C51_reflexive_partial.

Theorem C51_symmetric :
  forall E X (D : date E -> date E) (Q : eqs E X), eqs_exact D Q ->
  forall (T : xvalues X) (t t' : thing E X), thing_typed T t -> thing_typed T t' ->
  thing_eqb Q t t' = thing_eqb Q t' t.
Proof. exact equal_sym. Qed.
Print Assumptions C51_symmetric.

Theorem C51_transitive :
  forall E X (D : date E -> date E) (Q : eqs E X), eqs_exact D Q ->
  forall (T : xvalues X) (t1 t2 t3 : thing E X), thing_typed T t1 -> thing_typed T t2 -> thing_typed T t3 ->
  thing_eqb Q t1 t2 = true -> thing_eqb Q t2 t3 = true -> thing_eqb Q t1 t3 = true.
Proof. exact equal_trans. Qed.
Print Assumptions C51_transitive.

(** What is written and read again is equal, for the Things of [C29_thing_exact]. *)
Theorem C51_back :
  forall E X (D : date E -> date E) (Q : eqs E X), eqs_exact D Q ->
  forall (T : xvalues X) K (V : xvalues X), exts_sound K T V ->
  (forall s d, date_parse E s = Some d -> date_ok E d) ->
  forall t : thing E X, thing_typed T t -> thing_ok V distinct t ->
  exists j t', s_thing mk_value t = Some j /\ d_thing E X j = Some t' /\ thing_eqb Q t t' = true.
Proof. exact equal_back. Qed.
Print Assumptions C51_back.

(** The extensions of the crate are compared exactly. *)
Theorem C51_extensions :
  forall E (D : date E -> date E) q, (forall d d', q d d' = true <-> D d = D d') ->
  eqs_exact D (http_eqs E q) /\ eqs_exact D (coap_eqs E q) /\ eqs_exact D (mqtt_eqs E q)
  /\ forall X X' (Q : eqs E X) (Q' : eqs E X'), eqs_exact D Q -> eqs_exact D Q' -> eqs_exact D (cons_eqs Q Q').
Proof. exact crate_exact. Qed.
Print Assumptions C51_extensions.

Example C51_used :
  eqs_exact same_date sample_eqs
  /\ thing_typed http_typed the_lamp /\ without_nan the_lamp /\ thing_eqb sample_eqs the_lamp the_lamp = true
  /\ thing_typed http_typed the_door /\ thing_eqb sample_eqs the_lamp the_door = false
  /\ thing_typed http_typed (zero_max true) /\ thing_typed http_typed (zero_max false)
  /\ zero_max true <> zero_max false /\ thing_eqb sample_eqs (zero_max true) (zero_max false) = true.
Proof. exact equal_used. Qed.

(** Fails: a Thing that can be built and is not equal to itself. *)
Theorem C51_refuted :
  run id_order (one_property sample_env http_exts "p" tt tt tt [DNumber; DNumMult S754_nan]) = Some (Ok nan_thing)
  /\ thing_typed http_typed nan_thing /\ thing_eqb sample_eqs nan_thing nan_thing = false.
Proof. exact equal_refl_refuted. Qed.
Print Assumptions C51_refuted.
