(** * What reading a Thing guarantees (C52, and C44 and C51 for Things that are read) *)

From Coq Require Import String Bool ZArith List.
From Coq Require Import Floats.SpecFloat.
From Verif Require Import Base MinMax Json Serde Types HList Ser De Protocol Samples Spec SpecThing SpecSerde SpecExt SpecDoc
  SpecMember SpecTyped SampleFacts DocSamples CanonFacts ExtTypedFacts ExactFacts ExchangeMore Equal SpecEqual EqualSamples SpecRead ReadFacts.
Import ListNotations.
Set Implicit Arguments.
Local Open Scope string_scope.
Local Open Scope list_scope.

(** ** C52 *)

(** Whatever is read has the invariants of the Rust types: integers in range, maps without
    repeated keys, language tags well formed, untyped data in canonical form. *)
Theorem C52_thing :
  forall E X (T : xvalues X), exts_read_typed T ->
  forall j (t : thing E X), document j -> d_thing E X j = Some t -> thing_typed T t.
Proof. exact thing_read. Qed.
Print Assumptions C52_thing.

(** No bound and no [multipleOf] that is read is infinite or NaN, at any depth. *)
Theorem C52_finite :
  forall E X (T : xvalues X), exts_read_typed T ->
  forall j (t : thing E X), document j -> d_thing E X j = Some t -> numbers_finite t.
Proof. exact thing_read_finite. Qed.
Print Assumptions C52_finite.

(** The extensions of the crate, and any combination of them, meet the hypothesis. *)
Theorem C52_extensions :
  exts_read_typed http_typed /\ exts_read_typed coap_typed /\ exts_read_typed mqtt_typed
  /\ forall X X' (T : xvalues X) (T' : xvalues X'),
       exts_read_typed T -> exts_read_typed T' -> exts_read_typed (both_values T T').
Proof. exact crate_read_typed. Qed.
Print Assumptions C52_extensions.

Example C52_used : document door /\ d_thing sample_env http_exts door = Some the_door /\ exts_read_typed http_typed.
Proof. exact (conj (proj1 door_clean) (conj door_is http_read_typed)). Qed.

(** ** C44: which of the Things that are read are read again *)

(** Exactly those all of whose forms survive. *)
Theorem C44_exact :
  forall E X (T : xvalues X), exts_read_typed T ->
  forall K (V : xvalues X), exts_sound K T V ->
  (forall s d, date_parse E s = Some d -> date_ok E d) ->
  forall j (t : thing E X), clean j -> d_thing E X j = Some t ->
  ((exists j', s_thing mk_value t = Some j' /\ d_thing E X j' = Some t) <-> forms_survive V t).
Proof. exact read_again. Qed.
Print Assumptions C44_exact.

(** As text, exactly those that moreover have no property with a title, description or type. *)
Theorem C44_text_exact :
  forall E X (T : xvalues X), exts_read_typed T ->
  forall K (V : xvalues X), exts_sound K T V ->
  (forall s d, date_parse E s = Some d -> date_ok E d) ->
  forall j (t : thing E X), clean j -> d_thing E X j = Some t ->
  ((exists j', s_thing mk_text t = Some j' /\ no_repeats j' /\ d_thing E X j' = Some t)
   <-> forms_survive V t /\ untitled t).
Proof. exact read_again_text. Qed.
Print Assumptions C44_text_exact.

Example C44_exact_used :
  exts_read_typed http_typed /\ exts_sound http_names http_typed http_values
  /\ clean door /\ d_thing sample_env http_exts door = Some the_door /\ forms_survive http_values the_door.
Proof. exact (conj http_read_typed (conj http_sound (conj door_clean (conj door_is door_survives)))). Qed.

(** ** C51: a Thing that is read is equal to itself *)

Theorem C51_read :
  forall E X (T : xvalues X), exts_read_typed T ->
  forall (D : date E -> date E) (Q : eqs E X), eqs_exact D Q ->
  forall j (t : thing E X), document j -> d_thing E X j = Some t -> thing_eqb Q t t = true.
Proof. exact read_equal. Qed.
Print Assumptions C51_read.

Example C51_read_used : eqs_exact same_date sample_eqs /\ thing_eqb sample_eqs the_door the_door = true.
Proof.
  destruct equal_used as (HQ & _).
  exact (conj HQ (read_equal http_read_typed HQ (proj1 door_clean) door_is)).
Qed.
