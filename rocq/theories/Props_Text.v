(** * Writing a Thing (C60)

    [s_thing mk_text t]: the text of [t] as a tree; [s_thing mk_value t]: its [Value].  [None]: the
    serializer returns an error. *)

From Coq Require Import String ZArith List.
From Verif Require Import Base Json Serde Types HList Protocol Ser DsBuilder Builder SpecText SpecSerde Samples
  SampleFacts TextFacts.
Import ListNotations.
Set Implicit Arguments.
Local Open Scope string_scope.
Local Open Scope list_scope.

(** Writing fails for dates RFC 3339 has no text for and for custom security schemes with data that has
    no members, and for nothing else: not for text and not for a [Value]. *)
Theorem C60_writable :
  forall E X mk (t : thing E X), (exists j, s_thing mk t = Some j) <-> writable t.
Proof. exact thing_written_iff. Qed.
Print Assumptions C60_writable.

(** The [Value] is the one serde_json reads from the text. *)
Theorem C60_text_and_value :
  forall E X (t : thing E X), exts_write_alike X ->
    s_thing mk_value t = option_map canon (s_thing mk_text t).
Proof. exact (fun E X t H => al_thing H t). Qed.
Print Assumptions C60_text_and_value.

(** So for schemas, forms, affordances and security schemes on their own. *)
Theorem C60_parts :
  forall X, exts_write_alike X ->
    (forall d : dsx X, s_ds mk_value d = canon (s_ds mk_text d))
    /\ (forall f : form X, s_form mk_value f = canon (s_form mk_text f))
    /\ (forall p : property X, s_property mk_value p = canon (s_property mk_text p))
    /\ (forall a : action X, s_action mk_value a = canon (s_action mk_text a))
    /\ (forall e : event X, s_event mk_value e = canon (s_event mk_text e))
    /\ (forall s, s_security mk_value s = option_map canon (s_security mk_text s)).
Proof.
  exact (fun X H => conj (al_ds H) (conj (al_form H) (conj (al_property H) (conj (al_action H)
           (conj (al_event H) al_security))))).
Qed.
Print Assumptions C60_parts.

(** The bindings of the crate write alike, and so do lists of extensions that do. *)
Theorem C60_bindings :
  exts_write_alike http_exts /\ exts_write_alike coap_exts /\ exts_write_alike mqtt_exts
  /\ exts_write_alike (nil_exts nil_piece)
  /\ forall X Y, exts_write_alike X -> exts_write_alike Y -> exts_write_alike (cons_exts X Y).
Proof.
  exact (conj http_alike (conj coap_alike (conj mqtt_alike (conj (nil_exts_alike nil_alike) cons_exts_alike)))).
Qed.
Print Assumptions C60_bindings.

(** A lamp can be written; its text repeats the member [title] of a property, its [Value] has no
    repetitions.  Two built Things cannot be written. *)
Example C60_used :
  (exists j, s_thing mk_text the_lamp = Some j) /\ writable the_lamp
  /\ s_thing mk_text the_lamp <> s_thing mk_value the_lamp
  /\ (exists t, run id_order [TSecurity [SCustom "x"; SData (JInt 3%Z)]] = Some (Ok t) /\ ~ writable t)
  /\ (exists t, run id_order [TCreated "-1"] = Some (Ok t) /\ ~ writable t).
Proof.
  assert (Hl : exists j, s_thing mk_text the_lamp = Some j) by (eexists; vm_compute; reflexivity).
  split; [exact Hl|]. split; [exact (proj1 (C60_writable mk_text the_lamp) Hl)|]. split.
  - intros H. assert (Hc : s_thing mk_text the_lamp = option_map canon (s_thing mk_text the_lamp)).
    { rewrite H at 1. apply C60_text_and_value. exact http_alike. }
    vm_compute in Hc. discriminate Hc.
  - split; (eexists; split; [reflexivity|]).
    + intros [_ H]. destruct (H "x" _ "x" (JInt 3%Z) (or_introl eq_refl) eq_refl) as [Hn|[es He]]; discriminate.
    + intros [H _]. destruct (H "-1" (or_introl eq_refl)) as [s Hs]. discriminate Hs.
Qed.
