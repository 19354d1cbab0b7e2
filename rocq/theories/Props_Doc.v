(** * Reading documents (C35, C36) *)

From Coq Require Import String Bool ZArith List.
From Verif Require Import Base MinMax Json Serde Types HList Ser De Protocol Samples SpecSerde SpecExt SpecDoc SpecShuffle
  ExtFacts ExtDocFacts DocFacts DocSamples ShuffleFacts.
Import ListNotations.
Set Implicit Arguments.
Local Open Scope string_scope.
Local Open Scope list_scope.

(** ** C35

    [grown K d j j']: [j] and [j'] differ only in members whose names neither the model
    nor an extension ([K]) knows, at any depth.  Security schemes keep all their members. *)
Theorem C35_thing :
  forall E X K, exts_read_only X K -> names_apart K ->
  forall j j', grown K DThing j j' -> d_thing E X j = d_thing E X j'.
Proof. exact thing_grown. Qed.
Print Assumptions C35_thing.

Theorem C35_property :
  forall E X K, exts_read_only X K -> names_apart K ->
  forall j j', grown K DProperty j j' -> d_property E X j = d_property E X j'.
Proof. exact property_grown. Qed.
Print Assumptions C35_property.

Theorem C35_action :
  forall E X K, exts_read_only X K -> names_apart K ->
  forall j j', grown K DAction j j' -> d_action E X j = d_action E X j'.
Proof. exact action_grown. Qed.
Print Assumptions C35_action.

Theorem C35_event :
  forall E X K, exts_read_only X K -> names_apart K ->
  forall j j', grown K DEvent j j' -> d_event E X j = d_event E X j'.
Proof. exact event_grown. Qed.
Print Assumptions C35_event.

Theorem C35_form :
  forall X K, exts_read_only X K -> names_apart K ->
  forall j j', grown K DForm j j' -> d_form X j = d_form X j'.
Proof. exact form_grown. Qed.
Print Assumptions C35_form.

Theorem C35_link :
  forall E K j j', grown K DLink j j' -> d_link E j = d_link E j'.
Proof. exact link_grown. Qed.
Print Assumptions C35_link.

Theorem C35_schema :
  forall E X K, exts_read_only X K -> names_apart K ->
  forall j j', grown K DSchema j j' -> d_ds E X j = d_ds E X j'.
Proof. exact ds_grown. Qed.
Print Assumptions C35_schema.

(** One member with an unknown name, added anywhere, is such a difference. *)
Theorem C35_one_member :
  forall K d es1 es2 k v, is_struct d = true -> ~ In k (names_of K d) ->
    grown K d (JObj (es1 ++ es2)) (JObj (es1 ++ (k, v) :: es2)).
Proof. exact grown_add. Qed.
Print Assumptions C35_one_member.

(** The protocol bindings, and any two extensions together, meet the hypotheses. *)
Theorem C35_bindings :
  exts_read_only http_exts http_names /\ exts_read_only coap_exts coap_names
  /\ exts_read_only mqtt_exts mqtt_names
  /\ forall X X' K K', exts_read_only X K -> exts_read_only X' K' ->
       exts_read_only (cons_exts X X') (both_names K K').
Proof. exact (conj http_read_only (conj coap_read_only (conj mqtt_read_only both_read_only))). Qed.
Print Assumptions C35_bindings.

Example C35_used :
  grown http_names DThing door door_grown /\ door <> door_grown /\ names_apart http_names
  /\ is_some (d_thing sample_env http_exts door) = true.
Proof. exact (conj door_grows (conj door_grown_differs (conj http_names_apart door_reads))). Qed.

(** ** C36

    [reordered j j']: the same document up to the order of members, at any depth.
    Missing: objects with both a [maximum] and an [exclusiveMaximum] (or [minimum] and
    [exclusiveMinimum]), where the first one counts, see [C36_refuted]. *)
Theorem C36_thing_partial :
  forall E X, exts_order_free X ->
  forall j j', reordered j j' -> no_repeats j -> one_bound_each j -> d_thing E X j = d_thing E X j'.
Proof. exact thing_reordered. Qed.
Print Assumptions C36_thing_partial.

Theorem C36_schema_partial :
  forall E X, exts_order_free X ->
  forall j j', reordered j j' -> no_repeats j -> one_bound_each j -> d_ds E X j = d_ds E X j'.
Proof. exact ds_reordered. Qed.
Print Assumptions C36_schema_partial.

Theorem C36_bindings :
  exts_order_free http_exts /\ exts_order_free coap_exts /\ exts_order_free mqtt_exts
  /\ forall X X', exts_order_free X -> exts_order_free X' -> exts_order_free (cons_exts X X').
Proof. exact (conj http_order_free (conj coap_order_free (conj mqtt_order_free both_order_free))). Qed.
Print Assumptions C36_bindings.

Example C36_used :
  (reordered door (canon door) /\ canon door <> door) /\ no_repeats door /\ one_bound_each door
  /\ is_some (d_thing sample_env http_exts door) = true.
Proof. exact (conj door_reordered (conj door_no_repeats (conj door_one_bound door_reads))). Qed.

(** The property as stated fails. *)
Theorem C36_refuted :
  exists j j', reordered j j' /\ no_repeats j
    /\ option_map (@ds_sub _ _ _) (d_ds sample_env http_exts j)
       = Some (Some (SInteger {| z_max := Some (MaxIncl 10%Z); z_min := None; z_mult := None |}))
    /\ option_map (@ds_sub _ _ _) (d_ds sample_env http_exts j')
       = Some (Some (SInteger {| z_max := Some (MaxExcl 5%Z); z_min := None; z_mult := None |})).
Proof. exact (ex_intro _ two_bounds (ex_intro _ two_bounds' two_bounds_differ)). Qed.
Print Assumptions C36_refuted.

(** How far order matters: [shuffled j j'] keeps the order of rivals only, that is of repeated members
    and of the two forms of a bound (if one of them is a number).  Everything else may move, also next to rivals. *)
Theorem C36_thing_shuffled :
  forall E X, exts_shuffle_free X -> forall j j', shuffled j j' -> d_thing E X j = d_thing E X j'.
Proof. exact thing_inv. Qed.
Print Assumptions C36_thing_shuffled.

Theorem C36_schema_shuffled :
  forall E X, exts_shuffle_free X -> forall j j', shuffled j j' -> d_ds E X j = d_ds E X j'.
Proof. exact ds_inv. Qed.
Print Assumptions C36_schema_shuffled.

Theorem C36_bindings_shuffled :
  exts_shuffle_free http_exts /\ exts_shuffle_free coap_exts /\ exts_shuffle_free mqtt_exts
  /\ forall X X', exts_shuffle_free X -> exts_shuffle_free X' -> exts_shuffle_free (cons_exts X X').
Proof. exact (conj http_shuffle (conj coap_shuffle (conj mqtt_shuffle both_shuffle))). Qed.
Print Assumptions C36_bindings_shuffled.

(** Without rivals every order is a shuffle. *)
Theorem C36_reordered_is_shuffled :
  forall j j', reordered j j' -> no_repeats j -> one_bound_each j -> shuffled j j'.
Proof. exact reordered_shuffled. Qed.
Print Assumptions C36_reordered_is_shuffled.

(** And rivals do matter: swap the two forms of a bound and the number schema read is another one. *)
Theorem C36_rivals_matter :
  forall E X es1 k k' z v es2 d,
    rivals k k' -> k <> k' -> (forall k0, rivals k k0 -> ~ In k0 (map fst es1)) -> (- 2 ^ 63 <= z < 2 ^ 63)%Z ->
    d_ds E X (JObj (es1 ++ (k, JInt z) :: (k', v) :: es2)) = Some d ->
    (exists n, ds_sub d = Some (SInteger n)) \/ (exists n, ds_sub d = Some (SNumber n)) ->
    d_ds E X (JObj (es1 ++ (k', v) :: (k, JInt z) :: es2)) <> Some d.
Proof. exact rivals_matter. Qed.
Print Assumptions C36_rivals_matter.

Example C36_shuffled_used :
  shuffled rival_doc rival_doc' /\ ~ one_bound_each rival_doc /\ ~ no_repeats rival_doc
  /\ is_some (d_ds sample_env http_exts rival_doc) = true /\ rival_doc <> rival_doc'.
Proof. exact rival_docs. Qed.

Example C36_rivals_used :
  rivals "minimum" "exclusiveMinimum" /\ (forall k0, rivals "minimum" k0 -> ~ In k0 (map fst [("type", JStr "number")]))
  /\ exists d n, d_ds sample_env http_exts (JObj ([("type", JStr "number")] ++ [("minimum", JInt 3); ("exclusiveMinimum", JInt 4)])) = Some d
     /\ ds_sub d = Some (SNumber n).
Proof. exact rival_bounds. Qed.
