(** * Structs written as arrays (C73)

    [link_row k l]: the members of the link [k], in the order in which the struct declares them, are [l]; likewise for additional
    responses, versions, HTTP headers and CoAP block sizes.  [link_ok E k]: its languages are language tags. *)

From Coq Require Import String Bool ZArith List.
From Verif Require Import Base Json Serde Types Ser De Protocol Samples SpecSerde SpecRow RowFacts SpecThing.
Import ListNotations.
Set Implicit Arguments.
Local Open Scope string_scope.
Local Open Scope list_scope.

(** An array is read as a link exactly if it has the members of the link in their order; the last may be missing. *)
Theorem C73_link : forall E l k, d_link E (JArr l) = Some k <-> link_row k l /\ link_ok E k.
Proof. exact link_iff. Qed.
Print Assumptions C73_link.

(** Nothing may be missing here: the default of [success] is never used. *)
Theorem C73_response : forall l r, d_add_resp (JArr l) = Some r <-> response_row r l.
Proof. exact response_iff. Qed.
Print Assumptions C73_response.

Theorem C73_version : forall l v, d_version (JArr l) = Some v <-> version_row v l.
Proof. exact version_iff. Qed.
Print Assumptions C73_version.

Theorem C73_header : forall l h, d_http_header (JArr l) = Some h <-> header_row h l.
Proof. exact header_iff. Qed.
Print Assumptions C73_header.

Theorem C73_blockwise : forall l b, d_blockwise (JArr l) = Some b <-> blockwise_row b l.
Proof. exact blockwise_iff. Qed.
Print Assumptions C73_blockwise.

(** The array is read like the object that the crate writes. *)
Theorem C73_same : forall mk E, json_writer mk ->
  (forall k l, link_row k l -> link_ok E k -> d_link E (JArr l) = d_link E (s_link mk k))
  /\ (forall r l, response_row r l -> d_add_resp (JArr l) = d_add_resp (s_add_resp mk r))
  /\ (forall v l, version_row v l -> d_version (JArr l) = d_version (s_version mk v))
  /\ (forall h l, header_row h l -> d_http_header (JArr l) = d_http_header (s_http_header mk h))
  /\ (forall b l, blockwise_row b l -> d_blockwise (JArr l) = d_blockwise (s_blockwise mk b)).
Proof. exact rows_same. Qed.
Print Assumptions C73_same.

(** Nothing but arrays and objects is read as one of these, *)
Theorem C73_rows : forall E j,
  (d_link E j <> None \/ d_add_resp j <> None \/ d_version j <> None \/ d_http_header j <> None \/ d_blockwise j <> None) ->
  (exists es, j = JObj es) \/ (exists l, j = JArr l).
Proof. exact rows_or_objects. Qed.
Print Assumptions C73_rows.

(** and nothing but objects as a Thing or as any other struct, which have flattened members. *)
Theorem C73_objects : forall E X j,
  (d_thing E X j <> None \/ d_property E X j <> None \/ d_action E X j <> None \/ d_event E X j <> None \/ d_ds E X j <> None
   \/ d_form X j <> None \/ d_exp_resp X j <> None \/ d_security E j <> None) -> exists es, j = JObj es.
Proof. exact objects_only. Qed.
Print Assumptions C73_objects.

(** Rows of each kind; a version without [model] needs its [null]. *)
Example C73_used :
  link_row icon icon_row /\ link_ok sample_env icon
  /\ link_row {| l_href := "x"; l_type := None; l_rel := None; l_anchor := None; l_sizes := None; l_hreflang := None |} [JStr "x"; JNull; JNull; JNull; JNull]
  /\ response_row {| ar_success := true; ar_ctype := None; ar_schema := Some "error" |} [JBool true; JNull; JStr "error"]
  /\ version_row {| v_instance := "1.0.0"; v_model := Some "1.1" |} [JStr "1.0.0"; JStr "1.1"]
  /\ header_row {| hh_name := Some "Accept"; hh_value := None |} [JStr "Accept"; JNull]
  /\ blockwise_row {| bw_2 := Some B64; bw_1 := None |} [JInt 64; JNull]
  /\ d_version (JArr [JStr "1.0.0"]) = None /\ json_writer mk_text /\ json_writer mk_value.
Proof. exact rows_used. Qed.
