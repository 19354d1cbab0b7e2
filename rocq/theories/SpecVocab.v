(** * The vocabularies of the protocol bindings

    Which members and values stand for what in the HTTP, CoAP and MQTT binding templates: a
    relation between the members of an object and what they say. *)

From Coq Require Import String ZArith List.
From Verif Require Import Base Json Serde Types HList Protocol.
Import ListNotations.
Set Implicit Arguments.
Local Open Scope string_scope.
Local Open Scope list_scope.

(** ** Terms *)

Definition http_methods_said : list (string * http_method) :=
  [("GET", HGet); ("PUT", HPut); ("POST", HPost); ("DELETE", HDelete); ("PATCH", HPatch)].

Definition coap_methods_said : list (string * coap_method) :=
  [("GET", CGet); ("POST", CPost); ("PUT", CPut); ("DELETE", CDelete);
   ("FETCH", CFetch); ("PATCH", CPatch); ("iPATCH", CIpatch)].

Definition block_sizes_said : list (Z * block_size) :=
  [(16, B16); (32, B32); (64, B64); (128, B128); (256, B256); (512, B512); (1024, B1024)]%Z.

Definition packets_said : list (string * mqtt_packet) :=
  [("mqv:publish", MPublish); ("mqv:subscribe", MSubscribe); ("mqv:unsubscribe", MUnsubscribe)].

Definition qualities_said : list (string * mqtt_qos) :=
  [("quality:0", AtMostOnce); ("quality:1", AtLeastOnce); ("quality:2", ExactlyOnce)].

(** ** Values *)

Definition text (s : string) (j : json) : Prop := j = JStr s.
Definition number (n : Z) (j : json) : Prop := j = JInt n.
Definition term {A} (l : list (string * A)) (a : A) (j : json) : Prop := exists n, In (n, a) l /\ j = JStr n.
Definition size (b : block_size) (j : json) : Prop := exists n, In (n, b) block_sizes_said /\ j = JInt n.

(** The member [k] is there exactly if there is something to say, and says it as [R] tells. *)
Definition says {A} (es : entries) (k : string) (o : option A) (R : A -> json -> Prop) : Prop :=
  (forall v, In (k, v) es -> exists a, o = Some a /\ R a v) /\ (o <> None -> exists v, In (k, v) es).

(** An object that says [P], with no member twice *)
Definition object (P : entries -> Prop) (j : json) : Prop := exists es, j = JObj es /\ NoDup (map fst es) /\ P es.

(** One value, or a list of several *)
Definition one_or_many {A} (R : A -> json -> Prop) (l : list A) (j : json) : Prop :=
  match l with [a] => R a j | _ => exists js, j = JArr js /\ Forall2 R l js end.

Definition some_list {A} (l : list A) : option (list A) := match l with [] => None | _ => Some l end.

(** ** Objects *)

Definition http_form_says (es : entries) (f : http_form) : Prop :=
  says es "htv:methodName" (hf_method f) (term http_methods_said).

Definition http_header_says (es : entries) (h : http_header) : Prop :=
  says es "htv:fieldName" (hh_name h) text /\ says es "htv:fieldValue" (hh_value h) text.

Definition http_response_says (es : entries) (r : http_response) : Prop :=
  says es "htv:headers" (some_list (hr_headers r))
    (fun l j => exists js, j = JArr js /\ Forall2 (fun h => object (fun es => http_header_says es h)) l js)
  /\ says es "htv:statusCodeValue" (hr_status r) number.

Definition blockwise_says (es : entries) (b : blockwise) : Prop :=
  says es "cov:block2Size" (bw_2 b) size /\ says es "cov:block1Size" (bw_1 b) size.

Definition coap_form_says (es : entries) (f : coap_form) : Prop :=
  says es "cov:method" (cf_method f) (term coap_methods_said)
  /\ says es "cov:blockwise" (cf_block f) (fun b => object (fun es => blockwise_says es b))
  /\ says es "cov:qblockwise" (cf_qblock f) (fun b => object (fun es => blockwise_says es b))
  /\ says es "cov:hopLimit" (cf_hop f) number
  /\ says es "cov:accept" (cf_accept f) number
  /\ says es "cov:contentFormat" (cf_format f) number.

Definition coap_response_says (es : entries) (r : coap_response) : Prop :=
  says es "cov:contentFormat" (cr_format r) number.

Definition mqtt_form_says (es : entries) (f : mqtt_form) : Prop :=
  says es "mqv:retain" (if mf_retain f then Some true else None) (fun b j => j = JBool b)
  /\ says es "mqv:controlPacket" (mf_packet f) (term packets_said)
  /\ says es "mqv:qos" (mf_qos f) (term qualities_said)
  /\ says es "mqv:topic" (mf_topic f) text
  /\ says es "mqv:filter" (some_list (mf_filter f)) (one_or_many text).

(** ** Forms of a Thing

    What a form says of a binding: its own terms, and those of the expected response. *)
Definition form_says (X : exts) (F : entries -> pty (x_f X) -> Prop) (R : entries -> pty (x_er X) -> Prop)
    (f : form X) (es : entries) : Prop :=
  F es (f_other f)
  /\ says es "response" (f_response f)
       (fun r => object (fun es => says es "contentType" (Some (er_ctype r)) text /\ R es (er_other r))).

Definition nothing_said (es : entries) (u : unit) : Prop := True.
