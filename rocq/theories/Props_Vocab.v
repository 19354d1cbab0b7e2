(** * The vocabularies of the protocol bindings (C57)

    [SpecVocab.v] gives the terms of the HTTP, CoAP and MQTT binding templates and relates the
    members of an object to what they say, in any order and with any other members around them.
    [s_form mk f]: the form [f], written; [d_form X j]: a form read from [j]. *)

From Coq Require Import String Bool ZArith List.
From Verif Require Import Base Json Serde Types HList Ser De Protocol SpecSerde SpecExt SpecVocab HListFacts VocabFacts.
Import ListNotations.
Set Implicit Arguments.
Local Open Scope string_scope.
Local Open Scope list_scope.

(** ** Written *)

Theorem C57_http_written :
  forall mk (f : form http_exts), json_writer mk ->
    object (form_says (X := http_exts) http_form_says http_response_says f) (s_form mk f).
Proof. exact http_whole_said. Qed.
Print Assumptions C57_http_written.

Theorem C57_coap_written :
  forall mk (f : form coap_exts), json_writer mk ->
    object (form_says (X := coap_exts) coap_form_says coap_response_says f) (s_form mk f).
Proof. exact coap_whole_said. Qed.
Print Assumptions C57_coap_written.

Theorem C57_mqtt_written :
  forall mk (f : form mqtt_exts), json_writer mk ->
    object (form_says (X := mqtt_exts) mqtt_form_says nothing_said f) (s_form mk f).
Proof. exact mqtt_whole_said. Qed.
Print Assumptions C57_mqtt_written.

(** ** Read

    A form that says [g] of the binding is read as saying [g].  The numbers are in the range of
    their Rust types, and an HTTP response has a header (C33). *)

Theorem C57_http_read :
  forall es (f g : form http_exts), NoDup (map fst es) ->
    all_some (fun r => http_response_ok (er_other r)) (f_response g) ->
    form_says (X := http_exts) http_form_says http_response_says g es ->
    d_form http_exts (JObj es) = Some f -> f_other f = f_other g /\ f_response f = f_response g.
Proof. exact http_whole_heard. Qed.
Print Assumptions C57_http_read.

Theorem C57_coap_read :
  forall es (f g : form coap_exts), NoDup (map fst es) -> coap_form_ok (f_other g) ->
    all_some (fun r => coap_response_ok (er_other r)) (f_response g) ->
    form_says (X := coap_exts) coap_form_says coap_response_says g es ->
    d_form coap_exts (JObj es) = Some f -> f_other f = f_other g /\ f_response f = f_response g.
Proof. exact coap_whole_heard. Qed.
Print Assumptions C57_coap_read.

Theorem C57_mqtt_read :
  forall es (f g : form mqtt_exts), NoDup (map fst es) ->
    form_says (X := mqtt_exts) mqtt_form_says nothing_said g es ->
    d_form mqtt_exts (JObj es) = Some f -> f_other f = f_other g /\ f_response f = f_response g.
Proof. exact mqtt_whole_heard. Qed.
Print Assumptions C57_mqtt_read.

(** What is said in the vocabulary is always read, whatever the other members. *)

Theorem C57_http_accepted :
  forall es f, NoDup (map fst es) -> http_form_says es f -> p_de http_form_piece es = Some f.
Proof. exact http_form_heard. Qed.
Print Assumptions C57_http_accepted.

Theorem C57_http_response_accepted :
  forall es r, NoDup (map fst es) -> hr_headers r <> [] -> all_some in_u64 (hr_status r) ->
    http_response_says es r -> p_de http_response_piece es = Some r.
Proof. exact http_response_heard. Qed.
Print Assumptions C57_http_response_accepted.

Theorem C57_coap_accepted :
  forall es f, NoDup (map fst es) -> coap_form_ok f -> coap_form_says es f -> p_de coap_form_piece es = Some f.
Proof. exact coap_form_heard. Qed.
Print Assumptions C57_coap_accepted.

Theorem C57_mqtt_accepted :
  forall es f, NoDup (map fst es) -> mqtt_form_says es f -> p_de mqtt_form_piece es = Some f.
Proof. exact mqtt_form_heard. Qed.
Print Assumptions C57_mqtt_accepted.

(** ** Terms outside the vocabularies are rejected *)

Theorem C57_http_unknown :
  forall es n, NoDup (map fst es) -> In ("htv:methodName", JStr n) es ->
    ~ In n ["GET"; "PUT"; "POST"; "DELETE"; "PATCH"] -> p_de http_form_piece es = None.
Proof. exact http_bad. Qed.
Print Assumptions C57_http_unknown.

Theorem C57_coap_unknown_method :
  forall es n, NoDup (map fst es) -> In ("cov:method", JStr n) es ->
    ~ In n ["GET"; "POST"; "PUT"; "DELETE"; "FETCH"; "PATCH"; "iPATCH"] -> p_de coap_form_piece es = None.
Proof. exact coap_bad_method. Qed.
Print Assumptions C57_coap_unknown_method.

Theorem C57_coap_unknown_block :
  forall es k bs k' n, k = "cov:blockwise" \/ k = "cov:qblockwise" ->
    k' = "cov:block2Size" \/ k' = "cov:block1Size" ->
    NoDup (map fst es) -> In (k, JObj bs) es -> NoDup (map fst bs) -> In (k', JInt n) bs ->
    ~ In n [16; 32; 64; 128; 256; 512; 1024]%Z -> p_de coap_form_piece es = None.
Proof. exact coap_bad_block. Qed.
Print Assumptions C57_coap_unknown_block.

Theorem C57_mqtt_unknown_packet :
  forall es n, NoDup (map fst es) -> In ("mqv:controlPacket", JStr n) es ->
    ~ In n ["mqv:publish"; "mqv:subscribe"; "mqv:unsubscribe"] -> p_de mqtt_form_piece es = None.
Proof. exact mqtt_bad_packet. Qed.
Print Assumptions C57_mqtt_unknown_packet.

Theorem C57_mqtt_unknown_qos :
  forall es n, NoDup (map fst es) -> In ("mqv:qos", JStr n) es ->
    ~ In n ["quality:0"; "quality:1"; "quality:2"] -> p_de mqtt_form_piece es = None.
Proof. exact mqtt_bad_qos. Qed.
Print Assumptions C57_mqtt_unknown_qos.

(** ** A case *)

Definition C57_mqtt_form : form mqtt_exts :=
  @Build_form mqtt_exts OpDefault "mqtt://lamp" None None None None None
    (Some {| er_ctype := "text/plain"; er_other := tt |}) None
    {| mf_retain := true; mf_packet := Some MSubscribe; mf_qos := Some ExactlyOnce; mf_topic := None; mf_filter := ["a"] |}.

(** The same members in another order, and one that is not of the vocabulary *)
Definition C57_mqtt_entries : entries :=
  [("mqv:qos", JStr "quality:2"); ("x:note", JNull); ("href", JStr "mqtt://lamp"); ("mqv:filter", JStr "a");
   ("response", JObj [("contentType", JStr "text/plain")]); ("mqv:controlPacket", JStr "mqv:subscribe");
   ("mqv:retain", JBool true)].

Local Ltac said_here :=
  intros v Hin; cbn in Hin;
  repeat match goal with
         | H : _ \/ _ |- _ => destruct H as [H|H]; [first [discriminate H | injection H as <-; eexists; split; [reflexivity|try reflexivity]]|]
         end; try contradiction.

Local Ltac said :=
  split; [said_here|intros Ho; first [exfalso; apply Ho; reflexivity | eexists; cbn; repeat first [left; reflexivity|right]]].

Example C57_used :
  s_form mk_text C57_mqtt_form
  = JObj [("href", JStr "mqtt://lamp"); ("response", JObj [("contentType", JStr "text/plain")]); ("mqv:retain", JBool true);
          ("mqv:controlPacket", JStr "mqv:subscribe"); ("mqv:qos", JStr "quality:2"); ("mqv:filter", JStr "a")]
  /\ NoDup (map fst C57_mqtt_entries)
  /\ form_says (X := mqtt_exts) mqtt_form_says nothing_said C57_mqtt_form C57_mqtt_entries
  /\ d_form mqtt_exts (JObj C57_mqtt_entries) = Some C57_mqtt_form
  /\ ~ In "GET " ["GET"; "PUT"; "POST"; "DELETE"; "PATCH"]
  /\ p_de http_form_piece [("htv:methodName", JStr "GET ")] = None.
Proof.
  split; [reflexivity|]. split; [apply SerdeFacts.nodupb_ok; reflexivity|].
  split; [|split; [reflexivity|split; [cbn; intuition discriminate|reflexivity]]].
  split; [repeat match goal with |- mqtt_form_says _ _ => unfold mqtt_form_says | |- says _ _ _ _ /\ _ => split end|]; said.
  - exists "mqv:subscribe". split; [cbn; tauto|reflexivity].
  - exists "quality:2". split; [cbn; tauto|reflexivity].
  - exists [("contentType", JStr "text/plain")]. split; [reflexivity|]. split; [apply SerdeFacts.nodupb_ok; reflexivity|].
    split; [said|exact I].
Qed.

Definition C57_http_form : form http_exts :=
  @Build_form http_exts OpDefault "http://lamp" None None None None None
    (Some {| er_ctype := "text/plain";
             er_other := {| hr_headers := [{| hh_name := Some "Accept"; hh_value := None |}]; hr_status := Some 200%Z |} |})
    None {| hf_method := Some HPost |}.

Definition C57_coap_form : form coap_exts :=
  @Build_form coap_exts OpDefault "coap://lamp" None None None None None
    (Some {| er_ctype := "text/plain"; er_other := {| cr_format := Some 50%Z |} |}) None sample_coap.

(** Written as values (sorted), and read back from there *)
Example C57_used_others :
  s_form mk_value C57_http_form
  = JObj [("href", JStr "http://lamp"); ("htv:methodName", JStr "POST");
          ("response", JObj [("contentType", JStr "text/plain");
                             ("htv:headers", JArr [JObj [("htv:fieldName", JStr "Accept")]]);
                             ("htv:statusCodeValue", JInt 200)])]
  /\ all_some (fun r : exp_resp http_response => http_response_ok (er_other r)) (f_response C57_http_form)
  /\ d_form http_exts (s_form mk_value C57_http_form) = Some C57_http_form
  /\ s_form mk_value C57_coap_form
     = JObj [("cov:blockwise", JObj [("cov:block2Size", JInt 64)]); ("cov:contentFormat", JInt 65535);
             ("cov:hopLimit", JInt 3); ("cov:method", JStr "iPATCH"); ("href", JStr "coap://lamp");
             ("response", JObj [("contentType", JStr "text/plain"); ("cov:contentFormat", JInt 50)])]
  /\ coap_form_ok (f_other C57_coap_form)
  /\ d_form coap_exts (s_form mk_value C57_coap_form) = Some C57_coap_form
  /\ p_de coap_form_piece [("cov:method", JStr "IPATCH")] = None
  /\ p_de mqtt_form_piece [("mqv:qos", JStr "quality:3")] = None.
Proof.
  split; [reflexivity|]. split.
  { intros r [= <-]. split; [discriminate|]. intros n [= <-]. split; discriminate. }
  split; [reflexivity|]. split; [reflexivity|]. split; [exact sample_coap_ok|].
  split; [reflexivity|]. split; reflexivity.
Qed.
