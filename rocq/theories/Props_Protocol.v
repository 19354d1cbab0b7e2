(** * Protocol bindings (C33, C42, C48)

    [mk (p_ser p mk v)]: the value [v] written as a document of its own, as text
    ([mk_text]) or as a [serde_json::Value] ([mk_value]); [p_de p es]: reading a value
    from an object. *)

From Coq Require Import String Bool ZArith List.
From Verif Require Import Base MinMax Json Serde Types HList Ser De Protocol SpecSerde SpecExt ExtFacts
  ProtocolFacts HListFacts.
Import ListNotations.
Set Implicit Arguments.
Local Open Scope string_scope.
Local Open Scope list_scope.

(** ** C33 *)
Theorem C33_form :
  forall mk f, json_writer mk ->
    exists es, mk (p_ser http_form_piece mk f) = JObj es /\ p_de http_form_piece es = Some f.
Proof. exact http_form_alone. Qed.
Print Assumptions C33_form.

Theorem C33_header :
  forall mk h, json_writer mk -> d_http_header (s_http_header mk h) = Some h.
Proof. exact d_http_header_rt. Qed.
Print Assumptions C33_header.

(** A response comes back exactly if it has a header ([htv:headers] is left out when
    empty, and then required).  The status code is a [u64]. *)
Theorem C33_response :
  forall mk r, json_writer mk -> all_some in_u64 (hr_status r) ->
    ((exists es, mk (p_ser http_response_piece mk r) = JObj es
                 /\ p_de http_response_piece es = Some r)
     <-> hr_headers r <> []).
Proof. exact http_response_alone. Qed.
Print Assumptions C33_response.

Theorem C33_response_refuted :
  exists r : http_response,
    all_some in_u64 (hr_status r)
    /\ forall mk, json_writer mk ->
         ~ exists es, mk (p_ser http_response_piece mk r) = JObj es
                      /\ p_de http_response_piece es = Some r.
Proof. exact http_no_headers. Qed.
Print Assumptions C33_response_refuted.

(** A form with its expected response, in an HTTP Thing. *)
Theorem C33_whole_form :
  forall mk (f : form http_exts), json_writer mk ->
    f_op f <> OpCustom [] ->
    all_some (fun r => http_response_ok (er_other r)) (f_response f) ->
    d_form http_exts (s_form mk f) = Some f.
Proof. exact http_whole_form. Qed.
Print Assumptions C33_whole_form.

Definition C33_sample : form http_exts :=
  @Build_form http_exts (OpCustom [ReadProperty; WriteProperty]) "http://lamp" (Some "text/plain") None
    None None None
    (Some {| er_ctype := "text/plain";
             er_other := {| hr_headers := [{| hh_name := Some "Accept"; hh_value := None |}];
                            hr_status := Some 200%Z |} |})
    None {| hf_method := Some HPut |}.

Example C33_used :
  f_op C33_sample <> OpCustom []
  /\ all_some (fun r : exp_resp http_response => http_response_ok (er_other r)) (f_response C33_sample)
  /\ s_form mk_text C33_sample
     = JObj [("op", JArr [JStr "readproperty"; JStr "writeproperty"]); ("href", JStr "http://lamp");
             ("contentType", JStr "text/plain");
             ("response",
              JObj [("contentType", JStr "text/plain");
                    ("htv:headers", JArr [JObj [("htv:fieldName", JStr "Accept")]]);
                    ("htv:statusCodeValue", JInt 200)]);
             ("htv:methodName", JStr "PUT")].
Proof.
  split; [discriminate|split; [|reflexivity]].
  intros r [= <-]. split; [discriminate|]. intros n [= <-]. split; discriminate.
Qed.

(** ** C42 *)
Theorem C42_block :
  forall j b, d_block j = Some b <-> j = s_block b.
Proof. exact d_block_iff. Qed.
Print Assumptions C42_block.

Theorem C42_block_sizes :
  forall n, (exists b, d_block (JInt n) = Some b) <-> In n [16; 32; 64; 128; 256; 512; 1024]%Z.
Proof. exact block_sizes. Qed.
Print Assumptions C42_block_sizes.

Theorem C42_ranges :
  forall es f, p_de coap_form_piece es = Some f ->
    forall n,
      (get "cov:hopLimit" es = [JInt n] -> in_u8 n)
      /\ (get "cov:accept" es = [JInt n] -> in_u16 n)
      /\ (get "cov:contentFormat" es = [JInt n] -> in_u16 n).
Proof. exact coap_ranges. Qed.
Print Assumptions C42_ranges.

Theorem C42_response_range :
  forall es r n, p_de coap_response_piece es = Some r ->
    get "cov:contentFormat" es = [JInt n] -> in_u16 n.
Proof. exact coap_response_range. Qed.
Print Assumptions C42_response_range.

(** The hypothesis: the numbers are in the range of their Rust types. *)
Theorem C42_form :
  forall mk f, json_writer mk -> coap_form_ok f ->
    exists es, mk (p_ser coap_form_piece mk f) = JObj es /\ p_de coap_form_piece es = Some f.
Proof. exact coap_form_alone. Qed.
Print Assumptions C42_form.

Theorem C42_response :
  forall mk r, json_writer mk -> coap_response_ok r ->
    exists es, mk (p_ser coap_response_piece mk r) = JObj es /\ p_de coap_response_piece es = Some r.
Proof. exact coap_response_alone. Qed.
Print Assumptions C42_response.

Example C42_used :
  coap_form_ok sample_coap
  /\ p_ser coap_form_piece mk_text sample_coap
     = [("cov:method", JStr "iPATCH"); ("cov:blockwise", JObj [("cov:block2Size", JInt 64)]);
        ("cov:hopLimit", JInt 3); ("cov:contentFormat", JInt 65535)]
  /\ p_de coap_form_piece [("cov:hopLimit", JInt 256)] = None
  /\ p_de coap_form_piece [("cov:blockwise", JObj [("cov:block1Size", JInt 65)])] = None.
Proof. exact (conj sample_coap_ok (conj eq_refl (conj eq_refl eq_refl))). Qed.

(** ** C48 *)
Theorem C48_form :
  forall mk f, json_writer mk ->
    exists es, mk (p_ser mqtt_form_piece mk f) = JObj es /\ p_de mqtt_form_piece es = Some f.
Proof. exact mqtt_form_alone. Qed.
Print Assumptions C48_form.

Theorem C48_members :
  forall mk f,
    let names := map fst (p_ser mqtt_form_piece mk f) in
    (In "mqv:retain" names <-> mf_retain f = true)
    /\ (In "mqv:controlPacket" names <-> mf_packet f <> None)
    /\ (In "mqv:qos" names <-> mf_qos f <> None)
    /\ (In "mqv:topic" names <-> mf_topic f <> None)
    /\ (In "mqv:filter" names <-> mf_filter f <> []).
Proof. exact mqtt_members. Qed.
Print Assumptions C48_members.

Theorem C48_filter :
  forall es s,
    let one := p_de mqtt_form_piece (("mqv:filter", JStr s) :: es) in
    one = p_de mqtt_form_piece (("mqv:filter", JArr [JStr s]) :: es)
    /\ forall f, one = Some f -> mf_filter f = [s].
Proof. exact mqtt_filter. Qed.
Print Assumptions C48_filter.

Example C48_used :
  p_ser mqtt_form_piece mk_text sample_mqtt
  = [("mqv:retain", JBool true); ("mqv:controlPacket", JStr "mqv:publish"); ("mqv:topic", JStr "lamp");
     ("mqv:filter", JArr [JStr "a"; JStr "b"])]
  /\ p_de mqtt_form_piece [("mqv:filter", JStr "a")]
     = Some {| mf_retain := false; mf_packet := None; mf_qos := None; mf_topic := None;
               mf_filter := ["a"] |}.
Proof. split; reflexivity. Qed.
