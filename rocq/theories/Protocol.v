(** * Protocol bindings (src/protocol/http.rs, coap.rs, mqtt.rs) *)

From Coq Require Import String Bool ZArith List.
From Verif Require Import Base MinMax Json Serde Types HList.
Import ListNotations.
Set Implicit Arguments.
Local Open Scope string_scope.
Local Open Scope list_scope.

(** ** HTTP *)

(** src/protocol/http.rs 8-16, [Method] *)
Inductive http_method := HGet | HPut | HPost | HDelete | HPatch.

(** src/protocol/http.rs 9-16: the names of the methods *)
Definition http_methods : list (string * http_method) :=
  [("GET", HGet); ("PUT", HPut); ("POST", HPost); ("DELETE", HDelete); ("PATCH", HPatch)].

(** src/protocol/http.rs 8, derived [Serialize] *)
Definition s_http_method (m : http_method) : json :=
  JStr (match m with HGet => "GET" | HPut => "PUT" | HPost => "POST" | HDelete => "DELETE"
                   | HPatch => "PATCH" end).

(** src/protocol/http.rs 19-27, [MessageHeader] *)
Record http_header := { hh_name : option string; hh_value : option string }.

(** src/protocol/http.rs 19-27, derived [Serialize] *)
Definition s_http_header (mk : entries -> json) (h : http_header) : json :=
  mk (ofld "htv:fieldName" JStr (hh_name h) ++ ofld "htv:fieldValue" JStr (hh_value h)).

(** src/protocol/http.rs 19-27, derived [Deserialize] *)
Definition d_http_header : json -> option http_header :=
  d_struct 2
    (fun es =>
       let? n := opt "htv:fieldName" d_str es in
       let? v := opt "htv:fieldValue" d_str es in
       Some {| hh_name := n; hh_value := v |})
    (fun l =>
       let? n := sq_opt 0 d_str l in
       let? v := sq_opt 1 d_str l in
       Some {| hh_name := n; hh_value := v |}).

(** src/protocol/http.rs 30-39, [Response]: [headers] is skipped when empty and has
    no default *)
Record http_response := { hr_headers : list http_header; hr_status : option Z }.

(** src/protocol/http.rs 30-39, derived [Serialize] and [Deserialize] *)
Definition http_response_piece : piece :=
  {| pty := http_response;
     p_ser := fun mk r =>
       match hr_headers r with [] => [] | l => fld "htv:headers" (s_list (s_http_header mk) l) end
       ++ ofld "htv:statusCodeValue" JInt (hr_status r);
     p_de := fun es =>
       let? h := req "htv:headers" (d_list d_http_header) es in
       let? s := opt "htv:statusCodeValue" d_u64 es in
       Some {| hr_headers := h; hr_status := s |};
     p_take := ["htv:headers"; "htv:statusCodeValue"] |}.

(** src/protocol/http.rs 42-48, [Form] *)
Record http_form := { hf_method : option http_method }.

(** src/protocol/http.rs 42-48, derived [Serialize] and [Deserialize] *)
Definition http_form_piece : piece :=
  {| pty := http_form;
     p_ser := fun mk f => ofld "htv:methodName" s_http_method (hf_method f);
     p_de := fun es =>
       let? m := opt "htv:methodName" (d_variant http_methods) es in
       Some {| hf_method := m |};
     p_take := ["htv:methodName"] |}.

(** src/protocol/http.rs 50-52, [HttpProtocol {}] *)
Definition http_piece : piece := unit_piece.

(** src/protocol/http.rs 54-64 *)
Definition http_exts : exts :=
  {| x_t := http_piece; x_ia := unit_piece; x_pa := unit_piece; x_aa := unit_piece; x_ea := unit_piece;
     x_f := http_form_piece; x_er := http_response_piece; x_ds := unit_piece; x_os := unit_piece;
     x_as := unit_piece |}.

(** ** CoAP *)

(** src/protocol/coap.rs 9-20, [Method] *)
Inductive coap_method := CGet | CPut | CPost | CDelete | CPatch | CFetch | CIpatch.

(** src/protocol/coap.rs 10-20: the names of the methods *)
Definition coap_methods : list (string * coap_method) :=
  [("GET", CGet); ("PUT", CPut); ("POST", CPost); ("DELETE", CDelete); ("PATCH", CPatch);
   ("FETCH", CFetch); ("iPATCH", CIpatch)].

(** src/protocol/coap.rs 9, derived [Serialize] *)
Definition s_coap_method (m : coap_method) : json :=
  JStr (match m with CGet => "GET" | CPut => "PUT" | CPost => "POST" | CDelete => "DELETE"
                   | CPatch => "PATCH" | CFetch => "FETCH" | CIpatch => "iPATCH" end).

(** src/protocol/coap.rs 23-33, [BlockSize] ([Serialize_repr], [Deserialize_repr]) *)
Inductive block_size := B16 | B32 | B64 | B128 | B256 | B512 | B1024.

(** src/protocol/coap.rs 25-33: the numbers *)
Definition block_num (b : block_size) : Z :=
  match b with
  | B16 => 16 | B32 => 32 | B64 => 64 | B128 => 128 | B256 => 256 | B512 => 512 | B1024 => 1024
  end%Z.

(** src/protocol/coap.rs 23, [Serialize_repr] *)
Definition s_block (b : block_size) : json := JInt (block_num b).

(** src/protocol/coap.rs 23, [Deserialize_repr] *)
Definition d_block (j : json) : option block_size :=
  let? n := d_u16 j in
  find (fun b => Z.eqb n (block_num b)) [B16; B32; B64; B128; B256; B512; B1024].

(** src/protocol/coap.rs 42-50, [BlockWiseTransferParameters] *)
Record blockwise := { bw_2 : option block_size; bw_1 : option block_size }.

(** src/protocol/coap.rs 42-50, derived [Serialize] *)
Definition s_blockwise (mk : entries -> json) (b : blockwise) : json :=
  mk (ofld "cov:block2Size" s_block (bw_2 b) ++ ofld "cov:block1Size" s_block (bw_1 b)).

(** src/protocol/coap.rs 42-50, derived [Deserialize] *)
Definition d_blockwise : json -> option blockwise :=
  d_struct 2
    (fun es =>
       let? b2 := opt "cov:block2Size" d_block es in
       let? b1 := opt "cov:block1Size" d_block es in
       Some {| bw_2 := b2; bw_1 := b1 |})
    (fun l =>
       let? b2 := sq_opt 0 d_block l in
       let? b1 := sq_opt 1 d_block l in
       Some {| bw_2 := b2; bw_1 := b1 |}).

(** src/protocol/coap.rs 52-69, [Form] *)
Record coap_form := {
  cf_method : option coap_method;
  cf_block : option blockwise;
  cf_qblock : option blockwise;
  cf_hop : option Z;
  cf_accept : option Z;
  cf_format : option Z;
}.

(** src/protocol/coap.rs 52-69, derived [Serialize] and [Deserialize] *)
Definition coap_form_piece : piece :=
  {| pty := coap_form;
     p_ser := fun mk f =>
       ofld "cov:method" s_coap_method (cf_method f)
       ++ ofld "cov:blockwise" (s_blockwise mk) (cf_block f)
       ++ ofld "cov:qblockwise" (s_blockwise mk) (cf_qblock f)
       ++ ofld "cov:hopLimit" JInt (cf_hop f)
       ++ ofld "cov:accept" JInt (cf_accept f)
       ++ ofld "cov:contentFormat" JInt (cf_format f);
     p_de := fun es =>
       let? m := opt "cov:method" (d_variant coap_methods) es in
       let? b := opt "cov:blockwise" d_blockwise es in
       let? q := opt "cov:qblockwise" d_blockwise es in
       let? h := opt "cov:hopLimit" d_u8 es in
       let? a := opt "cov:accept" d_u16 es in
       let? c := opt "cov:contentFormat" d_u16 es in
       Some {| cf_method := m; cf_block := b; cf_qblock := q; cf_hop := h; cf_accept := a;
               cf_format := c |};
     p_take := ["cov:method"; "cov:blockwise"; "cov:qblockwise"; "cov:hopLimit"; "cov:accept";
                "cov:contentFormat"] |}.

(** src/protocol/coap.rs 71-78, [ExpectedResponse] *)
Record coap_response := { cr_format : option Z }.

(** src/protocol/coap.rs 71-78, derived [Serialize] and [Deserialize] *)
Definition coap_response_piece : piece :=
  {| pty := coap_response;
     p_ser := fun mk r => ofld "cov:contentFormat" JInt (cr_format r);
     p_de := fun es =>
       let? c := opt "cov:contentFormat" d_u16 es in
       Some {| cr_format := c |};
     p_take := ["cov:contentFormat"] |}.

(** src/protocol/coap.rs 80-94 *)
Definition coap_exts : exts :=
  {| x_t := unit_piece; x_ia := unit_piece; x_pa := unit_piece; x_aa := unit_piece; x_ea := unit_piece;
     x_f := coap_form_piece; x_er := coap_response_piece; x_ds := unit_piece; x_os := unit_piece;
     x_as := unit_piece |}.

(** ** MQTT *)

(** src/protocol/mqtt.rs 7-16, [ControlPacket] *)
Inductive mqtt_packet := MPublish | MSubscribe | MUnsubscribe.

(** src/protocol/mqtt.rs 9-16: the names of the packets *)
Definition mqtt_packets : list (string * mqtt_packet) :=
  [("mqv:publish", MPublish); ("mqv:subscribe", MSubscribe); ("mqv:unsubscribe", MUnsubscribe)].

(** src/protocol/mqtt.rs 8, derived [Serialize] *)
Definition s_mqtt_packet (p : mqtt_packet) : json :=
  JStr (match p with MPublish => "mqv:publish" | MSubscribe => "mqv:subscribe"
                   | MUnsubscribe => "mqv:unsubscribe" end).

(** src/protocol/mqtt.rs 18-27, [QoS] *)
Inductive mqtt_qos := AtMostOnce | AtLeastOnce | ExactlyOnce.

(** src/protocol/mqtt.rs 20-27: the names of the qualities *)
Definition mqtt_qoss : list (string * mqtt_qos) :=
  [("quality:0", AtMostOnce); ("quality:1", AtLeastOnce); ("quality:2", ExactlyOnce)].

(** src/protocol/mqtt.rs 19, derived [Serialize] *)
Definition s_mqtt_qos (q : mqtt_qos) : json :=
  JStr (match q with AtMostOnce => "quality:0" | AtLeastOnce => "quality:1"
                   | ExactlyOnce => "quality:2" end).

(** src/protocol/mqtt.rs 29-49, [Form] *)
Record mqtt_form := {
  mf_retain : bool;
  mf_packet : option mqtt_packet;
  mf_qos : option mqtt_qos;
  mf_topic : option string;
  mf_filter : list string;
}.

(** src/protocol/mqtt.rs 29-49, derived [Serialize] and [Deserialize] *)
Definition mqtt_form_piece : piece :=
  {| pty := mqtt_form;
     p_ser := fun mk f =>
       (if mf_retain f then fld "mqv:retain" (JBool true) else [])
       ++ ofld "mqv:controlPacket" s_mqtt_packet (mf_packet f)
       ++ ofld "mqv:qos" s_mqtt_qos (mf_qos f)
       ++ ofld "mqv:topic" JStr (mf_topic f)
       ++ match mf_filter f with [] => [] | l => fld "mqv:filter" (s_oom JStr l) end;
     p_de := fun es =>
       let? r := dflt "mqv:retain" false d_bool es in
       let? p := opt "mqv:controlPacket" (d_variant mqtt_packets) es in
       let? q := opt "mqv:qos" (d_variant mqtt_qoss) es in
       let? t := opt "mqv:topic" d_str es in
       let? f := dflt "mqv:filter" [] (d_oom d_str) es in
       Some {| mf_retain := r; mf_packet := p; mf_qos := q; mf_topic := t; mf_filter := f |};
     p_take := ["mqv:retain"; "mqv:controlPacket"; "mqv:qos"; "mqv:topic"; "mqv:filter"] |}.

(** src/protocol/mqtt.rs 52-65 *)
Definition mqtt_exts : exts :=
  {| x_t := unit_piece; x_ia := unit_piece; x_pa := unit_piece; x_aa := unit_piece; x_ea := unit_piece;
     x_f := mqtt_form_piece; x_er := unit_piece; x_ds := unit_piece; x_os := unit_piece;
     x_as := unit_piece |}.
