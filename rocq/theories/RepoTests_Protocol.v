(** * The unit tests of src/protocol/

    Generated from the unit tests of /repo by a script: each [Example] runs the
    model on the calls of one test and compares the outcome with the value the
    test expects.  These are checks of the model on literals, not properties. *)

From Coq Require Import String Bool ZArith List.
From Coq Require Import Floats.SpecFloat.
From Verif Require Import Base MinMax Json Serde Types DsBuilder Builder HList Protocol Ser De SchemaStructs Samples RepoTestsBase.
Import ListNotations.
Set Implicit Arguments.
Local Open Scope string_scope.
Local Open Scope list_scope.

(** src/protocol/coap.rs 107-132, [deserialize_observe] *)
Example coap_deserialize_observe :
  @d_form coap_exts (JObj [("cov:method", JStr "GET"); ("href", JStr "coap://[2001:DB8::1]/status");
    ("contentType", JStr "text/plain;charset=utf-8"); ("subprotocol", JStr "cov:observe"); ("op", JArr
    [JStr "observeproperty"])]) = Some (@Build_form coap_exts (OpCustom [ObserveProperty])
    "coap://[2001:DB8::1]/status" (Some "text/plain;charset=utf-8") None (Some "cov:observe") None None
    None None (Build_coap_form (Some CGet) None None None None None)).
Proof. reflexivity. Qed.

(** src/protocol/coap.rs 135-154, [deserialize_blockwise] *)
Example coap_deserialize_blockwise :
  @d_form coap_exts (JObj [("href", JStr "coap://[2001:DB8::1]/status"); ("contentType", JStr
    "text/plain;charset=utf-8"); ("cov:blockwise", JObj [])]) = Some (@Build_form coap_exts OpDefault
    "coap://[2001:DB8::1]/status" (Some "text/plain;charset=utf-8") None None None None None None
    (Build_coap_form None (Some (Build_blockwise None None)) None None None None)).
Proof. reflexivity. Qed.

(** src/protocol/coap.rs 157-181, [deserialize_qblockwise_params] *)
Example coap_deserialize_qblockwise_params :
  @d_form coap_exts (JObj [("href", JStr "coap://[2001:DB8::1]/status"); ("contentType", JStr
    "text/plain;charset=utf-8"); ("cov:qblockwise", JObj [("cov:block2Size", JInt 64%Z)])]) = Some
    (@Build_form coap_exts OpDefault "coap://[2001:DB8::1]/status" (Some "text/plain;charset=utf-8")
    None None None None None None (Build_coap_form None None (Some (Build_blockwise (Some B64) None))
    None None None)).
Proof. reflexivity. Qed.

(** src/protocol/coap.rs 184-203, [deserialize_hop_limit] *)
Example coap_deserialize_hop_limit :
  @d_form coap_exts (JObj [("href", JStr "coap://[2001:DB8::1]/status"); ("contentType", JStr
    "text/plain;charset=utf-8"); ("cov:hopLimit", JInt 5%Z)]) = Some (@Build_form coap_exts OpDefault
    "coap://[2001:DB8::1]/status" (Some "text/plain;charset=utf-8") None None None None None None
    (Build_coap_form None None None (Some (5%Z)) None None)).
Proof. reflexivity. Qed.

(** src/protocol/coap.rs 206-237, [deserialize_content_format] *)
Example coap_deserialize_content_format :
  @d_form coap_exts (JObj [("href", JStr "coap://[2001:DB8::1]/status"); ("contentType", JStr
    "application/cbor"); ("cov:contentFormat", JInt 60%Z); ("cov:accept", JInt 60%Z); ("response", JObj
    [("contentType", JStr "application/cbor"); ("cov:contentFormat", JInt 60%Z)])]) = Some (@Build_form
    coap_exts OpDefault "coap://[2001:DB8::1]/status" (Some "application/cbor") None None None None
    (Some (@Build_exp_resp (pty (x_er coap_exts)) "application/cbor" (Build_coap_response (Some
    (60%Z))))) None (Build_coap_form None None None None (Some (60%Z)) (Some (60%Z)))).
Proof. reflexivity. Qed.

(** src/protocol/http.rs 77-114, [deserialize_discovery_property] *)
Example http_deserialize_discovery_property :
  @d_form http_exts (JObj [("href", JStr "/things{?offset,limit,format,sort_by,sort_order}");
    ("htv:methodName", JStr "GET"); ("response", JObj [("description", JStr "Success response");
    ("htv:statusCodeValue", JInt 200%Z); ("contentType", JStr "application/ld+json"); ("htv:headers",
    JArr [JObj [("htv:fieldName", JStr "Link")]])])]) = Some (@Build_form http_exts OpDefault
    "/things{?offset,limit,format,sort_by,sort_order}" None None None None None (Some (@Build_exp_resp
    (pty (x_er http_exts)) "application/ld+json" (Build_http_response [(Build_http_header (Some "Link")
    None)] (Some (200%Z))))) None (Build_http_form (Some HGet))).
Proof. reflexivity. Qed.

(** src/protocol/http.rs 117-156, [deserialize_discovery_action] *)
Example http_deserialize_discovery_action :
  @d_form http_exts (JObj [("href", JStr "/things"); ("htv:methodName", JStr "POST"); ("response", JObj
    [("contentType", JStr "application/td+json"); ("description", JStr
    "Success response including the system-generated URI"); ("htv:headers", JArr [JObj [("description",
    JStr "System-generated URI"); ("htv:fieldName", JStr "Location")]]); ("htv:statusCodeValue", JInt
    201%Z)])]) = Some (@Build_form http_exts OpDefault "/things" None None None None None (Some
    (@Build_exp_resp (pty (x_er http_exts)) "application/td+json" (Build_http_response
    [(Build_http_header (Some "Location") None)] (Some (201%Z))))) None (Build_http_form (Some HPost))).
Proof. reflexivity. Qed.

(** src/protocol/mqtt.rs 79-100, [simple_filter] *)
Example mqtt_simple_filter :
  @d_form mqtt_exts (JObj [("href", JStr "mqtt://broker.com:1883"); ("op", JArr [JStr "subscribeevent";
    JStr "unsubscribeevent"]); ("mqv:filter", JStr "thing1/events/overheating")]) = Some (@Build_form
    mqtt_exts (OpCustom [SubscribeEvent; UnsubscribeEvent]) "mqtt://broker.com:1883" None None None None
    None None None (Build_mqtt_form false None None None ["thing1/events/overheating"])).
Proof. reflexivity. Qed.

(** src/protocol/mqtt.rs 103-128, [complex_filter] *)
Example mqtt_complex_filter :
  @d_form mqtt_exts (JObj [("href", JStr "mqtt://broker.com:1883"); ("op", JArr [JStr "readproperty"; JStr
    "observeproperty"]); ("mqv:qos", JStr "quality:1"); ("mqv:retain", JBool true); ("mqv:filter", JStr
    "application/devices/thing1/properties/test")]) = Some (@Build_form mqtt_exts (OpCustom
    [ReadProperty; ObserveProperty]) "mqtt://broker.com:1883" None None None None None None None
    (Build_mqtt_form true None (Some AtLeastOnce) None ["application/devices/thing1/properties/test"])).
Proof. reflexivity. Qed.
