(** * The texts in the unit tests of src/

    Generated from /repo by a script: each [Example] reads one raw text of a unit test, character by character, as the
    document that [RepoTests_Thing] and [RepoTests_Protocol] start from.  These are checks of the model on literals, not
    properties. *)

From Coq Require Import String Bool ZArith List.
From Verif Require Import Base MinMax Json JsonText TextSamples.
Import ListNotations.
Set Implicit Arguments.
Local Open Scope string_scope.
Local Open Scope list_scope.

(** src/thing.rs 1750-1759, [minimal_thing] *)
Example thing_minimal_thing_text :
  from_text few_floats "
        {
            ""@context"": ""https://www.w3.org/2022/wot/td/v1.1"",
            ""id"": ""urn:dev:ops:32473-WoTLamp-1234"",
            ""title"": ""MyLampThing"",
            ""securityDefinitions"": {
                ""nosec"": {""scheme"": ""nosec""}
            },
            ""security"": [""nosec""]
        }"
  = Some (
    JObj [("@context", JStr "https://www.w3.org/2022/wot/td/v1.1"); ("id", JStr
    "urn:dev:ops:32473-WoTLamp-1234"); ("title", JStr "MyLampThing"); ("securityDefinitions", JObj [("nosec",
    JObj [("scheme", JStr "nosec")])]); ("security", JArr [JStr "nosec"])]).
Proof. reflexivity. Qed.

(** src/thing.rs 1781-1876, [complete_thing] *)
Example thing_complete_thing_text :
  from_text few_floats "
        {
          ""@context"": ""https://www.w3.org/2022/wot/td/v1.1"",
          ""id"": ""urn:dev:ops:32473-WoTLamp-1234"",
          ""@type"": [
            ""Thing"",
            ""LampThing""
          ],
          ""title"": ""MyLampThing"",
          ""titles"": {
            ""en"": ""MyLampThing"",
            ""it"": ""La mia lampada intelligente""
          },
          ""description"": ""A simple smart lamp"",
          ""descriptions"": {
            ""en"": ""A simple smart lamp"",
            ""it"": ""Una semplice lampada intelligente""
          },
          ""version"": {
            ""instance"": ""0.1.0"",
            ""model"": ""model""
          },
          ""created"": ""2022-05-01T10:20:42.123Z"",
          ""modified"": ""2022-05-10T12:30:00.000+01:00"",
          ""support"": ""mailto:mail@test.com"",
          ""base"": ""https://mylamp.example.com/"",
          ""properties"": {
            ""status"": {
              ""type"": ""string"",
              ""forms"": [
                {
                  ""href"": ""https://mylamp.example.com/status""
                }
              ]
            }
          },
          ""actions"": {
            ""toggle"": {
              ""forms"": [
                {
                  ""href"": ""https://mylamp.example.com/toggle""
                }
              ],
              ""synchronous"": false
            }
          },
          ""events"": {
            ""overheating"": {
              ""data"": {
                ""type"": ""string""
              },
              ""forms"": [
                {
                  ""href"": ""https://mylamp.example.com/oh"",
                  ""subprotocol"": ""longpoll""
                }
              ]
            }
          },
          ""links"": [
            {
              ""href"": ""https://myswitch.example.com/""
            }
          ],
          ""forms"": [
            {
              ""href"": ""https://mylamp.example.com/enumerate"",
              ""op"": ""readallproperties""
            }
          ],
          ""schemaDefinitions"": {
              ""schema"": {
                  ""type"": ""null""
              }
          },
          ""securityDefinitions"": {
            ""nosec"": {
              ""scheme"": ""nosec""
            }
          },
          ""security"": [
            ""nosec""
          ],
          ""profile"": [
              ""profile1"",
              ""profile2""
          ],
          ""uriVariables"": {
            ""uriVariable1"": {
              ""type"": ""string""
            },
            ""uriVariable2"": {
              ""type"": ""number""
            }
          }
        }"
  = Some (
    JObj [("@context", JStr "https://www.w3.org/2022/wot/td/v1.1"); ("id", JStr
    "urn:dev:ops:32473-WoTLamp-1234"); ("@type", JArr [JStr "Thing"; JStr "LampThing"]); ("title", JStr
    "MyLampThing"); ("titles", JObj [("en", JStr "MyLampThing"); ("it", JStr "La mia lampada intelligente")]);
    ("description", JStr "A simple smart lamp"); ("descriptions", JObj [("en", JStr "A simple smart lamp");
    ("it", JStr "Una semplice lampada intelligente")]); ("version", JObj [("instance", JStr "0.1.0");
    ("model", JStr "model")]); ("created", JStr "2022-05-01T10:20:42.123Z"); ("modified", JStr
    "2022-05-10T12:30:00.000+01:00"); ("support", JStr "mailto:mail@test.com"); ("base", JStr
    "https://mylamp.example.com/"); ("properties", JObj [("status", JObj [("type", JStr "string"); ("forms",
    JArr [JObj [("href", JStr "https://mylamp.example.com/status")]])])]); ("actions", JObj [("toggle", JObj
    [("forms", JArr [JObj [("href", JStr "https://mylamp.example.com/toggle")]]); ("synchronous", JBool
    false)])]); ("events", JObj [("overheating", JObj [("data", JObj [("type", JStr "string")]); ("forms",
    JArr [JObj [("href", JStr "https://mylamp.example.com/oh"); ("subprotocol", JStr "longpoll")]])])]);
    ("links", JArr [JObj [("href", JStr "https://myswitch.example.com/")]]); ("forms", JArr [JObj [("href",
    JStr "https://mylamp.example.com/enumerate"); ("op", JStr "readallproperties")]]); ("schemaDefinitions",
    JObj [("schema", JObj [("type", JStr "null")])]); ("securityDefinitions", JObj [("nosec", JObj [("scheme",
    JStr "nosec")])]); ("security", JArr [JStr "nosec"]); ("profile", JArr [JStr "profile1"; JStr
    "profile2"]); ("uriVariables", JObj [("uriVariable1", JObj [("type", JStr "string")]); ("uriVariable2",
    JObj [("type", JStr "number")])])]).
Proof. reflexivity. Qed.

(** src/thing.rs 2032-2043, [default_context] *)
Example thing_default_context_text :
  from_text few_floats "
        {
          ""title"": ""MyLampThing"",
          ""securityDefinitions"": {
            ""nosec"": {
              ""scheme"": ""nosec""
            }
          },
          ""security"": [
            ""nosec""
          ]
        }"
  = Some (
    JObj [("title", JStr "MyLampThing"); ("securityDefinitions", JObj [("nosec", JObj [("scheme", JStr
    "nosec")])]); ("security", JArr [JStr "nosec"])]).
Proof. reflexivity. Qed.

(** src/protocol/coap.rs 108-116, [deserialize_observe] *)
Example coap_deserialize_observe_text :
  from_text few_floats "
            {
                ""cov:method"": ""GET"",
                ""href"": ""coap://[2001:DB8::1]/status"",
                ""contentType"": ""text/plain;charset=utf-8"",
                ""subprotocol"": ""cov:observe"",
                ""op"": [""observeproperty""]
            }
        "
  = Some (
    JObj [("cov:method", JStr "GET"); ("href", JStr "coap://[2001:DB8::1]/status"); ("contentType", JStr
    "text/plain;charset=utf-8"); ("subprotocol", JStr "cov:observe"); ("op", JArr [JStr "observeproperty"])]).
Proof. reflexivity. Qed.

(** src/protocol/coap.rs 136-142, [deserialize_blockwise] *)
Example coap_deserialize_blockwise_text :
  from_text few_floats "
            {
                ""href"": ""coap://[2001:DB8::1]/status"",
                ""contentType"": ""text/plain;charset=utf-8"",
                ""cov:blockwise"": { }
            }
        "
  = Some (
    JObj [("href", JStr "coap://[2001:DB8::1]/status"); ("contentType", JStr "text/plain;charset=utf-8");
    ("cov:blockwise", JObj [])]).
Proof. reflexivity. Qed.

(** src/protocol/coap.rs 158-166, [deserialize_qblockwise_params] *)
Example coap_deserialize_qblockwise_params_text :
  from_text few_floats "
            {
                ""href"": ""coap://[2001:DB8::1]/status"",
                ""contentType"": ""text/plain;charset=utf-8"",
                ""cov:qblockwise"": {
                    ""cov:block2Size"": 64
                }
            }
        "
  = Some (
    JObj [("href", JStr "coap://[2001:DB8::1]/status"); ("contentType", JStr "text/plain;charset=utf-8");
    ("cov:qblockwise", JObj [("cov:block2Size", JInt 64%Z)])]).
Proof. reflexivity. Qed.

(** src/protocol/coap.rs 185-191, [deserialize_hop_limit] *)
Example coap_deserialize_hop_limit_text :
  from_text few_floats "
            {
                ""href"": ""coap://[2001:DB8::1]/status"",
                ""contentType"": ""text/plain;charset=utf-8"",
                ""cov:hopLimit"": 5
            }
        "
  = Some (
    JObj [("href", JStr "coap://[2001:DB8::1]/status"); ("contentType", JStr "text/plain;charset=utf-8");
    ("cov:hopLimit", JInt 5%Z)]).
Proof. reflexivity. Qed.

(** src/protocol/coap.rs 207-218, [deserialize_content_format] *)
Example coap_deserialize_content_format_text :
  from_text few_floats "
            {
                ""href"": ""coap://[2001:DB8::1]/status"",
                ""contentType"": ""application/cbor"",
                ""cov:contentFormat"": 60,
                ""cov:accept"": 60,
                ""response"": {
                    ""contentType"": ""application/cbor"",
                    ""cov:contentFormat"": 60
                }
            }
        "
  = Some (
    JObj [("href", JStr "coap://[2001:DB8::1]/status"); ("contentType", JStr "application/cbor");
    ("cov:contentFormat", JInt 60%Z); ("cov:accept", JInt 60%Z); ("response", JObj [("contentType", JStr
    "application/cbor"); ("cov:contentFormat", JInt 60%Z)])]).
Proof. reflexivity. Qed.

(** src/protocol/http.rs 78-93, [deserialize_discovery_property] *)
Example http_deserialize_discovery_property_text :
  from_text few_floats "
        {
            ""href"": ""/things{?offset,limit,format,sort_by,sort_order}"",
            ""htv:methodName"": ""GET"",
            ""response"": {
                ""description"": ""Success response"",
                ""htv:statusCodeValue"": 200,
                ""contentType"": ""application/ld+json"",
                ""htv:headers"": [
                    {
                        ""htv:fieldName"": ""Link""
                    }
                ]
            }
        }
        "
  = Some (
    JObj [("href", JStr "/things{?offset,limit,format,sort_by,sort_order}"); ("htv:methodName", JStr "GET");
    ("response", JObj [("description", JStr "Success response"); ("htv:statusCodeValue", JInt 200%Z);
    ("contentType", JStr "application/ld+json"); ("htv:headers", JArr [JObj [("htv:fieldName", JStr
    "Link")]])])]).
Proof. reflexivity. Qed.

(** src/protocol/http.rs 118-134, [deserialize_discovery_action] *)
Example http_deserialize_discovery_action_text :
  from_text few_floats "
        {
            ""href"": ""/things"",
            ""htv:methodName"": ""POST"",
            ""response"": {
                ""contentType"": ""application/td+json"",
                ""description"": ""Success response including the system-generated URI"",
                ""htv:headers"": [
                    {
                        ""description"": ""System-generated URI"",
                        ""htv:fieldName"": ""Location""
                    }
                ],
                ""htv:statusCodeValue"": 201
            }
        }
        "
  = Some (
    JObj [("href", JStr "/things"); ("htv:methodName", JStr "POST"); ("response", JObj [("contentType", JStr
    "application/td+json"); ("description", JStr "Success response including the system-generated URI");
    ("htv:headers", JArr [JObj [("description", JStr "System-generated URI"); ("htv:fieldName", JStr
    "Location")]]); ("htv:statusCodeValue", JInt 201%Z)])]).
Proof. reflexivity. Qed.

(** src/protocol/mqtt.rs 80-87, [simple_filter] *)
Example mqtt_simple_filter_text :
  from_text few_floats "{
            ""href"": ""mqtt://broker.com:1883"",
            ""op"": [
                ""subscribeevent"",
                ""unsubscribeevent""
            ],
            ""mqv:filter"": ""thing1/events/overheating""
        }"
  = Some (
    JObj [("href", JStr "mqtt://broker.com:1883"); ("op", JArr [JStr "subscribeevent"; JStr
    "unsubscribeevent"]); ("mqv:filter", JStr "thing1/events/overheating")]).
Proof. reflexivity. Qed.

(** src/protocol/mqtt.rs 104-113, [complex_filter] *)
Example mqtt_complex_filter_text :
  from_text few_floats "{
            ""href"": ""mqtt://broker.com:1883"",
            ""op"": [
                ""readproperty"",
                ""observeproperty""
            ],
            ""mqv:qos"": ""quality:1"",
            ""mqv:retain"" : true,
            ""mqv:filter"": ""application/devices/thing1/properties/test""
        }"
  = Some (
    JObj [("href", JStr "mqtt://broker.com:1883"); ("op", JArr [JStr "readproperty"; JStr "observeproperty"]);
    ("mqv:qos", JStr "quality:1"); ("mqv:retain", JBool true); ("mqv:filter", JStr
    "application/devices/thing1/properties/test")]).
Proof. reflexivity. Qed.
