(** * The unit tests of src/thing.rs

    Generated from the unit tests of /repo by a script: each [Example] runs the
    model on the calls of one test and compares the outcome with the value the
    test expects.  These are checks of the model on literals, not properties. *)

From Coq Require Import String Bool ZArith List.
From Coq Require Import Floats.SpecFloat.
From Verif Require Import Base MinMax Json Serde Types DsBuilder Builder HList Protocol Ser De SchemaStructs Samples RepoTestsBase.
Import ListNotations.
Set Implicit Arguments.
Local Open Scope string_scope.
Local Open Scope list_scope.

(** src/thing.rs 1749-1777, [minimal_thing] *)
Example thing_minimal_thing_1 :
  @d_thing test_env N (JObj [("@context", JStr "https://www.w3.org/2022/wot/td/v1.1"); ("id", JStr
    "urn:dev:ops:32473-WoTLamp-1234"); ("title", JStr "MyLampThing"); ("securityDefinitions", JObj
    [("nosec", JObj [("scheme", JStr "nosec")])]); ("security", JArr [JStr "nosec"])]) = Some
    (@Build_thing test_env N (JStr TD_CONTEXT_11) (Some "urn:dev:ops:32473-WoTLamp-1234") None
    "MyLampThing" None None None None None None None None None None None None None ["nosec"] [("nosec",
    (Build_security_scheme None None None None (Known KNoSec)))] None None None tt).
Proof. reflexivity. Qed.

(** src/thing.rs 1749-1777, [minimal_thing] *)
Example thing_minimal_thing_2 :
  read_again N (JObj [("@context", JStr "https://www.w3.org/2022/wot/td/v1.1"); ("id", JStr
    "urn:dev:ops:32473-WoTLamp-1234"); ("title", JStr "MyLampThing"); ("securityDefinitions", JObj
    [("nosec", JObj [("scheme", JStr "nosec")])]); ("security", JArr [JStr "nosec"])]) = Some
    (@Build_thing test_env N (JStr TD_CONTEXT_11) (Some "urn:dev:ops:32473-WoTLamp-1234") None
    "MyLampThing" None None None None None None None None None None None None None ["nosec"] [("nosec",
    (Build_security_scheme None None None None (Known KNoSec)))] None None None tt).
Proof. reflexivity. Qed.

(** src/thing.rs 1780-2028, [complete_thing] *)
Example thing_complete_thing_1 :
  @d_thing test_env N (JObj [("@context", JStr "https://www.w3.org/2022/wot/td/v1.1"); ("id", JStr
    "urn:dev:ops:32473-WoTLamp-1234"); ("@type", JArr [JStr "Thing"; JStr "LampThing"]); ("title", JStr
    "MyLampThing"); ("titles", JObj [("en", JStr "MyLampThing"); ("it", JStr
    "La mia lampada intelligente")]); ("description", JStr "A simple smart lamp"); ("descriptions", JObj
    [("en", JStr "A simple smart lamp"); ("it", JStr "Una semplice lampada intelligente")]); ("version",
    JObj [("instance", JStr "0.1.0"); ("model", JStr "model")]); ("created", JStr
    "2022-05-01T10:20:42.123Z"); ("modified", JStr "2022-05-10T12:30:00.000+01:00"); ("support", JStr
    "mailto:mail@test.com"); ("base", JStr "https://mylamp.example.com/"); ("properties", JObj
    [("status", JObj [("type", JStr "string"); ("forms", JArr [JObj [("href", JStr
    "https://mylamp.example.com/status")]])])]); ("actions", JObj [("toggle", JObj [("forms", JArr [JObj
    [("href", JStr "https://mylamp.example.com/toggle")]]); ("synchronous", JBool false)])]); ("events",
    JObj [("overheating", JObj [("data", JObj [("type", JStr "string")]); ("forms", JArr [JObj [("href",
    JStr "https://mylamp.example.com/oh"); ("subprotocol", JStr "longpoll")]])])]); ("links", JArr [JObj
    [("href", JStr "https://myswitch.example.com/")]]); ("forms", JArr [JObj [("href", JStr
    "https://mylamp.example.com/enumerate"); ("op", JStr "readallproperties")]]); ("schemaDefinitions",
    JObj [("schema", JObj [("type", JStr "null")])]); ("securityDefinitions", JObj [("nosec", JObj
    [("scheme", JStr "nosec")])]); ("security", JArr [JStr "nosec"]); ("profile", JArr [JStr "profile1";
    JStr "profile2"]); ("uriVariables", JObj [("uriVariable1", JObj [("type", JStr "string")]);
    ("uriVariable2", JObj [("type", JStr "number")])])]) = Some (@Build_thing test_env N (JStr
    TD_CONTEXT_11) (Some "urn:dev:ops:32473-WoTLamp-1234") (Some ["Thing"; "LampThing"]) "MyLampThing"
    (Some [("en", "MyLampThing"); ("it", "La mia lampada intelligente")]) (Some "A simple smart lamp")
    (Some [("en", "A simple smart lamp"); ("it", "Una semplice lampada intelligente")]) (Some
    (Build_version_info "0.1.0" (Some "model"))) (Some "2022-05-01T10:20:42.123Z") (Some
    "2022-05-10T12:30:00.000+01:00") (Some "mailto:mail@test.com") (Some "https://mylamp.example.com/")
    (Some [("status", (@Build_property N (@Build_interaction N (Build_info None None None None None)
    [(@Build_form N OpDefault "https://mylamp.example.com/status" None None None None None None None
    tt)] None tt) (@mkDs (pty (x_ds N)) (pty (x_as N)) (pty (x_os N)) (Build_info None None None None
    None) (Build_dmisc None None None None false false None) None (Some (SString (Build_string_schema
    None None None None None))) tt) None tt))]) (Some [("toggle", (@Build_action N (@Build_interaction N
    (Build_info None None None None None) [(@Build_form N OpDefault "https://mylamp.example.com/toggle"
    None None None None None None None tt)] None tt) None None false false (Some false) tt))]) (Some
    [("overheating", (@Build_event N (@Build_interaction N (Build_info None None None None None)
    [(@Build_form N OpDefault "https://mylamp.example.com/oh" None None (Some "longpoll") None None None
    None tt)] None tt) None (Some (@mkDs (pty (x_ds N)) (pty (x_as N)) (pty (x_os N)) (Build_info None
    None None None None) (Build_dmisc None None None None false false None) None (Some (SString
    (Build_string_schema None None None None None))) tt)) None None tt))]) (Some [(Build_link
    "https://myswitch.example.com/" None None None None None)]) (Some [(@Build_form N (OpCustom
    [ReadAllProperties]) "https://mylamp.example.com/enumerate" None None None None None None None tt)])
    ["nosec"] [("nosec", (Build_security_scheme None None None None (Known KNoSec)))] (Some
    [("uriVariable1", (@mkDs (pty (x_ds N)) (pty (x_as N)) (pty (x_os N)) (Build_info None None None
    None None) (Build_dmisc None None None None false false None) None (Some (SString
    (Build_string_schema None None None None None))) tt)); ("uriVariable2", (@mkDs (pty (x_ds N)) (pty
    (x_as N)) (pty (x_os N)) (Build_info None None None None None) (Build_dmisc None None None None
    false false None) None (Some (SNumber (Build_number_schema None None None))) tt))]) (Some
    ["profile1"; "profile2"]) (Some [("schema", (@mkDs (pty (x_ds N)) (pty (x_as N)) (pty (x_os N))
    (Build_info None None None None None) (Build_dmisc None None None None false false None) None (Some
    SNull) tt))]) tt).
Proof. reflexivity. Qed.

(** src/thing.rs 1780-2028, [complete_thing] *)
Example thing_complete_thing_2 :
  read_again N (JObj [("@context", JStr "https://www.w3.org/2022/wot/td/v1.1"); ("id", JStr
    "urn:dev:ops:32473-WoTLamp-1234"); ("@type", JArr [JStr "Thing"; JStr "LampThing"]); ("title", JStr
    "MyLampThing"); ("titles", JObj [("en", JStr "MyLampThing"); ("it", JStr
    "La mia lampada intelligente")]); ("description", JStr "A simple smart lamp"); ("descriptions", JObj
    [("en", JStr "A simple smart lamp"); ("it", JStr "Una semplice lampada intelligente")]); ("version",
    JObj [("instance", JStr "0.1.0"); ("model", JStr "model")]); ("created", JStr
    "2022-05-01T10:20:42.123Z"); ("modified", JStr "2022-05-10T12:30:00.000+01:00"); ("support", JStr
    "mailto:mail@test.com"); ("base", JStr "https://mylamp.example.com/"); ("properties", JObj
    [("status", JObj [("type", JStr "string"); ("forms", JArr [JObj [("href", JStr
    "https://mylamp.example.com/status")]])])]); ("actions", JObj [("toggle", JObj [("forms", JArr [JObj
    [("href", JStr "https://mylamp.example.com/toggle")]]); ("synchronous", JBool false)])]); ("events",
    JObj [("overheating", JObj [("data", JObj [("type", JStr "string")]); ("forms", JArr [JObj [("href",
    JStr "https://mylamp.example.com/oh"); ("subprotocol", JStr "longpoll")]])])]); ("links", JArr [JObj
    [("href", JStr "https://myswitch.example.com/")]]); ("forms", JArr [JObj [("href", JStr
    "https://mylamp.example.com/enumerate"); ("op", JStr "readallproperties")]]); ("schemaDefinitions",
    JObj [("schema", JObj [("type", JStr "null")])]); ("securityDefinitions", JObj [("nosec", JObj
    [("scheme", JStr "nosec")])]); ("security", JArr [JStr "nosec"]); ("profile", JArr [JStr "profile1";
    JStr "profile2"]); ("uriVariables", JObj [("uriVariable1", JObj [("type", JStr "string")]);
    ("uriVariable2", JObj [("type", JStr "number")])])]) = Some (@Build_thing test_env N (JStr
    TD_CONTEXT_11) (Some "urn:dev:ops:32473-WoTLamp-1234") (Some ["Thing"; "LampThing"]) "MyLampThing"
    (Some [("en", "MyLampThing"); ("it", "La mia lampada intelligente")]) (Some "A simple smart lamp")
    (Some [("en", "A simple smart lamp"); ("it", "Una semplice lampada intelligente")]) (Some
    (Build_version_info "0.1.0" (Some "model"))) (Some "2022-05-01T10:20:42.123Z") (Some
    "2022-05-10T12:30:00.000+01:00") (Some "mailto:mail@test.com") (Some "https://mylamp.example.com/")
    (Some [("status", (@Build_property N (@Build_interaction N (Build_info None None None None None)
    [(@Build_form N OpDefault "https://mylamp.example.com/status" None None None None None None None
    tt)] None tt) (@mkDs (pty (x_ds N)) (pty (x_as N)) (pty (x_os N)) (Build_info None None None None
    None) (Build_dmisc None None None None false false None) None (Some (SString (Build_string_schema
    None None None None None))) tt) None tt))]) (Some [("toggle", (@Build_action N (@Build_interaction N
    (Build_info None None None None None) [(@Build_form N OpDefault "https://mylamp.example.com/toggle"
    None None None None None None None tt)] None tt) None None false false (Some false) tt))]) (Some
    [("overheating", (@Build_event N (@Build_interaction N (Build_info None None None None None)
    [(@Build_form N OpDefault "https://mylamp.example.com/oh" None None (Some "longpoll") None None None
    None tt)] None tt) None (Some (@mkDs (pty (x_ds N)) (pty (x_as N)) (pty (x_os N)) (Build_info None
    None None None None) (Build_dmisc None None None None false false None) None (Some (SString
    (Build_string_schema None None None None None))) tt)) None None tt))]) (Some [(Build_link
    "https://myswitch.example.com/" None None None None None)]) (Some [(@Build_form N (OpCustom
    [ReadAllProperties]) "https://mylamp.example.com/enumerate" None None None None None None None tt)])
    ["nosec"] [("nosec", (Build_security_scheme None None None None (Known KNoSec)))] (Some
    [("uriVariable1", (@mkDs (pty (x_ds N)) (pty (x_as N)) (pty (x_os N)) (Build_info None None None
    None None) (Build_dmisc None None None None false false None) None (Some (SString
    (Build_string_schema None None None None None))) tt)); ("uriVariable2", (@mkDs (pty (x_ds N)) (pty
    (x_as N)) (pty (x_os N)) (Build_info None None None None None) (Build_dmisc None None None None
    false false None) None (Some (SNumber (Build_number_schema None None None))) tt))]) (Some
    ["profile1"; "profile2"]) (Some [("schema", (@mkDs (pty (x_ds N)) (pty (x_as N)) (pty (x_os N))
    (Build_info None None None None None) (Build_dmisc None None None None false false None) None (Some
    SNull) tt))]) tt).
Proof. reflexivity. Qed.

(** src/thing.rs 2031-2057, [default_context] *)
Example thing_default_context :
  @d_thing test_env N (JObj [("title", JStr "MyLampThing"); ("securityDefinitions", JObj [("nosec", JObj
    [("scheme", JStr "nosec")])]); ("security", JArr [JStr "nosec"])]) = Some (@Build_thing test_env N
    (JStr TD_CONTEXT_11) None None "MyLampThing" None None None None None None None None None None None
    None None ["nosec"] [("nosec", (Build_security_scheme None None None None (Known KNoSec)))] None
    None None tt).
Proof. reflexivity. Qed.

(** src/thing.rs 2131-2283, [extend_single_thing] *)
Example thing_extend_single_thing :
  @s_thing test_env ext_a mk_value (@Build_thing test_env ext_a (JStr "test") None None "" None None None
    None None None None None (Some [("prop", (@Build_property ext_a (@Build_interaction ext_a
    (Build_info None None None None None) [] None (1%Z)) (@mkDs (pty (x_ds ext_a)) (pty (x_as ext_a))
    (pty (x_os ext_a)) (Build_info None None None None None) (Build_dmisc None None None None false
    false None) None (Some (SArray None None None (2%Z))) (3%Z)) None (4%Z)))]) (Some [("action",
    (@Build_action ext_a (@Build_interaction ext_a (Build_info None None None None None) [] None (5%Z))
    (Some (@mkDs (pty (x_ds ext_a)) (pty (x_as ext_a)) (pty (x_os ext_a)) (Build_info None None None
    None None) (Build_dmisc None None None None false false None) None (Some (SObject None None (6%Z)))
    (7%Z))) (Some (@mkDs (pty (x_ds ext_a)) (pty (x_as ext_a)) (pty (x_os ext_a)) (Build_info None None
    None None None) (Build_dmisc None None None None false false None) None None (42%Z))) false false
    None (8%Z)))]) (Some [("event", (@Build_event ext_a (@Build_interaction ext_a (Build_info None None
    None None None) [] None (42%Z)) None None None None (9%Z)))]) None (Some [(@Build_form ext_a
    OpDefault "" None None None None None (Some (@Build_exp_resp (pty (x_er ext_a)) "" (10%Z))) None
    (11%Z))]) [] [] None None (Some [("schema", (@mkDs (pty (x_ds ext_a)) (pty (x_as ext_a)) (pty (x_os
    ext_a)) (Build_info None None None None None) (Build_dmisc None None None None false false None)
    None (Some SNull) (12%Z)))]) (13%Z)) = Some (JObj [("@context", JStr "test"); ("a", JInt 13%Z);
    ("actions", JObj [("action", JObj [("b", JInt 5%Z); ("c", JInt 8%Z); ("forms", JArr []);
    ("idempotent", JBool false); ("input", JObj [("h", JInt 7%Z); ("i", JInt 6%Z); ("readOnly", JBool
    false); ("type", JStr "object"); ("writeOnly", JBool false)]); ("output", JObj [("h", JInt 42%Z);
    ("readOnly", JBool false); ("writeOnly", JBool false)]); ("safe", JBool false)])]); ("events", JObj
    [("event", JObj [("b", JInt 42%Z); ("e", JInt 9%Z); ("forms", JArr [])])]); ("forms", JArr [JObj
    [("f", JInt 11%Z); ("href", JStr ""); ("response", JObj [("contentType", JStr ""); ("g", JInt
    10%Z)])]]); ("properties", JObj [("prop", JObj [("b", JInt 1%Z); ("d", JInt 4%Z); ("forms", JArr
    []); ("h", JInt 3%Z); ("j", JInt 2%Z); ("readOnly", JBool false); ("type", JStr "array");
    ("writeOnly", JBool false)])]); ("schemaDefinitions", JObj [("schema", JObj [("h", JInt 12%Z);
    ("readOnly", JBool false); ("type", JStr "null"); ("writeOnly", JBool false)])]); ("security", JArr
    []); ("securityDefinitions", JObj []); ("title", JStr "")]).
Proof. reflexivity. Qed.

(** src/thing.rs 2286-2418, [extend_single_thing_with_hlist] *)
Example thing_extend_single_thing_with_hlist :
  @s_thing test_env list_a mk_value (@Build_thing test_env list_a (JStr "test") None None "" None None
    None None None None None None (Some [("prop", (@Build_property list_a (@Build_interaction list_a
    (Build_info None None None None None) [] None (1%Z, tt)) (@mkDs (pty (x_ds list_a)) (pty (x_as
    list_a)) (pty (x_os list_a)) (Build_info None None None None None) (Build_dmisc None None None None
    false false None) None (Some (SArray None None None (2%Z, tt))) (3%Z, tt)) None (4%Z, tt)))]) (Some
    [("action", (@Build_action list_a (@Build_interaction list_a (Build_info None None None None None)
    [] None (5%Z, tt)) (Some (@mkDs (pty (x_ds list_a)) (pty (x_as list_a)) (pty (x_os list_a))
    (Build_info None None None None None) (Build_dmisc None None None None false false None) None (Some
    (SObject None None (6%Z, tt))) (7%Z, tt))) (Some (@mkDs (pty (x_ds list_a)) (pty (x_as list_a)) (pty
    (x_os list_a)) (Build_info None None None None None) (Build_dmisc None None None None false false
    None) None None (42%Z, tt))) false false None (8%Z, tt)))]) (Some [("event", (@Build_event list_a
    (@Build_interaction list_a (Build_info None None None None None) [] None (42%Z, tt)) None None None
    None (9%Z, tt)))]) None (Some [(@Build_form list_a OpDefault "" None None None None None (Some
    (@Build_exp_resp (pty (x_er list_a)) "" (10%Z, tt))) None (11%Z, tt))]) [] [] None None None (12%Z,
    tt)) = Some (JObj [("@context", JStr "test"); ("a", JInt 12%Z); ("actions", JObj [("action", JObj
    [("b", JInt 5%Z); ("c", JInt 8%Z); ("forms", JArr []); ("idempotent", JBool false); ("input", JObj
    [("h", JInt 7%Z); ("i", JInt 6%Z); ("readOnly", JBool false); ("type", JStr "object"); ("writeOnly",
    JBool false)]); ("output", JObj [("h", JInt 42%Z); ("readOnly", JBool false); ("writeOnly", JBool
    false)]); ("safe", JBool false)])]); ("events", JObj [("event", JObj [("b", JInt 42%Z); ("e", JInt
    9%Z); ("forms", JArr [])])]); ("forms", JArr [JObj [("f", JInt 11%Z); ("href", JStr "");
    ("response", JObj [("contentType", JStr ""); ("g", JInt 10%Z)])]]); ("properties", JObj [("prop",
    JObj [("b", JInt 1%Z); ("d", JInt 4%Z); ("forms", JArr []); ("h", JInt 3%Z); ("j", JInt 2%Z);
    ("readOnly", JBool false); ("type", JStr "array"); ("writeOnly", JBool false)])]); ("security", JArr
    []); ("securityDefinitions", JObj []); ("title", JStr "")]).
Proof. reflexivity. Qed.

(** src/thing.rs 2483-2634, [extend_thing_with_two] *)
Example thing_extend_thing_with_two :
  @s_thing test_env list_ab mk_value (@Build_thing test_env list_ab (JStr "test") None None "" None None
    None None None None None None (Some [("prop", (@Build_property list_ab (@Build_interaction list_ab
    (Build_info None None None None None) [] None (2%Z, (1%Z, tt))) (@mkDs (pty (x_ds list_ab)) (pty
    (x_as list_ab)) (pty (x_os list_ab)) (Build_info None None None None None) (Build_dmisc None None
    None None false false None) None (Some (SArray None None None (4%Z, (3%Z, tt)))) (6%Z, (5%Z, tt)))
    None (8%Z, (7%Z, tt))))]) (Some [("action", (@Build_action list_ab (@Build_interaction list_ab
    (Build_info None None None None None) [] None (10%Z, (9%Z, tt))) (Some (@mkDs (pty (x_ds list_ab))
    (pty (x_as list_ab)) (pty (x_os list_ab)) (Build_info None None None None None) (Build_dmisc None
    None None None false false None) None (Some (SObject None None (12%Z, (11%Z, tt)))) (14%Z, (13%Z,
    tt)))) (Some (@mkDs (pty (x_ds list_ab)) (pty (x_as list_ab)) (pty (x_os list_ab)) (Build_info None
    None None None None) (Build_dmisc None None None None false false None) None None (42%Z, (42%Z,
    tt)))) false false None (16%Z, (15%Z, tt))))]) (Some [("event", (@Build_event list_ab
    (@Build_interaction list_ab (Build_info None None None None None) [] None (42%Z, (42%Z, tt))) None
    None None None (18%Z, (17%Z, tt))))]) None (Some [(@Build_form list_ab OpDefault "" None None None
    None None (Some (@Build_exp_resp (pty (x_er list_ab)) "" (20%Z, (19%Z, tt)))) None (22%Z, (21%Z,
    tt)))]) [] [] None None None (24%Z, (23%Z, tt))) = Some (JObj [("@context", JStr "test"); ("a", JInt
    23%Z); ("actions", JObj [("action", JObj [("b", JInt 9%Z); ("c", JInt 15%Z); ("forms", JArr []);
    ("idempotent", JBool false); ("input", JObj [("h", JInt 13%Z); ("i", JInt 11%Z); ("r", JInt 14%Z);
    ("readOnly", JBool false); ("s", JInt 12%Z); ("type", JStr "object"); ("writeOnly", JBool false)]);
    ("l", JInt 10%Z); ("m", JInt 16%Z); ("output", JObj [("h", JInt 42%Z); ("r", JInt 42%Z);
    ("readOnly", JBool false); ("writeOnly", JBool false)]); ("safe", JBool false)])]); ("events", JObj
    [("event", JObj [("b", JInt 42%Z); ("e", JInt 17%Z); ("forms", JArr []); ("l", JInt 42%Z); ("o",
    JInt 18%Z)])]); ("forms", JArr [JObj [("f", JInt 21%Z); ("href", JStr ""); ("p", JInt 22%Z);
    ("response", JObj [("contentType", JStr ""); ("g", JInt 19%Z); ("q", JInt 20%Z)])]]); ("k", JInt
    24%Z); ("properties", JObj [("prop", JObj [("b", JInt 1%Z); ("d", JInt 7%Z); ("forms", JArr []);
    ("h", JInt 5%Z); ("j", JInt 3%Z); ("l", JInt 2%Z); ("n", JInt 8%Z); ("r", JInt 6%Z); ("readOnly",
    JBool false); ("t", JInt 4%Z); ("type", JStr "array"); ("writeOnly", JBool false)])]); ("security",
    JArr []); ("securityDefinitions", JObj []); ("title", JStr "")]).
Proof. reflexivity. Qed.

(** src/thing.rs 2637-2883, [dummy_http] *)
Example thing_dummy_http :
  @s_thing test_env list_ahb mk_value (@Build_thing test_env list_ahb (JStr "test") None None "" None None
    None None None None None None (Some [("prop", (@Build_property list_ahb (@Build_interaction list_ahb
    (Build_info None None None None None) [] None (2%Z, (tt, (1%Z, tt)))) (@mkDs (pty (x_ds list_ahb))
    (pty (x_as list_ahb)) (pty (x_os list_ahb)) (Build_info None None None None None) (Build_dmisc None
    None None None false false None) None (Some (SArray None None None (4%Z, (tt, (3%Z, tt))))) (6%Z,
    (tt, (5%Z, tt)))) None (8%Z, (tt, (7%Z, tt)))))]) (Some [("action", (@Build_action list_ahb
    (@Build_interaction list_ahb (Build_info None None None None None) [(@Build_form list_ahb OpDefault
    "" None None None None None None None (42%Z, ((Build_http_form (Some HPut)), (42%Z, tt))))] None
    (10%Z, (tt, (9%Z, tt)))) (Some (@mkDs (pty (x_ds list_ahb)) (pty (x_as list_ahb)) (pty (x_os
    list_ahb)) (Build_info None None None None None) (Build_dmisc None None None None false false None)
    None (Some (SObject None None (12%Z, (tt, (11%Z, tt))))) (14%Z, (tt, (13%Z, tt))))) (Some (@mkDs
    (pty (x_ds list_ahb)) (pty (x_as list_ahb)) (pty (x_os list_ahb)) (Build_info None None None None
    None) (Build_dmisc None None None None false false None) None None (42%Z, (tt, (42%Z, tt))))) false
    false None (16%Z, (tt, (15%Z, tt)))))]) (Some [("event", (@Build_event list_ahb (@Build_interaction
    list_ahb (Build_info None None None None None) [] None (42%Z, (tt, (42%Z, tt)))) None None None None
    (18%Z, (tt, (17%Z, tt)))))]) None (Some [(@Build_form list_ahb OpDefault "" None None None None None
    (Some (@Build_exp_resp (pty (x_er list_ahb)) "" (20%Z, ((Build_http_response [(Build_http_header
    (Some "hello") (Some "world"))] (Some (200%Z))), (19%Z, tt))))) None (22%Z, ((Build_http_form (Some
    HGet)), (21%Z, tt))))]) [] [] None None None (24%Z, (tt, (23%Z, tt)))) = Some (JObj [("@context",
    JStr "test"); ("a", JInt 23%Z); ("actions", JObj [("action", JObj [("b", JInt 9%Z); ("c", JInt
    15%Z); ("forms", JArr [JObj [("f", JInt 42%Z); ("href", JStr ""); ("htv:methodName", JStr "PUT");
    ("p", JInt 42%Z)]]); ("idempotent", JBool false); ("input", JObj [("h", JInt 13%Z); ("i", JInt
    11%Z); ("r", JInt 14%Z); ("readOnly", JBool false); ("s", JInt 12%Z); ("type", JStr "object");
    ("writeOnly", JBool false)]); ("l", JInt 10%Z); ("m", JInt 16%Z); ("output", JObj [("h", JInt 42%Z);
    ("r", JInt 42%Z); ("readOnly", JBool false); ("writeOnly", JBool false)]); ("safe", JBool
    false)])]); ("events", JObj [("event", JObj [("b", JInt 42%Z); ("e", JInt 17%Z); ("forms", JArr []);
    ("l", JInt 42%Z); ("o", JInt 18%Z)])]); ("forms", JArr [JObj [("f", JInt 21%Z); ("href", JStr "");
    ("htv:methodName", JStr "GET"); ("p", JInt 22%Z); ("response", JObj [("contentType", JStr ""); ("g",
    JInt 19%Z); ("htv:headers", JArr [JObj [("htv:fieldName", JStr "hello"); ("htv:fieldValue", JStr
    "world")]]); ("htv:statusCodeValue", JInt 200%Z); ("q", JInt 20%Z)])]]); ("k", JInt 24%Z);
    ("properties", JObj [("prop", JObj [("b", JInt 1%Z); ("d", JInt 7%Z); ("forms", JArr []); ("h", JInt
    5%Z); ("j", JInt 3%Z); ("l", JInt 2%Z); ("n", JInt 8%Z); ("r", JInt 6%Z); ("readOnly", JBool false);
    ("t", JInt 4%Z); ("type", JStr "array"); ("writeOnly", JBool false)])]); ("security", JArr []);
    ("securityDefinitions", JObj []); ("title", JStr "")]).
Proof. reflexivity. Qed.

(** src/thing.rs 2905-2917, [serde_empty_additional_expected_response] *)
Example thing_serde_empty_additional_expected_response_1 :
  d_add_resp (JObj []) = Some (Build_add_resp false None None).
Proof. reflexivity. Qed.

(** src/thing.rs 2905-2917, [serde_empty_additional_expected_response] *)
Example thing_serde_empty_additional_expected_response_2 :
  write_resp (Build_add_resp false None None) = Some (JObj []).
Proof. reflexivity. Qed.

(** src/thing.rs 2920-2940, [serde_full_additional_expected_response] *)
Example thing_serde_full_additional_expected_response_1 :
  d_add_resp (JObj [("contentType", JStr "application/json"); ("schema", JStr "test"); ("success", JBool
    true)]) = Some (Build_add_resp true (Some "application/json") (Some "test")).
Proof. reflexivity. Qed.

(** src/thing.rs 2920-2940, [serde_full_additional_expected_response] *)
Example thing_serde_full_additional_expected_response_2 :
  write_resp (Build_add_resp true (Some "application/json") (Some "test")) = Some (JObj [("contentType",
    JStr "application/json"); ("schema", JStr "test"); ("success", JBool true)]).
Proof. reflexivity. Qed.

(** src/thing.rs 2943-2983, [combo_security_scheme] *)
Example thing_combo_security_scheme_1 :
  read_combo (JObj [("oneOf", JStr "simple")]) = Some (COneOf ["simple"]).
Proof. reflexivity. Qed.

(** src/thing.rs 2943-2983, [combo_security_scheme] *)
Example thing_combo_security_scheme_2 :
  write_combo (COneOf ["simple"]) = Some (JObj [("oneOf", JStr "simple")]).
Proof. reflexivity. Qed.

(** src/thing.rs 2943-2983, [combo_security_scheme] *)
Example thing_combo_security_scheme_3 :
  read_combo (JObj [("oneOf", JArr [JStr "data1"; JStr "data2"])]) = Some (COneOf ["data1"; "data2"]).
Proof. reflexivity. Qed.

(** src/thing.rs 2943-2983, [combo_security_scheme] *)
Example thing_combo_security_scheme_4 :
  write_combo (COneOf ["data1"; "data2"]) = Some (JObj [("oneOf", JArr [JStr "data1"; JStr "data2"])]).
Proof. reflexivity. Qed.

(** src/thing.rs 2943-2983, [combo_security_scheme] *)
Example thing_combo_security_scheme_5 :
  read_combo (JObj [("allOf", JStr "simple")]) = Some (CAllOf ["simple"]).
Proof. reflexivity. Qed.

(** src/thing.rs 2943-2983, [combo_security_scheme] *)
Example thing_combo_security_scheme_6 :
  write_combo (CAllOf ["simple"]) = Some (JObj [("allOf", JStr "simple")]).
Proof. reflexivity. Qed.

(** src/thing.rs 2943-2983, [combo_security_scheme] *)
Example thing_combo_security_scheme_7 :
  read_combo (JObj [("allOf", JArr [JStr "data1"; JStr "data2"])]) = Some (CAllOf ["data1"; "data2"]).
Proof. reflexivity. Qed.

(** src/thing.rs 2943-2983, [combo_security_scheme] *)
Example thing_combo_security_scheme_8 :
  write_combo (CAllOf ["data1"; "data2"]) = Some (JObj [("allOf", JArr [JStr "data1"; JStr "data2"])]).
Proof. reflexivity. Qed.

(** src/thing.rs 2986-3012, [minimum_partial_ord_trivial] *)
Example thing_minimum_partial_ord_trivial_1 :
  min_cmp i64_cmp (MinIncl 5%Z) (MinIncl 5%Z) = Some Eq.
Proof. reflexivity. Qed.

(** src/thing.rs 2986-3012, [minimum_partial_ord_trivial] *)
Example thing_minimum_partial_ord_trivial_2 :
  min_cmp i64_cmp (MinIncl 5%Z) (MinIncl 6%Z) = Some Lt.
Proof. reflexivity. Qed.

(** src/thing.rs 2986-3012, [minimum_partial_ord_trivial] *)
Example thing_minimum_partial_ord_trivial_3 :
  min_cmp i64_cmp (MinIncl 6%Z) (MinIncl 5%Z) = Some Gt.
Proof. reflexivity. Qed.

(** src/thing.rs 2986-3012, [minimum_partial_ord_trivial] *)
Example thing_minimum_partial_ord_trivial_4 :
  min_cmp i64_cmp (MinExcl 5%Z) (MinExcl 5%Z) = Some Eq.
Proof. reflexivity. Qed.

(** src/thing.rs 2986-3012, [minimum_partial_ord_trivial] *)
Example thing_minimum_partial_ord_trivial_5 :
  min_cmp i64_cmp (MinExcl 5%Z) (MinExcl 6%Z) = Some Lt.
Proof. reflexivity. Qed.

(** src/thing.rs 2986-3012, [minimum_partial_ord_trivial] *)
Example thing_minimum_partial_ord_trivial_6 :
  min_cmp i64_cmp (MinExcl 6%Z) (MinExcl 5%Z) = Some Gt.
Proof. reflexivity. Qed.

(** src/thing.rs 3015-3045, [minimum_partial_ord_complex] *)
Example thing_minimum_partial_ord_complex_1 :
  min_cmp i64_cmp (MinIncl 4%Z) (MinExcl 5%Z) = Some Lt.
Proof. reflexivity. Qed.

(** src/thing.rs 3015-3045, [minimum_partial_ord_complex] *)
Example thing_minimum_partial_ord_complex_2 :
  min_cmp i64_cmp (MinIncl 5%Z) (MinExcl 5%Z) = Some Lt.
Proof. reflexivity. Qed.

(** src/thing.rs 3015-3045, [minimum_partial_ord_complex] *)
Example thing_minimum_partial_ord_complex_3 :
  min_cmp i64_cmp (MinIncl 6%Z) (MinExcl 5%Z) = None.
Proof. reflexivity. Qed.

(** src/thing.rs 3015-3045, [minimum_partial_ord_complex] *)
Example thing_minimum_partial_ord_complex_4 :
  min_cmp i64_cmp (MinExcl 4%Z) (MinIncl 5%Z) = None.
Proof. reflexivity. Qed.

(** src/thing.rs 3015-3045, [minimum_partial_ord_complex] *)
Example thing_minimum_partial_ord_complex_5 :
  min_cmp i64_cmp (MinExcl 5%Z) (MinIncl 5%Z) = Some Gt.
Proof. reflexivity. Qed.

(** src/thing.rs 3015-3045, [minimum_partial_ord_complex] *)
Example thing_minimum_partial_ord_complex_6 :
  min_cmp i64_cmp (MinExcl 6%Z) (MinIncl 5%Z) = Some Gt.
Proof. reflexivity. Qed.

(** src/thing.rs 3048-3075, [maximum_partial_ord_trivial] *)
Example thing_maximum_partial_ord_trivial_1 :
  max_cmp i64_cmp (MaxIncl 5%Z) (MaxIncl 5%Z) = Some Eq.
Proof. reflexivity. Qed.

(** src/thing.rs 3048-3075, [maximum_partial_ord_trivial] *)
Example thing_maximum_partial_ord_trivial_2 :
  max_cmp i64_cmp (MaxIncl 5%Z) (MaxIncl 6%Z) = Some Lt.
Proof. reflexivity. Qed.

(** src/thing.rs 3048-3075, [maximum_partial_ord_trivial] *)
Example thing_maximum_partial_ord_trivial_3 :
  max_cmp i64_cmp (MaxIncl 6%Z) (MaxIncl 5%Z) = Some Gt.
Proof. reflexivity. Qed.

(** src/thing.rs 3048-3075, [maximum_partial_ord_trivial] *)
Example thing_maximum_partial_ord_trivial_4 :
  max_cmp i64_cmp (MaxExcl 5%Z) (MaxExcl 5%Z) = Some Eq.
Proof. reflexivity. Qed.

(** src/thing.rs 3048-3075, [maximum_partial_ord_trivial] *)
Example thing_maximum_partial_ord_trivial_5 :
  max_cmp i64_cmp (MaxExcl 5%Z) (MaxExcl 6%Z) = Some Lt.
Proof. reflexivity. Qed.

(** src/thing.rs 3048-3075, [maximum_partial_ord_trivial] *)
Example thing_maximum_partial_ord_trivial_6 :
  max_cmp i64_cmp (MaxExcl 6%Z) (MaxExcl 5%Z) = Some Gt.
Proof. reflexivity. Qed.

(** src/thing.rs 3078-3108, [maximum_partial_ord_complex] *)
Example thing_maximum_partial_ord_complex_1 :
  max_cmp i64_cmp (MaxIncl 4%Z) (MaxExcl 5%Z) = None.
Proof. reflexivity. Qed.

(** src/thing.rs 3078-3108, [maximum_partial_ord_complex] *)
Example thing_maximum_partial_ord_complex_2 :
  max_cmp i64_cmp (MaxIncl 5%Z) (MaxExcl 5%Z) = Some Gt.
Proof. reflexivity. Qed.

(** src/thing.rs 3078-3108, [maximum_partial_ord_complex] *)
Example thing_maximum_partial_ord_complex_3 :
  max_cmp i64_cmp (MaxIncl 6%Z) (MaxExcl 5%Z) = Some Gt.
Proof. reflexivity. Qed.

(** src/thing.rs 3078-3108, [maximum_partial_ord_complex] *)
Example thing_maximum_partial_ord_complex_4 :
  max_cmp i64_cmp (MaxExcl 4%Z) (MaxIncl 5%Z) = Some Lt.
Proof. reflexivity. Qed.

(** src/thing.rs 3078-3108, [maximum_partial_ord_complex] *)
Example thing_maximum_partial_ord_complex_5 :
  max_cmp i64_cmp (MaxExcl 5%Z) (MaxIncl 5%Z) = Some Lt.
Proof. reflexivity. Qed.

(** src/thing.rs 3078-3108, [maximum_partial_ord_complex] *)
Example thing_maximum_partial_ord_complex_6 :
  max_cmp i64_cmp (MaxExcl 6%Z) (MaxIncl 5%Z) = None.
Proof. reflexivity. Qed.

(** src/thing.rs 3111-3137, [minimum_maximum_mixed_partial_ord_trivial] *)
Example thing_minimum_maximum_mixed_partial_ord_trivial_1 :
  minmax_cmp i64_cmp (MinIncl 4%Z) (MaxIncl 5%Z) = Some Lt.
Proof. reflexivity. Qed.

(** src/thing.rs 3111-3137, [minimum_maximum_mixed_partial_ord_trivial] *)
Example thing_minimum_maximum_mixed_partial_ord_trivial_2 :
  minmax_cmp i64_cmp (MinIncl 5%Z) (MaxIncl 5%Z) = Some Eq.
Proof. reflexivity. Qed.

(** src/thing.rs 3111-3137, [minimum_maximum_mixed_partial_ord_trivial] *)
Example thing_minimum_maximum_mixed_partial_ord_trivial_3 :
  minmax_cmp i64_cmp (MinIncl 6%Z) (MaxIncl 5%Z) = Some Gt.
Proof. reflexivity. Qed.

(** src/thing.rs 3111-3137, [minimum_maximum_mixed_partial_ord_trivial] *)
Example thing_minimum_maximum_mixed_partial_ord_trivial_4 :
  maxmin_cmp i64_cmp (MaxIncl 4%Z) (MinIncl 5%Z) = Some Lt.
Proof. reflexivity. Qed.

(** src/thing.rs 3111-3137, [minimum_maximum_mixed_partial_ord_trivial] *)
Example thing_minimum_maximum_mixed_partial_ord_trivial_5 :
  maxmin_cmp i64_cmp (MaxIncl 5%Z) (MinIncl 5%Z) = Some Eq.
Proof. reflexivity. Qed.

(** src/thing.rs 3111-3137, [minimum_maximum_mixed_partial_ord_trivial] *)
Example thing_minimum_maximum_mixed_partial_ord_trivial_6 :
  maxmin_cmp i64_cmp (MaxIncl 6%Z) (MinIncl 5%Z) = Some Gt.
Proof. reflexivity. Qed.

(** src/thing.rs 3140-3192, [minimum_maximum_mixed_partial_ord_complex] *)
Example thing_minimum_maximum_mixed_partial_ord_complex_1 :
  minmax_cmp i64_cmp (MinIncl 4%Z) (MaxExcl 5%Z) = None.
Proof. reflexivity. Qed.

(** src/thing.rs 3140-3192, [minimum_maximum_mixed_partial_ord_complex] *)
Example thing_minimum_maximum_mixed_partial_ord_complex_2 :
  minmax_cmp i64_cmp (MinIncl 5%Z) (MaxExcl 5%Z) = Some Gt.
Proof. reflexivity. Qed.

(** src/thing.rs 3140-3192, [minimum_maximum_mixed_partial_ord_complex] *)
Example thing_minimum_maximum_mixed_partial_ord_complex_3 :
  minmax_cmp i64_cmp (MinIncl 6%Z) (MaxExcl 5%Z) = Some Gt.
Proof. reflexivity. Qed.

(** src/thing.rs 3140-3192, [minimum_maximum_mixed_partial_ord_complex] *)
Example thing_minimum_maximum_mixed_partial_ord_complex_4 :
  minmax_cmp i64_cmp (MinExcl 4%Z) (MaxIncl 5%Z) = None.
Proof. reflexivity. Qed.

(** src/thing.rs 3140-3192, [minimum_maximum_mixed_partial_ord_complex] *)
Example thing_minimum_maximum_mixed_partial_ord_complex_5 :
  minmax_cmp i64_cmp (MinExcl 5%Z) (MaxIncl 5%Z) = Some Gt.
Proof. reflexivity. Qed.

(** src/thing.rs 3140-3192, [minimum_maximum_mixed_partial_ord_complex] *)
Example thing_minimum_maximum_mixed_partial_ord_complex_6 :
  minmax_cmp i64_cmp (MinExcl 6%Z) (MaxIncl 5%Z) = Some Gt.
Proof. reflexivity. Qed.

(** src/thing.rs 3140-3192, [minimum_maximum_mixed_partial_ord_complex] *)
Example thing_minimum_maximum_mixed_partial_ord_complex_7 :
  maxmin_cmp i64_cmp (MaxIncl 4%Z) (MinExcl 5%Z) = Some Lt.
Proof. reflexivity. Qed.

(** src/thing.rs 3140-3192, [minimum_maximum_mixed_partial_ord_complex] *)
Example thing_minimum_maximum_mixed_partial_ord_complex_8 :
  maxmin_cmp i64_cmp (MaxIncl 5%Z) (MinExcl 5%Z) = Some Lt.
Proof. reflexivity. Qed.

(** src/thing.rs 3140-3192, [minimum_maximum_mixed_partial_ord_complex] *)
Example thing_minimum_maximum_mixed_partial_ord_complex_9 :
  maxmin_cmp i64_cmp (MaxIncl 6%Z) (MinExcl 5%Z) = None.
Proof. reflexivity. Qed.

(** src/thing.rs 3140-3192, [minimum_maximum_mixed_partial_ord_complex] *)
Example thing_minimum_maximum_mixed_partial_ord_complex_10 :
  maxmin_cmp i64_cmp (MaxExcl 4%Z) (MinIncl 5%Z) = Some Lt.
Proof. reflexivity. Qed.

(** src/thing.rs 3140-3192, [minimum_maximum_mixed_partial_ord_complex] *)
Example thing_minimum_maximum_mixed_partial_ord_complex_11 :
  maxmin_cmp i64_cmp (MaxExcl 5%Z) (MinIncl 5%Z) = Some Lt.
Proof. reflexivity. Qed.

(** src/thing.rs 3140-3192, [minimum_maximum_mixed_partial_ord_complex] *)
Example thing_minimum_maximum_mixed_partial_ord_complex_12 :
  maxmin_cmp i64_cmp (MaxExcl 6%Z) (MinIncl 5%Z) = None.
Proof. reflexivity. Qed.

(** src/thing.rs 3195-3231, [serde_number_schema] *)
Example thing_serde_number_schema_1 :
  read_number (JObj [("maximum", JFloat (f64_of_Z 1%Z)); ("minimum", JFloat (S754_finite false
    4503599627370496%positive (-53)%Z)); ("multipleOf", JFloat (S754_finite false
    4503599627370496%positive (-53)%Z))]) = Some (Build_number_schema (Some (MaxIncl (f64_of_Z 1%Z)))
    (Some (MinIncl (S754_finite false 4503599627370496%positive (-53)%Z))) (Some (S754_finite false
    4503599627370496%positive (-53)%Z))).
Proof. reflexivity. Qed.

(** src/thing.rs 3195-3231, [serde_number_schema] *)
Example thing_serde_number_schema_2 :
  read_number (JObj [("exclusiveMaximum", JFloat (f64_of_Z 1%Z)); ("exclusiveMinimum", JFloat (S754_finite
    false 4503599627370496%positive (-53)%Z)); ("multipleOf", JFloat (S754_finite false
    4503599627370496%positive (-53)%Z))]) = Some (Build_number_schema (Some (MaxExcl (f64_of_Z 1%Z)))
    (Some (MinExcl (S754_finite false 4503599627370496%positive (-53)%Z))) (Some (S754_finite false
    4503599627370496%positive (-53)%Z))).
Proof. reflexivity. Qed.

(** src/thing.rs 3234-3269, [serde_integer_schema] *)
Example thing_serde_integer_schema_1 :
  read_integer (JObj [("maximum", JInt 10%Z); ("minimum", JInt 5%Z); ("multipleOf", JInt 2%Z)]) = Some
    (Build_integer_schema (Some (MaxIncl 10%Z)) (Some (MinIncl 5%Z)) (Some (2%Z))).
Proof. reflexivity. Qed.

(** src/thing.rs 3234-3269, [serde_integer_schema] *)
Example thing_serde_integer_schema_2 :
  read_integer (JObj [("exclusiveMaximum", JInt 10%Z); ("exclusiveMinimum", JInt 5%Z)]) = Some
    (Build_integer_schema (Some (MaxExcl 10%Z)) (Some (MinExcl 5%Z)) None).
Proof. reflexivity. Qed.

(** src/thing.rs 3272-3285, [form_almost_default_serialization] *)
Example thing_form_almost_default_serialization :
  write_form N (@Build_form N OpDefault "href" None None None None None None None tt) = Some (JObj
    [("href", JStr "href")]).
Proof. reflexivity. Qed.
