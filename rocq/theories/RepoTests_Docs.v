(** * The examples in the documentation of /repo

    Generated from the examples in the documentation of /repo by a script: each [Example] runs the
    model on the calls of one example and compares the outcome with the value the
    example states.  These are checks of the model on literals, not properties. *)

From Coq Require Import String Bool ZArith List.
From Coq Require Import Floats.SpecFloat.
From Verif Require Import Base MinMax Json Serde Types DsBuilder Builder HList Protocol Ser De SchemaStructs Samples RepoTestsBase.
Import ListNotations.
Set Implicit Arguments.
Local Open Scope string_scope.
Local Open Scope list_scope.

(** src/builder.rs 11-24 *)
Example doc_builder_11 :
  forgotten (thing_written N "Thing name" tt [TId "thing-id-1234"; TFinish; TProperty "first-property" tt
    tt [PDs (DFinish tt); PObservable true; PDs (DBool)]]) = Some (Ok tt).
Proof. reflexivity. Qed.

(** src/builder.rs 70-111, the extensions of the example *)
Definition doc_builder_70_exts : exts :=
  cons_exts (Build_exts (cons_piece (spiece "a_field") (zpiece "another_field")) unit_piece unit_piece
    unit_piece unit_piece unit_piece unit_piece unit_piece unit_piece unit_piece) N.

(** src/builder.rs 70-111 *)
Example doc_builder_70 :
  thing_written doc_builder_70_exts "Thing name" (("hello world", 42%Z), tt) [TFinish] = Some (Ok (JObj
    [("@context", JStr "https://www.w3.org/2022/wot/td/v1.1"); ("a_field", JStr "hello world");
    ("another_field", JInt 42%Z); ("security", JArr []); ("securityDefinitions", JObj []); ("title",
    JStr "Thing name")])).
Proof. reflexivity. Qed.

(** src/builder.rs 118-202, the extensions of the example *)
Definition doc_builder_118_exts : exts :=
  cons_exts (Build_exts (lpiece "another_field_again") unit_piece unit_piece unit_piece unit_piece
    unit_piece unit_piece unit_piece unit_piece unit_piece) (cons_exts (Build_exts (cons_piece (spiece
    "a_field") (zpiece "another_field")) unit_piece unit_piece unit_piece unit_piece (fpiece
    "form_field") unit_piece unit_piece unit_piece unit_piece) N).

(** src/builder.rs 118-202 *)
Example doc_builder_118 :
  thing_written doc_builder_118_exts "Thing name" (["field1"; "field2"], (("hello world", 42%Z), tt))
    [TFinish; TForm (tt, ((f64_of_Z 23%Z), tt)) [FHref "test_href"; FOp QueryAllActions]] = Some (Ok
    (JObj [("@context", JStr "https://www.w3.org/2022/wot/td/v1.1"); ("a_field", JStr "hello world");
    ("another_field", JInt 42%Z); ("another_field_again", JArr [JStr "field1"; JStr "field2"]);
    ("forms", JArr [JObj [("form_field", JFloat (f64_of_Z 23%Z)); ("href", JStr "test_href"); ("op",
    JArr [JStr "queryallactions"])]]); ("security", JArr []); ("securityDefinitions", JObj []);
    ("title", JStr "Thing name")])).
Proof. reflexivity. Qed.

(** src/builder.rs 518-531 *)
Example doc_builder_518 :
  forgotten (thing_written N "Thing name" tt [TId "thing-id-1234"; TFinish; TProperty "first-property" tt
    tt [PDs (DFinish tt); PObservable true; PDs (DBool)]]) = Some (Ok tt).
Proof. reflexivity. Qed.

(** src/builder.rs 594-635, the extensions of the example *)
Definition doc_builder_594_exts : exts :=
  cons_exts (Build_exts (cons_piece (spiece "a_field") (zpiece "another_field")) unit_piece unit_piece
    unit_piece unit_piece unit_piece unit_piece unit_piece unit_piece unit_piece) N.

(** src/builder.rs 594-635 *)
Example doc_builder_594 :
  thing_written doc_builder_594_exts "Thing name" (("hello world", 42%Z), tt) [TFinish] = Some (Ok (JObj
    [("@context", JStr "https://www.w3.org/2022/wot/td/v1.1"); ("a_field", JStr "hello world");
    ("another_field", JInt 42%Z); ("security", JArr []); ("securityDefinitions", JObj []); ("title",
    JStr "Thing name")])).
Proof. reflexivity. Qed.

(** src/builder.rs 704-745, the extensions of the example *)
Definition doc_builder_704_exts : exts :=
  cons_exts (Build_exts (cons_piece (spiece "a_field") (zpiece "another_field")) unit_piece unit_piece
    unit_piece unit_piece unit_piece unit_piece unit_piece unit_piece unit_piece) N.

(** src/builder.rs 704-745 *)
Example doc_builder_704 :
  thing_written doc_builder_704_exts "Thing name" (("hello world", 42%Z), tt) [TFinish] = Some (Ok (JObj
    [("@context", JStr "https://www.w3.org/2022/wot/td/v1.1"); ("a_field", JStr "hello world");
    ("another_field", JInt 42%Z); ("security", JArr []); ("securityDefinitions", JObj []); ("title",
    JStr "Thing name")])).
Proof. reflexivity. Qed.

(** src/builder.rs 1093-1119 *)
Example doc_builder_1093 :
  thing_written N "Thing name" tt [TContextMap [("custom_context1", "hello"); ("custom_context2",
    "world")]] = Some (Ok (JObj [("@context", JArr [JStr "https://www.w3.org/2022/wot/td/v1.1"; JObj
    [("custom_context1", JStr "hello"); ("custom_context2", JStr "world")]]); ("security", JArr []);
    ("securityDefinitions", JObj []); ("title", JStr "Thing name")])).
Proof. reflexivity. Qed.

(** src/builder.rs 1145-1169 *)
Example doc_builder_1145 :
  thing_written N "Thing name" tt [TTitles [("en", "English title"); ("it", "Italian title")]] = Some (Ok
    (JObj [("@context", JStr "https://www.w3.org/2022/wot/td/v1.1"); ("security", JArr []);
    ("securityDefinitions", JObj []); ("title", JStr "Thing name"); ("titles", JObj [("en", JStr
    "English title"); ("it", JStr "Italian title")])])).
Proof. reflexivity. Qed.

(** src/builder.rs 1176-1183 *)
Example doc_builder_1176 :
  thing_written N "Thing name" tt [TTitles [("e!n", "Invalid title")]] = Some (Err (InvalidLanguageTag
    "e!n")).
Proof. reflexivity. Qed.

(** src/builder.rs 1231-1257 *)
Example doc_builder_1231 :
  thing_written N "Thing name" tt [TLinkWith [LHref "https://localhost"; LRel "icon"; LSizes
    "16x16 24x24 32x32"]] = Some (Ok (JObj [("@context", JStr "https://www.w3.org/2022/wot/td/v1.1");
    ("links", JArr [JObj [("href", JStr "https://localhost"); ("rel", JStr "icon"); ("sizes", JStr
    "16x16 24x24 32x32")]]); ("security", JArr []); ("securityDefinitions", JObj []); ("title", JStr
    "Thing name")])).
Proof. reflexivity. Qed.

(** src/builder.rs 1290-1322 *)
Example doc_builder_1290 :
  thing_written N "Thing name" tt [TSecurity [SBasic; SWithKey "my_basic_sec"; SName "basic_sec_name"];
    TSecurity [SApiKey]] = Some (Ok (JObj [("@context", JStr "https://www.w3.org/2022/wot/td/v1.1");
    ("security", JArr []); ("securityDefinitions", JObj [("apikey", JObj [("in", JStr "query");
    ("scheme", JStr "apikey")]); ("my_basic_sec", JObj [("in", JStr "header"); ("name", JStr
    "basic_sec_name"); ("scheme", JStr "basic")])]); ("title", JStr "Thing name")])).
Proof. reflexivity. Qed.

(** src/builder.rs 1406-1434 *)
Example doc_builder_1406 :
  thing_written N "Thing name" tt [TFinish; TForm tt [FHref "form_href"; FOp ReadAllProperties]] = Some
    (Ok (JObj [("@context", JStr "https://www.w3.org/2022/wot/td/v1.1"); ("forms", JArr [JObj [("href",
    JStr "form_href"); ("op", JArr [JStr "readallproperties"])]]); ("security", JArr []);
    ("securityDefinitions", JObj []); ("title", JStr "Thing name")])).
Proof. reflexivity. Qed.

(** src/builder.rs 1441-1449 *)
Example doc_builder_1441 :
  thing_written N "Thing name" tt [TFinish; TForm tt [FHref "form_href"]] = Some (Err MissingOpInForm).
Proof. reflexivity. Qed.

(** src/builder.rs 1466-1483 *)
Example doc_builder_1466 :
  thing_written N "Thing name" tt [TFinish; TForm tt [FHref "form_href"; FOp ReadProperty]] = Some (Err
    (InvalidOpInForm CtxThing ReadProperty)).
Proof. reflexivity. Qed.

(** src/builder.rs 1511-1535 *)
Example doc_builder_1511 :
  thing_written N "Thing name" tt [TFinish; TUri "var" [DFinish tt; DNumber]] = Some (Ok (JObj
    [("@context", JStr "https://www.w3.org/2022/wot/td/v1.1"); ("security", JArr []);
    ("securityDefinitions", JObj []); ("title", JStr "Thing name"); ("uriVariables", JObj [("var", JObj
    [("readOnly", JBool false); ("type", JStr "number"); ("writeOnly", JBool false)])])])).
Proof. reflexivity. Qed.

(** src/builder.rs 2314-2345 *)
Example doc_builder_2314 :
  thing_written N "Thing name" tt [TFinish; TSecurity [SCombo; SAllOf ["basic"; "nosec"]]; TSecurity
    [SBasic]; TSecurity [SNoSec]] = Some (Ok (JObj [("@context", JStr
    "https://www.w3.org/2022/wot/td/v1.1"); ("security", JArr []); ("securityDefinitions", JObj
    [("basic", JObj [("in", JStr "header"); ("scheme", JStr "basic")]); ("combo", JObj [("allOf", JArr
    [JStr "basic"; JStr "nosec"]); ("scheme", JStr "combo")]); ("nosec", JObj [("scheme", JStr
    "nosec")])]); ("title", JStr "Thing name")])).
Proof. reflexivity. Qed.

(** src/builder.rs 2352-2361 *)
Example doc_builder_2352 :
  thing_written N "Thing name" tt [TFinish; TSecurity [SCombo; SAllOf ["basic"; "nosec"]]; TSecurity
    [SNoSec]] = Some (Err (MissingSchemaDefinition "basic")).
Proof. reflexivity. Qed.

(** src/builder.rs 2398-2429 *)
Example doc_builder_2398 :
  thing_written N "Thing name" tt [TFinish; TSecurity [SCombo; SOneOf ["basic"; "nosec"]]; TSecurity
    [SBasic]; TSecurity [SNoSec]] = Some (Ok (JObj [("@context", JStr
    "https://www.w3.org/2022/wot/td/v1.1"); ("security", JArr []); ("securityDefinitions", JObj
    [("basic", JObj [("in", JStr "header"); ("scheme", JStr "basic")]); ("combo", JObj [("oneOf", JArr
    [JStr "basic"; JStr "nosec"]); ("scheme", JStr "combo")]); ("nosec", JObj [("scheme", JStr
    "nosec")])]); ("title", JStr "Thing name")])).
Proof. reflexivity. Qed.

(** src/builder.rs 2436-2445 *)
Example doc_builder_2436 :
  thing_written N "Thing name" tt [TFinish; TSecurity [SCombo; SOneOf ["basic"; "nosec"]]; TSecurity
    [SNoSec]] = Some (Err (MissingSchemaDefinition "basic")).
Proof. reflexivity. Qed.

(** src/builder.rs 2711-2758 *)
Example doc_builder_2711 :
  thing_written N "Thing name" tt [TFinish; TForm tt [FHref "form_href"; FOp ReadAllProperties;
    FAdditional [RCtype "application/xml"; RSuccess; RSchema "xml_response"]]; TSchema "xml_response"
    [DFinish tt; DObject tt]] = Some (Ok (JObj [("@context", JStr
    "https://www.w3.org/2022/wot/td/v1.1"); ("forms", JArr [JObj [("additionalResponses", JObj
    [("contentType", JStr "application/xml"); ("schema", JStr "xml_response"); ("success", JBool
    true)]); ("href", JStr "form_href"); ("op", JArr [JStr "readallproperties"])]]);
    ("schemaDefinitions", JObj [("xml_response", JObj [("readOnly", JBool false); ("type", JStr
    "object"); ("writeOnly", JBool false)])]); ("security", JArr []); ("securityDefinitions", JObj []);
    ("title", JStr "Thing name")])).
Proof. reflexivity. Qed.

(** src/builder/affordance.rs 69-96 *)
Example doc_affordance_69 :
  thing_written N "Thing name" tt [TFinish; TAction "aff" tt tt [AIa (IForm tt [FHref "href"])]] = Some
    (Ok (JObj [("@context", JStr "https://www.w3.org/2022/wot/td/v1.1"); ("actions", JObj [("aff", JObj
    [("forms", JArr [JObj [("href", JStr "href")]]); ("idempotent", JBool false); ("safe", JBool
    false)])]); ("security", JArr []); ("securityDefinitions", JObj []); ("title", JStr "Thing name")])).
Proof. reflexivity. Qed.

(** src/builder/affordance.rs 109-143 *)
Example doc_affordance_109 :
  thing_written N "Thing name" tt [TFinish; TAction "aff" tt tt [AIa (IUri "myvar" [DFinish tt;
    DNumber])]] = Some (Ok (JObj [("@context", JStr "https://www.w3.org/2022/wot/td/v1.1"); ("actions",
    JObj [("aff", JObj [("forms", JArr []); ("idempotent", JBool false); ("safe", JBool false);
    ("uriVariables", JObj [("myvar", JObj [("readOnly", JBool false); ("type", JStr "number");
    ("writeOnly", JBool false)])])])]); ("security", JArr []); ("securityDefinitions", JObj []);
    ("title", JStr "Thing name")])).
Proof. reflexivity. Qed.

(** src/builder/affordance.rs 414-524, the extensions of the example *)
Definition doc_affordance_414_exts : exts :=
  cons_exts (Build_exts (lpiece "another_field_again") unit_piece (spiece "another_prop_field") unit_piece
    unit_piece unit_piece unit_piece (zpiece "data_field") unit_piece unit_piece) (cons_exts (Build_exts
    (cons_piece (spiece "a_field") (zpiece "another_field")) (fpiece "ia_field") (zpiece "prop_field")
    unit_piece unit_piece unit_piece unit_piece unit_piece unit_piece unit_piece) N).

(** src/builder/affordance.rs 414-524 *)
Example doc_affordance_414 :
  thing_written doc_affordance_414_exts "Thing name" (["field1"; "field2"], (("hello world", 42%Z), tt))
    [TFinish; TProperty "prop" (tt, ((f64_of_Z 42%Z), tt)) ("hello", (23%Z, tt)) [PDs (DFinish (101%Z,
    (tt, tt))); PDs (DBool)]] = Some (Ok (JObj [("@context", JStr
    "https://www.w3.org/2022/wot/td/v1.1"); ("a_field", JStr "hello world"); ("another_field", JInt
    42%Z); ("another_field_again", JArr [JStr "field1"; JStr "field2"]); ("properties", JObj [("prop",
    JObj [("another_prop_field", JStr "hello"); ("data_field", JInt 101%Z); ("forms", JArr []);
    ("ia_field", JFloat (f64_of_Z 42%Z)); ("prop_field", JInt 23%Z); ("readOnly", JBool false); ("type",
    JStr "boolean"); ("writeOnly", JBool false)])]); ("security", JArr []); ("securityDefinitions", JObj
    []); ("title", JStr "Thing name")])).
Proof. reflexivity. Qed.

(** src/builder/affordance.rs 587-697, the extensions of the example *)
Definition doc_affordance_587_exts : exts :=
  cons_exts (Build_exts (lpiece "another_field_again") unit_piece unit_piece (spiece
    "another_action_field") unit_piece unit_piece unit_piece unit_piece unit_piece unit_piece)
    (cons_exts (Build_exts (cons_piece (spiece "a_field") (zpiece "another_field")) (fpiece "ia_field")
    unit_piece (zpiece "action_field") unit_piece unit_piece unit_piece unit_piece unit_piece
    unit_piece) N).

(** src/builder/affordance.rs 587-697 *)
Example doc_affordance_587 :
  thing_written doc_affordance_587_exts "Thing name" (["field1"; "field2"], (("hello world", 42%Z), tt))
    [TFinish; TAction "action" (tt, ((f64_of_Z 42%Z), tt)) ("hello", (23%Z, tt)) [AInput [DFinish (tt,
    (tt, tt)); DNumber]]] = Some (Ok (JObj [("@context", JStr "https://www.w3.org/2022/wot/td/v1.1");
    ("a_field", JStr "hello world"); ("actions", JObj [("action", JObj [("action_field", JInt 23%Z);
    ("another_action_field", JStr "hello"); ("forms", JArr []); ("ia_field", JFloat (f64_of_Z 42%Z));
    ("idempotent", JBool false); ("input", JObj [("readOnly", JBool false); ("type", JStr "number");
    ("writeOnly", JBool false)]); ("safe", JBool false)])]); ("another_field", JInt 42%Z);
    ("another_field_again", JArr [JStr "field1"; JStr "field2"]); ("security", JArr []);
    ("securityDefinitions", JObj []); ("title", JStr "Thing name")])).
Proof. reflexivity. Qed.

(** src/builder/affordance.rs 780-888, the extensions of the example *)
Definition doc_affordance_780_exts : exts :=
  cons_exts (Build_exts (lpiece "another_field_again") unit_piece unit_piece unit_piece (spiece
    "another_event_field") unit_piece unit_piece unit_piece unit_piece unit_piece) (cons_exts
    (Build_exts (cons_piece (spiece "a_field") (zpiece "another_field")) (fpiece "ia_field") unit_piece
    unit_piece (zpiece "event_field") unit_piece unit_piece unit_piece unit_piece unit_piece) N).

(** src/builder/affordance.rs 780-888 *)
Example doc_affordance_780 :
  thing_written doc_affordance_780_exts "Thing name" (["field1"; "field2"], (("hello world", 42%Z), tt))
    [TFinish; TEvent "event" (tt, ((f64_of_Z 42%Z), tt)) ("hello", (23%Z, tt)) [ESubscription [DFinish
    (tt, (tt, tt)); DNumber]]] = Some (Ok (JObj [("@context", JStr
    "https://www.w3.org/2022/wot/td/v1.1"); ("a_field", JStr "hello world"); ("another_field", JInt
    42%Z); ("another_field_again", JArr [JStr "field1"; JStr "field2"]); ("events", JObj [("event", JObj
    [("another_event_field", JStr "hello"); ("event_field", JInt 23%Z); ("forms", JArr []); ("ia_field",
    JFloat (f64_of_Z 42%Z)); ("subscription", JObj [("readOnly", JBool false); ("type", JStr "number");
    ("writeOnly", JBool false)])])]); ("security", JArr []); ("securityDefinitions", JObj []); ("title",
    JStr "Thing name")])).
Proof. reflexivity. Qed.

(** src/builder/affordance.rs 1860-1889 *)
Example doc_affordance_1860 :
  thing_written N "Thing name" tt [TFinish; TAction "action" tt tt [AInput [DFinish tt; DNumber]]] = Some
    (Ok (JObj [("@context", JStr "https://www.w3.org/2022/wot/td/v1.1"); ("actions", JObj [("action",
    JObj [("forms", JArr []); ("idempotent", JBool false); ("input", JObj [("readOnly", JBool false);
    ("type", JStr "number"); ("writeOnly", JBool false)]); ("safe", JBool false)])]); ("security", JArr
    []); ("securityDefinitions", JObj []); ("title", JStr "Thing name")])).
Proof. reflexivity. Qed.

(** src/builder/affordance.rs 1940-1969 *)
Example doc_affordance_1940 :
  thing_written N "Thing name" tt [TFinish; TAction "action" tt tt [AOutput [DFinish tt; DString]]] = Some
    (Ok (JObj [("@context", JStr "https://www.w3.org/2022/wot/td/v1.1"); ("actions", JObj [("action",
    JObj [("forms", JArr []); ("idempotent", JBool false); ("output", JObj [("readOnly", JBool false);
    ("type", JStr "string"); ("writeOnly", JBool false)]); ("safe", JBool false)])]); ("security", JArr
    []); ("securityDefinitions", JObj []); ("title", JStr "Thing name")])).
Proof. reflexivity. Qed.

(** src/builder/affordance.rs 2042-2069 *)
Example doc_affordance_2042 :
  thing_written N "Thing name" tt [TFinish; TEvent "event" tt tt [ESubscription [DFinish tt; DNumber]]] =
    Some (Ok (JObj [("@context", JStr "https://www.w3.org/2022/wot/td/v1.1"); ("events", JObj [("event",
    JObj [("forms", JArr []); ("subscription", JObj [("readOnly", JBool false); ("type", JStr "number");
    ("writeOnly", JBool false)])])]); ("security", JArr []); ("securityDefinitions", JObj []); ("title",
    JStr "Thing name")])).
Proof. reflexivity. Qed.

(** src/builder/affordance.rs 2118-2145 *)
Example doc_affordance_2118 :
  thing_written N "Thing name" tt [TFinish; TEvent "event" tt tt [EData [DFinish tt; DNumber]]] = Some (Ok
    (JObj [("@context", JStr "https://www.w3.org/2022/wot/td/v1.1"); ("events", JObj [("event", JObj
    [("data", JObj [("readOnly", JBool false); ("type", JStr "number"); ("writeOnly", JBool false)]);
    ("forms", JArr [])])]); ("security", JArr []); ("securityDefinitions", JObj []); ("title", JStr
    "Thing name")])).
Proof. reflexivity. Qed.

(** src/builder/affordance.rs 2194-2221 *)
Example doc_affordance_2194 :
  thing_written N "Thing name" tt [TFinish; TEvent "event" tt tt [ECancellation [DFinish tt; DNumber]]] =
    Some (Ok (JObj [("@context", JStr "https://www.w3.org/2022/wot/td/v1.1"); ("events", JObj [("event",
    JObj [("cancellation", JObj [("readOnly", JBool false); ("type", JStr "number"); ("writeOnly", JBool
    false)]); ("forms", JArr [])])]); ("security", JArr []); ("securityDefinitions", JObj []); ("title",
    JStr "Thing name")])).
Proof. reflexivity. Qed.

(** src/builder/affordance.rs 2270-2297 *)
Example doc_affordance_2270 :
  thing_written N "Thing name" tt [TFinish; TEvent "event" tt tt [EDataResponse [DFinish tt; DNumber]]] =
    Some (Ok (JObj [("@context", JStr "https://www.w3.org/2022/wot/td/v1.1"); ("events", JObj [("event",
    JObj [("data_response", JObj [("readOnly", JBool false); ("type", JStr "number"); ("writeOnly",
    JBool false)]); ("forms", JArr [])])]); ("security", JArr []); ("securityDefinitions", JObj []);
    ("title", JStr "Thing name")])).
Proof. reflexivity. Qed.

(** src/builder/data_schema.rs 289-363, the extensions of the example *)
Definition doc_schema_289_exts : exts :=
  cons_exts (Build_exts unit_piece unit_piece unit_piece unit_piece unit_piece unit_piece unit_piece
    unit_piece unit_piece unit_piece) (cons_exts (Build_exts unit_piece unit_piece unit_piece unit_piece
    unit_piece unit_piece unit_piece (zpiece "data_schema_field") unit_piece unit_piece) N).

(** src/builder/data_schema.rs 289-363 *)
Example doc_schema_289 :
  thing_written doc_schema_289_exts "Thing name" (tt, (tt, tt)) [TFinish; TSchema "test" [DFinish (tt,
    (42%Z, tt)); DNumber]] = Some (Ok (JObj [("@context", JStr "https://www.w3.org/2022/wot/td/v1.1");
    ("schemaDefinitions", JObj [("test", JObj [("data_schema_field", JInt 42%Z); ("readOnly", JBool
    false); ("type", JStr "number"); ("writeOnly", JBool false)])]); ("security", JArr []);
    ("securityDefinitions", JObj []); ("title", JStr "Thing name")])).
Proof. reflexivity. Qed.

(** src/builder/data_schema.rs 493-544, the extensions of the example *)
Definition doc_schema_493_exts : exts :=
  cons_exts (Build_exts unit_piece unit_piece unit_piece unit_piece unit_piece unit_piece unit_piece
    unit_piece unit_piece (zpiece "array_field")) N.

(** src/builder/data_schema.rs 493-544 *)
Example doc_schema_493 :
  thing_written doc_schema_493_exts "Thing name" (tt, tt) [TFinish; TSchema "test" [DFinish (tt, tt);
    DTuple (0%Z, tt)]] = Some (Ok (JObj [("@context", JStr "https://www.w3.org/2022/wot/td/v1.1");
    ("schemaDefinitions", JObj [("test", JObj [("array_field", JInt 0%Z); ("items", JArr []);
    ("readOnly", JBool false); ("type", JStr "array"); ("writeOnly", JBool false)])]); ("security", JArr
    []); ("securityDefinitions", JObj []); ("title", JStr "Thing name")])).
Proof. reflexivity. Qed.

(** src/builder/data_schema.rs 591-653, the extensions of the example *)
Definition doc_schema_591_exts : exts :=
  cons_exts (Build_exts unit_piece unit_piece unit_piece unit_piece unit_piece unit_piece unit_piece
    unit_piece unit_piece (zpiece "array_field")) N.

(** src/builder/data_schema.rs 591-653 *)
Example doc_schema_591 :
  thing_written doc_schema_591_exts "Thing name" (tt, tt) [TFinish; TSchema "test" [DFinish (tt, tt);
    DTuple (42%Z, tt)]] = Some (Ok (JObj [("@context", JStr "https://www.w3.org/2022/wot/td/v1.1");
    ("schemaDefinitions", JObj [("test", JObj [("array_field", JInt 42%Z); ("items", JArr []);
    ("readOnly", JBool false); ("type", JStr "array"); ("writeOnly", JBool false)])]); ("security", JArr
    []); ("securityDefinitions", JObj []); ("title", JStr "Thing name")])).
Proof. reflexivity. Qed.

(** src/builder/data_schema.rs 669-719, the extensions of the example *)
Definition doc_schema_669_exts : exts :=
  cons_exts (Build_exts unit_piece unit_piece unit_piece unit_piece unit_piece unit_piece unit_piece
    unit_piece unit_piece (zpiece "array_field")) N.

(** src/builder/data_schema.rs 669-719 *)
Example doc_schema_669 :
  thing_written doc_schema_669_exts "Thing name" (tt, tt) [TFinish; TSchema "test" [DFinish (tt, tt); DVec
    (0%Z, tt)]] = Some (Ok (JObj [("@context", JStr "https://www.w3.org/2022/wot/td/v1.1");
    ("schemaDefinitions", JObj [("test", JObj [("array_field", JInt 0%Z); ("readOnly", JBool false);
    ("type", JStr "array"); ("writeOnly", JBool false)])]); ("security", JArr []);
    ("securityDefinitions", JObj []); ("title", JStr "Thing name")])).
Proof. reflexivity. Qed.

(** src/builder/data_schema.rs 766-827, the extensions of the example *)
Definition doc_schema_766_exts : exts :=
  cons_exts (Build_exts unit_piece unit_piece unit_piece unit_piece unit_piece unit_piece unit_piece
    unit_piece unit_piece (zpiece "array_field")) N.

(** src/builder/data_schema.rs 766-827 *)
Example doc_schema_766 :
  thing_written doc_schema_766_exts "Thing name" (tt, tt) [TFinish; TSchema "test" [DFinish (tt, tt); DVec
    (42%Z, tt)]] = Some (Ok (JObj [("@context", JStr "https://www.w3.org/2022/wot/td/v1.1");
    ("schemaDefinitions", JObj [("test", JObj [("array_field", JInt 42%Z); ("readOnly", JBool false);
    ("type", JStr "array"); ("writeOnly", JBool false)])]); ("security", JArr []);
    ("securityDefinitions", JObj []); ("title", JStr "Thing name")])).
Proof. reflexivity. Qed.

(** src/builder/data_schema.rs 839-901, the extensions of the example *)
Definition doc_schema_839_exts : exts :=
  cons_exts (Build_exts unit_piece unit_piece unit_piece unit_piece unit_piece unit_piece unit_piece
    unit_piece unit_piece (zpiece "array_field")) N.

(** src/builder/data_schema.rs 839-901 *)
Example doc_schema_839 :
  thing_written doc_schema_839_exts "Thing name" (tt, tt) [TFinish; TSchema "test" [DFinish (tt, tt);
    DTuple (42%Z, tt)]] = Some (Ok (JObj [("@context", JStr "https://www.w3.org/2022/wot/td/v1.1");
    ("schemaDefinitions", JObj [("test", JObj [("array_field", JInt 42%Z); ("items", JArr []);
    ("readOnly", JBool false); ("type", JStr "array"); ("writeOnly", JBool false)])]); ("security", JArr
    []); ("securityDefinitions", JObj []); ("title", JStr "Thing name")])).
Proof. reflexivity. Qed.

(** src/builder/data_schema.rs 914-975, the extensions of the example *)
Definition doc_schema_914_exts : exts :=
  cons_exts (Build_exts unit_piece unit_piece unit_piece unit_piece unit_piece unit_piece unit_piece
    unit_piece unit_piece (zpiece "array_field")) N.

(** src/builder/data_schema.rs 914-975 *)
Example doc_schema_914 :
  thing_written doc_schema_914_exts "Thing name" (tt, tt) [TFinish; TSchema "test" [DFinish (tt, tt); DVec
    (42%Z, tt)]] = Some (Ok (JObj [("@context", JStr "https://www.w3.org/2022/wot/td/v1.1");
    ("schemaDefinitions", JObj [("test", JObj [("array_field", JInt 42%Z); ("readOnly", JBool false);
    ("type", JStr "array"); ("writeOnly", JBool false)])]); ("security", JArr []);
    ("securityDefinitions", JObj []); ("title", JStr "Thing name")])).
Proof. reflexivity. Qed.

(** src/builder/data_schema.rs 1001-1051, the extensions of the example *)
Definition doc_schema_1001_exts : exts :=
  cons_exts (Build_exts unit_piece unit_piece unit_piece unit_piece unit_piece unit_piece unit_piece
    unit_piece (zpiece "object_field") unit_piece) N.

(** src/builder/data_schema.rs 1001-1051 *)
Example doc_schema_1001 :
  thing_written doc_schema_1001_exts "Thing name" (tt, tt) [TFinish; TSchema "test" [DFinish (tt, tt);
    DObject (0%Z, tt)]] = Some (Ok (JObj [("@context", JStr "https://www.w3.org/2022/wot/td/v1.1");
    ("schemaDefinitions", JObj [("test", JObj [("object_field", JInt 0%Z); ("readOnly", JBool false);
    ("type", JStr "object"); ("writeOnly", JBool false)])]); ("security", JArr []);
    ("securityDefinitions", JObj []); ("title", JStr "Thing name")])).
Proof. reflexivity. Qed.

(** src/builder/data_schema.rs 1098-1159, the extensions of the example *)
Definition doc_schema_1098_exts : exts :=
  cons_exts (Build_exts unit_piece unit_piece unit_piece unit_piece unit_piece unit_piece unit_piece
    unit_piece (zpiece "object_field") unit_piece) N.

(** src/builder/data_schema.rs 1098-1159 *)
Example doc_schema_1098 :
  thing_written doc_schema_1098_exts "Thing name" (tt, tt) [TFinish; TSchema "test" [DFinish (tt, tt);
    DObject (42%Z, tt)]] = Some (Ok (JObj [("@context", JStr "https://www.w3.org/2022/wot/td/v1.1");
    ("schemaDefinitions", JObj [("test", JObj [("object_field", JInt 42%Z); ("readOnly", JBool false);
    ("type", JStr "object"); ("writeOnly", JBool false)])]); ("security", JArr []);
    ("securityDefinitions", JObj []); ("title", JStr "Thing name")])).
Proof. reflexivity. Qed.

(** src/builder/data_schema.rs 1171-1232, the extensions of the example *)
Definition doc_schema_1171_exts : exts :=
  cons_exts (Build_exts unit_piece unit_piece unit_piece unit_piece unit_piece unit_piece unit_piece
    unit_piece (zpiece "object_field") unit_piece) N.

(** src/builder/data_schema.rs 1171-1232 *)
Example doc_schema_1171 :
  thing_written doc_schema_1171_exts "Thing name" (tt, tt) [TFinish; TSchema "test" [DFinish (tt, tt);
    DObject (42%Z, tt)]] = Some (Ok (JObj [("@context", JStr "https://www.w3.org/2022/wot/td/v1.1");
    ("schemaDefinitions", JObj [("test", JObj [("object_field", JInt 42%Z); ("readOnly", JBool false);
    ("type", JStr "object"); ("writeOnly", JBool false)])]); ("security", JArr []);
    ("securityDefinitions", JObj []); ("title", JStr "Thing name")])).
Proof. reflexivity. Qed.

(** src/builder/data_schema.rs 1272-1301 *)
Example doc_schema_1272 :
  thing_written N "Thing name" tt [TFinish; TSchema "test" [DFinish tt; DEnum (JStr "variant1"); DEnum
    (JStr "variant2"); DEnum (JStr "variant3")]] = Some (Ok (JObj [("@context", JStr
    "https://www.w3.org/2022/wot/td/v1.1"); ("schemaDefinitions", JObj [("test", JObj [("enum", JArr
    [JStr "variant1"; JStr "variant2"; JStr "variant3"]); ("readOnly", JBool false); ("writeOnly", JBool
    false)])]); ("security", JArr []); ("securityDefinitions", JObj []); ("title", JStr "Thing name")])).
Proof. reflexivity. Qed.

(** src/builder/data_schema.rs 1326-1374 *)
Example doc_schema_1326 :
  thing_written N "Thing name" tt [TFinish; TSchema "test" [DFinish tt; DOneOf [DFinish tt; DNumber];
    DOneOf [DFinish tt; DInteger]; DOneOf [DFinish tt; DString]]] = Some (Ok (JObj [("@context", JStr
    "https://www.w3.org/2022/wot/td/v1.1"); ("schemaDefinitions", JObj [("test", JObj [("oneOf", JArr
    [JObj [("readOnly", JBool false); ("type", JStr "number"); ("writeOnly", JBool false)]; JObj
    [("readOnly", JBool false); ("type", JStr "integer"); ("writeOnly", JBool false)]; JObj
    [("readOnly", JBool false); ("type", JStr "string"); ("writeOnly", JBool false)]]); ("readOnly",
    JBool false); ("writeOnly", JBool false)])]); ("security", JArr []); ("securityDefinitions", JObj
    []); ("title", JStr "Thing name")])).
Proof. reflexivity. Qed.

(** src/builder/data_schema.rs 1407-1444 *)
Example doc_schema_1407 :
  thing_written N "Thing name" tt [TFinish; TSchema "test" [DFinish tt; DInteger; DIntMin (MinIncl 5%Z);
    DReadOnly; DIntMax (MaxIncl 10%Z)]] = Some (Ok (JObj [("@context", JStr
    "https://www.w3.org/2022/wot/td/v1.1"); ("schemaDefinitions", JObj [("test", JObj [("maximum", JInt
    10%Z); ("minimum", JInt 5%Z); ("readOnly", JBool true); ("type", JStr "integer"); ("writeOnly",
    JBool false)])]); ("security", JArr []); ("securityDefinitions", JObj []); ("title", JStr
    "Thing name")])).
Proof. reflexivity. Qed.

(** src/builder/data_schema.rs 1599-1635 *)
Example doc_schema_1599 :
  thing_written N "Thing name" tt [TFinish; TSchema "test" [DFinish tt; DVec tt; DSetItem [DFinish tt;
    DNumber]]] = Some (Ok (JObj [("@context", JStr "https://www.w3.org/2022/wot/td/v1.1");
    ("schemaDefinitions", JObj [("test", JObj [("items", JObj [("readOnly", JBool false); ("type", JStr
    "number"); ("writeOnly", JBool false)]); ("readOnly", JBool false); ("type", JStr "array");
    ("writeOnly", JBool false)])]); ("security", JArr []); ("securityDefinitions", JObj []); ("title",
    JStr "Thing name")])).
Proof. reflexivity. Qed.

(** src/builder/data_schema.rs 1651-1695 *)
Example doc_schema_1651 :
  thing_written N "Thing name" tt [TFinish; TSchema "test" [DFinish tt; DTuple tt; DAppend [DFinish tt;
    DNumber]; DAppend [DFinish tt; DNull]]] = Some (Ok (JObj [("@context", JStr
    "https://www.w3.org/2022/wot/td/v1.1"); ("schemaDefinitions", JObj [("test", JObj [("items", JArr
    [JObj [("readOnly", JBool false); ("type", JStr "number"); ("writeOnly", JBool false)]; JObj
    [("readOnly", JBool false); ("type", JStr "null"); ("writeOnly", JBool false)]]); ("readOnly", JBool
    false); ("type", JStr "array"); ("writeOnly", JBool false)])]); ("security", JArr []);
    ("securityDefinitions", JObj []); ("title", JStr "Thing name")])).
Proof. reflexivity. Qed.

(** src/builder/data_schema.rs 1738-1783 *)
Example doc_schema_1738 :
  thing_written N "Thing name" tt [TFinish; TSchema "test" [DFinish tt; DObject tt; DProperty "prop" true
    [DFinish tt; DInteger]; DProperty "other_prop" false [DFinish tt; DNumber]]] = Some (Ok (JObj
    [("@context", JStr "https://www.w3.org/2022/wot/td/v1.1"); ("schemaDefinitions", JObj [("test", JObj
    [("properties", JObj [("other_prop", JObj [("readOnly", JBool false); ("type", JStr "number");
    ("writeOnly", JBool false)]); ("prop", JObj [("readOnly", JBool false); ("type", JStr "integer");
    ("writeOnly", JBool false)])]); ("readOnly", JBool false); ("required", JArr [JStr "prop"]);
    ("type", JStr "object"); ("writeOnly", JBool false)])]); ("security", JArr []);
    ("securityDefinitions", JObj []); ("title", JStr "Thing name")])).
Proof. reflexivity. Qed.
