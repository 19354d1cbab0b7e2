(** * The unit tests of src/builder.rs

    Generated from the unit tests of /repo by a script: each [Example] runs the
    model on the calls of one test and compares the outcome with the value the
    test expects.  These are checks of the model on literals, not properties. *)

From Coq Require Import String Bool ZArith List.
From Coq Require Import Floats.SpecFloat.
From Verif Require Import Base MinMax Json Serde Types DsBuilder Builder HList Protocol Ser De SchemaStructs Samples RepoTestsBase.
Import ListNotations.
Set Implicit Arguments.
Local Open Scope string_scope.
Local Open Scope list_scope.

(** src/builder.rs 3078-3091, [default_context] *)
Example builder_default_context :
  @thing_program test_env N id_order "MyLampThing" tt [TFinish] = Some (Ok (@Build_thing test_env N (JStr
    TD_CONTEXT_11) None None "MyLampThing" None None None None None None None None None None None None
    None [] [] None None None tt)).
Proof. reflexivity. Qed.

(** src/builder.rs 3094-3108, [redundant_default_context] *)
Example builder_redundant_default_context :
  @thing_program test_env N id_order "MyLampThing" tt [TContext TD_CONTEXT_11] = Some (Ok (@Build_thing
    test_env N (JStr TD_CONTEXT_11) None None "MyLampThing" None None None None None None None None None
    None None None None [] [] None None None tt)).
Proof. reflexivity. Qed.

(** src/builder.rs 3111-3130, [simple_contexts] *)
Example builder_simple_contexts :
  @thing_program test_env N id_order "MyLampThing" tt [TContext "test"; TContext "another_test"] = Some
    (Ok (@Build_thing test_env N (JArr [JStr TD_CONTEXT_11; JStr "test"; JStr "another_test"]) None None
    "MyLampThing" None None None None None None None None None None None None None [] [] None None None
    tt)).
Proof. reflexivity. Qed.

(** src/builder.rs 3133-3155, [map_contexts] *)
Example builder_map_contexts :
  @thing_program test_env N id_order "MyLampThing" tt [TContextMap [("hello", "world"); ("all", "fine")];
    TContext "simple"] = Some (Ok (@Build_thing test_env N (JArr [JStr TD_CONTEXT_11; JObj [("all", JStr
    "fine"); ("hello", JStr "world")]; JStr "simple"]) None None "MyLampThing" None None None None None
    None None None None None None None None [] [] None None None tt)).
Proof. reflexivity. Qed.

(** src/builder.rs 3160-3191, [attype] *)
Example builder_attype_1 :
  @thing_program test_env N id_order "MyLampThing" tt [TAttype "test"] = Some (Ok (@Build_thing test_env N
    (JStr TD_CONTEXT_11) None (Some ["test"]) "MyLampThing" None None None None None None None None None
    None None None None [] [] None None None tt)).
Proof. reflexivity. Qed.

(** src/builder.rs 3160-3191, [attype] *)
Example builder_attype_2 :
  @thing_program test_env N id_order "MyLampThing" tt [TAttype "test1"; TAttype "test2"] = Some (Ok
    (@Build_thing test_env N (JStr TD_CONTEXT_11) None (Some ["test1"; "test2"]) "MyLampThing" None None
    None None None None None None None None None None None [] [] None None None tt)).
Proof. reflexivity. Qed.

(** src/builder.rs 3194-3214, [titles] *)
Example builder_titles :
  @thing_program test_env N id_order "MyLampThing" tt [TTitles [("en", "My lamp"); ("it",
    "La mia lampada")]] = Some (Ok (@Build_thing test_env N (JStr TD_CONTEXT_11) None None "MyLampThing"
    (Some [("en", "My lamp"); ("it", "La mia lampada")]) None None None None None None None None None
    None None None [] [] None None None tt)).
Proof. reflexivity. Qed.

(** src/builder.rs 3217-3239, [descriptions] *)
Example builder_descriptions :
  @thing_program test_env N id_order "MyLampThing" tt [TDescription "My Lamp"; TDescriptions [("en",
    "My lamp"); ("it", "La mia lampada")]] = Some (Ok (@Build_thing test_env N (JStr TD_CONTEXT_11) None
    None "MyLampThing" None (Some "My Lamp") (Some [("en", "My lamp"); ("it", "La mia lampada")]) None
    None None None None None None None None None [] [] None None None tt)).
Proof. reflexivity. Qed.

(** src/builder.rs 3242-3258, [created] *)
Example builder_created :
  @thing_program test_env N id_order "MyLampThing" tt [TCreated "2022-05-01 12:13:14.567 +01:00"] = Some
    (Ok (@Build_thing test_env N (JStr TD_CONTEXT_11) None None "MyLampThing" None None None None (Some
    "2022-05-01 12:13:14.567 +01:00") None None None None None None None None [] [] None None None tt)).
Proof. reflexivity. Qed.

(** src/builder.rs 3261-3277, [modified] *)
Example builder_modified :
  @thing_program test_env N id_order "MyLampThing" tt [TModified "2022-05-01 12:13:14.567 +01:00"] = Some
    (Ok (@Build_thing test_env N (JStr TD_CONTEXT_11) None None "MyLampThing" None None None None None
    (Some "2022-05-01 12:13:14.567 +01:00") None None None None None None None [] [] None None None tt)).
Proof. reflexivity. Qed.

(** src/builder.rs 3280-3313, [link_simple] *)
Example builder_link_simple :
  @thing_program test_env N id_order "MyLampThing" tt [TLink "href1"; TLink "href2"] = Some (Ok
    (@Build_thing test_env N (JStr TD_CONTEXT_11) None None "MyLampThing" None None None None None None
    None None None None None (Some [(Build_link "href1" None None None None None); (Build_link "href2"
    None None None None None)]) None [] [] None None None tt)).
Proof. reflexivity. Qed.

(** src/builder.rs 3316-3357, [link_with] *)
Example builder_link_with :
  @thing_program test_env N id_order "MyLampThing" tt [TLinkWith [LHref "href1"; LType "ty"; LRel "icon";
    LAnchor "anchor"; LSizes "10x20 30x50"; LHreflang "it"; LHreflang "en"]; TLinkWith [LHref "href2"]]
    = Some (Ok (@Build_thing test_env N (JStr TD_CONTEXT_11) None None "MyLampThing" None None None None
    None None None None None None None (Some [(Build_link "href1" (Some "ty") (Some "icon") (Some
    "anchor") (Some "10x20 30x50") (Some ["it"; "en"])); (Build_link "href2" None None None None None)])
    None [] [] None None None tt)).
Proof. reflexivity. Qed.

(** src/builder.rs 3360-3367, [invalid_link_sizes_without_type_icon] *)
Example builder_invalid_link_sizes_without_type_icon :
  @thing_program test_env N id_order "MyLampThing" tt [TLinkWith [LHref "href1"; LRel "other"; LSizes
    "10x20 30x50"]] = Some (Err SizesWithRelNotIcon).
Proof. reflexivity. Qed.

(** src/builder.rs 3370-3382, [link_with_invalid_hreflangs] *)
Example builder_link_with_invalid_hreflangs :
  @thing_program test_env N id_order "MyLampThing" tt [TLinkWith [LHref "href1"; LHreflang "it"; LHreflang
    "i18"; LHreflang "en"]] = Some (Err (InvalidLanguageTag "i18")).
Proof. reflexivity. Qed.

(** src/builder.rs 3385-3427, [nosec_security] *)
Example builder_nosec_security :
  @thing_program test_env N id_order "MyLampThing" tt [TSecurity [SNoSec; SAttype "ty1"; SAttype "ty2";
    SDescription "desc"; SDescriptions [("en", "desc_en"); ("it", "desc_it")]; SProxy "proxy";
    SRequired]] = Some (Ok (@Build_thing test_env N (JStr TD_CONTEXT_11) None None "MyLampThing" None
    None None None None None None None None None None None None ["nosec"] [("nosec",
    (Build_security_scheme (Some ["ty1"; "ty2"]) (Some "desc") (Some [("en", "desc_en"); ("it",
    "desc_it")]) (Some "proxy") (Known KNoSec)))] None None None tt)).
Proof. reflexivity. Qed.

(** src/builder.rs 3430-3472, [auto_security] *)
Example builder_auto_security :
  @thing_program test_env N id_order "MyLampThing" tt [TSecurity [SAuto; SAttype "ty1"; SAttype "ty2";
    SDescription "desc"; SDescriptions [("en", "desc_en"); ("it", "desc_it")]; SProxy "proxy";
    SRequired]] = Some (Ok (@Build_thing test_env N (JStr TD_CONTEXT_11) None None "MyLampThing" None
    None None None None None None None None None None None None ["auto"] [("auto",
    (Build_security_scheme (Some ["ty1"; "ty2"]) (Some "desc") (Some [("en", "desc_en"); ("it",
    "desc_it")]) (Some "proxy") (Known KAuto)))] None None None tt)).
Proof. reflexivity. Qed.

(** src/builder.rs 3475-3524, [basic_security] *)
Example builder_basic_security :
  @thing_program test_env N id_order "MyLampThing" tt [TSecurity [SBasic; SName "name"; SLocation LCookie;
    SAttype "ty1"; SAttype "ty2"; SDescription "desc"; SDescriptions [("en", "desc_en"); ("it",
    "desc_it")]; SProxy "proxy"; SRequired]] = Some (Ok (@Build_thing test_env N (JStr TD_CONTEXT_11)
    None None "MyLampThing" None None None None None None None None None None None None None ["basic"]
    [("basic", (Build_security_scheme (Some ["ty1"; "ty2"]) (Some "desc") (Some [("en", "desc_en");
    ("it", "desc_it")]) (Some "proxy") (Known (KBasic (Build_loc_name LCookie (Some "name"))))))] None
    None None tt)).
Proof. reflexivity. Qed.

(** src/builder.rs 3527-3578, [digest_security] *)
Example builder_digest_security :
  @thing_program test_env N id_order "MyLampThing" tt [TSecurity [SDigest; SName "name"; SLocation
    LCookie; SQop QAuthInt; SAttype "ty1"; SAttype "ty2"; SDescription "desc"; SDescriptions [("en",
    "desc_en"); ("it", "desc_it")]; SProxy "proxy"; SRequired]] = Some (Ok (@Build_thing test_env N
    (JStr TD_CONTEXT_11) None None "MyLampThing" None None None None None None None None None None None
    None None ["digest"] [("digest", (Build_security_scheme (Some ["ty1"; "ty2"]) (Some "desc") (Some
    [("en", "desc_en"); ("it", "desc_it")]) (Some "proxy") (Known (KDigest QAuthInt (Build_loc_name
    LCookie (Some "name"))))))] None None None tt)).
Proof. reflexivity. Qed.

(** src/builder.rs 3581-3630, [apikey_security] *)
Example builder_apikey_security :
  @thing_program test_env N id_order "MyLampThing" tt [TSecurity [SApiKey; SName "name"; SLocation
    LCookie; SAttype "ty1"; SAttype "ty2"; SDescription "desc"; SDescriptions [("en", "desc_en"); ("it",
    "desc_it")]; SProxy "proxy"; SRequired]] = Some (Ok (@Build_thing test_env N (JStr TD_CONTEXT_11)
    None None "MyLampThing" None None None None None None None None None None None None None ["apikey"]
    [("apikey", (Build_security_scheme (Some ["ty1"; "ty2"]) (Some "desc") (Some [("en", "desc_en");
    ("it", "desc_it")]) (Some "proxy") (Known (KApiKey (Build_loc_name LCookie (Some "name"))))))] None
    None None tt)).
Proof. reflexivity. Qed.

(** src/builder.rs 3633-3688, [bearer_security] *)
Example builder_bearer_security :
  @thing_program test_env N id_order "MyLampThing" tt [TSecurity [SBearer; SName "name"; SLocation
    LCookie; SAuthorization "authorization"; SAlg "alg"; SFormat "format"; SAttype "ty1"; SAttype "ty2";
    SDescription "desc"; SDescriptions [("en", "desc_en"); ("it", "desc_it")]; SProxy "proxy";
    SRequired]] = Some (Ok (@Build_thing test_env N (JStr TD_CONTEXT_11) None None "MyLampThing" None
    None None None None None None None None None None None None ["bearer"] [("bearer",
    (Build_security_scheme (Some ["ty1"; "ty2"]) (Some "desc") (Some [("en", "desc_en"); ("it",
    "desc_it")]) (Some "proxy") (Known (KBearer (Build_bearer (Some "authorization") "alg" "format"
    LCookie (Some "name"))))))] None None None tt)).
Proof. reflexivity. Qed.

(** src/builder.rs 3691-3746, [oauth2_security] *)
Example builder_oauth2_security :
  @thing_program test_env N id_order "MyLampThing" tt [TSecurity [SOAuth2 "flow"; SAuthorization
    "authorization"; SToken "token"; SRefresh "refresh"; SScope "scope1"; SScope "scope2"; SAttype
    "ty1"; SAttype "ty2"; SDescription "desc"; SDescriptions [("en", "desc_en"); ("it", "desc_it")];
    SProxy "proxy"; SRequired]] = Some (Ok (@Build_thing test_env N (JStr TD_CONTEXT_11) None None
    "MyLampThing" None None None None None None None None None None None None None ["oauth2"]
    [("oauth2", (Build_security_scheme (Some ["ty1"; "ty2"]) (Some "desc") (Some [("en", "desc_en");
    ("it", "desc_it")]) (Some "proxy") (Known (KOAuth2 (Build_oauth2 (Some "authorization") (Some
    "token") (Some "refresh") (Some ["scope1"; "scope2"]) "flow")))))] None None None tt)).
Proof. reflexivity. Qed.

(** src/builder.rs 3749-3801, [custom_security] *)
Example builder_custom_security :
  @thing_program test_env N id_order "MyLampThing" tt [TSecurity [SCustom "mysec"; SData (JObj [("hello",
    JArr [JStr "world"; JStr "mondo"]); ("test", JInt 1%Z)]); SAttype "ty1"; SAttype "ty2"; SDescription
    "desc"; SDescriptions [("en", "desc_en"); ("it", "desc_it")]; SProxy "proxy"; SRequired]] = Some (Ok
    (@Build_thing test_env N (JStr TD_CONTEXT_11) None None "MyLampThing" None None None None None None
    None None None None None None None ["mysec"] [("mysec", (Build_security_scheme (Some ["ty1"; "ty2"])
    (Some "desc") (Some [("en", "desc_en"); ("it", "desc_it")]) (Some "proxy") (Unknown "mysec" (JObj
    [("hello", JArr [JStr "world"; JStr "mondo"]); ("test", JInt 1%Z)]))))] None None None tt)).
Proof. reflexivity. Qed.

(** src/builder.rs 3804-3848, [named_security] *)
Example builder_named_security :
  @thing_program test_env N id_order "MyLampThing" tt [TSecurity [SNoSec; SWithKey "test_sec1";
    SRequired]; TSecurity [SNoSec; SWithKey "test_sec2"; SRequired]] = Some (Ok (@Build_thing test_env N
    (JStr TD_CONTEXT_11) None None "MyLampThing" None None None None None None None None None None None
    None None ["test_sec1"; "test_sec2"] [("test_sec1", (Build_security_scheme None None None None
    (Known KNoSec))); ("test_sec2", (Build_security_scheme None None None None (Known KNoSec)))] None
    None None tt)).
Proof. reflexivity. Qed.

(** src/builder.rs 3851-3939, [mixed_security] *)
Example builder_mixed_security_1 :
  @thing_program test_env N id_order "MyLampThing" tt [TSecurity [SDigest; SWithKey "sec1"]; TSecurity
    [SBasic; SWithKey "sec2"; SRequired]] = Some (Ok (@Build_thing test_env N (JStr TD_CONTEXT_11) None
    None "MyLampThing" None None None None None None None None None None None None None ["sec2"]
    [("sec1", (Build_security_scheme None None None None (Known (KDigest QAuth (Build_loc_name LHeader
    None))))); ("sec2", (Build_security_scheme None None None None (Known (KBasic (Build_loc_name
    LHeader None)))))] None None None tt)).
Proof. reflexivity. Qed.

(** src/builder.rs 3851-3939, [mixed_security] *)
Example builder_mixed_security_2 :
  @thing_program test_env N id_order "MyLampThing" tt [TSecurity [SDigest]; TSecurity [SBasic; SRequired]]
    = Some (Ok (@Build_thing test_env N (JStr TD_CONTEXT_11) None None "MyLampThing" None None None None
    None None None None None None None None None ["basic"] [("basic", (Build_security_scheme None None
    None None (Known (KBasic (Build_loc_name LHeader None))))); ("digest", (Build_security_scheme None
    None None None (Known (KDigest QAuth (Build_loc_name LHeader None)))))] None None None tt)).
Proof. reflexivity. Qed.

(** src/builder.rs 3942-3953, [colliding_security_names] *)
Example builder_colliding_security_names :
  @thing_program test_env N id_order "MyLampThing" tt [TSecurity [SBasic]; TSecurity [SBasic; SRequired]]
    = Some (Err (DuplicatedSecurityDefinition "basic")).
Proof. reflexivity. Qed.

(** src/builder.rs 3956-3976, [simple_form] *)
Example builder_simple_form :
  @thing_program test_env N id_order "MyLampThing" tt [TFinish; TForm tt [FHref "href"; FOp
    ReadAllProperties]] = Some (Ok (@Build_thing test_env N (JStr TD_CONTEXT_11) None None "MyLampThing"
    None None None None None None None None None None None None (Some [(@Build_form N (OpCustom
    [ReadAllProperties]) "href" None None None None None None None tt)]) [] [] None None None tt)).
Proof. reflexivity. Qed.

(** src/builder.rs 3979-4010, [simple_into_form] *)
Example builder_simple_into_form :
  @thing_program test_env N id_order "MyLampThing" tt [TFinish; TForm tt [FHref "href"; FOp
    ReadAllProperties]] = Some (Ok (@Build_thing test_env N (JStr TD_CONTEXT_11) None None "MyLampThing"
    None None None None None None None None None None None None (Some [(@Build_form N (OpCustom
    [ReadAllProperties]) "href" None None None None None None None tt)]) [] [] None None None tt)).
Proof. reflexivity. Qed.

(** src/builder.rs 4013-4045, [simple_form_with_uri_variables] *)
Example builder_simple_form_with_uri_variables :
  @thing_program test_env N id_order "MyLampThing" tt [TFinish; TForm tt [FHref "href/{foo}"; FOp
    ReadAllProperties]; TUri "foo" [DFinish tt; DInteger]] = Some (Ok (@Build_thing test_env N (JStr
    TD_CONTEXT_11) None None "MyLampThing" None None None None None None None None None None None None
    (Some [(@Build_form N (OpCustom [ReadAllProperties]) "href/{foo}" None None None None None None None
    tt)]) [] [] (Some [("foo", (@mkDs (pty (x_ds N)) (pty (x_as N)) (pty (x_os N)) (Build_info None None
    None None None) (Build_dmisc None None None None false false None) None (Some (SInteger
    (Build_integer_schema None None None))) tt))]) None None tt)).
Proof. reflexivity. Qed.

(** src/builder.rs 4047-4155, [complete_form] *)
Example builder_complete_form :
  @thing_program test_env N id_order "MyLampThing" tt [TFinish; TForm tt [FHref "href"; FOp
    ReadAllProperties; FCtype "text/plain"; FCcoding "coding"; FSubprotocol "subprotocol"; FSecurity
    "digest"; FSecurity "basic"; FScope "scope1"; FScope "scope2"; FResponse "application/json" tt;
    FAdditional [RCtype "application/xml"; RSchema "schema1"]; FAdditional [RSuccess; RSchema
    "schema2"]; FAdditional []]; TSecurity [SDigest]; TSecurity [SBasic]; TSchema "schema1" [DFinish tt;
    DBool]; TSchema "schema2" [DFinish tt; DNull]] = Some (Ok (@Build_thing test_env N (JStr
    TD_CONTEXT_11) None None "MyLampThing" None None None None None None None None None None None None
    (Some [(@Build_form N (OpCustom [ReadAllProperties]) "href" (Some "text/plain") (Some "coding")
    (Some "subprotocol") (Some ["digest"; "basic"]) (Some ["scope1"; "scope2"]) (Some (@Build_exp_resp
    (pty (x_er N)) "application/json" tt)) (Some [(Build_add_resp false (Some "application/xml") (Some
    "schema1")); (Build_add_resp true None (Some "schema2")); (Build_add_resp false None None)]) tt)])
    [] [("basic", (Build_security_scheme None None None None (Known (KBasic (Build_loc_name LHeader
    None))))); ("digest", (Build_security_scheme None None None None (Known (KDigest QAuth
    (Build_loc_name LHeader None)))))] None None (Some [("schema1", (@mkDs (pty (x_ds N)) (pty (x_as N))
    (pty (x_os N)) (Build_info None None None None None) (Build_dmisc None None None None false false
    None) None (Some SBoolean) tt)); ("schema2", (@mkDs (pty (x_ds N)) (pty (x_as N)) (pty (x_os N))
    (Build_info None None None None None) (Build_dmisc None None None None false false None) None (Some
    SNull) tt))]) tt)).
Proof. reflexivity. Qed.

(** src/builder.rs 4158-4185, [form_with_multiple_ops] *)
Example builder_form_with_multiple_ops :
  @thing_program test_env N id_order "MyLampThing" tt [TFinish; TForm tt [FHref "href"; FOp
    ReadAllProperties; FOp ReadMultipleProperties]] = Some (Ok (@Build_thing test_env N (JStr
    TD_CONTEXT_11) None None "MyLampThing" None None None None None None None None None None None None
    (Some [(@Build_form N (OpCustom [ReadAllProperties; ReadMultipleProperties]) "href" None None None
    None None None None tt)]) [] [] None None None tt)).
Proof. reflexivity. Qed.

(** src/builder.rs 4188-4196, [invalid_form_without_op] *)
Example builder_invalid_form_without_op :
  @thing_program test_env N id_order "MyLampThing" tt [TFinish; TForm tt [FHref "href"]] = Some (Err
    MissingOpInForm).
Proof. reflexivity. Qed.

(** src/builder.rs 4199-4213, [invalid_form_with_invalid_op] *)
Example builder_invalid_form_with_invalid_op :
  @thing_program test_env N id_order "MyLampThing" tt [TFinish; TForm tt [FHref "href"; FOp ReadProperty]]
    = Some (Err (InvalidOpInForm CtxThing ReadProperty)).
Proof. reflexivity. Qed.

(** src/builder.rs 4216-4228, [invalid_form_with_missing_security] *)
Example builder_invalid_form_with_missing_security :
  @thing_program test_env N id_order "MyLampThing" tt [TFinish; TForm tt [FHref "href"; FOp
    ReadAllProperties; FSecurity "basic"]] = Some (Err (UndefinedSecurity "basic")).
Proof. reflexivity. Qed.

(** src/builder.rs 4231-4326, [with_property_affordance] *)
Example builder_with_property_affordance :
  @thing_program test_env N id_order "MyLampThing" tt [TFinish; TProperty "on" tt tt [PDs (DFinish tt);
    PDs (DBool); PObservable true; PDs (DInfo (ITitle "title"))]; TProperty "prop" tt tt [PDs (DFinish
    tt); PDs (DNull)]] = Some (Ok (@Build_thing test_env N (JStr TD_CONTEXT_11) None None "MyLampThing"
    None None None None None None None None (Some [("on", (@Build_property N (@Build_interaction N
    (Build_info None (Some "title") None None None) [] None tt) (@mkDs (pty (x_ds N)) (pty (x_as N))
    (pty (x_os N)) (Build_info None (Some "title") None None None) (Build_dmisc None None None None
    false false None) None (Some SBoolean) tt) (Some true) tt)); ("prop", (@Build_property N
    (@Build_interaction N (Build_info None None None None None) [] None tt) (@mkDs (pty (x_ds N)) (pty
    (x_as N)) (pty (x_os N)) (Build_info None None None None None) (Build_dmisc None None None None
    false false None) None (Some SNull) tt) None tt))]) None None None None [] [] None None None tt)).
Proof. reflexivity. Qed.

(** src/builder.rs 4329-4413, [with_action_affordance] *)
Example builder_with_action_affordance :
  @thing_program test_env N id_order "MyLampThing" tt [TFinish; TAction "fade" tt tt []; TAction "action"
    tt tt [AInfo (ITitle "title"); AIdempotent; AInput [DFinish tt; DNull]]] = Some (Ok (@Build_thing
    test_env N (JStr TD_CONTEXT_11) None None "MyLampThing" None None None None None None None None None
    (Some [("action", (@Build_action N (@Build_interaction N (Build_info None (Some "title") None None
    None) [] None tt) (Some (@mkDs (pty (x_ds N)) (pty (x_as N)) (pty (x_os N)) (Build_info None None
    None None None) (Build_dmisc None None None None false false None) None (Some SNull) tt)) None false
    true None tt)); ("fade", (@Build_action N (@Build_interaction N (Build_info None None None None
    None) [] None tt) None None false false None tt))]) None None None [] [] None None None tt)).
Proof. reflexivity. Qed.

(** src/builder.rs 4416-4496, [with_event_affordance] *)
Example builder_with_event_affordance :
  @thing_program test_env N id_order "MyLampThing" tt [TFinish; TEvent "overheat" tt tt []; TEvent "event"
    tt tt [EInfo (ITitle "title"); ECancellation [DFinish tt; DNull]]] = Some (Ok (@Build_thing test_env
    N (JStr TD_CONTEXT_11) None None "MyLampThing" None None None None None None None None None None
    (Some [("event", (@Build_event N (@Build_interaction N (Build_info None (Some "title") None None
    None) [] None tt) None None None (Some (@mkDs (pty (x_ds N)) (pty (x_as N)) (pty (x_os N))
    (Build_info None None None None None) (Build_dmisc None None None None false false None) None (Some
    SNull) tt)) tt)); ("overheat", (@Build_event N (@Build_interaction N (Build_info None None None None
    None) [] None tt) None None None None tt))]) None None [] [] None None None tt)).
Proof. reflexivity. Qed.

(** src/builder.rs 4499-4556, [valid_affordance_security] *)
Example builder_valid_affordance_security :
  @thing_program test_env N id_order "MyLampThing" tt [TFinish; TProperty "on" tt tt [PDs (DFinish tt);
    PDs (DBool); PIa (IForm tt [FSecurity "basic"; FHref "href"])]; TSecurity [SBasic]] = Some (Ok
    (@Build_thing test_env N (JStr TD_CONTEXT_11) None None "MyLampThing" None None None None None None
    None None (Some [("on", (@Build_property N (@Build_interaction N (Build_info None None None None
    None) [(@Build_form N OpDefault "href" None None None (Some ["basic"]) None None None tt)] None tt)
    (@mkDs (pty (x_ds N)) (pty (x_as N)) (pty (x_os N)) (Build_info None None None None None)
    (Build_dmisc None None None None false false None) None (Some SBoolean) tt) None tt))]) None None
    None None [] [("basic", (Build_security_scheme None None None None (Known (KBasic (Build_loc_name
    LHeader None)))))] None None None tt)).
Proof. reflexivity. Qed.

(** src/builder.rs 4559-4572, [invalid_affordance_security] *)
Example builder_invalid_affordance_security :
  @thing_program test_env N id_order "MyLampThing" tt [TFinish; TProperty "on" tt tt [PDs (DFinish tt);
    PDs (DBool); PIa (IForm tt [FSecurity "oauth2"; FHref "href"])]; TSecurity [SBasic]] = Some (Err
    (UndefinedSecurity "oauth2")).
Proof. reflexivity. Qed.

(** src/builder.rs 4575-4606, [profile] *)
Example builder_profile_1 :
  @thing_program test_env N id_order "MyLampThing" tt [TProfile "profile"] = Some (Ok (@Build_thing
    test_env N (JStr TD_CONTEXT_11) None None "MyLampThing" None None None None None None None None None
    None None None None [] [] None (Some ["profile"]) None tt)).
Proof. reflexivity. Qed.

(** src/builder.rs 4575-4606, [profile] *)
Example builder_profile_2 :
  @thing_program test_env N id_order "MyLampThing" tt [TProfile "profile1"; TProfile "profile2"] = Some
    (Ok (@Build_thing test_env N (JStr TD_CONTEXT_11) None None "MyLampThing" None None None None None
    None None None None None None None None [] [] None (Some ["profile1"; "profile2"]) None tt)).
Proof. reflexivity. Qed.

(** src/builder.rs 4609-4648, [schema_definitions] *)
Example builder_schema_definitions :
  @thing_program test_env N id_order "MyLampThing" tt [TFinish; TSchema "schema1" [DFinish tt; DNull];
    TSchema "schema2" [DFinish tt; DNumber; DNumMin (MinIncl (f64_of_Z 5%Z))]] = Some (Ok (@Build_thing
    test_env N (JStr TD_CONTEXT_11) None None "MyLampThing" None None None None None None None None None
    None None None None [] [] None None (Some [("schema1", (@mkDs (pty (x_ds N)) (pty (x_as N)) (pty
    (x_os N)) (Build_info None None None None None) (Build_dmisc None None None None false false None)
    None (Some SNull) tt)); ("schema2", (@mkDs (pty (x_ds N)) (pty (x_as N)) (pty (x_os N)) (Build_info
    None None None None None) (Build_dmisc None None None None false false None) None (Some (SNumber
    (Build_number_schema None (Some (MinIncl (f64_of_Z 5%Z))) None))) tt))]) tt)).
Proof. reflexivity. Qed.

(** src/builder.rs 4651-4732, [extend_thing_with_form_builder] *)
Example builder_extend_thing_with_form_builder :
  @thing_program test_env two_forms id_order "MyLampThing" (tt, (tt, tt)) [TFinish; TForm (42%Z, ("test",
    tt)) [FHref "href"; FOp ReadAllProperties]] = Some (Ok (@Build_thing test_env two_forms (JStr
    TD_CONTEXT_11) None None "MyLampThing" None None None None None None None None None None None None
    (Some [(@Build_form two_forms (OpCustom [ReadAllProperties]) "href" None None None None None None
    None (42%Z, ("test", tt)))]) [] [] None None None (tt, (tt, tt)))).
Proof. reflexivity. Qed.

(** src/builder.rs 4735-4831, [extend_form_builder] *)
Example builder_extend_form_builder :
  @form_run two_responses (1%Z, ("a", tt)) [FHref "href"; FOp ReadProperty; FResponse "application/json"
    (2%Z, ("b", tt))] = Some (@Build_form two_responses (OpCustom [ReadProperty]) "href" None None None
    None None (Some (@Build_exp_resp (pty (x_er two_responses)) "application/json" (2%Z, ("b", tt))))
    None (1%Z, ("a", tt))).
Proof. reflexivity. Qed.

(** src/builder.rs 4834-5370, [complete_extension] *)
Example builder_complete_extension :
  @thing_program test_env three id_order "thing title" (3%Z, (tt, ((1%Z, 2%Z), tt))) [TId "id"; TFinish;
    TDescription "description"; TUri "uri_variable" [DFinish (5%Z, (tt, (4%Z, tt))); DString]; TProperty
    "property" (10%Z, ((f64_of_Z 9%Z), (6%Z, tt))) (15%Z, ((f64_of_Z 14%Z), (tt, tt))) [PDs (DFinish
    (8%Z, (tt, (7%Z, tt)))); PDs (DObject (13%Z, (12%Z, (11%Z, tt)))); PIa (IForm (tt, (19%Z, (tt, tt)))
    [FResponse "application/json" (18%Z, (17%Z, (16%Z, tt))); FHref "href1"; FAdditional [RSuccess;
    RCtype "application/xml"; RSchema "schema"]])]; TAction "action" (24%Z, ((f64_of_Z 23%Z), (22%Z,
    tt))) (21%Z, (tt, (20%Z, tt))) [AInput [DFinish (26%Z, (tt, (25%Z, tt))); DNumber; DNumMin (MinIncl
    (f64_of_Z 0%Z)); DNumMax (MaxIncl (f64_of_Z 5%Z)); DInfo (ITitle "input")]; AIa (IUri "y" [DFinish
    (28%Z, (tt, (27%Z, tt))); DString]); AInfo (ITitle "action")]; TEvent "event" (33%Z, ((f64_of_Z
    32%Z), (31%Z, tt))) (tt, (30%Z, (29%Z, tt))) [EData [DFinish (35%Z, (tt, (34%Z, tt))); DBool]];
    TForm (tt, (36%Z, (tt, tt))) [FHref "href2"; FResponse "test" (39%Z, (38%Z, (37%Z, tt))); FOp
    ReadAllProperties]; TSchema "schema" [DFinish (41%Z, (tt, (40%Z, tt))); DNull]] = Some (Ok
    (@Build_thing test_env three (JStr TD_CONTEXT_11) (Some "id") None "thing title" None (Some
    "description") None None None None None None (Some [("property", (@Build_property three
    (@Build_interaction three (Build_info None None None None None) [(@Build_form three OpDefault
    "href1" None None None None None (Some (@Build_exp_resp (pty (x_er three)) "application/json" (18%Z,
    (17%Z, (16%Z, tt))))) (Some [(Build_add_resp true (Some "application/xml") (Some "schema"))]) (tt,
    (19%Z, (tt, tt))))] None (10%Z, ((f64_of_Z 9%Z), (6%Z, tt)))) (@mkDs (pty (x_ds three)) (pty (x_as
    three)) (pty (x_os three)) (Build_info None None None None None) (Build_dmisc None None None None
    false false None) None (Some (SObject None None (13%Z, (12%Z, (11%Z, tt))))) (8%Z, (tt, (7%Z, tt))))
    None (15%Z, ((f64_of_Z 14%Z), (tt, tt)))))]) (Some [("action", (@Build_action three
    (@Build_interaction three (Build_info None (Some "action") None None None) [] (Some [("y", (@mkDs
    (pty (x_ds three)) (pty (x_as three)) (pty (x_os three)) (Build_info None None None None None)
    (Build_dmisc None None None None false false None) None (Some (SString (Build_string_schema None
    None None None None))) (28%Z, (tt, (27%Z, tt)))))]) (24%Z, ((f64_of_Z 23%Z), (22%Z, tt)))) (Some
    (@mkDs (pty (x_ds three)) (pty (x_as three)) (pty (x_os three)) (Build_info None (Some "input") None
    None None) (Build_dmisc None None None None false false None) None (Some (SNumber
    (Build_number_schema (Some (MaxIncl (f64_of_Z 5%Z))) (Some (MinIncl (f64_of_Z 0%Z))) None))) (26%Z,
    (tt, (25%Z, tt))))) None false false None (21%Z, (tt, (20%Z, tt)))))]) (Some [("event",
    (@Build_event three (@Build_interaction three (Build_info None None None None None) [] None (33%Z,
    ((f64_of_Z 32%Z), (31%Z, tt)))) None (Some (@mkDs (pty (x_ds three)) (pty (x_as three)) (pty (x_os
    three)) (Build_info None None None None None) (Build_dmisc None None None None false false None)
    None (Some SBoolean) (35%Z, (tt, (34%Z, tt))))) None None (tt, (30%Z, (29%Z, tt)))))]) None (Some
    [(@Build_form three (OpCustom [ReadAllProperties]) "href2" None None None None None (Some
    (@Build_exp_resp (pty (x_er three)) "test" (39%Z, (38%Z, (37%Z, tt))))) None (tt, (36%Z, (tt,
    tt))))]) [] [] (Some [("uri_variable", (@mkDs (pty (x_ds three)) (pty (x_as three)) (pty (x_os
    three)) (Build_info None None None None None) (Build_dmisc None None None None false false None)
    None (Some (SString (Build_string_schema None None None None None))) (5%Z, (tt, (4%Z, tt)))))]) None
    (Some [("schema", (@mkDs (pty (x_ds three)) (pty (x_as three)) (pty (x_os three)) (Build_info None
    None None None None) (Build_dmisc None None None None false false None) None (Some SNull) (41%Z,
    (tt, (40%Z, tt)))))]) (3%Z, (tt, ((1%Z, 2%Z), tt))))).
Proof. reflexivity. Qed.

(** src/builder.rs 5373-5410, [additional_response] *)
Example builder_additional_response_1 :
  resp_run [] = (Build_add_resp false None None).
Proof. reflexivity. Qed.

(** src/builder.rs 5373-5410, [additional_response] *)
Example builder_additional_response_2 :
  resp_run [RSuccess] = (Build_add_resp true None None).
Proof. reflexivity. Qed.

(** src/builder.rs 5373-5410, [additional_response] *)
Example builder_additional_response_3 :
  resp_run [RCtype "hello"] = (Build_add_resp false (Some "hello") None).
Proof. reflexivity. Qed.

(** src/builder.rs 5373-5410, [additional_response] *)
Example builder_additional_response_4 :
  resp_run [RSchema "schema"] = (Build_add_resp false None (Some "schema")).
Proof. reflexivity. Qed.

(** src/builder.rs 5413-5430, [additional_response_with_missing_schema] *)
Example builder_additional_response_with_missing_schema :
  @thing_program test_env N id_order "MyLampThing" tt [TFinish; TSchema "schema1" [DFinish tt; DNull];
    TSchema "schema2" [DFinish tt; DNumber; DNumMin (MinIncl (f64_of_Z 5%Z))]; TForm tt [FHref "href";
    FOp ReadAllProperties; FAdditional [RSchema "invalid_schema"]]] = Some (Err (MissingSchemaDefinition
    "invalid_schema")).
Proof. reflexivity. Qed.

(** src/builder.rs 5433-5449, [invalid_thing_uri_variables] *)
Example builder_invalid_thing_uri_variables_1 :
  @thing_program test_env N id_order "MyLampThing" tt [TFinish; TUri "uriVariable" [DFinish tt; DObject
    tt]] = Some (Err InvalidUriVariables).
Proof. reflexivity. Qed.

(** src/builder.rs 5433-5449, [invalid_thing_uri_variables] *)
Example builder_invalid_thing_uri_variables_2 :
  @thing_program test_env N id_order "MyLampThing" tt [TFinish; TUri "uriVariable" [DFinish tt; DVec tt]]
    = Some (Err InvalidUriVariables).
Proof. reflexivity. Qed.

(** src/builder.rs 5452-5474, [invalid_interaction_uri_variables] *)
Example builder_invalid_interaction_uri_variables_1 :
  @thing_program test_env N id_order "MyLampThing" tt [TFinish; TAction "action" tt tt [AIa (IUri
    "uriVariable" [DFinish tt; DObject tt])]] = Some (Err InvalidUriVariables).
Proof. reflexivity. Qed.

(** src/builder.rs 5452-5474, [invalid_interaction_uri_variables] *)
Example builder_invalid_interaction_uri_variables_2 :
  @thing_program test_env N id_order "MyLampThing" tt [TFinish; TProperty "property" tt tt [PDs (DFinish
    tt); PIa (IUri "uriVariable" [DFinish tt; DVec tt]); PDs (DString)]] = Some (Err
    InvalidUriVariables).
Proof. reflexivity. Qed.

(** src/builder.rs 5563-5612, [valid_combo_security_scheme] *)
Example builder_valid_combo_security_scheme :
  @thing_program test_env N id_order "MyLampThing" tt [TSecurity [SBasic]; TSecurity [SCombo; SOneOf
    ["basic"; "nosec"]]; TSecurity [SNoSec]] = Some (Ok (@Build_thing test_env N (JStr TD_CONTEXT_11)
    None None "MyLampThing" None None None None None None None None None None None None None []
    [("basic", (Build_security_scheme None None None None (Known (KBasic (Build_loc_name LHeader
    None))))); ("combo", (Build_security_scheme None None None None (Known (KCombo (COneOf ["basic";
    "nosec"]))))); ("nosec", (Build_security_scheme None None None None (Known KNoSec)))] None None None
    tt)).
Proof. reflexivity. Qed.

(** src/builder.rs 5615-5623, [missing_combo_security_scheme] *)
Example builder_missing_combo_security_scheme :
  @thing_program test_env N id_order "MyLampThing" tt [TSecurity [SCombo; SOneOf ["basic"; "nosec"]];
    TSecurity [SNoSec]] = Some (Err (MissingSchemaDefinition "basic")).
Proof. reflexivity. Qed.

(** src/builder.rs 5626-5761, [checked_op_in_form] *)
Example builder_checked_op_in_form :
  @thing_program test_env N id_order "MyLampThing" tt [TFinish; TForm tt [FOp ReadAllProperties; FOp
    WriteAllProperties; FOp ReadMultipleProperties; FOp WriteMultipleProperties; FOp
    ObserveAllProperties; FOp UnobserveAllProperties; FOp SubscribeAllEvents; FOp UnsubscribeAllEvents;
    FOp QueryAllActions; FHref "href"]; TProperty "property" tt tt [PDs (DFinish tt); PDs (DNull); PIa
    (IForm tt [FOp ReadProperty; FOp WriteProperty; FOp ObserveProperty; FOp UnobserveProperty; FHref
    "href"])]; TAction "action" tt tt [AIa (IForm tt [FOp InvokeAction; FOp QueryAction; FOp
    CancelAction; FHref "href"])]; TEvent "event" tt tt [EIa (IForm tt [FOp SubscribeEvent; FOp
    UnsubscribeEvent; FHref "href"])]] = Some (Ok (@Build_thing test_env N (JStr TD_CONTEXT_11) None
    None "MyLampThing" None None None None None None None None (Some [("property", (@Build_property N
    (@Build_interaction N (Build_info None None None None None) [(@Build_form N (OpCustom [ReadProperty;
    WriteProperty; ObserveProperty; UnobserveProperty]) "href" None None None None None None None tt)]
    None tt) (@mkDs (pty (x_ds N)) (pty (x_as N)) (pty (x_os N)) (Build_info None None None None None)
    (Build_dmisc None None None None false false None) None (Some SNull) tt) None tt))]) (Some
    [("action", (@Build_action N (@Build_interaction N (Build_info None None None None None)
    [(@Build_form N (OpCustom [InvokeAction; QueryAction; CancelAction]) "href" None None None None None
    None None tt)] None tt) None None false false None tt))]) (Some [("event", (@Build_event N
    (@Build_interaction N (Build_info None None None None None) [(@Build_form N (OpCustom
    [SubscribeEvent; UnsubscribeEvent]) "href" None None None None None None None tt)] None tt) None
    None None None tt))]) None (Some [(@Build_form N (OpCustom [ReadAllProperties; WriteAllProperties;
    ReadMultipleProperties; WriteMultipleProperties; ObserveAllProperties; UnobserveAllProperties;
    SubscribeAllEvents; UnsubscribeAllEvents; QueryAllActions]) "href" None None None None None None
    None tt)]) [] [] None None None tt)).
Proof. reflexivity. Qed.

(** src/builder.rs 5764-5785, [invalid_form_with_invalid_op_in_property_affordance] *)
Example builder_invalid_form_with_invalid_op_in_property_affordance :
  @thing_program test_env N id_order "MyLampThing" tt [TFinish; TProperty "property" tt tt [PDs (DFinish
    tt); PDs (DNull); PIa (IForm tt [FOp ReadProperty; FOp ReadAllProperties; FOp WriteAllProperties;
    FHref "href"])]] = Some (Err (InvalidOpInForm CtxProperty ReadAllProperties)).
Proof. reflexivity. Qed.

(** src/builder.rs 5788-5809, [invalid_form_with_invalid_op_in_action_affordance] *)
Example builder_invalid_form_with_invalid_op_in_action_affordance :
  @thing_program test_env N id_order "MyLampThing" tt [TFinish; TAction "action" tt tt [AIa (IForm tt [FOp
    InvokeAction; FOp WriteProperty; FOp QueryAction; FHref "href"])]] = Some (Err (InvalidOpInForm
    CtxAction WriteProperty)).
Proof. reflexivity. Qed.

(** src/builder.rs 5812-5833, [invalid_form_with_invalid_op_in_event_affordance] *)
Example builder_invalid_form_with_invalid_op_in_event_affordance :
  @thing_program test_env N id_order "MyLampThing" tt [TFinish; TEvent "event" tt tt [EIa (IForm tt [FOp
    SubscribeEvent; FOp ReadProperty; FOp UnsubscribeEvent; FHref "href"])]] = Some (Err
    (InvalidOpInForm CtxEvent ReadProperty)).
Proof. reflexivity. Qed.

(** src/builder.rs 5867-5907, [convert_valid_unchecked_security_schema] *)
Example builder_convert_valid_unchecked_security_schema :
  sec_built (Build_security_scheme (Some ["attype1"; "attype2"]) (Some "description") (Some [("en",
    "description2"); ("it", "description1")]) (Some "proxy") (Known (KPsk (Some "identity")))) = Ok
    (Build_security_scheme (Some ["attype1"; "attype2"]) (Some "description") (Some [("en",
    "description2"); ("it", "description1")]) (Some "proxy") (Known (KPsk (Some "identity")))).
Proof. reflexivity. Qed.

(** src/builder.rs 5910-5933, [convert_invalid_unchecked_security_schema] *)
Example builder_convert_invalid_unchecked_security_schema :
  sec_built (Build_security_scheme (Some ["attype1"; "attype2"]) (Some "description") (Some [("e1n",
    "description2"); ("it", "description1")]) (Some "proxy") (Known (KPsk (Some "identity")))) = Err
    (InvalidLanguageTag "e1n").
Proof. reflexivity. Qed.

(** src/builder.rs 5936-5945, [invalid_language_tag] *)
Example builder_invalid_language_tag :
  @thing_program test_env N id_order "MyLampThing" tt [TSecurity [SAuto; SDescriptions [("en", "desc_en");
    ("i1t", "desc_it")]]] = Some (Err (InvalidLanguageTag "i1t")).
Proof. reflexivity. Qed.
