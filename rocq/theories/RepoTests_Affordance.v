(** * The unit tests of src/builder/affordance.rs

    Generated from the unit tests of /repo by a script: each [Example] runs the
    model on the calls of one test and compares the outcome with the value the
    test expects.  These are checks of the model on literals, not properties. *)

From Coq Require Import String Bool ZArith List.
From Coq Require Import Floats.SpecFloat.
From Verif Require Import Base MinMax Json Serde Types DsBuilder Builder HList Protocol Ser De SchemaStructs Samples RepoTestsBase.
Import ListNotations.
Set Implicit Arguments.
Local Open Scope string_scope.
Local Open Scope list_scope.

(** src/builder/affordance.rs 2807-2812, [empty_iteraction] *)
Example affordance_empty_iteraction :
  interaction_built N tt [] [] = Some (Ok (@Build_interaction N (Build_info None None None None None) []
    None tt)).
Proof. reflexivity. Qed.

(** src/builder/affordance.rs 2815-2892, [full_interaction] *)
Example affordance_full_interaction :
  interaction_built N tt [IAttype "attype1"; IAttype "attype2"; ITitle "title"; ITitles [("it",
    "title_it"); ("en", "title_en")]; IDescription "description"; IDescriptions [("it",
    "description_it"); ("en", "description_en")]] [IForm tt [FHref "form1_href"; FCtype "content_type"];
    IForm tt [FOp WriteProperty; FOp ReadProperty; FHref "form2_href"]; IUri "uri1" [DFinish tt;
    DNumber]; IUri "uri2" [DFinish tt; DInteger]] = Some (Ok (@Build_interaction N (Build_info (Some
    ["attype1"; "attype2"]) (Some "title") (Some [("en", "title_en"); ("it", "title_it")]) (Some
    "description") (Some [("en", "description_en"); ("it", "description_it")])) [(@Build_form N
    OpDefault "form1_href" (Some "content_type") None None None None None None tt); (@Build_form N
    (OpCustom [WriteProperty; ReadProperty]) "form2_href" None None None None None None None tt)] (Some
    [("uri1", (@mkDs (pty (x_ds N)) (pty (x_as N)) (pty (x_os N)) (Build_info None None None None None)
    (Build_dmisc None None None None false false None) None (Some (SNumber (Build_number_schema None
    None None))) tt)); ("uri2", (@mkDs (pty (x_ds N)) (pty (x_as N)) (pty (x_os N)) (Build_info None
    None None None None) (Build_dmisc None None None None false false None) None (Some (SInteger
    (Build_integer_schema None None None))) tt))]) tt)).
Proof. reflexivity. Qed.

(** src/builder/affordance.rs 2895-2952, [property_basic] *)
Example affordance_property_basic :
  property_built N tt tt [PDs (DFinish tt); PDs (DInfo (ITitle "property")); PDs (DDefault (JArr [JStr
    "hello"; JStr "world"])); PDs (DNumber); PObservable true; PIa (IForm tt [FHref "href"]); PDs (DUnit
    "cm"); PDs (DReadOnly); PDs (DNumMin (MinIncl (f64_of_Z 0%Z))); PIa (IUri "test" [DFinish tt;
    DBool])] = Some (Ok (@Build_property N (@Build_interaction N (Build_info None (Some "property") None
    None None) [(@Build_form N OpDefault "href" None None None None None None None tt)] (Some [("test",
    (@mkDs (pty (x_ds N)) (pty (x_as N)) (pty (x_os N)) (Build_info None None None None None)
    (Build_dmisc None None None None false false None) None (Some SBoolean) tt))]) tt) (@mkDs (pty (x_ds
    N)) (pty (x_as N)) (pty (x_os N)) (Build_info None (Some "property") None None None) (Build_dmisc
    None (Some (JArr [JStr "hello"; JStr "world"])) (Some "cm") None true false None) None (Some
    (SNumber (Build_number_schema None (Some (MinIncl (f64_of_Z 0%Z))) None))) tt) (Some true) tt)).
Proof. reflexivity. Qed.

(** src/builder/affordance.rs 2955-2995, [property_enum] *)
Example affordance_property_enum :
  property_built N tt tt [PDs (DFinish tt); PDs (DInfo (ITitle "property")); PDs (DEnum (JStr "enum1"));
    PDs (DWriteOnly); PDs (DEnum (JStr "enum2")); PObservable true; PIa (IForm tt [FHref "href"]); PDs
    (DUnit "cm")] = Some (Ok (@Build_property N (@Build_interaction N (Build_info None (Some "property")
    None None None) [(@Build_form N OpDefault "href" None None None None None None None tt)] None tt)
    (@mkDs (pty (x_ds N)) (pty (x_as N)) (pty (x_os N)) (Build_info None (Some "property") None None
    None) (Build_dmisc None None (Some "cm") (Some [JStr "enum1"; JStr "enum2"]) false true None) None
    None tt) (Some true) tt)).
Proof. reflexivity. Qed.

(** src/builder/affordance.rs 2998-3045, [property_one_of] *)
Example affordance_property_one_of :
  property_built N tt tt [PDs (DFinish tt); PDs (DInfo (ITitle "property")); PDs (DOneOf [DFinish tt;
    DNumber]); PDs (DOneOf [DFinish tt; DInteger]); PObservable true; PIa (IForm tt [FHref "href"]); PDs
    (DUnit "cm")] = Some (Ok (@Build_property N (@Build_interaction N (Build_info None (Some "property")
    None None None) [(@Build_form N OpDefault "href" None None None None None None None tt)] None tt)
    (@mkDs (pty (x_ds N)) (pty (x_as N)) (pty (x_os N)) (Build_info None (Some "property") None None
    None) (Build_dmisc None None (Some "cm") None false false None) (Some [(@mkDs (pty (x_ds N)) (pty
    (x_as N)) (pty (x_os N)) (Build_info None None None None None) (Build_dmisc None None None None
    false false None) None (Some (SNumber (Build_number_schema None None None))) tt); (@mkDs (pty (x_ds
    N)) (pty (x_as N)) (pty (x_os N)) (Build_info None None None None None) (Build_dmisc None None None
    None false false None) None (Some (SInteger (Build_integer_schema None None None))) tt)]) None tt)
    (Some true) tt)).
Proof. reflexivity. Qed.

(** src/builder/affordance.rs 3048-3089, [action_partial] *)
Example affordance_action_partial :
  action_built N tt tt [AInfo (ITitle "action"); ASafe; AInput [DFinish tt; DNumber; DUnit "cm";
    DReadOnly; DNumMin (MinIncl (f64_of_Z 0%Z))]; AIa (IForm tt [FHref "href"])] = Some (Ok
    (@Build_action N (@Build_interaction N (Build_info None (Some "action") None None None)
    [(@Build_form N OpDefault "href" None None None None None None None tt)] None tt) (Some (@mkDs (pty
    (x_ds N)) (pty (x_as N)) (pty (x_os N)) (Build_info None None None None None) (Build_dmisc None None
    (Some "cm") None true false None) None (Some (SNumber (Build_number_schema None (Some (MinIncl
    (f64_of_Z 0%Z))) None))) tt)) None true false None tt)).
Proof. reflexivity. Qed.

(** src/builder/affordance.rs 3092-3153, [action_full] *)
Example affordance_action_full :
  action_built N tt tt [AInfo (ITitle "action"); ASafe; AInput [DFinish tt; DNumber; DUnit "cm";
    DReadOnly; DNumMin (MinIncl (f64_of_Z 0%Z))]; AIdempotent; AOutput [DFinish tt; DNumber; DUnit "cm";
    DReadOnly; DNumMin (MinIncl (f64_of_Z 0%Z))]; AIa (IForm tt [FHref "href"]); ASynchronous true] =
    Some (Ok (@Build_action N (@Build_interaction N (Build_info None (Some "action") None None None)
    [(@Build_form N OpDefault "href" None None None None None None None tt)] None tt) (Some (@mkDs (pty
    (x_ds N)) (pty (x_as N)) (pty (x_os N)) (Build_info None None None None None) (Build_dmisc None None
    (Some "cm") None true false None) None (Some (SNumber (Build_number_schema None (Some (MinIncl
    (f64_of_Z 0%Z))) None))) tt)) (Some (@mkDs (pty (x_ds N)) (pty (x_as N)) (pty (x_os N)) (Build_info
    None None None None None) (Build_dmisc None None (Some "cm") None true false None) None (Some
    (SNumber (Build_number_schema None (Some (MinIncl (f64_of_Z 0%Z))) None))) tt)) true true (Some
    true) tt)).
Proof. reflexivity. Qed.

(** src/builder/affordance.rs 3156-3195, [event_partial] *)
Example affordance_event_partial :
  event_built N tt tt [EInfo (ITitle "event"); EData [DFinish tt; DNumber; DUnit "cm"; DReadOnly; DNumMin
    (MinIncl (f64_of_Z 0%Z))]; EIa (IForm tt [FHref "href"])] = Some (Ok (@Build_event N
    (@Build_interaction N (Build_info None (Some "event") None None None) [(@Build_form N OpDefault
    "href" None None None None None None None tt)] None tt) None (Some (@mkDs (pty (x_ds N)) (pty (x_as
    N)) (pty (x_os N)) (Build_info None None None None None) (Build_dmisc None None (Some "cm") None
    true false None) None (Some (SNumber (Build_number_schema None (Some (MinIncl (f64_of_Z 0%Z)))
    None))) tt)) None None tt)).
Proof. reflexivity. Qed.

(** src/builder/affordance.rs 3198-3252, [event_full] *)
Example affordance_event_full :
  event_built N tt tt [EInfo (ITitle "event"); ECancellation [DFinish tt; DInteger]; EData [DFinish tt;
    DNumber; DUnit "cm"; DReadOnly; DNumMin (MinIncl (f64_of_Z 0%Z))]; ESubscription [DFinish tt;
    DBool]; EDataResponse [DFinish tt; DString]; EIa (IForm tt [FHref "href"])] = Some (Ok (@Build_event
    N (@Build_interaction N (Build_info None (Some "event") None None None) [(@Build_form N OpDefault
    "href" None None None None None None None tt)] None tt) (Some (@mkDs (pty (x_ds N)) (pty (x_as N))
    (pty (x_os N)) (Build_info None None None None None) (Build_dmisc None None None None false false
    None) None (Some SBoolean) tt)) (Some (@mkDs (pty (x_ds N)) (pty (x_as N)) (pty (x_os N))
    (Build_info None None None None None) (Build_dmisc None None (Some "cm") None true false None) None
    (Some (SNumber (Build_number_schema None (Some (MinIncl (f64_of_Z 0%Z))) None))) tt)) (Some (@mkDs
    (pty (x_ds N)) (pty (x_as N)) (pty (x_os N)) (Build_info None None None None None) (Build_dmisc None
    None None None false false None) None (Some (SString (Build_string_schema None None None None
    None))) tt)) (Some (@mkDs (pty (x_ds N)) (pty (x_as N)) (pty (x_os N)) (Build_info None None None
    None None) (Build_dmisc None None None None false false None) None (Some (SInteger
    (Build_integer_schema None None None))) tt)) tt)).
Proof. reflexivity. Qed.

(** src/builder/affordance.rs 3360-3441, [extend_interaction] *)
Example affordance_extend_interaction :
  interaction_built aff_exts ("b", (1%Z, tt)) [ITitle "title"] [IUri "x" [DFinish ("a", (2%Z, tt));
    DNull]; IForm ("c", (3%Z, tt)) [FHref "href"]] = Some (Ok (@Build_interaction aff_exts (Build_info
    None (Some "title") None None None) [(@Build_form aff_exts OpDefault "href" None None None None None
    None None ("c", (3%Z, tt)))] (Some [("x", (@mkDs (pty (x_ds aff_exts)) (pty (x_as aff_exts)) (pty
    (x_os aff_exts)) (Build_info None None None None None) (Build_dmisc None None None None false false
    None) None (Some SNull) ("a", (2%Z, tt))))]) ("b", (1%Z, tt)))).
Proof. reflexivity. Qed.

(** src/builder/affordance.rs 3444-3541, [extend_property] *)
Example affordance_extend_property :
  property_built aff_exts ("b", (2%Z, tt)) ("c", (1%Z, tt)) [PDs (DInfo (ITitle "title")); PIa (IUri "x"
    [DFinish ("a", (3%Z, tt)); DNull]); PDs (DFinish ("d", (4%Z, tt))); PDs (DNull)] = Some (Ok
    (@Build_property aff_exts (@Build_interaction aff_exts (Build_info None (Some "title") None None
    None) [] (Some [("x", (@mkDs (pty (x_ds aff_exts)) (pty (x_as aff_exts)) (pty (x_os aff_exts))
    (Build_info None None None None None) (Build_dmisc None None None None false false None) None (Some
    SNull) ("a", (3%Z, tt))))]) ("b", (2%Z, tt))) (@mkDs (pty (x_ds aff_exts)) (pty (x_as aff_exts))
    (pty (x_os aff_exts)) (Build_info None (Some "title") None None None) (Build_dmisc None None None
    None false false None) None (Some SNull) ("d", (4%Z, tt))) None ("c", (1%Z, tt)))).
Proof. reflexivity. Qed.

(** src/builder/affordance.rs 3544-3645, [extend_event] *)
Example affordance_extend_event :
  event_built aff_exts ("b", (1%Z, tt)) ("c", (3%Z, tt)) [EInfo (ITitle "title"); EIa (IUri "x" [DFinish
    ("a", (2%Z, tt)); DNull]); ESubscription [DFinish ("d", (4%Z, tt)); DNull]] = Some (Ok (@Build_event
    aff_exts (@Build_interaction aff_exts (Build_info None (Some "title") None None None) [] (Some
    [("x", (@mkDs (pty (x_ds aff_exts)) (pty (x_as aff_exts)) (pty (x_os aff_exts)) (Build_info None
    None None None None) (Build_dmisc None None None None false false None) None (Some SNull) ("a",
    (2%Z, tt))))]) ("b", (1%Z, tt))) (Some (@mkDs (pty (x_ds aff_exts)) (pty (x_as aff_exts)) (pty (x_os
    aff_exts)) (Build_info None None None None None) (Build_dmisc None None None None false false None)
    None (Some SNull) ("d", (4%Z, tt)))) None None None ("c", (3%Z, tt)))).
Proof. reflexivity. Qed.

(** src/builder/affordance.rs 3648-3750, [extend_action] *)
Example affordance_extend_action :
  action_built aff_exts ("b", (1%Z, tt)) ("c", (3%Z, tt)) [AInfo (ITitle "title"); AIa (IUri "x" [DFinish
    ("a", (2%Z, tt)); DNull]); AInput [DFinish ("d", (4%Z, tt)); DNull]] = Some (Ok (@Build_action
    aff_exts (@Build_interaction aff_exts (Build_info None (Some "title") None None None) [] (Some
    [("x", (@mkDs (pty (x_ds aff_exts)) (pty (x_as aff_exts)) (pty (x_os aff_exts)) (Build_info None
    None None None None) (Build_dmisc None None None None false false None) None (Some SNull) ("a",
    (2%Z, tt))))]) ("b", (1%Z, tt))) (Some (@mkDs (pty (x_ds aff_exts)) (pty (x_as aff_exts)) (pty (x_os
    aff_exts)) (Build_info None None None None None) (Build_dmisc None None None None false false None)
    None (Some SNull) ("d", (4%Z, tt)))) None false false None ("c", (3%Z, tt)))).
Proof. reflexivity. Qed.

(** src/builder/affordance.rs 3753-3768, [build_invalid_property_affordance] *)
Example affordance_build_invalid_property_affordance :
  property_built N tt tt [PDs (DFinish tt); PDs (DNumber); PDs (DInfo (ITitles [("i1t", "title1")]))] =
    Some (Err (InvalidLanguageTag "i1t")).
Proof. reflexivity. Qed.

(** src/builder/affordance.rs 3771-3780, [build_invalid_action_affordance] *)
Example affordance_build_invalid_action_affordance :
  action_built N tt tt [AInfo (ITitles [("i1t", "title1")])] = Some (Err (InvalidLanguageTag "i1t")).
Proof. reflexivity. Qed.

(** src/builder/affordance.rs 3783-3792, [build_invalid_event_affordance] *)
Example affordance_build_invalid_event_affordance :
  event_built N tt tt [EInfo (ITitles [("i1t", "title1")])] = Some (Err (InvalidLanguageTag "i1t")).
Proof. reflexivity. Qed.

(** src/builder/affordance.rs 3795-3827, [delegate_vec_methods] *)
Example affordance_delegate_vec_methods :
  property_built N tt tt [PDs (DFinish tt); PDs (DVec tt); PDs (DReadOnly); PDs (DMinItems 3%Z); PDs
    (DMaxItems 5%Z); PDs (DSetItem [DFinish tt; DInteger])] = Some (Ok (@Build_property N
    (@Build_interaction N (Build_info None None None None None) [] None tt) (@mkDs (pty (x_ds N)) (pty
    (x_as N)) (pty (x_os N)) (Build_info None None None None None) (Build_dmisc None None None None true
    false None) None (Some (SArray (Some (BElem (@mkDs (pty (x_ds N)) (pty (x_as N)) (pty (x_os N))
    (Build_info None None None None None) (Build_dmisc None None None None false false None) None (Some
    (SInteger (Build_integer_schema None None None))) tt))) (Some (3%Z)) (Some (5%Z)) tt)) tt) None tt)).
Proof. reflexivity. Qed.

(** src/builder/affordance.rs 3830-3868, [delegate_tuple_methods] *)
Example affordance_delegate_tuple_methods :
  property_built N tt tt [PDs (DFinish tt); PDs (DTuple tt); PDs (DReadOnly); PDs (DAppend [DFinish tt;
    DInteger]); PDs (DAppend [DFinish tt; DString])] = Some (Ok (@Build_property N (@Build_interaction N
    (Build_info None None None None None) [] None tt) (@mkDs (pty (x_ds N)) (pty (x_as N)) (pty (x_os
    N)) (Build_info None None None None None) (Build_dmisc None None None None true false None) None
    (Some (SArray (Some (BVec [(@mkDs (pty (x_ds N)) (pty (x_as N)) (pty (x_os N)) (Build_info None None
    None None None) (Build_dmisc None None None None false false None) None (Some (SInteger
    (Build_integer_schema None None None))) tt); (@mkDs (pty (x_ds N)) (pty (x_as N)) (pty (x_os N))
    (Build_info None None None None None) (Build_dmisc None None None None false false None) None (Some
    (SString (Build_string_schema None None None None None))) tt)])) None None tt)) tt) None tt)).
Proof. reflexivity. Qed.
