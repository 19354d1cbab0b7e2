(** * The unit tests of src/builder/data_schema.rs

    Generated from the unit tests of /repo by a script: each [Example] runs the
    model on the calls of one test and compares the outcome with the value the
    test expects.  These are checks of the model on literals, not properties. *)

From Coq Require Import String Bool ZArith List.
From Coq Require Import Floats.SpecFloat.
From Verif Require Import Base MinMax Json Serde Types DsBuilder Builder HList Protocol Ser De SchemaStructs Samples RepoTestsBase.
Import ListNotations.
Set Implicit Arguments.
Local Open Scope string_scope.
Local Open Scope list_scope.

(** src/builder/data_schema.rs 4067-4090, [null_simple] *)
Example schema_null_simple :
  ds_built N [DFinish tt; DNull] = Some (Ok (@mkDs (pty (x_ds N)) (pty (x_as N)) (pty (x_os N))
    (Build_info None None None None None) (Build_dmisc None None None None false false None) None (Some
    SNull) tt)).
Proof. reflexivity. Qed.

(** src/builder/data_schema.rs 4093-4111, [null_partial] *)
Example schema_null_partial :
  partial_built N [DFinish tt; DNull] = Some (@Build_partial_ds (pty (x_ds N)) (pty (x_as N)) (pty (x_os
    N)) None None None None None false false None (Some SNull) tt).
Proof. reflexivity. Qed.

(** src/builder/data_schema.rs 4114-4137, [boolean_simple] *)
Example schema_boolean_simple :
  ds_built N [DFinish tt; DBool] = Some (Ok (@mkDs (pty (x_ds N)) (pty (x_as N)) (pty (x_os N))
    (Build_info None None None None None) (Build_dmisc None None None None false false None) None (Some
    SBoolean) tt)).
Proof. reflexivity. Qed.

(** src/builder/data_schema.rs 4140-4158, [boolean_partial] *)
Example schema_boolean_partial :
  partial_built N [DFinish tt; DBool] = Some (@Build_partial_ds (pty (x_ds N)) (pty (x_as N)) (pty (x_os
    N)) None None None None None false false None (Some SBoolean) tt).
Proof. reflexivity. Qed.

(** src/builder/data_schema.rs 4161-4190, [string_simple] *)
Example schema_string_simple :
  ds_built N [DFinish tt; DString] = Some (Ok (@mkDs (pty (x_ds N)) (pty (x_as N)) (pty (x_os N))
    (Build_info None None None None None) (Build_dmisc None None None None false false None) None (Some
    (SString (Build_string_schema None None None None None))) tt)).
Proof. reflexivity. Qed.

(** src/builder/data_schema.rs 4193-4217, [string_partial] *)
Example schema_string_partial :
  partial_built N [DFinish tt; DString] = Some (@Build_partial_ds (pty (x_ds N)) (pty (x_as N)) (pty (x_os
    N)) None None None None None false false None (Some (SString (Build_string_schema None None None
    None None))) tt).
Proof. reflexivity. Qed.

(** src/builder/data_schema.rs 4220-4248, [empty_simple_vec] *)
Example schema_empty_simple_vec :
  ds_built N [DFinish tt; DVec tt] = Some (Ok (@mkDs (pty (x_ds N)) (pty (x_as N)) (pty (x_os N))
    (Build_info None None None None None) (Build_dmisc None None None None false false None) None (Some
    (SArray None None None tt)) tt)).
Proof. reflexivity. Qed.

(** src/builder/data_schema.rs 4251-4274, [empty_partial_vec] *)
Example schema_empty_partial_vec :
  partial_built N [DFinish tt; DVec tt] = Some (@Build_partial_ds (pty (x_ds N)) (pty (x_as N)) (pty (x_os
    N)) None None None None None false false None (Some (SArray None None None tt)) tt).
Proof. reflexivity. Qed.

(** src/builder/data_schema.rs 4277-4305, [empty_simple_tuple] *)
Example schema_empty_simple_tuple :
  ds_built N [DFinish tt; DTuple tt] = Some (Ok (@mkDs (pty (x_ds N)) (pty (x_as N)) (pty (x_os N))
    (Build_info None None None None None) (Build_dmisc None None None None false false None) None (Some
    (SArray (Some (BVec [])) None None tt)) tt)).
Proof. reflexivity. Qed.

(** src/builder/data_schema.rs 4308-4331, [empty_partial_tuple] *)
Example schema_empty_partial_tuple :
  partial_built N [DFinish tt; DTuple tt] = Some (@Build_partial_ds (pty (x_ds N)) (pty (x_as N)) (pty
    (x_os N)) None None None None None false false None (Some (SArray (Some (BVec [])) None None tt))
    tt).
Proof. reflexivity. Qed.

(** src/builder/data_schema.rs 4334-4361, [number_simple] *)
Example schema_number_simple :
  ds_built N [DFinish tt; DNumber] = Some (Ok (@mkDs (pty (x_ds N)) (pty (x_as N)) (pty (x_os N))
    (Build_info None None None None None) (Build_dmisc None None None None false false None) None (Some
    (SNumber (Build_number_schema None None None))) tt)).
Proof. reflexivity. Qed.

(** src/builder/data_schema.rs 4363-4385, [number_partial] *)
Example schema_number_partial :
  partial_built N [DFinish tt; DNumber] = Some (@Build_partial_ds (pty (x_ds N)) (pty (x_as N)) (pty (x_os
    N)) None None None None None false false None (Some (SNumber (Build_number_schema None None None)))
    tt).
Proof. reflexivity. Qed.

(** src/builder/data_schema.rs 4388-4415, [integer_simple] *)
Example schema_integer_simple :
  ds_built N [DFinish tt; DInteger] = Some (Ok (@mkDs (pty (x_ds N)) (pty (x_as N)) (pty (x_os N))
    (Build_info None None None None None) (Build_dmisc None None None None false false None) None (Some
    (SInteger (Build_integer_schema None None None))) tt)).
Proof. reflexivity. Qed.

(** src/builder/data_schema.rs 4418-4440, [partial_simple] *)
Example schema_partial_simple :
  partial_built N [DFinish tt; DInteger] = Some (@Build_partial_ds (pty (x_ds N)) (pty (x_as N)) (pty
    (x_os N)) None None None None None false false None (Some (SInteger (Build_integer_schema None None
    None))) tt).
Proof. reflexivity. Qed.

(** src/builder/data_schema.rs 4443-4470, [empty_simple_object] *)
Example schema_empty_simple_object :
  ds_built N [DFinish tt; DObject tt] = Some (Ok (@mkDs (pty (x_ds N)) (pty (x_as N)) (pty (x_os N))
    (Build_info None None None None None) (Build_dmisc None None None None false false None) None (Some
    (SObject None None tt)) tt)).
Proof. reflexivity. Qed.

(** src/builder/data_schema.rs 4473-4495, [empty_partial_object] *)
Example schema_empty_partial_object :
  partial_built N [DFinish tt; DObject tt] = Some (@Build_partial_ds (pty (x_ds N)) (pty (x_as N)) (pty
    (x_os N)) None None None None None false false None (Some (SObject None None tt)) tt).
Proof. reflexivity. Qed.

(** src/builder/data_schema.rs 4498-4525, [constant_simple] *)
Example schema_constant_simple :
  ds_built N [DFinish tt; DConstant (JObj [("hello", JInt 42%Z)])] = Some (Ok (@mkDs (pty (x_ds N)) (pty
    (x_as N)) (pty (x_os N)) (Build_info None None None None None) (Build_dmisc (Some (JObj [("hello",
    JInt 42%Z)])) None None None true false None) None None tt)).
Proof. reflexivity. Qed.

(** src/builder/data_schema.rs 4528-4549, [constant_partial] *)
Example schema_constant_partial :
  partial_built N [DFinish tt; DConstant (JObj [("hello", JInt 42%Z)])] = Some (@Build_partial_ds (pty
    (x_ds N)) (pty (x_as N)) (pty (x_os N)) (Some (JObj [("hello", JInt 42%Z)])) None None None None
    true false None None tt).
Proof. reflexivity. Qed.

(** src/builder/data_schema.rs 4552-4579, [enum_simple] *)
Example schema_enum_simple :
  ds_built N [DFinish tt; DEnum (JStr "hello"); DEnum (JStr "world"); DEnum (JInt 42%Z)] = Some (Ok (@mkDs
    (pty (x_ds N)) (pty (x_as N)) (pty (x_os N)) (Build_info None None None None None) (Build_dmisc None
    None None (Some [JStr "hello"; JStr "world"; JInt 42%Z]) false false None) None None tt)).
Proof. reflexivity. Qed.

(** src/builder/data_schema.rs 4582-4603, [enum_partial] *)
Example schema_enum_partial :
  partial_built N [DFinish tt; DEnum (JStr "hello"); DEnum (JStr "world"); DEnum (JInt 42%Z)] = Some
    (@Build_partial_ds (pty (x_ds N)) (pty (x_as N)) (pty (x_os N)) None None None None (Some [JStr
    "hello"; JStr "world"; JInt 42%Z]) false false None None tt).
Proof. reflexivity. Qed.

(** src/builder/data_schema.rs 4606-4632, [read_only_simple] *)
Example schema_read_only_simple :
  ds_built N [DFinish tt; DBool; DReadOnly] = Some (Ok (@mkDs (pty (x_ds N)) (pty (x_as N)) (pty (x_os N))
    (Build_info None None None None None) (Build_dmisc None None None None true false None) None (Some
    SBoolean) tt)).
Proof. reflexivity. Qed.

(** src/builder/data_schema.rs 4635-4655, [read_only_partial] *)
Example schema_read_only_partial :
  partial_built N [DFinish tt; DBool; DReadOnly] = Some (@Build_partial_ds (pty (x_ds N)) (pty (x_as N))
    (pty (x_os N)) None None None None None true false None (Some SBoolean) tt).
Proof. reflexivity. Qed.

(** src/builder/data_schema.rs 4707-4733, [write_only_simple] *)
Example schema_write_only_simple :
  ds_built N [DFinish tt; DBool; DWriteOnly] = Some (Ok (@mkDs (pty (x_ds N)) (pty (x_as N)) (pty (x_os
    N)) (Build_info None None None None None) (Build_dmisc None None None None false true None) None
    (Some SBoolean) tt)).
Proof. reflexivity. Qed.

(** src/builder/data_schema.rs 4736-4756, [write_only_partial] *)
Example schema_write_only_partial :
  partial_built N [DFinish tt; DBool; DWriteOnly] = Some (@Build_partial_ds (pty (x_ds N)) (pty (x_as N))
    (pty (x_os N)) None None None None None false true None (Some SBoolean) tt).
Proof. reflexivity. Qed.

(** src/builder/data_schema.rs 4808-4852, [null_full] *)
Example schema_null_full :
  ds_built N [DFinish tt; DNull; DInfo (IAttype "attype1"); DInfo (IAttype "attype2"); DInfo (ITitle
    "title"); DInfo (ITitles [("en", "title_en"); ("it", "title_it")]); DInfo (IDescription
    "description"); DInfo (IDescriptions [("en", "description_en"); ("it", "description_it")]); DDefault
    (JArr [JStr "hello"; JStr "world"]); DUnit "cm"; DFormat "format"] = Some (Ok (@mkDs (pty (x_ds N))
    (pty (x_as N)) (pty (x_os N)) (Build_info (Some ["attype1"; "attype2"]) (Some "title") (Some [("en",
    "title_en"); ("it", "title_it")]) (Some "description") (Some [("en", "description_en"); ("it",
    "description_it")])) (Build_dmisc None (Some (JArr [JStr "hello"; JStr "world"])) (Some "cm") None
    false false (Some "format")) None (Some SNull) tt)).
Proof. reflexivity. Qed.

(** src/builder/data_schema.rs 4855-4900, [enum_full] *)
Example schema_enum_full :
  ds_built N [DFinish tt; DEnum (JStr "variant1"); DEnum (JStr "variant2"); DEnum (JInt 3%Z); DInfo
    (IAttype "attype"); DInfo (ITitle "title"); DInfo (ITitles [("en", "title_en"); ("it",
    "title_it")]); DInfo (IDescription "description"); DInfo (IDescriptions [("en", "description_en");
    ("it", "description_it")]); DDefault (JArr [JStr "hello"; JStr "world"]); DUnit "cm"; DFormat
    "format"] = Some (Ok (@mkDs (pty (x_ds N)) (pty (x_as N)) (pty (x_os N)) (Build_info (Some
    ["attype"]) (Some "title") (Some [("en", "title_en"); ("it", "title_it")]) (Some "description")
    (Some [("en", "description_en"); ("it", "description_it")])) (Build_dmisc None (Some (JArr [JStr
    "hello"; JStr "world"])) (Some "cm") (Some [JStr "variant1"; JStr "variant2"; JInt 3%Z]) false false
    (Some "format")) None None tt)).
Proof. reflexivity. Qed.

(** src/builder/data_schema.rs 4903-4934, [read_only_enum] *)
Example schema_read_only_enum :
  ds_built N [DFinish tt; DEnum (JStr "hello"); DEnum (JStr "world"); DInfo (ITitle "title"); DDefault
    (JArr [JStr "hello"; JStr "world"]); DReadOnly; DEnum (JInt 42%Z); DInfo (IDescription
    "description")] = Some (Ok (@mkDs (pty (x_ds N)) (pty (x_as N)) (pty (x_os N)) (Build_info None
    (Some "title") None (Some "description") None) (Build_dmisc None (Some (JArr [JStr "hello"; JStr
    "world"])) None (Some [JStr "hello"; JStr "world"; JInt 42%Z]) true false None) None None tt)).
Proof. reflexivity. Qed.

(** src/builder/data_schema.rs 4937-5004, [tuple_with_content] *)
Example schema_tuple_with_content :
  ds_built N [DFinish tt; DTuple tt; DAppend [DFinish tt; DConstant (JStr "hello")]; DAppend [DFinish tt;
    DBool]] = Some (Ok (@mkDs (pty (x_ds N)) (pty (x_as N)) (pty (x_os N)) (Build_info None None None
    None None) (Build_dmisc None None None None false false None) None (Some (SArray (Some (BVec [(@mkDs
    (pty (x_ds N)) (pty (x_as N)) (pty (x_os N)) (Build_info None None None None None) (Build_dmisc
    (Some (JStr "hello")) None None None true false None) None None tt); (@mkDs (pty (x_ds N)) (pty
    (x_as N)) (pty (x_os N)) (Build_info None None None None None) (Build_dmisc None None None None
    false false None) None (Some SBoolean) tt)])) None None tt)) tt)).
Proof. reflexivity. Qed.

(** src/builder/data_schema.rs 5007-5056, [vec_with_content] *)
Example schema_vec_with_content :
  ds_built N [DFinish tt; DVec tt; DMinItems 0%Z; DMaxItems 5%Z; DSetItem [DFinish tt; DConstant (JStr
    "hello")]] = Some (Ok (@mkDs (pty (x_ds N)) (pty (x_as N)) (pty (x_os N)) (Build_info None None None
    None None) (Build_dmisc None None None None false false None) None (Some (SArray (Some (BElem (@mkDs
    (pty (x_ds N)) (pty (x_as N)) (pty (x_os N)) (Build_info None None None None None) (Build_dmisc
    (Some (JStr "hello")) None None None true false None) None None tt))) (Some (0%Z)) (Some (5%Z)) tt))
    tt)).
Proof. reflexivity. Qed.

(** src/builder/data_schema.rs 5059-5121, [tuple_partial_with_content] *)
Example schema_tuple_partial_with_content :
  partial_built N [DFinish tt; DTuple tt; DAppend [DFinish tt; DConstant (JStr "hello")]; DAppend [DFinish
    tt; DBool]] = Some (@Build_partial_ds (pty (x_ds N)) (pty (x_as N)) (pty (x_os N)) None None None
    None None false false None (Some (SArray (Some (BVec [(@mkDs (pty (x_ds N)) (pty (x_as N)) (pty
    (x_os N)) (Build_info None None None None None) (Build_dmisc (Some (JStr "hello")) None None None
    true false None) None None tt); (@mkDs (pty (x_ds N)) (pty (x_as N)) (pty (x_os N)) (Build_info None
    None None None None) (Build_dmisc None None None None false false None) None (Some SBoolean) tt)]))
    None None tt)) tt).
Proof. reflexivity. Qed.

(** src/builder/data_schema.rs 5124-5168, [vec_partial_with_content] *)
Example schema_vec_partial_with_content :
  partial_built N [DFinish tt; DVec tt; DMinItems 0%Z; DMaxItems 5%Z; DSetItem [DFinish tt; DConstant
    (JStr "hello")]] = Some (@Build_partial_ds (pty (x_ds N)) (pty (x_as N)) (pty (x_os N)) None None
    None None None false false None (Some (SArray (Some (BElem (@mkDs (pty (x_ds N)) (pty (x_as N)) (pty
    (x_os N)) (Build_info None None None None None) (Build_dmisc (Some (JStr "hello")) None None None
    true false None) None None tt))) (Some (0%Z)) (Some (5%Z)) tt)) tt).
Proof. reflexivity. Qed.

(** src/builder/data_schema.rs 5171-5251, [object_with_content] *)
Example schema_object_with_content :
  ds_built N [DFinish tt; DObject tt; DProperty "hello" false [DFinish tt; DBool]; DProperty "world" true
    [DInfo (ITitle "title"); DFinish tt; DNumber]] = Some (Ok (@mkDs (pty (x_ds N)) (pty (x_as N)) (pty
    (x_os N)) (Build_info None None None None None) (Build_dmisc None None None None false false None)
    None (Some (SObject (Some [("hello", (@mkDs (pty (x_ds N)) (pty (x_as N)) (pty (x_os N)) (Build_info
    None None None None None) (Build_dmisc None None None None false false None) None (Some SBoolean)
    tt)); ("world", (@mkDs (pty (x_ds N)) (pty (x_as N)) (pty (x_os N)) (Build_info None (Some "title")
    None None None) (Build_dmisc None None None None false false None) None (Some (SNumber
    (Build_number_schema None None None))) tt))]) (Some ["world"]) tt)) tt)).
Proof. reflexivity. Qed.

(** src/builder/data_schema.rs 5254-5331, [object_partial_with_content] *)
Example schema_object_partial_with_content :
  partial_built N [DFinish tt; DObject tt; DProperty "hello" false [DFinish tt; DBool]; DProperty "world"
    true [DFinish tt; DInfo (ITitle "title"); DNumber]] = Some (@Build_partial_ds (pty (x_ds N)) (pty
    (x_as N)) (pty (x_os N)) None None None None None false false None (Some (SObject (Some [("hello",
    (@mkDs (pty (x_ds N)) (pty (x_as N)) (pty (x_os N)) (Build_info None None None None None)
    (Build_dmisc None None None None false false None) None (Some SBoolean) tt)); ("world", (@mkDs (pty
    (x_ds N)) (pty (x_as N)) (pty (x_os N)) (Build_info None (Some "title") None None None) (Build_dmisc
    None None None None false false None) None (Some (SNumber (Build_number_schema None None None)))
    tt))]) (Some ["world"]) tt)) tt).
Proof. reflexivity. Qed.

(** src/builder/data_schema.rs 5334-5397, [integer_with_data] *)
Example schema_integer_with_data_1 :
  ds_built N [DFinish tt; DInteger; DIntMin (MinExcl 10%Z); DIntMax (MaxIncl 5%Z); DIntMult 2%Z] = Some
    (Ok (@mkDs (pty (x_ds N)) (pty (x_as N)) (pty (x_os N)) (Build_info None None None None None)
    (Build_dmisc None None None None false false None) None (Some (SInteger (Build_integer_schema (Some
    (MaxIncl 5%Z)) (Some (MinExcl 10%Z)) (Some (2%Z))))) tt)).
Proof. reflexivity. Qed.

(** src/builder/data_schema.rs 5334-5397, [integer_with_data] *)
Example schema_integer_with_data_2 :
  ds_built N [DFinish tt; DInteger; DIntMin (MinIncl 10%Z); DIntMax (MaxExcl 5%Z)] = Some (Ok (@mkDs (pty
    (x_ds N)) (pty (x_as N)) (pty (x_os N)) (Build_info None None None None None) (Build_dmisc None None
    None None false false None) None (Some (SInteger (Build_integer_schema (Some (MaxExcl 5%Z)) (Some
    (MinIncl 10%Z)) None))) tt)).
Proof. reflexivity. Qed.

(** src/builder/data_schema.rs 5400-5464, [number_with_data] *)
Example schema_number_with_data_1 :
  ds_built N [DFinish tt; DNumber; DNumMin (MinExcl (f64_of_Z 10%Z)); DNumMax (MaxIncl (f64_of_Z 5%Z));
    DNumMult (f64_of_Z 2%Z)] = Some (Ok (@mkDs (pty (x_ds N)) (pty (x_as N)) (pty (x_os N)) (Build_info
    None None None None None) (Build_dmisc None None None None false false None) None (Some (SNumber
    (Build_number_schema (Some (MaxIncl (f64_of_Z 5%Z))) (Some (MinExcl (f64_of_Z 10%Z))) (Some
    (f64_of_Z 2%Z))))) tt)).
Proof. reflexivity. Qed.

(** src/builder/data_schema.rs 5400-5464, [number_with_data] *)
Example schema_number_with_data_2 :
  ds_built N [DFinish tt; DNumber; DNumMin (MinIncl (f64_of_Z 10%Z)); DNumMax (MaxExcl (f64_of_Z 5%Z));
    DNumMult (f64_of_Z 2%Z)] = Some (Ok (@mkDs (pty (x_ds N)) (pty (x_as N)) (pty (x_os N)) (Build_info
    None None None None None) (Build_dmisc None None None None false false None) None (Some (SNumber
    (Build_number_schema (Some (MaxExcl (f64_of_Z 5%Z))) (Some (MinIncl (f64_of_Z 10%Z))) (Some
    (f64_of_Z 2%Z))))) tt)).
Proof. reflexivity. Qed.

(** src/builder/data_schema.rs 5467-5503, [string_with_data] *)
Example schema_string_with_data :
  ds_built N [DFinish tt; DString; DMinLength 5%Z; DMaxLength 32%Z; DPattern "pattern"; DEncoding
    "content encoding"; DMedia "content media type"] = Some (Ok (@mkDs (pty (x_ds N)) (pty (x_as N))
    (pty (x_os N)) (Build_info None None None None None) (Build_dmisc None None None None false false
    None) None (Some (SString (Build_string_schema (Some (5%Z)) (Some (32%Z)) (Some "pattern") (Some
    "content encoding") (Some "content media type")))) tt)).
Proof. reflexivity. Qed.

(** src/builder/data_schema.rs 5506-5599, [one_of_simple] *)
Example schema_one_of_simple :
  ds_built N [DFinish tt; DOneOf [DFinish tt; DNumber]; DOneOf [DFinish tt; DInteger]; DOneOf [DFinish tt;
    DString]] = Some (Ok (@mkDs (pty (x_ds N)) (pty (x_as N)) (pty (x_os N)) (Build_info None None None
    None None) (Build_dmisc None None None None false false None) (Some [(@mkDs (pty (x_ds N)) (pty
    (x_as N)) (pty (x_os N)) (Build_info None None None None None) (Build_dmisc None None None None
    false false None) None (Some (SNumber (Build_number_schema None None None))) tt); (@mkDs (pty (x_ds
    N)) (pty (x_as N)) (pty (x_os N)) (Build_info None None None None None) (Build_dmisc None None None
    None false false None) None (Some (SInteger (Build_integer_schema None None None))) tt); (@mkDs (pty
    (x_ds N)) (pty (x_as N)) (pty (x_os N)) (Build_info None None None None None) (Build_dmisc None None
    None None false false None) None (Some (SString (Build_string_schema None None None None None)))
    tt)]) None tt)).
Proof. reflexivity. Qed.

(** src/builder/data_schema.rs 5602-5704, [one_of_nested] *)
Example schema_one_of_nested :
  ds_built N [DFinish tt; DObject tt; DProperty "hello" true [DFinish tt; DOneOf [DFinish tt; DString];
    DOneOf [DFinish tt; DInteger]]] = Some (Ok (@mkDs (pty (x_ds N)) (pty (x_as N)) (pty (x_os N))
    (Build_info None None None None None) (Build_dmisc None None None None false false None) None (Some
    (SObject (Some [("hello", (@mkDs (pty (x_ds N)) (pty (x_as N)) (pty (x_os N)) (Build_info None None
    None None None) (Build_dmisc None None None None false false None) (Some [(@mkDs (pty (x_ds N)) (pty
    (x_as N)) (pty (x_os N)) (Build_info None None None None None) (Build_dmisc None None None None
    false false None) None (Some (SString (Build_string_schema None None None None None))) tt); (@mkDs
    (pty (x_ds N)) (pty (x_as N)) (pty (x_os N)) (Build_info None None None None None) (Build_dmisc None
    None None None false false None) None (Some (SInteger (Build_integer_schema None None None))) tt)])
    None tt))]) (Some ["hello"]) tt)) tt)).
Proof. reflexivity. Qed.

(** src/builder/data_schema.rs 5707-5741, [check_valid_data_schema] *)
Example schema_check_valid_data_schema :
  ds_checked N [DFinish tt; DOneOf [DFinish tt; DVec tt; DMinItems 2%Z; DMaxItems 5%Z; DSetItem [DFinish
    tt; DOneOf [DFinish tt; DNumber; DNumMin (MinIncl (f64_of_Z 0%Z)); DNumMax (MaxIncl (f64_of_Z 5%Z));
    DNumMult (f64_of_Z 2%Z)]; DOneOf [DFinish tt; DInteger; DIntMin (MinIncl 5%Z); DIntMax (MaxIncl
    10%Z)]]]; DOneOf [DFinish tt; DNumber; DNumMin (MinIncl (f64_of_Z 20%Z)); DNumMax (MaxIncl (f64_of_Z
    42%Z)); DNumMult (f64_of_Z 7%Z)]; DOneOf [DFinish tt; DObject tt; DProperty "a" false [DFinish tt;
    DInteger; DIntMin (MinIncl 10%Z); DIntMax (MaxIncl 20%Z)]]] = Some (Ok tt).
Proof. reflexivity. Qed.

(** src/builder/data_schema.rs 5744-5976, [check_invalid_data_schema] *)
Example schema_check_invalid_data_schema_1 :
  ds_checked N [DFinish tt; DOneOf [DFinish tt; DVec tt; DMinItems 5%Z; DMaxItems 2%Z; DSetItem [DFinish
    tt; DOneOf [DFinish tt; DNumber; DNumMin (MinIncl (f64_of_Z 0%Z)); DNumMax (MaxIncl (f64_of_Z
    5%Z))]; DOneOf [DFinish tt; DInteger; DIntMin (MinIncl 5%Z); DIntMax (MaxIncl 10%Z)]]]; DOneOf
    [DFinish tt; DNumber; DNumMin (MinIncl (f64_of_Z 20%Z)); DNumMax (MaxIncl (f64_of_Z 42%Z))]; DOneOf
    [DFinish tt; DObject tt; DProperty "a" false [DFinish tt; DInteger; DIntMin (MinIncl 10%Z); DIntMax
    (MaxIncl 20%Z)]]] = Some (Err InvalidMinMax).
Proof. reflexivity. Qed.

(** src/builder/data_schema.rs 5744-5976, [check_invalid_data_schema] *)
Example schema_check_invalid_data_schema_2 :
  ds_checked N [DFinish tt; DOneOf [DFinish tt; DVec tt; DMinItems 2%Z; DMaxItems 5%Z; DSetItem [DFinish
    tt; DOneOf [DFinish tt; DNumber; DNumMin (MinIncl (f64_of_Z 5%Z)); DNumMax (MaxIncl (f64_of_Z
    0%Z))]; DOneOf [DFinish tt; DInteger; DIntMin (MinIncl 5%Z); DIntMax (MaxIncl 10%Z)]]]; DOneOf
    [DFinish tt; DNumber; DNumMin (MinIncl (f64_of_Z 20%Z)); DNumMax (MaxIncl (f64_of_Z 42%Z))]; DOneOf
    [DFinish tt; DObject tt; DProperty "a" false [DFinish tt; DInteger; DIntMin (MinIncl 10%Z); DIntMax
    (MaxIncl 20%Z)]]] = Some (Err InvalidMinMax).
Proof. reflexivity. Qed.

(** src/builder/data_schema.rs 5744-5976, [check_invalid_data_schema] *)
Example schema_check_invalid_data_schema_3 :
  ds_checked N [DFinish tt; DOneOf [DFinish tt; DVec tt; DMinItems 2%Z; DMaxItems 5%Z; DSetItem [DFinish
    tt; DOneOf [DFinish tt; DNumber; DNumMin (MinIncl (f64_of_Z 0%Z)); DNumMax (MaxIncl (f64_of_Z
    5%Z))]; DOneOf [DFinish tt; DInteger; DIntMin (MinIncl 10%Z); DIntMax (MaxIncl 5%Z)]]]; DOneOf
    [DFinish tt; DNumber; DNumMin (MinIncl (f64_of_Z 20%Z)); DNumMax (MaxIncl (f64_of_Z 42%Z))]; DOneOf
    [DFinish tt; DObject tt; DProperty "a" false [DFinish tt; DInteger; DIntMin (MinIncl 10%Z); DIntMax
    (MaxIncl 20%Z)]]] = Some (Err InvalidMinMax).
Proof. reflexivity. Qed.

(** src/builder/data_schema.rs 5744-5976, [check_invalid_data_schema] *)
Example schema_check_invalid_data_schema_4 :
  ds_checked N [DFinish tt; DOneOf [DFinish tt; DVec tt; DMinItems 2%Z; DMaxItems 5%Z; DSetItem [DFinish
    tt; DOneOf [DFinish tt; DNumber; DNumMin (MinIncl (f64_of_Z 0%Z)); DNumMax (MaxIncl (f64_of_Z
    5%Z))]; DOneOf [DFinish tt; DInteger; DIntMin (MinIncl 5%Z); DIntMax (MaxIncl 10%Z)]]]; DOneOf
    [DFinish tt; DNumber; DNumMin (MinIncl (f64_of_Z 42%Z)); DNumMax (MaxIncl (f64_of_Z 20%Z))]; DOneOf
    [DFinish tt; DObject tt; DProperty "a" false [DFinish tt; DInteger; DIntMin (MinIncl 10%Z); DIntMax
    (MaxIncl 20%Z)]]] = Some (Err InvalidMinMax).
Proof. reflexivity. Qed.

(** src/builder/data_schema.rs 5744-5976, [check_invalid_data_schema] *)
Example schema_check_invalid_data_schema_5 :
  ds_checked N [DFinish tt; DOneOf [DFinish tt; DVec tt; DMinItems 2%Z; DMaxItems 5%Z; DSetItem [DFinish
    tt; DOneOf [DFinish tt; DNumber; DNumMin (MinIncl (f64_of_Z 0%Z)); DNumMax (MaxIncl (f64_of_Z
    5%Z))]; DOneOf [DFinish tt; DInteger; DIntMin (MinIncl 5%Z); DIntMax (MaxIncl 10%Z)]]]; DOneOf
    [DFinish tt; DNumber; DNumMin (MinIncl (f64_of_Z 20%Z)); DNumMax (MaxIncl S754_nan)]; DOneOf
    [DFinish tt; DObject tt; DProperty "a" false [DFinish tt; DInteger; DIntMin (MinIncl 10%Z); DIntMax
    (MaxIncl 20%Z)]]] = Some (Err NanMinMax).
Proof. reflexivity. Qed.

(** src/builder/data_schema.rs 5744-5976, [check_invalid_data_schema] *)
Example schema_check_invalid_data_schema_6 :
  ds_checked N [DFinish tt; DOneOf [DFinish tt; DVec tt; DMinItems 2%Z; DMaxItems 5%Z; DSetItem [DFinish
    tt; DOneOf [DFinish tt; DNumber; DNumMin (MinIncl (f64_of_Z 0%Z)); DNumMax (MaxIncl (f64_of_Z
    5%Z))]; DOneOf [DFinish tt; DInteger; DIntMin (MinIncl 5%Z); DIntMax (MaxIncl 10%Z)]]]; DOneOf
    [DFinish tt; DNumber; DNumMin (MinIncl S754_nan); DNumMax (MaxIncl (f64_of_Z 42%Z))]; DOneOf
    [DFinish tt; DObject tt; DProperty "a" false [DFinish tt; DInteger; DIntMin (MinIncl 10%Z); DIntMax
    (MaxIncl 20%Z)]]] = Some (Err NanMinMax).
Proof. reflexivity. Qed.

(** src/builder/data_schema.rs 5744-5976, [check_invalid_data_schema] *)
Example schema_check_invalid_data_schema_7 :
  ds_checked N [DFinish tt; DOneOf [DFinish tt; DVec tt; DMinItems 2%Z; DMaxItems 5%Z; DSetItem [DFinish
    tt; DOneOf [DFinish tt; DNumber; DNumMin (MinIncl (f64_of_Z 0%Z)); DNumMax (MaxIncl (f64_of_Z
    5%Z))]; DOneOf [DFinish tt; DInteger; DIntMin (MinIncl 5%Z); DIntMax (MaxIncl 10%Z)]]]; DOneOf
    [DFinish tt; DNumber; DNumMin (MinIncl (f64_of_Z 20%Z)); DNumMax (MaxIncl (f64_of_Z 42%Z))]; DOneOf
    [DFinish tt; DObject tt; DProperty "a" false [DFinish tt; DInteger; DIntMin (MinIncl 20%Z); DIntMax
    (MaxIncl 10%Z)]]] = Some (Err InvalidMinMax).
Proof. reflexivity. Qed.

(** src/builder/data_schema.rs 5744-5976, [check_invalid_data_schema] *)
Example schema_check_invalid_data_schema_8 :
  ds_checked N [DFinish tt; DOneOf [DFinish tt; DVec tt; DMinItems 2%Z; DMaxItems 5%Z; DSetItem [DFinish
    tt; DOneOf [DFinish tt; DNumber; DNumMin (MinIncl (f64_of_Z 0%Z)); DNumMax (MaxIncl (f64_of_Z
    5%Z))]; DOneOf [DFinish tt; DInteger; DIntMin (MinIncl 5%Z); DIntMax (MaxIncl 10%Z)]]]; DOneOf
    [DFinish tt; DNumber; DNumMin (MinIncl (f64_of_Z 20%Z)); DNumMax (MaxIncl (f64_of_Z 42%Z))]; DOneOf
    [DFinish tt; DObject tt; DProperty "a" false [DFinish tt; DInteger; DIntMin (MinIncl 10%Z); DIntMax
    (MaxIncl 20%Z)]; DProperty "b" false [DFinish tt; DInteger; DIntMin (MinIncl 20%Z); DIntMax (MaxIncl
    10%Z)]]] = Some (Err InvalidMinMax).
Proof. reflexivity. Qed.

(** src/builder/data_schema.rs 5744-5976, [check_invalid_data_schema] *)
Example schema_check_invalid_data_schema_9 :
  ds_checked N [DFinish tt; DOneOf [DFinish tt; DVec tt; DMinItems 2%Z; DMaxItems 5%Z; DSetItem [DFinish
    tt; DOneOf [DFinish tt; DNumber; DNumMin (MinIncl (f64_of_Z 0%Z)); DNumMax (MaxIncl (f64_of_Z
    5%Z))]; DOneOf [DFinish tt; DInteger; DIntMin (MinIncl 5%Z); DIntMax (MaxIncl 10%Z)]]]; DOneOf
    [DFinish tt; DNumber; DNumMin (MinIncl (f64_of_Z 20%Z)); DNumMax (MaxIncl (f64_of_Z 42%Z))]; DOneOf
    [DFinish tt; DObject tt; DProperty "a" false [DFinish tt; DInteger; DIntMin (MinIncl 10%Z); DIntMax
    (MaxIncl 20%Z)]]; DOneOf [DFinish tt; DOneOf [DFinish tt; DNumber; DNumMin (MinIncl (f64_of_Z
    20%Z)); DNumMax (MaxIncl (f64_of_Z 10%Z))]]] = Some (Err InvalidMinMax).
Proof. reflexivity. Qed.

(** src/builder/data_schema.rs 5744-5976, [check_invalid_data_schema] *)
Example schema_check_invalid_data_schema_10 :
  ds_checked N [DFinish tt; DOneOf [DFinish tt; DVec tt; DMinItems 2%Z; DMaxItems 5%Z; DSetItem [DFinish
    tt; DOneOf [DFinish tt; DOneOf [DFinish tt; DNumber; DNumMin (MinIncl (f64_of_Z 5%Z)); DNumMax
    (MaxIncl (f64_of_Z 0%Z))]]; DOneOf [DFinish tt; DInteger; DIntMin (MinIncl 5%Z); DIntMax (MaxIncl
    10%Z)]]]; DOneOf [DFinish tt; DNumber; DNumMin (MinIncl (f64_of_Z 20%Z)); DNumMax (MaxIncl (f64_of_Z
    42%Z))]; DOneOf [DFinish tt; DObject tt; DProperty "a" false [DFinish tt; DInteger; DIntMin (MinIncl
    10%Z); DIntMax (MaxIncl 20%Z)]]] = Some (Err InvalidMinMax).
Proof. reflexivity. Qed.

(** src/builder/data_schema.rs 5979-6011, [check_invalid_data_schema_with_complex_minmax] *)
Example schema_check_invalid_data_schema_with_complex_minmax_1 :
  ds_checked N [DFinish tt; DInteger; DIntMin (MinExcl 2%Z); DIntMax (MaxIncl 2%Z)] = Some (Err
    InvalidMinMax).
Proof. reflexivity. Qed.

(** src/builder/data_schema.rs 5979-6011, [check_invalid_data_schema_with_complex_minmax] *)
Example schema_check_invalid_data_schema_with_complex_minmax_2 :
  ds_checked N [DFinish tt; DInteger; DIntMin (MinIncl 2%Z); DIntMax (MaxExcl 2%Z)] = Some (Err
    InvalidMinMax).
Proof. reflexivity. Qed.

(** src/builder/data_schema.rs 5979-6011, [check_invalid_data_schema_with_complex_minmax] *)
Example schema_check_invalid_data_schema_with_complex_minmax_3 :
  ds_checked N [DFinish tt; DNumber; DNumMin (MinExcl (f64_of_Z 2%Z)); DNumMax (MaxIncl (f64_of_Z 2%Z))] =
    Some (Err InvalidMinMax).
Proof. reflexivity. Qed.

(** src/builder/data_schema.rs 5979-6011, [check_invalid_data_schema_with_complex_minmax] *)
Example schema_check_invalid_data_schema_with_complex_minmax_4 :
  ds_checked N [DFinish tt; DNumber; DNumMin (MinIncl (f64_of_Z 2%Z)); DNumMax (MaxExcl (f64_of_Z 2%Z))] =
    Some (Err InvalidMinMax).
Proof. reflexivity. Qed.

(** src/builder/data_schema.rs 6014-6028, [check_invalid_data_schema_multiple_of] *)
Example schema_check_invalid_data_schema_multiple_of_1 :
  ds_checked N [DFinish tt; DVec tt; DSetItem [DFinish tt; DNumber; DNumMult (f64_of_Z 0%Z)]] = Some (Err
    InvalidMultipleOf).
Proof. reflexivity. Qed.

(** src/builder/data_schema.rs 6014-6028, [check_invalid_data_schema_multiple_of] *)
Example schema_check_invalid_data_schema_multiple_of_2 :
  ds_checked N [DFinish tt; DVec tt; DSetItem [DFinish tt; DNumber; DNumMult (f64_of_Z (-2)%Z)]] = Some
    (Err InvalidMultipleOf).
Proof. reflexivity. Qed.

(** src/builder/data_schema.rs 6031-6065, [check_valid_partial_data_schema] *)
Example schema_check_valid_partial_data_schema :
  partial_checked N [DFinish tt; DOneOf [DFinish tt; DVec tt; DMinItems 2%Z; DMaxItems 5%Z; DSetItem
    [DFinish tt; DOneOf [DFinish tt; DNumber; DNumMin (MinIncl (f64_of_Z 0%Z)); DNumMax (MaxIncl
    (f64_of_Z 5%Z)); DNumMult (f64_of_Z 2%Z)]; DOneOf [DFinish tt; DInteger; DIntMin (MinIncl 5%Z);
    DIntMax (MaxIncl 10%Z)]]]; DOneOf [DFinish tt; DNumber; DNumMin (MinIncl (f64_of_Z 20%Z)); DNumMax
    (MaxIncl (f64_of_Z 42%Z)); DNumMult (f64_of_Z 3%Z)]; DOneOf [DFinish tt; DObject tt; DProperty "a"
    false [DFinish tt; DInteger; DIntMin (MinIncl 10%Z); DIntMax (MaxIncl 20%Z)]]] = Some (Ok tt).
Proof. reflexivity. Qed.

(** src/builder/data_schema.rs 6133-6168, [extend_data_schema] *)
Example schema_extend_data_schema :
  ds_built ds_exts [DFinish ("hello", (1%Z, tt)); DInfo (ITitle "title"); DNull] = Some (Ok (@mkDs (pty
    (x_ds ds_exts)) (pty (x_as ds_exts)) (pty (x_os ds_exts)) (Build_info None (Some "title") None None
    None) (Build_dmisc None None None None false false None) None (Some SNull) ("hello", (1%Z, tt)))).
Proof. reflexivity. Qed.

(** src/builder/data_schema.rs 6171-6224, [extend_data_schema_with_vec] *)
Example schema_extend_data_schema_with_vec :
  ds_built ds_exts [DFinish ("hello", (1%Z, tt)); DInfo (ITitle "title"); DVec ("world", (2%Z, tt));
    DMaxItems 10%Z] = Some (Ok (@mkDs (pty (x_ds ds_exts)) (pty (x_as ds_exts)) (pty (x_os ds_exts))
    (Build_info None (Some "title") None None None) (Build_dmisc None None None None false false None)
    None (Some (SArray None None (Some (10%Z)) ("world", (2%Z, tt)))) ("hello", (1%Z, tt)))).
Proof. reflexivity. Qed.

(** src/builder/data_schema.rs 6227-6279, [extend_data_schema_with_tuple] *)
Example schema_extend_data_schema_with_tuple :
  ds_built ds_exts [DFinish ("hello", (1%Z, tt)); DInfo (ITitle "title"); DTuple ("world", (2%Z, tt))] =
    Some (Ok (@mkDs (pty (x_ds ds_exts)) (pty (x_as ds_exts)) (pty (x_os ds_exts)) (Build_info None
    (Some "title") None None None) (Build_dmisc None None None None false false None) None (Some (SArray
    (Some (BVec [])) None None ("world", (2%Z, tt)))) ("hello", (1%Z, tt)))).
Proof. reflexivity. Qed.

(** src/builder/data_schema.rs 6282-6366, [extend_data_schema_with_object] *)
Example schema_extend_data_schema_with_object :
  ds_built ds_exts [DFinish ("hello", (1%Z, tt)); DInfo (ITitle "title"); DObject ("world", (2%Z, tt));
    DProperty "x" false [DFinish ("other", (3%Z, tt)); DNull]] = Some (Ok (@mkDs (pty (x_ds ds_exts))
    (pty (x_as ds_exts)) (pty (x_os ds_exts)) (Build_info None (Some "title") None None None)
    (Build_dmisc None None None None false false None) None (Some (SObject (Some [("x", (@mkDs (pty
    (x_ds ds_exts)) (pty (x_as ds_exts)) (pty (x_os ds_exts)) (Build_info None None None None None)
    (Build_dmisc None None None None false false None) None (Some SNull) ("other", (3%Z, tt))))]) None
    ("world", (2%Z, tt)))) ("hello", (1%Z, tt)))).
Proof. reflexivity. Qed.

(** src/builder/data_schema.rs 6369-6452, [valid_unchecked_tuple_data_schema] *)
Example schema_valid_unchecked_tuple_data_schema :
  sub_from N (SArray (Some (BVec [(@mkDs (pty (x_ds N)) (pty (x_as N)) (pty (x_os N)) (Build_info None
    None (Some [("en", "title2"); ("it", "title1")]) None (Some [("en", "description2"); ("it",
    "description1")])) (Build_dmisc None None None None false false None) None None tt); (@mkDs (pty
    (x_ds N)) (pty (x_as N)) (pty (x_os N)) (Build_info None None (Some [("en", "title4"); ("it",
    "title3")]) None (Some [("en", "description4"); ("it", "description3")])) (Build_dmisc None None
    None None false false None) None None tt)])) None None tt) = Ok (SArray (Some (BVec [(@mkDs (pty
    (x_ds N)) (pty (x_as N)) (pty (x_os N)) (Build_info None None (Some [("en", "title2"); ("it",
    "title1")]) None (Some [("en", "description2"); ("it", "description1")])) (Build_dmisc None None
    None None false false None) None None tt); (@mkDs (pty (x_ds N)) (pty (x_as N)) (pty (x_os N))
    (Build_info None None (Some [("en", "title4"); ("it", "title3")]) None (Some [("en",
    "description4"); ("it", "description3")])) (Build_dmisc None None None None false false None) None
    None tt)])) None None tt).
Proof. reflexivity. Qed.

(** src/builder/data_schema.rs 6455-6496, [invalid_unchecked_tuple_data_schema] *)
Example schema_invalid_unchecked_tuple_data_schema :
  sub_from N (SArray (Some (BVec [(@mkDs (pty (x_ds N)) (pty (x_as N)) (pty (x_os N)) (Build_info None
    None (Some [("en", "title2"); ("it", "title1")]) None (Some [("en", "description2"); ("it",
    "description1")])) (Build_dmisc None None None None false false None) None None tt); (@mkDs (pty
    (x_ds N)) (pty (x_as N)) (pty (x_os N)) (Build_info None None (Some [("en", "title4"); ("it",
    "title3")]) None (Some [("e1n", "description4"); ("it", "description3")])) (Build_dmisc None None
    None None false false None) None None tt)])) None None tt) = Err (InvalidLanguageTag "e1n").
Proof. reflexivity. Qed.

(** src/builder/data_schema.rs 6499-6546, [valid_unchecked_vec_data_schema] *)
Example schema_valid_unchecked_vec_data_schema :
  sub_from N (SArray (Some (BElem (@mkDs (pty (x_ds N)) (pty (x_as N)) (pty (x_os N)) (Build_info None
    None (Some [("en", "title2"); ("it", "title1")]) None (Some [("en", "description2"); ("it",
    "description1")])) (Build_dmisc None None None None false false None) None None tt))) (Some (1%Z))
    None tt) = Ok (SArray (Some (BElem (@mkDs (pty (x_ds N)) (pty (x_as N)) (pty (x_os N)) (Build_info
    None None (Some [("en", "title2"); ("it", "title1")]) None (Some [("en", "description2"); ("it",
    "description1")])) (Build_dmisc None None None None false false None) None None tt))) (Some (1%Z))
    None tt).
Proof. reflexivity. Qed.

(** src/builder/data_schema.rs 6549-6574, [invalid_unchecked_vec_data_schema] *)
Example schema_invalid_unchecked_vec_data_schema :
  sub_from N (SArray (Some (BElem (@mkDs (pty (x_ds N)) (pty (x_as N)) (pty (x_os N)) (Build_info None
    None (Some [("en", "title2"); ("it", "title1")]) None (Some [("e1n", "description2"); ("it",
    "description1")])) (Build_dmisc None None None None false false None) None None tt))) (Some (1%Z))
    None tt) = Err (InvalidLanguageTag "e1n").
Proof. reflexivity. Qed.

(** src/builder/data_schema.rs 6577-6680, [valid_unchecked_object_data_schema] *)
Example schema_valid_unchecked_object_data_schema :
  sub_from N (SObject (Some [("data1", (@mkDs (pty (x_ds N)) (pty (x_as N)) (pty (x_os N)) (Build_info
    None None (Some [("en", "title2"); ("it", "title1")]) None (Some [("en", "description2"); ("it",
    "description1")])) (Build_dmisc None None None None false false None) None None tt)); ("data2",
    (@mkDs (pty (x_ds N)) (pty (x_as N)) (pty (x_os N)) (Build_info None None (Some [("en", "title4");
    ("it", "title3")]) None (Some [("en", "description4"); ("it", "description3")])) (Build_dmisc None
    None None None false false None) None None tt))]) None tt) = Ok (SObject (Some [("data1", (@mkDs
    (pty (x_ds N)) (pty (x_as N)) (pty (x_os N)) (Build_info None None (Some [("en", "title2"); ("it",
    "title1")]) None (Some [("en", "description2"); ("it", "description1")])) (Build_dmisc None None
    None None false false None) None None tt)); ("data2", (@mkDs (pty (x_ds N)) (pty (x_as N)) (pty
    (x_os N)) (Build_info None None (Some [("en", "title4"); ("it", "title3")]) None (Some [("en",
    "description4"); ("it", "description3")])) (Build_dmisc None None None None false false None) None
    None tt))]) None tt).
Proof. reflexivity. Qed.

(** src/builder/data_schema.rs 6683-6734, [invalid_unchecked_object_data_schema] *)
Example schema_invalid_unchecked_object_data_schema :
  sub_from N (SObject (Some [("data1", (@mkDs (pty (x_ds N)) (pty (x_as N)) (pty (x_os N)) (Build_info
    None None (Some [("en", "title2"); ("it", "title1")]) None (Some [("en", "description2"); ("it",
    "description1")])) (Build_dmisc None None None None false false None) None None tt)); ("data2",
    (@mkDs (pty (x_ds N)) (pty (x_as N)) (pty (x_os N)) (Build_info None None (Some [("en", "title4");
    ("it", "title3")]) None (Some [("en", "description4"); ("i1t", "description3")])) (Build_dmisc None
    None None None false false None) None None tt))]) None tt) = Err (InvalidLanguageTag "i1t").
Proof. reflexivity. Qed.

(** src/builder/data_schema.rs 6737-6798, [valid_unchecked_data_schema] *)
Example schema_valid_unchecked_data_schema :
  ds_from N (@mkDs (pty (x_ds N)) (pty (x_as N)) (pty (x_os N)) (Build_info (Some ["attype1"; "attype2"])
    (Some "title") (Some [("en", "title2"); ("it", "title1")]) (Some "description") (Some [("en",
    "description2"); ("it", "description1")])) (Build_dmisc None None (Some "unit") None true true (Some
    "format")) None (Some (SNumber (Build_number_schema (Some (MaxIncl (f64_of_Z 5%Z))) None None))) tt)
    = Ok (@mkDs (pty (x_ds N)) (pty (x_as N)) (pty (x_os N)) (Build_info (Some ["attype1"; "attype2"])
    (Some "title") (Some [("en", "title2"); ("it", "title1")]) (Some "description") (Some [("en",
    "description2"); ("it", "description1")])) (Build_dmisc None None (Some "unit") None true true (Some
    "format")) None (Some (SNumber (Build_number_schema (Some (MaxIncl (f64_of_Z 5%Z))) None None))) tt).
Proof. reflexivity. Qed.

(** src/builder/data_schema.rs 6801-6833, [invalid_unchecked_data_schema] *)
Example schema_invalid_unchecked_data_schema :
  ds_from N (@mkDs (pty (x_ds N)) (pty (x_as N)) (pty (x_os N)) (Build_info (Some ["attype1"; "attype2"])
    (Some "title") (Some [("en", "title2"); ("it", "title1")]) (Some "description") (Some [("en",
    "description2"); ("i1t", "description1")])) (Build_dmisc None None (Some "unit") None true true
    (Some "format")) None (Some (SNumber (Build_number_schema (Some (MaxIncl (f64_of_Z 5%Z))) None
    None))) tt) = Err (InvalidLanguageTag "i1t").
Proof. reflexivity. Qed.
