(** * JSON texts, how deep they may be, and their grammar (C67, C68) *)

From Coq Require Import String Ascii Bool NArith ZArith Lia List.
From Coq Require Import Floats.SpecFloat.
From Verif Require Import Base MinMax Json Serde Types DsBuilder Builder HList Ser De Protocol Samples SpecSerde SpecExt SpecDoc SpecMember
  SpecTyped JsonText SpecJsonText DocSamples ExchangeMore ExactFacts JsonTextFacts ThingTextFacts SpecSyntax SyntaxFacts TextSamples ExtTypedFacts SerdeSamples Witnesses.
Import ListNotations.
Set Implicit Arguments.
Local Open Scope string_scope.
Local Open Scope list_scope.

(** Hypotheses of this file: the floats in the document are written as numbers with a fraction or an exponent that are
    read as the same floats; [document]: integers in the range of [i64] or [u64], floats finite, met by whatever is read
    ([C67_image]) and by whatever Things write. *)

(** The text of a document is read as that document, unless 128 arrays and objects are inside one another. *)
Theorem C67_document :
  forall F j, document j -> (forall x, float_in x j -> faithful F x) -> ~ nested 128 j ->
  from_text F (to_text F j) = Some j.
Proof. exact text_shallow. Qed.
Print Assumptions C67_document.

(** Then it is not read at all. *)
Theorem C67_deep :
  forall F j, document j -> (forall x, float_in x j -> faithful F x) -> nested 128 j ->
  from_text F (to_text F j) = None.
Proof. exact text_deep. Qed.
Print Assumptions C67_deep.

(** Different documents have different texts, at any depth. *)
Theorem C67_injective :
  forall F j j', document j -> (forall x, float_in x j -> faithful F x) ->
  document j' -> (forall x, float_in x j' -> faithful F x) ->
  to_text F j = to_text F j' -> j = j'.
Proof. exact text_injective. Qed.
Print Assumptions C67_injective.

(** Whatever text is read: the numbers are in range, the nesting is bounded. *)
Theorem C67_image :
  forall F, (forall s x, fl_read F s = Some x -> f64_finite x = true) ->
  forall s j, from_text F s = Some j -> document j /\ ~ nested 128 j.
Proof. exact text_document. Qed.
Print Assumptions C67_image.

(** Things, through [serde_json::Value] *)
Theorem C67_value :
  forall F E X K (T V : xvalues X), exts_sound K T V ->
  (forall s d, date_parse E s = Some d -> date_ok E d) ->
  forall (t : thing E X) j, thing_typed T t -> s_thing mk_value t = Some j -> (forall x, float_in x j -> faithful F x) ->
  (obind (from_text F (to_text F j)) (d_thing E X) = Some t <-> thing_ok V distinct t /\ ~ nested 128 j).
Proof. exact thing_from_value. Qed.
Print Assumptions C67_value.

(** Things, directly *)
Theorem C67_thing :
  forall F E X K (T V : xvalues X), exts_sound K T V ->
  (forall s d, date_parse E s = Some d -> date_ok E d) ->
  forall (t : thing E X) j, thing_typed T t -> s_thing mk_text t = Some j -> (forall x, float_in x j -> faithful F x) ->
  ((no_repeats j /\ obind (from_text F (to_text F j)) (d_thing E X) = Some t)
   <-> thing_ok V distinct t /\ untitled t /\ ~ nested 128 j).
Proof. exact thing_from_text. Qed.
Print Assumptions C67_thing.

(** Fails: the builder builds schemas of any depth.  From 125 arrays inside one another on, the text of the Thing cannot
    be read, although the document can. *)
Theorem C67_deep_refuted :
  (forall n, run id_order (deep_calls n) = Some (Ok (deep_thing n))
     /\ exists j, s_thing mk_text (deep_thing n) = Some j
        /\ forall F, from_text F (to_text F j) = if Nat.leb 125 n then None else Some j)
  /\ obind (s_thing mk_text (deep_thing 125)) (d_thing sample_env http_exts) = Some (deep_thing 125).
Proof. exact deep_unread. Qed.
Print Assumptions C67_deep_refuted.

Example C67_used :
  exts_sound http_names http_typed http_values
  /\ thing_typed http_typed the_door /\ thing_ok http_values distinct the_door /\ untitled the_door
  /\ s_thing mk_text the_door = Some door_json /\ (forall x, float_in x door_json -> faithful few_floats x)
  /\ document door_json /\ ~ nested 128 door_json /\ nested 3 door_json
  /\ (forall s x, fl_read few_floats s = Some x -> f64_finite x = true)
  /\ from_text few_floats " { ""a"" : [ -1 , 9.0e1, ""é\n"" ],""a"":null } "
     = Some (JObj [("a", JArr [JInt (-1); JFloat (f64_of_Z 90); JStr (string_of_list_ascii (map ascii_of_N [195; 169; 10]%N))]); ("a", JNull)])
  /\ to_text few_floats (JObj [("a", JArr [JInt (-1); JFloat (f64_of_Z 90); JStr (string_of_list_ascii ["""";"010"]%char)]); ("b", JNull)])
     = "{""a"":[-1,9.0e1,""\""\n""],""b"":null}".
Proof. exact texts_used. Qed.

(** ** C68: the grammar

    [json_text F s j]: [s] is a text of the grammar of RFC 8259 that stands for [j] ([SpecSyntax.v]), with floats read
    by [F]. *)

(** Read are the texts of the grammar, as what they stand for, up to 127 levels. *)
Theorem C68_exact :
  forall F s j, from_text F s = Some j <-> json_text F (list_ascii_of_string s) j /\ ~ nested 128 j.
Proof. exact syntax_exact. Qed.
Print Assumptions C68_exact.

(** A text stands for one document. *)
Theorem C68_unique :
  forall F s j j', json_text F s j -> json_text F s j' -> j = j'.
Proof. exact syntax_unique. Qed.
Print Assumptions C68_unique.

(** What is written is in the grammar, at any depth. *)
Theorem C68_written :
  forall F j, document j -> (forall x, float_in x j -> faithful F x) ->
  json_text F (list_ascii_of_string (to_text F j)) j.
Proof. exact syntax_written. Qed.
Print Assumptions C68_written.

(** So is the text of every Thing. *)
Theorem C68_thing :
  forall F E X K (T V : xvalues X), exts_sound K T V ->
  forall mk (t : thing E X) j, json_writer mk -> thing_typed T t -> s_thing mk t = Some j ->
  (forall x, float_in x j -> faithful F x) -> json_text F (list_ascii_of_string (to_text F j)) j.
Proof. exact thing_in_grammar. Qed.
Print Assumptions C68_thing.

Example C68_used :
  json_text few_floats (list_ascii_of_string "[ ""\u00e9\ud83d\ude00\/"" ,0.0E+1,{ } ]")
    (JArr [JStr (string_of_list_ascii (map ascii_of_N [195; 169; 240; 159; 152; 128; 47]%N)); JFloat (S754_zero false); JObj []])
  /\ json_text few_floats (list_ascii_of_string (to_text few_floats door_json)) door_json
  /\ map (from_text few_floats) ["[1,]"; "01"; "-"; "1."; ".5"; "1e"; """\ud83d"""; """\x"""; "{""a"" 1}"; "{1:2}"; "nul"; "[]]"; ""]
     = [None; None; None; None; None; None; None; None; None; None; None; None; None].
Proof. exact grammar_used. Qed.
