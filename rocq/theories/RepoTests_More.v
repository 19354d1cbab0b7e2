(** * More unit tests of /repo, translated by hand

    src/hlist.rs 242-437 and the tests of src/builder.rs whose shape the other files
    do not cover.  The floating point number 1.234 of the tests is any number here. *)

From Coq Require Import String Bool ZArith List.
From Verif Require Import Base MinMax Json Serde Types DsBuilder Builder HList Protocol Ser De Samples
  Display DisplayFacts RepoTestsBase.
Import ListNotations.
Set Implicit Arguments.
Local Open Scope string_scope.
Local Open Scope list_scope.

(** The list of src/hlist.rs 252, 360, 381, 402, 428 *)
Definition abc (x : f64) (s : string) : hl [string : Type; f64 : Type; Z : Type] :=
  hcons (hcons (hcons hnil 42%Z) x) s.

(** src/hlist.rs 242-259 *)
Example hlist_split_head (x : f64) :
  hsplit_head (abc x "C") = ("C", hcons (hcons hnil 42%Z) x).
Proof. reflexivity. Qed.

(** src/hlist.rs 262-277 *)
Example hlist_chain : hcons (hcons (hcons hnil "A") 2%Z) "C" = ("C", (2%Z, ("A", tt))).
Proof. reflexivity. Qed.

(** src/hlist.rs 282-287, the struct [A] of the test, with an extension flattened into it *)
Definition write_a (p : piece) (v : pty p) : json :=
  mk_value (fld "a" (JInt 42) ++ p_ser p mk_value v).

(** [Value::get] *)
Definition get (k : string) (j : json) : option json :=
  match j with JObj es => llook k es | _ => None end.

(** src/hlist.rs 280-291 *)
Example hlist_serialize_flatten_nil :
  get "a" (write_a nil_piece hnil) = Some (JInt 42) /\ get "b" (write_a nil_piece hnil) = None.
Proof. split; reflexivity. Qed.

(** src/hlist.rs 294-317 *)
Example hlist_serialize_cons :
  let j := write_a (list_piece [spiece "bar"; zpiece "foo"]) ("42", (42%Z, tt)) in
  get "a" j = Some (JInt 42) /\ get "foo" j = Some (JInt 42).
Proof. split; reflexivity. Qed.

(** src/hlist.rs 320-347: the tail of the inner [Cons] is not a list *)
Example hlist_deserialize_cons :
  p_de (cons_piece (cons_piece (zpiece "foo") (spiece "bar")) nil_piece)
       (without ["a"] [("a", JInt 42); ("bar", JStr "42"); ("foo", JInt 42)])
  = Some ((42%Z, "42"), tt).
Proof. reflexivity. Qed.

(** The values a list of references refers to *)
Definition read_refs {S T U V} (s : S) (l : hl [ref S T; ref S U; ref S V]) : hl [T; U; V] :=
  let '(a, (b, (c, _))) := l in (r_get a s, (r_get b s, (r_get c s, tt))).

(** src/hlist.rs 350-368 [to_ref], 371-389 [to_mut] *)
Example hlist_to_ref (x : f64) :
  read_refs (abc x "hello") (hto_ref [string : Type; f64 : Type; Z : Type] id_ref)
  = ("hello", (x, (42%Z, tt))).
Proof. reflexivity. Qed.

(** src/hlist.rs 392-415 *)
Example hlist_split_last (x : f64) :
  @hsplit_last [f64 : Type; Z : Type] string (abc x "hello") = (42%Z, hcons (hcons hnil x) "hello")
  /\ @hsplit_last [f64 : Type] string (hcons (hcons hnil x) "hello") = (x, hcons hnil "hello")
  /\ @hsplit_last [] string (hcons hnil "hello") = ("hello", hnil).
Proof. repeat split. Qed.

(** src/hlist.rs 418-437 *)
Example hlist_reverse (x : f64) :
  @hreverse 3 [string : Type; f64 : Type; Z : Type] (abc x "hello")
  = hcons (hcons (hcons hnil "hello") x) 42%Z.
Proof. reflexivity. Qed.

(** What src/builder.rs 5477-5561 look at: attype, description, subtype *)
Definition combo_seen (one : sec_op) : option (option (list string) * option string * Builder.sec_kind) :=
  let? s := orun sec_step
              [SCombo; SAttype "attype"; one; SExtend ["schema3"; "schema4"]; SPush "schema1";
               SDescription "description"] sec_new in
  Some (sb_attype s, sb_description s, sb_kind s).

Definition combo_names := ["schema1"; "schema2"; "schema3"; "schema4"; "schema1"].

(** src/builder.rs 5477-5518 *)
Example combo_security_scheme_with_all_of :
  combo_seen (SAllOf ["schema1"; "schema2"])
  = Some (Some ["attype"], Some "description", SKSub (Known (KCombo (CAllOf combo_names)))).
Proof. reflexivity. Qed.

(** src/builder.rs 5520-5561 *)
Example combo_security_scheme_with_one_of :
  combo_seen (SOneOf ["schema1"; "schema2"])
  = Some (Some ["attype"], Some "description", SKSub (Known (KCombo (COneOf combo_names)))).
Proof. reflexivity. Qed.

(** src/builder.rs 5836-5864 *)
Example form_operation_serialize_display_coherence :
  map s_op all_ops = map (fun o => JStr (op_display o)) all_ops /\ length all_ops = 18.
Proof. split; reflexivity. Qed.

(** src/builder.rs 3064-3071, the Thing expected by the tests made at 3157 *)
Definition string_field_thing id description version support base : thing test_env N :=
  @Build_thing test_env N (JStr TD_CONTEXT_11) id None "MyLampThing" None description None version None
    None support base None None None None None [] [] None None None tt.

(** src/builder.rs 3056-3075, 3157 *)
Example builder_string_fields :
  let run o := @thing_program test_env N id_order "MyLampThing" tt [TFinish; o] in
  run (TId "test") = Some (Ok (string_field_thing (Some "test") None None None None))
  /\ run (TDescription "test") = Some (Ok (string_field_thing None (Some "test") None None None))
  /\ run (TVersion {| v_instance := "test"; v_model := None |})
     = Some (Ok (string_field_thing None None (Some {| v_instance := "test"; v_model := None |}) None None))
  /\ run (TSupport "test") = Some (Ok (string_field_thing None None None (Some "test") None))
  /\ run (TBase "test") = Some (Ok (string_field_thing None None None None (Some "test"))).
Proof. repeat split; reflexivity. Qed.

(** src/builder/data_schema.rs 266-271 and 1451-1463: examples that must not compile.  The
    others (550-585, 725-760, 1057-1092) lack a [Default] and are not calls of the model. *)
Example schema_must_not_compile :
  ds_built N [DFinish tt] = None
  /\ thing_written N "Thing name" tt
       [TFinish; TSchema "test" [DFinish tt; DInteger; DReadOnly; DWriteOnly]] = None.
Proof. split; reflexivity. Qed.
