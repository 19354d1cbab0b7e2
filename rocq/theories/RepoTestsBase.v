(** * Common definitions for the unit tests of /repo

    The files [RepoTests_*.v] run the model on the calls made by the unit tests of
    /repo and compare the outcome with the value each test expects.  They check
    the model on literals; they are not properties and the manifest does not list
    them. *)

From Coq Require Import String Bool ZArith List Ascii.
From Coq Require Import Floats.SpecFloat.
From Verif Require Import Base MinMax Json Serde Types DsBuilder Builder HList Protocol Ser De SchemaStructs Samples.
Import ListNotations.
Set Implicit Arguments.
Local Open Scope string_scope.
Local Open Scope list_scope.

(** Tags are made of letters and hyphens: the tests use "it", "en", "de" and so on
    as valid tags and "i18", "e1n", "i1t" as invalid ones. *)
Definition test_tag_char (c : ascii) : bool :=
  let n := nat_of_ascii (lower_ascii c) in (Nat.leb 97 n && Nat.leb n 122) || Nat.eqb n 45.

Fixpoint test_tag (s : string) : bool :=
  match s with
  | EmptyString => true
  | String c s' => test_tag_char c && test_tag s'
  end.

(** A date is the text it was read from. *)
Definition test_env : env :=
  {| tag_parse := fun s => if test_tag s then Some s else None;
     tag_ok := test_tag;
     date := string;
     date_fmt := fun d => Some d;
     date_parse := fun s => Some s |}.

(** ** Extensions declared by the tests *)

(** [Nil]: no extension *)
Definition N : exts := nil_exts nil_piece.

(** A struct with one member of type [i32], or a newtype of it. *)
Definition zpiece (name : string) : piece :=
  {| pty := Z;
     p_ser := fun _ z => fld name (JInt z);
     p_de := fun es => req name (d_int (-2147483648) 2147483647) es;
     p_take := [name] |}.

(** A struct with one member of type [String], or a newtype of it. *)
Definition spiece (name : string) : piece :=
  {| pty := string;
     p_ser := fun _ s => fld name (JStr s);
     p_de := fun es => req name d_str es;
     p_take := [name] |}.

(** A type of values the test neither writes nor reads. *)
Definition opaque (T : Type) : piece :=
  {| pty := T; p_ser := fun _ _ => []; p_de := fun _ => None; p_take := [] |}.

(** src/thing.rs 2054-2128, [ThingExtA] *)
Definition ext_a : exts :=
  {| x_t := zpiece "a"; x_ia := zpiece "b"; x_aa := zpiece "c"; x_pa := zpiece "d"; x_ea := zpiece "e";
     x_f := zpiece "f"; x_er := zpiece "g"; x_ds := zpiece "h"; x_os := zpiece "i"; x_as := zpiece "j" |}.

(** src/thing.rs 2418-2480, [ThingExtB] *)
Definition ext_b : exts :=
  {| x_t := zpiece "k"; x_ia := zpiece "l"; x_aa := zpiece "m"; x_pa := zpiece "n"; x_ea := zpiece "o";
     x_f := zpiece "p"; x_er := zpiece "q"; x_ds := zpiece "r"; x_os := zpiece "s"; x_as := zpiece "t" |}.

Definition list_a : exts := cons_exts ext_a N.
Definition list_ab : exts := cons_exts ext_b list_a.
(** src/thing.rs 2638-2684: [HttpThing] differs from the HTTP binding only in
    writing absent members as null; the test has none absent. *)
Definition list_ahb : exts := cons_exts ext_b (cons_exts http_exts list_a).

(** src/builder/affordance.rs 3243-3357 *)
Definition aff_exts : exts :=
  cons_exts
    {| x_t := unit_piece; x_ia := spiece "g"; x_pa := spiece "h"; x_aa := spiece "i"; x_ea := spiece "j";
       x_f := spiece "k"; x_er := spiece "l"; x_ds := spiece "m"; x_os := unit_piece; x_as := unit_piece |}
    (cons_exts
       {| x_t := unit_piece; x_ia := zpiece "a"; x_pa := zpiece "b"; x_aa := zpiece "b"; x_ea := zpiece "c";
          x_f := zpiece "d"; x_er := zpiece "e"; x_ds := zpiece "f"; x_os := unit_piece; x_as := unit_piece |}
       N).

(** src/builder/data_schema.rs 6067-6130 *)
Definition ds_exts : exts :=
  cons_exts
    {| x_t := unit_piece; x_ia := unit_piece; x_pa := unit_piece; x_aa := unit_piece; x_ea := unit_piece;
       x_f := unit_piece; x_er := unit_piece; x_ds := spiece "d"; x_as := spiece "e"; x_os := spiece "f" |}
    (cons_exts
       {| x_t := unit_piece; x_ia := unit_piece; x_pa := unit_piece; x_aa := unit_piece; x_ea := unit_piece;
          x_f := unit_piece; x_er := unit_piece; x_ds := zpiece "a"; x_as := zpiece "b"; x_os := zpiece "c" |}
       N).

(** An extension of forms and responses only. *)
Definition form_exts (f er : piece) : exts :=
  {| x_t := unit_piece; x_ia := unit_piece; x_pa := unit_piece; x_aa := unit_piece; x_ea := unit_piece;
     x_f := f; x_er := er; x_ds := unit_piece; x_os := unit_piece; x_as := unit_piece |}.

(** src/builder.rs 4652-4693 *)
Definition two_forms : exts :=
  cons_exts (form_exts (zpiece "b") unit_piece) (cons_exts (form_exts (spiece "a") unit_piece) N).

(** src/builder.rs 4736-4788 *)
Definition two_responses : exts :=
  cons_exts (form_exts (zpiece "c") (zpiece "d")) (cons_exts (form_exts (spiece "a") (spiece "b")) N).

(** src/builder.rs 4835-4973 *)
Definition three : exts :=
  cons_exts
    {| x_t := zpiece "c"; x_ia := zpiece "p"; x_pa := zpiece "q"; x_aa := zpiece "r"; x_ea := unit_piece;
       x_f := unit_piece; x_er := zpiece "s"; x_ds := zpiece "t"; x_os := zpiece "u"; x_as := unit_piece |}
    (cons_exts
       {| x_t := unit_piece; x_ia := opaque f64; x_pa := opaque f64; x_aa := unit_piece; x_ea := zpiece "l";
          x_f := zpiece "m"; x_er := zpiece "n"; x_ds := unit_piece; x_os := zpiece "o"; x_as := unit_piece |}
       (cons_exts
          {| x_t := opaque (Z * Z); x_ia := zpiece "d"; x_pa := unit_piece; x_aa := zpiece "e";
             x_ea := zpiece "f"; x_f := unit_piece; x_er := zpiece "g"; x_ds := zpiece "h"; x_os := zpiece "i";
             x_as := unit_piece |}
          N)).

(** ** What the tests do with a chain of calls *)

Unset Implicit Arguments.

Notation dsops X := (list (dsop (pty (x_ds X)) (pty (x_as X)) (pty (x_os X)))).

(** [DataSchema::try_from] on what the builder made *)
Definition ds_built X (p : dsops X) : option (result error (dsx X)) :=
  let? d := dbuild p in Some (ds_build id_order (tag_parse test_env) d).

(** [check] on the unchecked schema *)
Definition ds_checked X (p : dsops X) : option (result error unit) :=
  let? d := dbuild p in Some (check id_order d).

(** [PartialDataSchema::from] *)
Definition partial_built X (p : dsops X) :=
  let? w := orun (call (p_base _ _ _) (@dbuild2 _ _ _)) p (Bare (UBase _ _ _ (p_empty _ _ _))) in partial w.

(** [check] on a partial schema *)
Definition partial_checked X (p : dsops X) : option (result error unit) :=
  let? r := partial_built X p in Some (partial_check id_order r).

Definition ds_from X (d : dsx X) : result error (dsx X) := ds_build id_order (tag_parse test_env) d.
Definition sub_from X (d : dsubx X) : result error (dsubx X) := sub_build id_order (tag_parse test_env) d.
Definition sec_built (s : security_scheme) : result error security_scheme :=
  sec_build test_env id_order s.

Definition property_built X xi xp (p : list (pop X)) : option (result error (property X)) :=
  let? u := @prop_run X xi xp p in Some (@property_build test_env X id_order u).
Definition action_built X xi xa (p : list (aop X)) : option (result error (action X)) :=
  let? a := @action_run X xi xa p in Some (@action_build test_env X id_order a).
Definition event_built X xi xe (p : list (eop X)) : option (result error (event X)) :=
  let? e := @event_run X xi xe p in Some (@event_build test_env X id_order e).
Definition interaction_built X x (is : list info_op) (p : list (ia_op X))
    : option (result error (interaction X)) :=
  let? s := orun (@ia_step X) p (@ia_new X x) in
  Some (@ia_build test_env X id_order (fold_left (fun i o => info_step o i) is no_info) s).

(** [from_value(to_value(from_str(..)))] *)
Definition read_again X (j : json) : option (thing test_env X) :=
  let? t := d_thing test_env X j in
  let? j' := s_thing mk_value t in
  d_thing test_env X j'.

Definition read_members {A} (d : entries -> option A) (j : json) : option A :=
  match j with JObj es => d es | _ => None end.
Definition read_combo := read_members d_combo.
Definition read_number := read_members d_number.
Definition read_integer := read_members d_integer.
(** A combination is written inside a security scheme, after its tag. *)
Definition write_combo (c : combo) : option json :=
  Some (mk_value (without ["scheme"] (known_es (KCombo c)))).
Definition write_resp (r : add_resp) : option json := Some (s_add_resp mk_value r).
Definition write_form X (f : form X) : option json := Some (s_form mk_value f).

(** ** Examples in the documentation *)

(** A struct with one member of type [f32]; of type [Vec<String>] *)
Definition fpiece (name : string) : piece :=
  {| pty := f64; p_ser := fun _ z => fld name (JFloat z); p_de := fun _ => None; p_take := [name] |}.
Definition lpiece (name : string) : piece :=
  {| pty := list string; p_ser := fun _ l => fld name (s_list JStr l); p_de := fun _ => None;
     p_take := [name] |}.

(** [to_value(..build().unwrap()).unwrap()]; [unwrap_err] *)
Definition thing_written X title x (p : list (top test_env X)) : option (result error json) :=
  let? r := @thing_program test_env X id_order title x p in
  match r with
  | Ok t => let? j := s_thing mk_value t in Some (Ok j)
  | Err e => Some (Err e)
  end.

(** The example only says that the value is there. *)
Definition forgotten {A} (r : option (result error A)) : option (result error unit) :=
  let? r' := r in Some (match r' with Ok _ => Ok tt | Err e => Err e end).
