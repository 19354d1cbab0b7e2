(** * The builder structs of data schemas, one by one

    [DsBuilder.v] keeps all the builder structs of src/builder/data_schema.rs in
    one record and uses it for property affordances too.  The Rust code has one
    struct per kind of schema, wrapped around one of two base builders, and two
    chains of conversions: [DataSchemaBuilder] to [UncheckedDataSchema] for
    schemas standing on their own, [PartialDataSchemaBuilder] to
    [PartialDataSchema] for the schema of a property affordance, whose human
    readable fields live in the affordance.  This file models both chains as
    they are written. *)

From Coq Require Import String Bool ZArith List.
From Verif Require Import Base MinMax Json Serde Types DsBuilder Builder.
Import ListNotations.
Set Implicit Arguments.
Local Open Scope string_scope.
Local Open Scope list_scope.

Section Structs.
  Variables DS AS OS : Type.
  Notation ds := (ds DS AS OS).
  Notation dsub := (dsub DS AS OS).
  Notation dsop := (dsop DS AS OS).

  (** ** The structs *)

  (** src/builder/data_schema.rs 109-122, [PartialDataSchemaBuilder].  [q_other] is
      [None] in status [ToExtend] and [Some] in status [Extended]. *)
  Record pbuilder := {
    q_const : option json;
    q_default : option json;
    q_unit : option string;
    q_one_of : list ds;
    q_enum : list json;
    q_ro : bool;
    q_wo : bool;
    q_format : option string;
    q_other : option DS;
  }.

  (** src/builder/data_schema.rs 366-369, [DataSchemaBuilder] *)
  Record dbuilder := { q_partial : pbuilder; q_info : info }.

  (** src/builder/data_schema.rs 240-254, [PartialDataSchema] *)
  Record partial_ds := {
    r_const : option json;
    r_default : option json;
    r_unit : option string;
    r_one_of : option (list ds);
    r_enum : option (list json);
    r_ro : bool;
    r_wo : bool;
    r_format : option string;
    r_sub : option dsub;
    r_other : DS;
  }.

  (** src/builder/data_schema.rs 1478-1559, the structs around a builder [I] *)
  Record tuple_b (I : Type) := { tu_inner : I; tu_items : list ds; tu_other : AS }.
  (** src/builder/data_schema.rs 1488-1496, [VecDataSchemaBuilder] *)
  Record vec_b (I : Type) := {
    ve_inner : I; ve_item : option ds; ve_min : option Z; ve_max : option Z; ve_other : AS }.
  (** src/builder/data_schema.rs 1499-1504, [NumberDataSchemaBuilder] *)
  Record number_b (I : Type) := {
    nu_inner : I; nu_max : option (maximum f64); nu_min : option (minimum f64); nu_mult : option f64 }.
  (** src/builder/data_schema.rs 1507-1512, [IntegerDataSchemaBuilder] *)
  Record integer_b (I : Type) := {
    in_inner : I; in_max : option (maximum Z); in_min : option (minimum Z); in_mult : option Z }.
  (** src/builder/data_schema.rs 1515-1522, [ObjectDataSchemaBuilder] *)
  Record object_b (I : Type) := {
    ob_inner : I; ob_properties : list (string * ds); ob_required : list string; ob_other : OS }.
  (** src/builder/data_schema.rs 1525-1532, [StringDataSchemaBuilder] *)
  Record string_b (I : Type) := {
    st_inner : I; st_min : option Z; st_max : option Z; st_pattern : option string;
    st_encoding : option string; st_media : option string }.
  (** src/builder/data_schema.rs 1536-1538, [EnumDataSchemaBuilder] *)
  Record enum_b (I : Type) := { en_inner : I }.
  (** src/builder/data_schema.rs 1542-1544, [OneOfDataSchemaBuilder] *)
  Record one_of_b (I : Type) := { oo_inner : I }.
  (** src/builder/data_schema.rs 1556-1559, [StatelessDataSchemaBuilder] *)
  Record stateless_b (I : Type) := { sl_inner : I; sl_ty : option stateless }.

  (** The type of a builder after a chain of calls: the base builder or one of the
      structs around it. src/builder/data_schema.rs 1478-1559. *)
  Inductive struct (I : Type) :=
  | UBase (b : I)
  | UTuple (b : tuple_b I)
  | UVec (b : vec_b I)
  | UNumber (b : number_b I)
  | UInteger (b : integer_b I)
  | UObject (b : object_b I)
  | UString (b : string_b I)
  | UEnum (b : enum_b I)
  | UOneOf (b : one_of_b I)
  | UStateless (b : stateless_b I).

  (** perhaps in [ReadOnly] (1562) or [WriteOnly] (1567). *)
  Inductive wrapped (I : Type) :=
  | Bare (s : struct I)
  | ReadOnlyOf (s : struct I)
  | WriteOnlyOf (s : struct I).

  (** src/builder/data_schema.rs 125-141, 396-405, [empty] *)
  Definition p_empty : pbuilder :=
    {| q_const := None; q_default := None; q_unit := None; q_one_of := []; q_enum := [];
       q_ro := false; q_wo := false; q_format := None; q_other := None |}.
  (** src/builder/data_schema.rs 400-410, [DataSchemaBuilder::empty] *)
  Definition d_empty : dbuilder := {| q_partial := p_empty; q_info := no_info |}.

  (** ** Conversion to [UncheckedDataSchema] *)

  (** src/builder/data_schema.rs 2697-2747 *)
  Definition unchecked_stateless (b : stateless_b dbuilder) : option ds :=
    let p := q_partial (sl_inner b) in
    let? other := q_other p in
    Some (mkDs (q_info (sl_inner b))
      {| m_const := q_const p; m_default := q_default p; m_unit := q_unit p; m_enum := None;
         m_ro := q_ro p; m_wo := q_wo p; m_format := q_format p |}
      None (option_map (@stateless_sub DS AS OS) (sl_ty b)) other).

  (** src/builder/data_schema.rs 2797-2857 *)
  Definition unchecked_tuple (b : tuple_b dbuilder) : option ds :=
    let p := q_partial (tu_inner b) in
    let? other := q_other p in
    Some (mkDs (q_info (tu_inner b))
      {| m_const := None; m_default := q_default p; m_unit := q_unit p; m_enum := None;
         m_ro := q_ro p; m_wo := q_wo p; m_format := q_format p |}
      None (Some (SArray (Some (BVec (tu_items b))) None None (tu_other b))) other).

  (** src/builder/data_schema.rs 2859-2921 *)
  Definition unchecked_vec (b : vec_b dbuilder) : option ds :=
    let p := q_partial (ve_inner b) in
    let? other := q_other p in
    Some (mkDs (q_info (ve_inner b))
      {| m_const := None; m_default := q_default p; m_unit := q_unit p; m_enum := None;
         m_ro := q_ro p; m_wo := q_wo p; m_format := q_format p |}
      None (Some (SArray (option_map (fun d => BElem d) (ve_item b)) (ve_min b) (ve_max b) (ve_other b))) other).

  (** src/builder/data_schema.rs 3041-3100 *)
  Definition unchecked_number (b : number_b dbuilder) : option ds :=
    let p := q_partial (nu_inner b) in
    let? other := q_other p in
    Some (mkDs (q_info (nu_inner b))
      {| m_const := None; m_default := q_default p; m_unit := q_unit p; m_enum := None;
         m_ro := q_ro p; m_wo := q_wo p; m_format := q_format p |}
      None (Some (SNumber {| n_max := nu_max b; n_min := nu_min b; n_mult := nu_mult b |})) other).

  (** src/builder/data_schema.rs 3159-3218 *)
  Definition unchecked_integer (b : integer_b dbuilder) : option ds :=
    let p := q_partial (in_inner b) in
    let? other := q_other p in
    Some (mkDs (q_info (in_inner b))
      {| m_const := None; m_default := q_default p; m_unit := q_unit p; m_enum := None;
         m_ro := q_ro p; m_wo := q_wo p; m_format := q_format p |}
      None (Some (SInteger {| z_max := in_max b; z_min := in_min b; z_mult := in_mult b |})) other).

  (** src/builder/data_schema.rs 3277-3341 *)
  Definition unchecked_object (b : object_b dbuilder) : option ds :=
    let p := q_partial (ob_inner b) in
    let? other := q_other p in
    Some (mkDs (q_info (ob_inner b))
      {| m_const := None; m_default := q_default p; m_unit := q_unit p; m_enum := None;
         m_ro := q_ro p; m_wo := q_wo p; m_format := q_format p |}
      None (Some (SObject (option_map (@mof ds) (nonempty (ob_properties b))) (nonempty (ob_required b))
                    (ob_other b))) other).

  (** src/builder/data_schema.rs 3405-3469 *)
  Definition unchecked_string (b : string_b dbuilder) : option ds :=
    let p := q_partial (st_inner b) in
    let? other := q_other p in
    Some (mkDs (q_info (st_inner b))
      {| m_const := None; m_default := q_default p; m_unit := q_unit p; m_enum := None;
         m_ro := q_ro p; m_wo := q_wo p; m_format := q_format p |}
      None (Some (SString {| s_min := st_min b; s_max := st_max b; s_pattern := st_pattern b;
                             s_encoding := st_encoding b; s_media := st_media b |})) other).

  (** src/builder/data_schema.rs 3609-3657 *)
  Definition unchecked_enum (b : enum_b dbuilder) : option ds :=
    let p := q_partial (en_inner b) in
    let? other := q_other p in
    Some (mkDs (q_info (en_inner b))
      {| m_const := None; m_default := q_default p; m_unit := q_unit p; m_enum := Some (q_enum p);
         m_ro := q_ro p; m_wo := q_wo p; m_format := q_format p |}
      None None other).

  (** src/builder/data_schema.rs 3705-3753 *)
  Definition unchecked_one_of (b : one_of_b dbuilder) : option ds :=
    let p := q_partial (oo_inner b) in
    let? other := q_other p in
    Some (mkDs (q_info (oo_inner b))
      {| m_const := None; m_default := q_default p; m_unit := q_unit p; m_enum := None;
         m_ro := q_ro p; m_wo := q_wo p; m_format := q_format p |}
      (Some (q_one_of p)) None other).

  (** [Into<UncheckedDataSchema>]: none for the base builder; src/builder/data_schema.rs 2697-3753 *)
  Definition unchecked_struct (s : struct dbuilder) : option ds :=
    match s with
    | UBase _ => None
    | UTuple b => unchecked_tuple b
    | UVec b => unchecked_vec b
    | UNumber b => unchecked_number b
    | UInteger b => unchecked_integer b
    | UObject b => unchecked_object b
    | UString b => unchecked_string b
    | UEnum b => unchecked_enum b
    | UOneOf b => unchecked_one_of b
    | UStateless b => unchecked_stateless b
    end.

  (** src/builder/data_schema.rs 3533-3544, 3558-3569: [ReadOnly], [WriteOnly] (which
      sets [read_only] to [false] and leaves [write_only]) *)
  Definition unchecked (w : wrapped dbuilder) : option ds :=
    match w with
    | Bare s => unchecked_struct s
    | ReadOnlyOf s => option_map (ds_with_ro true) (unchecked_struct s)
    | WriteOnlyOf s => option_map (ds_with_ro false) (unchecked_struct s)
    end.

  (** ** Conversion to [PartialDataSchema] *)

  (** src/builder/data_schema.rs 2761-2795 *)
  Definition partial_stateless (b : stateless_b pbuilder) : option partial_ds :=
    let p := sl_inner b in
    let? other := q_other p in
    Some {| r_const := q_const p; r_default := q_default p; r_unit := q_unit p; r_one_of := None;
            r_enum := None; r_ro := q_ro p; r_wo := q_wo p; r_format := q_format p;
            r_sub := option_map (@stateless_sub DS AS OS) (sl_ty b); r_other := other |}.

  (** src/builder/data_schema.rs 2947-2991 *)
  Definition partial_tuple (b : tuple_b pbuilder) : option partial_ds :=
    let p := tu_inner b in
    let? other := q_other p in
    Some {| r_const := None; r_default := q_default p; r_unit := q_unit p; r_one_of := None;
            r_enum := None; r_ro := q_ro p; r_wo := q_wo p; r_format := q_format p;
            r_sub := Some (SArray (Some (BVec (tu_items b))) None None (tu_other b)); r_other := other |}.

  (** src/builder/data_schema.rs 2993-3039 *)
  Definition partial_vec (b : vec_b pbuilder) : option partial_ds :=
    let p := ve_inner b in
    let? other := q_other p in
    Some {| r_const := None; r_default := q_default p; r_unit := q_unit p; r_one_of := None;
            r_enum := None; r_ro := q_ro p; r_wo := q_wo p; r_format := q_format p;
            r_sub := Some (SArray (option_map (fun d => BElem d) (ve_item b)) (ve_min b) (ve_max b) (ve_other b));
            r_other := other |}.

  (** src/builder/data_schema.rs 3114-3157 *)
  Definition partial_number (b : number_b pbuilder) : option partial_ds :=
    let p := nu_inner b in
    let? other := q_other p in
    Some {| r_const := None; r_default := q_default p; r_unit := q_unit p; r_one_of := None;
            r_enum := None; r_ro := q_ro p; r_wo := q_wo p; r_format := q_format p;
            r_sub := Some (SNumber {| n_max := nu_max b; n_min := nu_min b; n_mult := nu_mult b |});
            r_other := other |}.

  (** src/builder/data_schema.rs 3232-3275 *)
  Definition partial_integer (b : integer_b pbuilder) : option partial_ds :=
    let p := in_inner b in
    let? other := q_other p in
    Some {| r_const := None; r_default := q_default p; r_unit := q_unit p; r_one_of := None;
            r_enum := None; r_ro := q_ro p; r_wo := q_wo p; r_format := q_format p;
            r_sub := Some (SInteger {| z_max := in_max b; z_min := in_min b; z_mult := in_mult b |});
            r_other := other |}.

  (** src/builder/data_schema.rs 3355-3403 *)
  Definition partial_object (b : object_b pbuilder) : option partial_ds :=
    let p := ob_inner b in
    let? other := q_other p in
    Some {| r_const := None; r_default := q_default p; r_unit := q_unit p; r_one_of := None;
            r_enum := None; r_ro := q_ro p; r_wo := q_wo p; r_format := q_format p;
            r_sub := Some (SObject (option_map (@mof ds) (nonempty (ob_properties b)))
                             (nonempty (ob_required b)) (ob_other b));
            r_other := other |}.

  (** src/builder/data_schema.rs 3483-3531 *)
  Definition partial_string (b : string_b pbuilder) : option partial_ds :=
    let p := st_inner b in
    let? other := q_other p in
    Some {| r_const := None; r_default := q_default p; r_unit := q_unit p; r_one_of := None;
            r_enum := None; r_ro := q_ro p; r_wo := q_wo p; r_format := q_format p;
            r_sub := Some (SString {| s_min := st_min b; s_max := st_max b; s_pattern := st_pattern b;
                                      s_encoding := st_encoding b; s_media := st_media b |});
            r_other := other |}.

  (** src/builder/data_schema.rs 3671-3703 *)
  Definition partial_enum (b : enum_b pbuilder) : option partial_ds :=
    let p := en_inner b in
    let? other := q_other p in
    Some {| r_const := None; r_default := q_default p; r_unit := q_unit p; r_one_of := None;
            r_enum := Some (q_enum p); r_ro := q_ro p; r_wo := q_wo p; r_format := q_format p;
            r_sub := None; r_other := other |}.

  (** src/builder/data_schema.rs 3767-3799 *)
  Definition partial_one_of (b : one_of_b pbuilder) : option partial_ds :=
    let p := oo_inner b in
    let? other := q_other p in
    Some {| r_const := None; r_default := q_default p; r_unit := q_unit p; r_one_of := Some (q_one_of p);
            r_enum := None; r_ro := q_ro p; r_wo := q_wo p; r_format := q_format p;
            r_sub := None; r_other := other |}.

  (** [Into<PartialDataSchema>]: none for the base builder; src/builder/data_schema.rs 2761-3799 *)
  Definition partial_struct (s : struct pbuilder) : option partial_ds :=
    match s with
    | UBase _ => None
    | UTuple b => partial_tuple b
    | UVec b => partial_vec b
    | UNumber b => partial_number b
    | UInteger b => partial_integer b
    | UObject b => partial_object b
    | UString b => partial_string b
    | UEnum b => partial_enum b
    | UOneOf b => partial_one_of b
    | UStateless b => partial_stateless b
    end.

  (** src/builder/data_schema.rs 3583-3607 *)
  Definition partial_with_ro (b : bool) (r : partial_ds) : partial_ds :=
    {| r_const := r_const r; r_default := r_default r; r_unit := r_unit r; r_one_of := r_one_of r;
       r_enum := r_enum r; r_ro := b; r_wo := r_wo r; r_format := r_format r; r_sub := r_sub r;
       r_other := r_other r |}.
  (** src/builder/data_schema.rs 3583-3607, [ReadOnly] and [WriteOnly] *)
  Definition partial (w : wrapped pbuilder) : option partial_ds :=
    match w with
    | Bare s => partial_struct s
    | ReadOnlyOf s => option_map (partial_with_ro true) (partial_struct s)
    | WriteOnlyOf s => option_map (partial_with_ro false) (partial_struct s)
    end.

  (** ** Calls *)

  (** Assignments to the fields of the base builder. [constant], src/builder/data_schema.rs 110 *)
  Definition put_const v (p : pbuilder) :=
    {| q_const := Some v; q_default := q_default p; q_unit := q_unit p; q_one_of := q_one_of p;
       q_enum := q_enum p; q_ro := q_ro p; q_wo := q_wo p; q_format := q_format p; q_other := q_other p |}.
  (** Assignment to [default], src/builder/data_schema.rs 111 *)
  Definition put_default v (p : pbuilder) :=
    {| q_const := q_const p; q_default := Some v; q_unit := q_unit p; q_one_of := q_one_of p;
       q_enum := q_enum p; q_ro := q_ro p; q_wo := q_wo p; q_format := q_format p; q_other := q_other p |}.
  (** Assignment to [unit], src/builder/data_schema.rs 112 *)
  Definition put_unit v (p : pbuilder) :=
    {| q_const := q_const p; q_default := q_default p; q_unit := Some v; q_one_of := q_one_of p;
       q_enum := q_enum p; q_ro := q_ro p; q_wo := q_wo p; q_format := q_format p; q_other := q_other p |}.
  (** Assignment to [one_of], src/builder/data_schema.rs 113 *)
  Definition push_one_of d (p : pbuilder) :=
    {| q_const := q_const p; q_default := q_default p; q_unit := q_unit p; q_one_of := q_one_of p ++ [d];
       q_enum := q_enum p; q_ro := q_ro p; q_wo := q_wo p; q_format := q_format p; q_other := q_other p |}.
  (** Assignment to [enumeration], src/builder/data_schema.rs 114 *)
  Definition push_enum v (p : pbuilder) :=
    {| q_const := q_const p; q_default := q_default p; q_unit := q_unit p; q_one_of := q_one_of p;
       q_enum := q_enum p ++ [v]; q_ro := q_ro p; q_wo := q_wo p; q_format := q_format p; q_other := q_other p |}.
  (** Assignment to [read_only], src/builder/data_schema.rs 115 *)
  Definition put_ro (p : pbuilder) :=
    {| q_const := q_const p; q_default := q_default p; q_unit := q_unit p; q_one_of := q_one_of p;
       q_enum := q_enum p; q_ro := true; q_wo := q_wo p; q_format := q_format p; q_other := q_other p |}.
  (** Assignment to [write_only], src/builder/data_schema.rs 116 *)
  Definition put_wo (p : pbuilder) :=
    {| q_const := q_const p; q_default := q_default p; q_unit := q_unit p; q_one_of := q_one_of p;
       q_enum := q_enum p; q_ro := q_ro p; q_wo := true; q_format := q_format p; q_other := q_other p |}.
  (** Assignment to [format], src/builder/data_schema.rs 117 *)
  Definition put_format v (p : pbuilder) :=
    {| q_const := q_const p; q_default := q_default p; q_unit := q_unit p; q_one_of := q_one_of p;
       q_enum := q_enum p; q_ro := q_ro p; q_wo := q_wo p; q_format := Some v; q_other := q_other p |}.
  (** Assignment to [other], src/builder/data_schema.rs 120 *)
  Definition put_other v (p : pbuilder) :=
    {| q_const := q_const p; q_default := q_default p; q_unit := q_unit p; q_one_of := q_one_of p;
       q_enum := q_enum p; q_ro := q_ro p; q_wo := q_wo p; q_format := q_format p; q_other := Some v |}.

  (** What the macros of src/builder/data_schema.rs 2275-2640 know about a base
      builder: the path to its [PartialDataSchemaBuilder] and, when it implements
      [BuildableHumanReadableInfo] (2246-2248), how to reach its [info]. *)
  Record base (I : Type) := {
    get_partial : I -> pbuilder;
    on_partial : (pbuilder -> pbuilder) -> I -> I;
    on_info : option ((info -> info) -> I -> I);
  }.

  (** [PartialDataSchemaBuilder<..>], path empty (src/builder/data_schema.rs 2426) *)
  Definition p_base : base pbuilder :=
    {| get_partial := fun p => p; on_partial := fun f p => f p; on_info := None |}.
  (** [DataSchemaBuilder<..>: partial] (src/builder/data_schema.rs 2426) *)
  Definition d_base : base dbuilder :=
    {| get_partial := q_partial;
       on_partial := fun f b => {| q_partial := f (q_partial b); q_info := q_info b |};
       on_info := Some (fun f b => {| q_partial := q_partial b; q_info := f (q_info b) |}) |}.

  Section Calls.
    Variable I : Type.
    Variable L : base I.

    (** [self.inner = self.inner.call(..)], src/builder/data_schema.rs 2127-2210 and
        2261-2273: the same struct around a changed builder *)
    Definition inside (f : I -> I) (s : struct I) : struct I :=
      match s with
      | UBase b => UBase (f b)
      | UTuple b => UTuple {| tu_inner := f (tu_inner b); tu_items := tu_items b; tu_other := tu_other b |}
      | UVec b => UVec {| ve_inner := f (ve_inner b); ve_item := ve_item b; ve_min := ve_min b;
                          ve_max := ve_max b; ve_other := ve_other b |}
      | UNumber b => UNumber {| nu_inner := f (nu_inner b); nu_max := nu_max b; nu_min := nu_min b;
                                nu_mult := nu_mult b |}
      | UInteger b => UInteger {| in_inner := f (in_inner b); in_max := in_max b; in_min := in_min b;
                                  in_mult := in_mult b |}
      | UObject b => UObject {| ob_inner := f (ob_inner b); ob_properties := ob_properties b;
                                ob_required := ob_required b; ob_other := ob_other b |}
      | UString b => UString {| st_inner := f (st_inner b); st_min := st_min b; st_max := st_max b;
                                st_pattern := st_pattern b; st_encoding := st_encoding b;
                                st_media := st_media b |}
      | UEnum b => UEnum {| en_inner := f (en_inner b) |}
      | UOneOf b => UOneOf {| oo_inner := f (oo_inner b) |}
      | UStateless b => UStateless {| sl_inner := f (sl_inner b); sl_ty := sl_ty b |}
      end.

    (** [ReadOnly] and [WriteOnly] pass a call on to what they hold. src/builder/data_schema.rs 1947-2125, 2198-2210. *)
    Definition through (f : struct I -> struct I) (w : wrapped I) : wrapped I :=
      match w with
      | Bare s => Bare (f s)
      | ReadOnlyOf s => ReadOnlyOf (f s)
      | WriteOnlyOf s => WriteOnlyOf (f s)
      end.
    (** The same for calls that need not be available, src/builder/data_schema.rs 1947-2125 *)
    Definition through_opt (f : struct I -> option (struct I)) (w : wrapped I) : option (wrapped I) :=
      match w with
      | Bare s => option_map (@Bare I) (f s)
      | ReadOnlyOf s => option_map (@ReadOnlyOf I) (f s)
      | WriteOnlyOf s => option_map (@WriteOnlyOf I) (f s)
      end.

    (** [impl SpecializableDataSchema for ..Builder<.., Extended>], src/builder/data_schema.rs 2275-2424 *)
    Definition specialized (f : I -> wrapped I) (w : wrapped I) : option (wrapped I) :=
      match w with
      | Bare (UBase b) => match q_other (get_partial L b) with Some _ => Some (f b) | None => None end
      | _ => None
      end.

    (** [impl_rw_data_schema!] src/builder/data_schema.rs 2595-2640 *)
    Definition rw (f : pbuilder -> pbuilder) (c : struct I -> wrapped I) (w : wrapped I) : option (wrapped I) :=
      match w with
      | Bare (UBase _) | Bare (UOneOf _) => None
      | Bare s => Some (c (inside (on_partial L f) s))
      | _ => None
      end.

    (** [enumeration]: src/builder/data_schema.rs 2428-2497; [one_of]: 2499-2593.  On the base builder they need
        status [Extended]. *)
    Definition enumerated (v : json) (s : struct I) : option (struct I) :=
      match s with
      | UBase b =>
          match q_other (get_partial L b) with
          | Some _ => Some (UEnum {| en_inner := on_partial L (push_enum v) b |})
          | None => None
          end
      | UEnum b => Some (UEnum {| en_inner := on_partial L (push_enum v) (en_inner b) |})
      | _ => None
      end.
    (** src/builder/data_schema.rs 2499-2593, [one_of] *)
    Definition united (d : ds) (s : struct I) : option (struct I) :=
      match s with
      | UBase b =>
          match q_other (get_partial L b) with
          | Some _ => Some (UOneOf {| oo_inner := on_partial L (push_one_of d) b |})
          | None => None
          end
      | UOneOf b => Some (UOneOf {| oo_inner := on_partial L (push_one_of d) (oo_inner b) |})
      | _ => None
      end.

    (** src/builder/data_schema.rs 1825-1933, the setters of the structs *)
    Definition tuple_call (f : tuple_b I -> tuple_b I) (s : struct I) : option (struct I) :=
      match s with UTuple b => Some (UTuple (f b)) | _ => None end.
    (** src/builder/data_schema.rs 1842-1858 *)
    Definition vec_call (f : vec_b I -> vec_b I) (s : struct I) : option (struct I) :=
      match s with UVec b => Some (UVec (f b)) | _ => None end.
    (** src/builder/data_schema.rs 1860-1884 *)
    Definition number_call (f : number_b I -> number_b I) (s : struct I) : option (struct I) :=
      match s with UNumber b => Some (UNumber (f b)) | _ => None end.
    (** src/builder/data_schema.rs 1886-1910 *)
    Definition integer_call (f : integer_b I -> integer_b I) (s : struct I) : option (struct I) :=
      match s with UInteger b => Some (UInteger (f b)) | _ => None end.
    (** src/builder/data_schema.rs 1912-1933 *)
    Definition object_call (f : object_b I -> object_b I) (s : struct I) : option (struct I) :=
      match s with UObject b => Some (UObject (f b)) | _ => None end.
    (** src/builder/data_schema.rs 1935-1945; not passed on by [ReadOnly] and [WriteOnly] (2093-2125) *)
    Definition string_call (f : string_b I -> string_b I) (w : wrapped I) : option (wrapped I) :=
      match w with Bare (UString b) => Some (Bare (UString (f b))) | _ => None end.

    Variable child : list dsop -> option ds.

    (** One call on a builder around [I]; [child] runs the closures that build inner
        schemas.  Line numbers as in [dstep] of DsBuilder.v. (src/builder/data_schema.rs 1825-2640) *)
    Definition call (o : dsop) (w : wrapped I) : option (wrapped I) :=
      match o with
      | DInfo io => let? f := on_info L in Some (through (inside (f (info_step io))) w)
      | DUnit v => Some (through (inside (on_partial L (put_unit v))) w)
      | DFormat v => Some (through (inside (on_partial L (put_format v))) w)
      | DDefault v => Some (through (inside (on_partial L (put_default v))) w)
      | DFinish x =>
          match w with
          | Bare (UBase b) =>
              match q_other (get_partial L b) with
              | None => Some (Bare (UBase (on_partial L (put_other x) b)))
              | Some _ => None
              end
          | _ => None
          end
      | DTuple x => specialized (fun b => Bare (UTuple {| tu_inner := b; tu_items := []; tu_other := x |})) w
      | DVec x =>
          specialized (fun b => Bare (UVec {| ve_inner := b; ve_item := None; ve_min := None; ve_max := None;
                                              ve_other := x |})) w
      | DBool => specialized (fun b => Bare (UStateless {| sl_inner := b; sl_ty := Some StBoolean |})) w
      | DNumber =>
          specialized (fun b => Bare (UNumber {| nu_inner := b; nu_max := None; nu_min := None; nu_mult := None |})) w
      | DInteger =>
          specialized (fun b => Bare (UInteger {| in_inner := b; in_max := None; in_min := None; in_mult := None |})) w
      | DObject x =>
          specialized (fun b => Bare (UObject {| ob_inner := b; ob_properties := []; ob_required := [];
                                                 ob_other := x |})) w
      | DString =>
          specialized (fun b => Bare (UString {| st_inner := b; st_min := None; st_max := None;
                                                 st_pattern := None; st_encoding := None; st_media := None |})) w
      | DNull => specialized (fun b => Bare (UStateless {| sl_inner := b; sl_ty := Some StNull |})) w
      | DConstant v =>
          specialized (fun b => ReadOnlyOf (UStateless {| sl_inner := on_partial L (put_const v) b; sl_ty := None |})) w
      | DEnum v => through_opt (enumerated v) w
      | DOneOf p => let? d := child p in through_opt (united d) w
      | DReadOnly => rw put_ro (@ReadOnlyOf I) w
      | DWriteOnly => rw put_wo (@WriteOnlyOf I) w
      | DAppend p =>
          let? d := child p in
          through_opt (tuple_call (fun b => {| tu_inner := tu_inner b; tu_items := tu_items b ++ [d];
                                               tu_other := tu_other b |})) w
      | DSetItem p =>
          let? d := child p in
          through_opt (vec_call (fun b => {| ve_inner := ve_inner b; ve_item := Some d; ve_min := ve_min b;
                                             ve_max := ve_max b; ve_other := ve_other b |})) w
      | DMinItems n =>
          through_opt (vec_call (fun b => {| ve_inner := ve_inner b; ve_item := ve_item b; ve_min := Some n;
                                             ve_max := ve_max b; ve_other := ve_other b |})) w
      | DMaxItems n =>
          through_opt (vec_call (fun b => {| ve_inner := ve_inner b; ve_item := ve_item b; ve_min := ve_min b;
                                             ve_max := Some n; ve_other := ve_other b |})) w
      | DNumMin m =>
          through_opt (number_call (fun b => {| nu_inner := nu_inner b; nu_max := nu_max b; nu_min := Some m;
                                                nu_mult := nu_mult b |})) w
      | DNumMax m =>
          through_opt (number_call (fun b => {| nu_inner := nu_inner b; nu_max := Some m; nu_min := nu_min b;
                                                nu_mult := nu_mult b |})) w
      | DNumMult x =>
          through_opt (number_call (fun b => {| nu_inner := nu_inner b; nu_max := nu_max b; nu_min := nu_min b;
                                                nu_mult := Some x |})) w
      | DIntMin m =>
          through_opt (integer_call (fun b => {| in_inner := in_inner b; in_max := in_max b; in_min := Some m;
                                                 in_mult := in_mult b |})) w
      | DIntMax m =>
          through_opt (integer_call (fun b => {| in_inner := in_inner b; in_max := Some m; in_min := in_min b;
                                                 in_mult := in_mult b |})) w
      | DIntMult x =>
          through_opt (integer_call (fun b => {| in_inner := in_inner b; in_max := in_max b; in_min := in_min b;
                                                 in_mult := Some x |})) w
      | DProperty name required p =>
          let? d := child p in
          through_opt (object_call (fun b =>
            {| ob_inner := ob_inner b; ob_properties := ob_properties b ++ [(name, d)];
               ob_required := if required then ob_required b ++ [name] else ob_required b;
               ob_other := ob_other b |})) w
      | DMinLength n =>
          string_call (fun b => {| st_inner := st_inner b; st_min := Some n; st_max := st_max b;
            st_pattern := st_pattern b; st_encoding := st_encoding b; st_media := st_media b |}) w
      | DMaxLength n =>
          string_call (fun b => {| st_inner := st_inner b; st_min := st_min b; st_max := Some n;
            st_pattern := st_pattern b; st_encoding := st_encoding b; st_media := st_media b |}) w
      | DPattern v =>
          string_call (fun b => {| st_inner := st_inner b; st_min := st_min b; st_max := st_max b;
            st_pattern := Some v; st_encoding := st_encoding b; st_media := st_media b |}) w
      | DEncoding v =>
          string_call (fun b => {| st_inner := st_inner b; st_min := st_min b; st_max := st_max b;
            st_pattern := st_pattern b; st_encoding := Some v; st_media := st_media b |}) w
      | DMedia v =>
          string_call (fun b => {| st_inner := st_inner b; st_min := st_min b; st_max := st_max b;
            st_pattern := st_pattern b; st_encoding := st_encoding b; st_media := Some v |}) w
      end.
  End Calls.

  (** A call on a builder around [DataSchemaBuilder]; the closures get an empty
      [DataSchemaBuilder] and return something convertible to
      [UncheckedDataSchema]. (src/builder/data_schema.rs 1830-1839) *)
  Fixpoint dcall (o : dsop) (w : wrapped dbuilder) {struct o} : option (wrapped dbuilder) :=
    call d_base (fun p =>
      let? w' := (fix run (p : list dsop) (w : wrapped dbuilder) : option (wrapped dbuilder) :=
                    match p with
                    | [] => Some w
                    | o :: p' => let? w' := dcall o w in run p' w'
                    end) p (Bare (UBase d_empty)) in
      unchecked w') o w.

  (** A schema standing on its own, e.g. src/builder.rs 1537-1557 *)
  Definition dbuild2 (p : list dsop) : option ds :=
    let? w := orun dcall p (Bare (UBase d_empty)) in unchecked w.

  (** ** The schema of a property affordance *)

  (** src/builder/affordance.rs 526-539: the fields [info] and [data_schema] of
      [PropertyAffordanceBuilder] *)
  Record pschema := { v_info : info; v_schema : wrapped pbuilder }.

  (** src/builder/affordance.rs 1023-1028: human readable calls go to [info];
      1000-1021 and 1548-1848: data schema calls go to [data_schema].  The setters
      of strings are not among them. *)
  Definition pcall (o : dsop) (s : pschema) : option pschema :=
    match o with
    | DInfo io => Some {| v_info := info_step io (v_info s); v_schema := v_schema s |}
    | DMinLength _ | DMaxLength _ | DPattern _ | DEncoding _ | DMedia _ => None
    | _ => let? w := call p_base dbuild2 o (v_schema s) in
           Some {| v_info := v_info s; v_schema := w |}
    end.

  (** src/builder/affordance.rs 1048-1056, [empty] *)
  Definition pschema_empty : pschema := {| v_info := no_info; v_schema := Bare (UBase p_empty) |}.

  (** The calls on a new [PropertyAffordanceBuilder], then
      [data_schema.into()], src/builder/affordance.rs 1349 *)
  Definition pbuild2 (p : list dsop) : option (info * partial_ds) :=
    let? s := orun pcall p pschema_empty in
    let? r := partial (v_schema s) in
    Some (v_info s, r).

  Section Check.
    Variable ord : order.

    (** src/builder/data_schema.rs 3813-3819, [CheckableDataSchema for
        PartialDataSchema], 3896-3903 [check_one_of_schema] *)
    Definition partial_check (r : partial_ds) : result error unit :=
      let! _ := check_subtype ord
        (S (match r_one_of r with Some l => fold_right (fun d n => ds_size d + n) 0 l | None => 0 end
            + match r_sub r with
              | Some (SArray (Some (BElem d)) _ _ _) => ds_size d
              | Some (SArray (Some (BVec l)) _ _ _) => fold_right (fun d n => ds_size d + n) 0 l
              | Some (SObject (Some ps) _ _) => fold_right (fun kd n => ds_size (snd kd) + n) 0 ps
              | _ => 0
              end)) (r_sub r) in
      match r_one_of r with
      | Some l => rfor_each (check ord) l
      | None => Ok tt
      end.

    Variable tag_parse : string -> option string.
    Notation ds_build := (ds_build ord tag_parse).

    (** src/builder/data_schema.rs 3975-4051, [TryFrom] of the subtype.  As in
        [ds_build], the values of a hash map are converted before [ord] picks the
        first error. *)
    Definition sub_build (s : dsub) : result error dsub :=
      match s with
      | SArray (Some (BElem e)) mn mx a => let! e' := ds_build e in Ok (SArray (Some (BElem e')) mn mx a)
      | SArray (Some (BVec l)) mn mx a => let! l' := rmap_all ds_build l in Ok (SArray (Some (BVec l')) mn mx a)
      | SArray None mn mx a => Ok (SArray None mn mx a)
      | SObject (Some ps) req a => 
          let! ps' := map_build ord (fun r => r) (map (fun kd => (fst kd, ds_build (snd kd))) ps) in
          Ok (SObject (Some ps') req a)
      | SObject None req a => Ok (SObject None req a)
      | SBoolean => Ok SBoolean
      | SNumber n => Ok (SNumber n)
      | SInteger n => Ok (SInteger n)
      | SString t => Ok (SString t)
      | SNull => Ok SNull
      end.
  End Check.
End Structs.

Section Properties.
  Variable E : env.
  Variable X : exts.
  Notation DS := (pty (x_ds X)).
  Notation AS := (pty (x_as X)).
  Notation OS := (pty (x_os X)).

  (** src/builder/affordance.rs 526-539, [PropertyAffordanceBuilder] with its own
      [info] and a builder around [PartialDataSchemaBuilder] *)
  Record property_b2 := {
    w_ia : ia_b X;
    w_schema : pschema DS AS OS;
    w_observable : option bool;
    w_other : pty (x_pa X);
  }.

  (** As [pstep] of Builder.v (src/builder/affordance.rs 1533-1848) *)
  Definition pstep2 (o : pop X) (s : property_b2) : option property_b2 :=
    match o with
    | PDs o =>
        let? d := pcall o (w_schema s) in
        Some {| w_ia := w_ia s; w_schema := d; w_observable := w_observable s; w_other := w_other s |}
    | PIa o =>
        let? i := ia_step o (w_ia s) in
        Some {| w_ia := i; w_schema := w_schema s; w_observable := w_observable s; w_other := w_other s |}
    | PObservable b =>
        Some {| w_ia := w_ia s; w_schema := w_schema s; w_observable := Some b; w_other := w_other s |}
    end.

  (** src/builder/affordance.rs 979-988 [UsablePropertyAffordanceBuilder] *)
  Record uproperty2 := {
    u_ia : ia_b X;
    u_info : info;
    u_schema : partial_ds DS AS OS;
    u_observable : option bool;
    u_other : pty (x_pa X);
  }.

  (** src/builder/affordance.rs 1329-1359, [into_usable] *)
  Definition prop_run2 (xi : pty (x_ia X)) (xp : pty (x_pa X)) (p : list (pop X)) : option uproperty2 :=
    let? s := orun pstep2 p {| w_ia := ia_new X xi; w_schema := pschema_empty DS AS OS;
                               w_observable := None; w_other := xp |} in
    let? r := partial (v_schema (w_schema s)) in
    Some {| u_ia := w_ia s; u_info := v_info (w_schema s); u_schema := r; u_observable := w_observable s;
            u_other := w_other s |}.

  (** src/builder/affordance.rs 2608-2706, [build]: titles and descriptions are
      converted once and put both into the interaction and into the schema. *)
  Definition property_build2 (ord : order) (u : uproperty2) : result error (property X) :=
    let r := u_schema u in
    let i := u_info u in
    let! titles := ropt (ml_build ord (tag_parse E)) (i_titles i) in
    let! descriptions := ropt (ml_build ord (tag_parse E)) (i_descriptions i) in
    let! uri := @ia_uri_build E X ord (ib_uri (u_ia u)) in
    let! one_of := ropt (rmap_all (ds_build ord (tag_parse E))) (r_one_of r) in
    let! sub := ropt (sub_build ord (tag_parse E)) (r_sub r) in
    Ok {| pa_ia := {| ia_info := {| i_attype := i_attype i; i_title := i_title i; i_titles := titles;
                                    i_description := i_description i; i_descriptions := descriptions |};
                      ia_forms := ib_forms (u_ia u); ia_uri := uri; ia_other := ib_other (u_ia u) |};
          pa_ds := mkDs {| i_attype := i_attype i; i_title := i_title i; i_titles := titles;
                           i_description := i_description i; i_descriptions := descriptions |}
                     {| m_const := r_const r; m_default := r_default r; m_unit := r_unit r;
                        m_enum := r_enum r; m_ro := r_ro r; m_wo := r_wo r; m_format := r_format r |}
                     one_of sub (r_other r);
          pa_observable := u_observable u; pa_other := u_other u |}.

  (** src/builder.rs 1683-1737, [try_build_affordance], for the properties: the schema that
      is checked is the partial one *)
  Fixpoint properties_fold2 (ord : order) (defs : amap security_scheme) (l : list (string * uproperty2))
    (acc : amap (property X)) : result error (amap (property X)) :=
    match l with
    | [] => Ok acc
    | (name, u) :: l' =>
        let! _ := @ia_check X ord defs AProperty (u_ia u) in
        let! _ := partial_check ord (u_schema u) in
        if mhas name acc then Err (DuplicatedAffordance AProperty name)
        else let! b := property_build2 ord u in properties_fold2 ord defs l' (minsert name b acc)
    end.

  (** src/builder.rs 1683-1737: nothing for no property *)
  Definition properties_build2 (ord : order) (defs : amap security_scheme) (l : list (string * uproperty2))
    : result error (option (amap (property X))) :=
    match l with
    | [] => Ok None
    | _ => let! m := properties_fold2 ord defs l [] in Ok (Some m)
    end.
End Properties.
