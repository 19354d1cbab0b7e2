(** * The data schema builder (src/builder/data_schema.rs)

    Builder values are records; a chain of builder calls is a [list dsop] and is
    run by [drun].  Closures passed to builder calls are nested call chains.  A
    call that does not type check in a state makes [drun] return [None]. *)

From Coq Require Import String Bool ZArith Permutation List.
From Verif Require Import Base MinMax Json Serde Types.
Import ListNotations.
Set Implicit Arguments.
Local Open Scope string_scope.
Local Open Scope list_scope.

(** ** Errors *)

(** src/builder.rs 411-420, [AffordanceType] *)
Inductive affordance_type := AProperty | AAction | AEvent.

(** src/builder.rs 372-384, [FormContext] *)
Inductive form_context := CtxThing | CtxProperty | CtxAction | CtxEvent.

(** src/builder.rs 399-407, [From<AffordanceType> for FormContext] *)
Definition ctx_of (t : affordance_type) : form_context :=
  match t with AProperty => CtxProperty | AAction => CtxAction | AEvent => CtxEvent end.

(** src/builder.rs 305-366, [Error].  [EPanic] is not a Rust value: it stands for
    a panic ([unwrap] of [None]) or for a loop that did not finish. *)
Inductive error :=
| DuplicatedSecurityDefinition (n : string)
| MissingOpInForm
| InvalidOpInForm (c : form_context) (o : form_op)
| UndefinedSecurity (n : string)
| InvalidMinMax
| NanMinMax
| DuplicatedAffordance (t : affordance_type) (n : string)
| InvalidMultipleOf
| MissingSchemaDefinition (n : string)
| InvalidUriVariables
| InvalidLanguageTag (s : string)
| SizesWithRelNotIcon
| EPanic.

(** ** Hash map iteration order

    Every iteration over a [HashMap] goes through [ord], an arbitrary
    reordering.  Simplification: the order is a function of the contents (two
    maps with the same contents are iterated alike). *)
(** E.g. src/builder.rs 1782-1793. *)
Definition order := forall A : Type, list (string * A) -> list (string * A).
(** Every entry is visited once; a property of [HashMap::into_iter], no counterpart in /repo. *)
Definition order_ok (ord : order) := forall A (m : list (string * A)), Permutation (ord A m) m.

(** ** Human readable information *)

(** src/builder.rs 1769-1780, [MultiLanguageBuilder::add] calls on a fresh builder *)
Definition ml_of (adds : list (string * string)) : multilang := mof adds.

(** src/builder/human_readable_info.rs 19-50, [BuildableHumanReadableInfo] calls *)
Inductive info_op :=
| IAttype (s : string)
| ITitle (s : string)
| ITitles (adds : list (string * string))
| IDescription (s : string)
| IDescriptions (adds : list (string * string)).

(** src/builder/human_readable_info.rs 52-90, [impl .. for HumanReadableInfo] *)
Definition info_step (o : info_op) (i : info) : info :=
  match o with
  | IAttype s => {| i_attype := opush (i_attype i) s; i_title := i_title i; i_titles := i_titles i;
                    i_description := i_description i; i_descriptions := i_descriptions i |}
  | ITitle s => {| i_attype := i_attype i; i_title := Some s; i_titles := i_titles i;
                   i_description := i_description i; i_descriptions := i_descriptions i |}
  | ITitles l => {| i_attype := i_attype i; i_title := i_title i; i_titles := Some (ml_of l);
                    i_description := i_description i; i_descriptions := i_descriptions i |}
  | IDescription s => {| i_attype := i_attype i; i_title := i_title i; i_titles := i_titles i;
                         i_description := Some s; i_descriptions := i_descriptions i |}
  | IDescriptions l => {| i_attype := i_attype i; i_title := i_title i; i_titles := i_titles i;
                          i_description := i_description i; i_descriptions := Some (ml_of l) |}
  end.

Section Builder.
  Variables DS AS OS : Type.
  Notation ds := (ds DS AS OS).
  Notation dsub := (dsub DS AS OS).

  (** ** Builder values *)

  (** src/builder/data_schema.rs 1546-1553, [StatelessDataSchemaType] *)
  Inductive stateless := StBoolean | StNull.

  (** Which builder struct wraps the base builder: src/builder/data_schema.rs 1478-1559. [KBase] is the base
      builder itself ([PartialDataSchemaBuilder]/[DataSchemaBuilder]). *)
  Inductive dkind :=
  | KBase
  | KStateless (ty : option stateless)
  | KTuple (items : list ds) (o : AS)
  | KVec (item : option ds) (mn mx : option Z) (o : AS)
  | KNumber (n : number_schema)
  | KInteger (n : integer_schema)
  | KObject (props : list (string * ds)) (required : list string) (o : OS)
  | KString (s : string_schema)
  | KEnum
  | KOneOf.

  (** [ReadOnly<_>] 1562, [WriteOnly<_>] 1567 around the builder, or neither *)
  Inductive wrap := WNone | WRO | WWO.

  (** src/builder/data_schema.rs 109-122 [PartialDataSchemaBuilder], 366-369
      [DataSchemaBuilder].  [b_other] is [None] in status [ToExtend], when the
      extension is still being assembled, and holds the extension value in status
      [Extended].  Simplification: the steps of the assembly are not part of the
      state (see [Extend.v] for them).  For property affordances [b_info] is the
      [info] of [PropertyAffordanceBuilder] (src/builder/affordance.rs 533). *)
  Record dstate := {
    b_info : info;
    b_const : option json;
    b_default : option json;
    b_unit : option string;
    b_one_of : list ds;
    b_enum : list json;
    b_ro : bool;
    b_wo : bool;
    b_format : option string;
    b_other : option DS;
    b_kind : dkind;
    b_wrap : wrap;
  }.

  (** src/builder/data_schema.rs 125-141, 396-405, [empty] *)
  Definition dempty : dstate :=
    {| b_info := no_info; b_const := None; b_default := None; b_unit := None; b_one_of := [];
       b_enum := []; b_ro := false; b_wo := false; b_format := None; b_other := None;
       b_kind := KBase; b_wrap := WNone |}.

  (** Record updates. *)
  (** Assignment to [info], src/builder/data_schema.rs 366-369 *)
  Definition set_info (s : dstate) v :=
    {| b_info := v; b_const := b_const s; b_default := b_default s; b_unit := b_unit s;
       b_one_of := b_one_of s; b_enum := b_enum s; b_ro := b_ro s; b_wo := b_wo s;
       b_format := b_format s; b_other := b_other s; b_kind := b_kind s; b_wrap := b_wrap s |}.
  (** Assignment to [constant], src/builder/data_schema.rs 110 *)
  Definition set_const (s : dstate) v :=
    {| b_info := b_info s; b_const := v; b_default := b_default s; b_unit := b_unit s;
       b_one_of := b_one_of s; b_enum := b_enum s; b_ro := b_ro s; b_wo := b_wo s;
       b_format := b_format s; b_other := b_other s; b_kind := b_kind s; b_wrap := b_wrap s |}.
  (** Assignment to [default], src/builder/data_schema.rs 111 *)
  Definition set_default (s : dstate) v :=
    {| b_info := b_info s; b_const := b_const s; b_default := v; b_unit := b_unit s;
       b_one_of := b_one_of s; b_enum := b_enum s; b_ro := b_ro s; b_wo := b_wo s;
       b_format := b_format s; b_other := b_other s; b_kind := b_kind s; b_wrap := b_wrap s |}.
  (** Assignment to [unit], src/builder/data_schema.rs 112 *)
  Definition set_unit (s : dstate) v :=
    {| b_info := b_info s; b_const := b_const s; b_default := b_default s; b_unit := v;
       b_one_of := b_one_of s; b_enum := b_enum s; b_ro := b_ro s; b_wo := b_wo s;
       b_format := b_format s; b_other := b_other s; b_kind := b_kind s; b_wrap := b_wrap s |}.
  (** Assignment to [one_of], src/builder/data_schema.rs 113 *)
  Definition set_one_of (s : dstate) v :=
    {| b_info := b_info s; b_const := b_const s; b_default := b_default s; b_unit := b_unit s;
       b_one_of := v; b_enum := b_enum s; b_ro := b_ro s; b_wo := b_wo s;
       b_format := b_format s; b_other := b_other s; b_kind := b_kind s; b_wrap := b_wrap s |}.
  (** Assignment to [enumeration], src/builder/data_schema.rs 114 *)
  Definition set_enum (s : dstate) v :=
    {| b_info := b_info s; b_const := b_const s; b_default := b_default s; b_unit := b_unit s;
       b_one_of := b_one_of s; b_enum := v; b_ro := b_ro s; b_wo := b_wo s;
       b_format := b_format s; b_other := b_other s; b_kind := b_kind s; b_wrap := b_wrap s |}.
  (** Assignment to [read_only], src/builder/data_schema.rs 115 *)
  Definition set_ro (s : dstate) v :=
    {| b_info := b_info s; b_const := b_const s; b_default := b_default s; b_unit := b_unit s;
       b_one_of := b_one_of s; b_enum := b_enum s; b_ro := v; b_wo := b_wo s;
       b_format := b_format s; b_other := b_other s; b_kind := b_kind s; b_wrap := b_wrap s |}.
  (** Assignment to [write_only], src/builder/data_schema.rs 116 *)
  Definition set_wo (s : dstate) v :=
    {| b_info := b_info s; b_const := b_const s; b_default := b_default s; b_unit := b_unit s;
       b_one_of := b_one_of s; b_enum := b_enum s; b_ro := b_ro s; b_wo := v;
       b_format := b_format s; b_other := b_other s; b_kind := b_kind s; b_wrap := b_wrap s |}.
  (** Assignment to [format], src/builder/data_schema.rs 117 *)
  Definition set_format (s : dstate) v :=
    {| b_info := b_info s; b_const := b_const s; b_default := b_default s; b_unit := b_unit s;
       b_one_of := b_one_of s; b_enum := b_enum s; b_ro := b_ro s; b_wo := b_wo s;
       b_format := v; b_other := b_other s; b_kind := b_kind s; b_wrap := b_wrap s |}.
  (** Assignment to [other], src/builder/data_schema.rs 120 *)
  Definition set_other (s : dstate) v :=
    {| b_info := b_info s; b_const := b_const s; b_default := b_default s; b_unit := b_unit s;
       b_one_of := b_one_of s; b_enum := b_enum s; b_ro := b_ro s; b_wo := b_wo s;
       b_format := b_format s; b_other := v; b_kind := b_kind s; b_wrap := b_wrap s |}.
  (** Putting the builder into one of the structs, src/builder/data_schema.rs 1478-1559 *)
  Definition set_kind (s : dstate) v :=
    {| b_info := b_info s; b_const := b_const s; b_default := b_default s; b_unit := b_unit s;
       b_one_of := b_one_of s; b_enum := b_enum s; b_ro := b_ro s; b_wo := b_wo s;
       b_format := b_format s; b_other := b_other s; b_kind := v; b_wrap := b_wrap s |}.
  (** Putting the builder into [ReadOnly] or [WriteOnly], src/builder/data_schema.rs 1562-1569 *)
  Definition set_wrap (s : dstate) v :=
    {| b_info := b_info s; b_const := b_const s; b_default := b_default s; b_unit := b_unit s;
       b_one_of := b_one_of s; b_enum := b_enum s; b_ro := b_ro s; b_wo := b_wo s;
       b_format := b_format s; b_other := b_other s; b_kind := b_kind s; b_wrap := v |}.

  (** ** Builder calls

      [p] arguments are the closures given to the call, run on an empty builder. *)
  (** src/builder/data_schema.rs 436-445, 458-1247, 1260-1474, 1591-1801. *)
  Inductive dsop :=
  | DInfo (o : info_op)                      (* attype, title, titles, .. *)
  | DUnit (s : string) | DFormat (s : string) | DDefault (j : json)
  | DFinish (o : DS)                         (* ext.., finish_extend *)
  | DTuple (o : AS) | DVec (o : AS)          (* tuple, tuple_ext, vec, vec_ext *)
  | DBool | DNumber | DInteger
  | DObject (o : OS)                         (* object, object_ext *)
  | DString | DNull
  | DConstant (j : json)
  | DEnum (j : json)                         (* enumeration *)
  | DOneOf (p : list dsop)
  | DReadOnly | DWriteOnly
  | DAppend (p : list dsop)                  (* tuple *)
  | DSetItem (p : list dsop) | DMinItems (n : Z) | DMaxItems (n : Z)   (* vec *)
  | DNumMin (m : minimum f64) | DNumMax (m : maximum f64) | DNumMult (x : f64)
  | DIntMin (m : minimum Z) | DIntMax (m : maximum Z) | DIntMult (n : Z)
  | DProperty (name : string) (required : bool) (p : list dsop)        (* object *)
  | DMinLength (n : Z) | DMaxLength (n : Z)
  | DPattern (s : string) | DEncoding (s : string) | DMedia (s : string).

  (** Specialising the base builder requires status [Extended]:
      [impl_specializable_data_schema!] src/builder/data_schema.rs 2275-2426. *)
  Definition specialize (k : dkind) (s : dstate) : option dstate :=
    match b_kind s, b_other s, b_wrap s with
    | KBase, Some _, WNone => Some (set_kind s k)
    | _, _, _ => None
    end.

  (** [impl_rw_data_schema!] src/builder/data_schema.rs 2595-2640: not for the base builder and not for
      [OneOfDataSchemaBuilder], and not inside [ReadOnly]/[WriteOnly]. *)
  Definition can_rw (s : dstate) : bool :=
    match b_wrap s, b_kind s with
    | WNone, KBase | WNone, KOneOf => false
    | WNone, _ => true
    | _, _ => false
    end.

  (** Assignment to [maximum] of [NumberDataSchemaBuilder], src/builder/data_schema.rs 1501 *)
  Definition set_n_max (n : number_schema) m := {| n_max := m; n_min := n_min n; n_mult := n_mult n |}.
  (** Assignment to [minimum] of [NumberDataSchemaBuilder], src/builder/data_schema.rs 1502 *)
  Definition set_n_min (n : number_schema) m := {| n_max := n_max n; n_min := m; n_mult := n_mult n |}.
  (** Assignment to [multiple_of] of [NumberDataSchemaBuilder], src/builder/data_schema.rs 1503 *)
  Definition set_n_mult (n : number_schema) m := {| n_max := n_max n; n_min := n_min n; n_mult := m |}.
  (** Assignment to [maximum] of [IntegerDataSchemaBuilder], src/builder/data_schema.rs 1509 *)
  Definition set_z_max (n : integer_schema) m := {| z_max := m; z_min := z_min n; z_mult := z_mult n |}.
  (** Assignment to [minimum] of [IntegerDataSchemaBuilder], src/builder/data_schema.rs 1510 *)
  Definition set_z_min (n : integer_schema) m := {| z_max := z_max n; z_min := m; z_mult := z_mult n |}.
  (** Assignment to [multiple_of] of [IntegerDataSchemaBuilder], src/builder/data_schema.rs 1511 *)
  Definition set_z_mult (n : integer_schema) m := {| z_max := z_max n; z_min := z_min n; z_mult := m |}.
  (** Assignment to [min_length] of [StringDataSchemaBuilder], src/builder/data_schema.rs 1527 *)
  Definition set_s_min (t : string_schema) v :=
    {| s_min := v; s_max := s_max t; s_pattern := s_pattern t; s_encoding := s_encoding t; s_media := s_media t |}.
  (** Assignment to [max_length] of [StringDataSchemaBuilder], src/builder/data_schema.rs 1528 *)
  Definition set_s_max (t : string_schema) v :=
    {| s_min := s_min t; s_max := v; s_pattern := s_pattern t; s_encoding := s_encoding t; s_media := s_media t |}.
  (** Assignment to [pattern] of [StringDataSchemaBuilder], src/builder/data_schema.rs 1529 *)
  Definition set_s_pattern (t : string_schema) v :=
    {| s_min := s_min t; s_max := s_max t; s_pattern := v; s_encoding := s_encoding t; s_media := s_media t |}.
  (** Assignment to [content_encoding] of [StringDataSchemaBuilder], src/builder/data_schema.rs 1530 *)
  Definition set_s_encoding (t : string_schema) v :=
    {| s_min := s_min t; s_max := s_max t; s_pattern := s_pattern t; s_encoding := v; s_media := s_media t |}.
  (** Assignment to [content_media_type] of [StringDataSchemaBuilder], src/builder/data_schema.rs 1531 *)
  Definition set_s_media (t : string_schema) v :=
    {| s_min := s_min t; s_max := s_max t; s_pattern := s_pattern t; s_encoding := s_encoding t; s_media := v |}.

  (** src/builder/data_schema.rs 2275-2426, [number]: a fresh [NumberDataSchemaBuilder] *)
  Definition no_number : number_schema := {| n_max := None; n_min := None; n_mult := None |}.
  (** src/builder/data_schema.rs 2275-2426, [integer]: a fresh [IntegerDataSchemaBuilder] *)
  Definition no_integer : integer_schema := {| z_max := None; z_min := None; z_mult := None |}.
  (** src/builder/data_schema.rs 2275-2426, [string]: a fresh [StringDataSchemaBuilder] *)
  Definition no_string : string_schema :=
    {| s_min := None; s_max := None; s_pattern := None; s_encoding := None; s_media := None |}.

  (** String setters are not available behind [ReadOnly]/[WriteOnly]
      ([impl_delegate_schema_builder_like!] src/builder/data_schema.rs 2093-2125 leaves them out). *)
  Definition on_string (f : string_schema -> string_schema) (s : dstate) : option dstate :=
    match b_kind s, b_wrap s with
    | KString t, WNone => Some (set_kind s (KString (f t)))
    | _, _ => None
    end.

  (** src/builder/data_schema.rs 1860-1884 and, behind [ReadOnly]/[WriteOnly], 2003-2035 *)
  Definition on_number (f : number_schema -> number_schema) (s : dstate) : option dstate :=
    match b_kind s with KNumber n => Some (set_kind s (KNumber (f n))) | _ => None end.

  (** src/builder/data_schema.rs 1886-1910 and, behind [ReadOnly]/[WriteOnly], 2037-2069 *)
  Definition on_integer (f : integer_schema -> integer_schema) (s : dstate) : option dstate :=
    match b_kind s with KInteger n => Some (set_kind s (KInteger (f n))) | _ => None end.

  (** ** Conversion to an unchecked schema *)

  (** src/builder/data_schema.rs 2688-2695 *)
  Definition stateless_sub (t : stateless) : dsub :=
    match t with StBoolean => SBoolean | StNull => SNull end.

  (** The conversions of each builder struct, ignoring [ReadOnly]/[WriteOnly]:
      [Stateless] src/builder/data_schema.rs 2697-2747, [Tuple] 2797-2857, [Vec] 2859-2921, [Number]
      3041-3100, [Integer] 3159-3218, [Object] 3277-3341, [String] 3405-3469,
      [Enum] 3609-3657, [OneOf] 3705-3753, and their [PartialDataSchema] twins.
      The base builder has no conversion ([None]). *)
  Definition kind_to_ds (s : dstate) : option ds :=
    match b_other s with
    | None => None
    | Some other =>
        let mk c e o sub :=
          mkDs (b_info s)
            {| m_const := c; m_default := b_default s; m_unit := b_unit s; m_enum := e;
               m_ro := b_ro s; m_wo := b_wo s; m_format := b_format s |} o sub other in
        match b_kind s with
        | KBase => None
        | KStateless ty => Some (mk (b_const s) None None (option_map stateless_sub ty))
        | KTuple items o => Some (mk None None None (Some (SArray (Some (BVec items)) None None o)))
        | KVec item mn mx o =>
            Some (mk None None None (Some (SArray (option_map (fun d => BElem d) item) mn mx o)))
        | KNumber n => Some (mk None None None (Some (SNumber n)))
        | KInteger n => Some (mk None None None (Some (SInteger n)))
        | KObject ps req o =>
            Some (mk None None None (Some (SObject (option_map (@mof ds) (nonempty ps)) (nonempty req) o)))
        | KString t => Some (mk None None None (Some (SString t)))
        | KEnum => Some (mk None (Some (b_enum s)) None None)
        | KOneOf => Some (mk None None (Some (b_one_of s)) None)
        end
    end.

  (** [Self { read_only, ..data_schema }]. src/builder/data_schema.rs 3533-3569. *)
  Definition ds_with_ro (b : bool) (d : ds) : ds :=
    match d with
    | mkDs i m o s x =>
        mkDs i {| m_const := m_const m; m_default := m_default m; m_unit := m_unit m;
                  m_enum := m_enum m; m_ro := b; m_wo := m_wo m; m_format := m_format m |} o s x
    end.

  (** [From<ReadOnly<T>>] src/builder/data_schema.rs 3533-3544, [From<WriteOnly<T>>] 3558-3569 for
      [UncheckedDataSchema], 3583-3607 for [PartialDataSchema].  Note that
      [WriteOnly] resets [read_only] and does not touch [write_only]. *)
  Definition to_ds (s : dstate) : option ds :=
    match b_wrap s with
    | WNone => kind_to_ds s
    | WRO => option_map (ds_with_ro true) (kind_to_ds s)
    | WWO => option_map (ds_with_ro false) (kind_to_ds s)
    end.

  (** ** Running call chains *)

  (** One builder call.
      - info: [impl_delegate_buildable_hr_info!] src/builder/data_schema.rs 2246-2273; unit, format,
        default_value: 2127-2259, available everywhere;
      - [DFinish]: [ext_with] 146-176, [finish_extend] 188-213, 371-398;
      - specialisations 2275-2426; [enumeration] 2428-2497; [one_of] 2499-2593;
        [read_only]/[write_only] 2595-2640;
      - type specific setters 1825-1945, delegated by [ReadOnly]/[WriteOnly]
        (1947-2125). *)
  Fixpoint dstep (o : dsop) (s : dstate) {struct o} : option dstate :=
    let child := fun p : list dsop =>
      let? s' := (fix run (p : list dsop) (s : dstate) : option dstate :=
                    match p with
                    | [] => Some s
                    | o :: p' => let? s' := dstep o s in run p' s'
                    end) p dempty in
      to_ds s' in
    match o with
    | DInfo io => Some (set_info s (info_step io (b_info s)))
    | DUnit v => Some (set_unit s (Some v))
    | DFormat v => Some (set_format s (Some v))
    | DDefault v => Some (set_default s (Some v))
    | DFinish x =>
        match b_kind s, b_other s with
        | KBase, None => Some (set_other s (Some x))
        | _, _ => None
        end
    | DTuple x => specialize (KTuple [] x) s
    | DVec x => specialize (KVec None None None x) s
    | DBool => specialize (KStateless (Some StBoolean)) s
    | DNumber => specialize (KNumber no_number) s
    | DInteger => specialize (KInteger no_integer) s
    | DObject x => specialize (KObject [] [] x) s
    | DString => specialize (KString no_string) s
    | DNull => specialize (KStateless (Some StNull)) s
    | DConstant v =>
        let? s' := specialize (KStateless None) s in
        Some (set_wrap (set_const s' (Some v)) WRO)
    | DEnum v =>
        match b_kind s with
        | KBase => let? s' := specialize KEnum s in Some (set_enum s' (b_enum s ++ [v]))
        | KEnum => Some (set_enum s (b_enum s ++ [v]))
        | _ => None
        end
    | DOneOf p =>
        let? d := child p in
        match b_kind s with
        | KBase => let? s' := specialize KOneOf s in Some (set_one_of s' (b_one_of s ++ [d]))
        | KOneOf => Some (set_one_of s (b_one_of s ++ [d]))
        | _ => None
        end
    | DReadOnly => if can_rw s then Some (set_wrap (set_ro s true) WRO) else None
    | DWriteOnly => if can_rw s then Some (set_wrap (set_wo s true) WWO) else None
    | DAppend p =>
        let? d := child p in
        match b_kind s with
        | KTuple items x => Some (set_kind s (KTuple (items ++ [d]) x))
        | _ => None
        end
    | DSetItem p =>
        let? d := child p in
        match b_kind s with
        | KVec _ mn mx x => Some (set_kind s (KVec (Some d) mn mx x))
        | _ => None
        end
    | DMinItems n =>
        match b_kind s with
        | KVec i _ mx x => Some (set_kind s (KVec i (Some n) mx x))
        | _ => None
        end
    | DMaxItems n =>
        match b_kind s with
        | KVec i mn _ x => Some (set_kind s (KVec i mn (Some n) x))
        | _ => None
        end
    | DNumMin m => on_number (fun n => set_n_min n (Some m)) s
    | DNumMax m => on_number (fun n => set_n_max n (Some m)) s
    | DNumMult x => on_number (fun n => set_n_mult n (Some x)) s
    | DIntMin m => on_integer (fun n => set_z_min n (Some m)) s
    | DIntMax m => on_integer (fun n => set_z_max n (Some m)) s
    | DIntMult x => on_integer (fun n => set_z_mult n (Some x)) s
    | DProperty name required p =>
        let? d := child p in
        match b_kind s with
        | KObject ps req x =>
            Some (set_kind s (KObject (ps ++ [(name, d)]) (if required then req ++ [name] else req) x))
        | _ => None
        end
    | DMinLength n => on_string (fun t => set_s_min t (Some n)) s
    | DMaxLength n => on_string (fun t => set_s_max t (Some n)) s
    | DPattern v => on_string (fun t => set_s_pattern t (Some v)) s
    | DEncoding v => on_string (fun t => set_s_encoding t (Some v)) s
    | DMedia v => on_string (fun t => set_s_media t (Some v)) s
    end.

  (** A chain of such calls in a closure, e.g. src/builder/data_schema.rs 1830-1839. *)
  Fixpoint drun (p : list dsop) (s : dstate) : option dstate :=
    match p with
    | [] => Some s
    | o :: p' => let? s' := dstep o s in drun p' s'
    end.

  (** The closures returning [T: Into<UncheckedDataSchema<..>>] given to
      [uri_variable], [input], [one_of], .. src/builder.rs 1537-1557, src/builder/data_schema.rs 1830-1839. *)
  Definition dbuild (p : list dsop) : option ds :=
    let? s := drun p dempty in to_ds s.

  (** ** Validation *)

  Section Check.
    Variable ord : order.

    (** [matches!(min.partial_cmp(&max), None | Some(Ordering::Greater))]. src/builder/data_schema.rs 3829-3881. *)
    Definition not_le (c : option comparison) : bool :=
      match c with None | Some Gt => true | Some _ => false end.

    (** The [match subtype] of [check_data_schema_subtype], src/builder/data_schema.rs 3829-3881: the checks of
        one schema, without its sub-schemas. *)
    Definition check_node (s : dsub) : result error unit :=
      match s with
      | SArray _ (Some mn) (Some mx) _ =>
          if not_le (i64_cmp mn mx) then Err InvalidMinMax else Ok tt
      | SArray _ _ _ _ => Ok tt
      | SNumber n =>
          let! _ :=
            match n_min n, n_max n with
            | Some mn, Some mx =>
                if min_is_nan mn then Err NanMinMax
                else if max_is_nan mx then Err NanMinMax
                else if not_le (minmax_cmp f64_cmp mn mx) then Err InvalidMinMax
                else Ok tt
            | Some mn, None => if min_is_nan mn then Err NanMinMax else Ok tt
            | None, Some mx => if max_is_nan mx then Err NanMinMax else Ok tt
            | None, None => Ok tt
            end in
          match n_mult n with
          | Some x => if f64_le0 x then Err InvalidMultipleOf else Ok tt
          | None => Ok tt
          end
      | SInteger n =>
          match z_min n, z_max n with
          | Some mn, Some mx =>
              if not_le (minmax_cmp i64_cmp mn mx) then Err InvalidMinMax else Ok tt
          | _, _ => Ok tt
          end
      | SObject _ _ _ | SString _ | SBoolean | SNull => Ok tt
      end.

    (** What the same [match] pushes on the stack. The stack is a list whose head
        is popped first, so [extend] pushes in reverse. src/builder/data_schema.rs 3829-3881. *)
    Definition push_sub (s : dsub) (stack : list ds) : list ds :=
      match s with
      | SArray (Some (BElem d)) _ _ _ => d :: stack
      | SArray (Some (BVec l)) _ _ _ => rev l ++ stack
      | SObject (Some ps) _ _ => rev (map snd (ord ps)) ++ stack
      | _ => stack
      end.

    (** src/builder/data_schema.rs 3821-3894, [check_data_schema_subtype]: a loop
        with an explicit stack.  [n] bounds the number of iterations; [None] when
        it is exceeded. *)
    Fixpoint check_loop (n : nat) (sub : option dsub) (stack : list ds)
      : option (result error unit) :=
      match n with
      | O => None
      | S n' =>
          let next stack' :=
            match stack' with
            | [] => Some (Ok tt)
            | d :: rest =>
                check_loop n' (ds_sub d)
                  (match ds_one_of d with Some l => rev l ++ rest | None => rest end)
            end in
          match sub with
          | Some s =>
              match check_node s with
              | Err e => Some (Err e)
              | Ok _ => next (push_sub s stack)
              end
          | None => next stack
          end
      end.

    (** Number of schemas in a schema, itself included. No counterpart in /repo: bounds the number of rounds of the loop. *)
    Fixpoint ds_size (d : ds) : nat :=
      let go := fix go (l : list ds) : nat :=
                  match l with [] => 0 | d :: l' => ds_size d + go l' end in
      let gom := fix gom (l : list (string * ds)) : nat :=
                   match l with [] => 0 | (_, d) :: l' => ds_size d + gom l' end in
      match d with
      | mkDs _ _ o s _ =>
          S (match o with Some l => go l | None => 0 end
             + match s with
               | Some (SArray (Some (BElem d)) _ _ _) => ds_size d
               | Some (SArray (Some (BVec l)) _ _ _) => go l
               | Some (SObject (Some ps) _ _) => gom ps
               | _ => 0
               end)
      end.

    (** src/builder/data_schema.rs 3821-3894, with enough fuel for every schema *)
    Definition check_subtype (n : nat) (sub : option dsub) : result error unit :=
      match check_loop n sub [] with Some r => r | None => Err EPanic end.

    (** src/builder/data_schema.rs 3805-3819, [CheckableDataSchema::check], and
        3896-3903, [check_one_of_schema]. *)
    Fixpoint check (d : ds) : result error unit :=
      match d with
      | mkDs _ _ o s _ =>
          let! _ := check_subtype (ds_size d) s in
          match o with
          | Some l =>
              (fix go (l : list ds) : result error unit :=
                 match l with
                 | [] => Ok tt
                 | d :: l' => let! _ := check d in go l'
                 end) l
          | None => Ok tt
          end
      end.

    (** ** Language tags *)

    Variable tag_parse : string -> option string.

    (** [k.parse::<LanguageTag>().map_err(|_| InvalidLanguageTag(k))], src/builder.rs
        1788-1790 and 3015 *)
    Definition parse_tag (k : string) : result error string :=
      match tag_parse k with Some t => Ok t | None => Err (InvalidLanguageTag k) end.

    (** src/builder.rs 1782-1793, [MultiLanguageBuilder::build] *)
    Definition ml_build (m : multilang) : result error multilang :=
      let! l := rmap_all (fun kv => let! k := parse_tag (fst kv) in Ok (k, snd kv)) (ord m) in
      Ok (mof l).

    (** The human readable part of the conversions: titles first, then
        descriptions. src/builder/data_schema.rs 3905-3959. *)
    Definition info_build (i : info) : result error info :=
      let! ts := ropt ml_build (i_titles i) in
      let! dcs := ropt ml_build (i_descriptions i) in
      Ok {| i_attype := i_attype i; i_title := i_title i; i_titles := ts;
            i_description := i_description i; i_descriptions := dcs |}.

    (** [HashMap::into_iter().map(|(k, v)| v.try_into().map(|v| (k, v))).collect()]. src/builder.rs 876-883. *)
    Definition map_build {A B} (f : A -> result error B) (m : amap A) : result error (amap B) :=
      let! l := rmap_all (fun kv => let! v := f (snd kv) in Ok (fst kv, v)) (ord m) in
      Ok (mof l).

    (** src/builder/data_schema.rs 3905-3959 [TryFrom<UncheckedDataSchema>],
        3975-3993 subtype, 3995-4025 array, 4027-4051 object.
        The hash map of an object is reordered after converting its values (the
        values are converted before [ord] picks the first error): the recursion
        has to run over the list itself. *)
    Fixpoint ds_build (d : ds) : result error ds :=
      let goL := fix goL (l : list ds) : list (result error ds) :=
                   match l with [] => [] | d :: l' => ds_build d :: goL l' end in
      let goM := fix goM (l : list (string * ds)) : list (string * result error ds) :=
                   match l with [] => [] | (k, d) :: l' => (k, ds_build d) :: goM l' end in
      match d with
      | mkDs i m o s x =>
          let! i' := info_build i in
          let! o' := ropt (fun l => rmap_all (fun r => r) (goL l)) o in
          let! s' :=
            match s with
            | None => Ok None
            | Some (SArray (Some (BElem e)) mn mx a) =>
                let! e' := ds_build e in Ok (Some (SArray (Some (BElem e')) mn mx a))
            | Some (SArray (Some (BVec l)) mn mx a) =>
                let! l' := rmap_all (fun r => r) (goL l) in
                Ok (Some (SArray (Some (BVec l')) mn mx a))
            | Some (SObject (Some ps) req a) =>
                let! ps' := map_build (fun r => r) (goM ps) in
                Ok (Some (SObject (Some ps') req a))
            | Some (SArray None mn mx a) => Ok (Some (SArray None mn mx a))
            | Some (SObject None req a) => Ok (Some (SObject None req a))
            | Some SBoolean => Ok (Some SBoolean)
            | Some (SNumber n) => Ok (Some (SNumber n))
            | Some (SInteger n) => Ok (Some (SInteger n))
            | Some (SString t) => Ok (Some (SString t))
            | Some SNull => Ok (Some SNull)
            end in
          Ok (mkDs i' m o' s' x)
      end.

    (** src/builder/data_schema.rs 3961-3973, [uri_variables_contains_arrays_objects] *)
    Definition uri_has_aggregates (m : amap ds) : bool :=
      existsb (fun kv =>
        match ds_sub (snd kv) with
        | Some (SObject _ _ _) | Some (SArray _ _ _ _) => true
        | _ => false
        end) (ord m).
  End Check.
End Builder.

Arguments DInfo {DS AS OS} o.
Arguments DUnit {DS AS OS} s.
Arguments DFormat {DS AS OS} s.
Arguments DDefault {DS AS OS} j.
Arguments DFinish {DS AS OS} o.
Arguments DTuple {DS AS OS} o.
Arguments DVec {DS AS OS} o.
Arguments DBool {DS AS OS}.
Arguments DNumber {DS AS OS}.
Arguments DInteger {DS AS OS}.
Arguments DObject {DS AS OS} o.
Arguments DString {DS AS OS}.
Arguments DNull {DS AS OS}.
Arguments DConstant {DS AS OS} j.
Arguments DEnum {DS AS OS} j.
Arguments DOneOf {DS AS OS} p.
Arguments DReadOnly {DS AS OS}.
Arguments DWriteOnly {DS AS OS}.
Arguments DAppend {DS AS OS} p.
Arguments DSetItem {DS AS OS} p.
Arguments DMinItems {DS AS OS} n.
Arguments DMaxItems {DS AS OS} n.
Arguments DNumMin {DS AS OS} m.
Arguments DNumMax {DS AS OS} m.
Arguments DNumMult {DS AS OS} x.
Arguments DIntMin {DS AS OS} m.
Arguments DIntMax {DS AS OS} m.
Arguments DIntMult {DS AS OS} n.
Arguments DProperty {DS AS OS} name required p.
Arguments DMinLength {DS AS OS} n.
Arguments DMaxLength {DS AS OS} n.
Arguments DPattern {DS AS OS} s.
Arguments DEncoding {DS AS OS} s.
Arguments DMedia {DS AS OS} s.
Arguments KBase {DS AS OS}.
Arguments KStateless {DS AS OS} ty.
Arguments KTuple {DS AS OS} items o.
Arguments KVec {DS AS OS} item mn mx o.
Arguments KNumber {DS AS OS} n.
Arguments KInteger {DS AS OS} n.
Arguments KObject {DS AS OS} props required o.
Arguments KString {DS AS OS} s.
Arguments KEnum {DS AS OS}.
Arguments KOneOf {DS AS OS}.
Arguments dempty {DS AS OS}.
