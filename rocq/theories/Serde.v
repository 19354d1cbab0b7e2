(** * What the serde derive macros expand to

    The crate uses [#[derive(Serialize, Deserialize)]] from serde, [#[serde_as]]
    and [#[skip_serializing_none]] from serde_with.  Their sources are not part
    of /repo; the definitions below are the behaviour the attributes in
    src/thing.rs, src/hlist.rs and src/protocol/*.rs rely on.  Decoding returns
    [option]: the contents of serde error messages are not modelled. *)

From Coq Require Import String Bool ZArith Permutation Lia List.
From Coq Require Import Floats.SpecFloat.
From Verif Require Import Base MinMax Json.
Import ListNotations.
Set Implicit Arguments.
Local Open Scope string_scope.
Local Open Scope list_scope.

(** ** Serialization

    Every serializer takes [mk : entries -> json], the way the serializer back
    end assembles an object from the members emitted one after the other. *)

(** [serde_json::to_string]: members are written as they come. As in the tests, src/thing.rs 1732 and later. *)
Definition mk_text (es : entries) : json := JObj es.

(** [serde_json::to_value]: [Map::insert] into a [BTreeMap]. As in the tests, src/thing.rs 1732 and later. *)
Definition mk_value (es : entries) : json := JObj (mof es).

(** A mandatory or always-written member. E.g. src/thing.rs 61, 1433. *)
Definition fld (k : string) (j : json) : entries := [(k, j)].

(** [Option] member under [#[skip_serializing_none]]. E.g. src/thing.rs 52, 295, 671. *)
Definition ofld {A} (k : string) (f : A -> json) (o : option A) : entries :=
  match o with Some a => [(k, f a)] | None => [] end.

(** [Vec<A>], e.g. src/thing.rs 707. *)
Definition s_list {A} (f : A -> json) (l : list A) : json := JArr (map f l).

(** [HashMap<String, A>]. E.g. src/thing.rs 30. *)
Definition s_map {A} (mk : entries -> json) (f : A -> json) (m : amap A) : json := mk (mmap f m).

(** [serde_with::OneOrMany<_, PreferOne>]. E.g. src/thing.rs 68, 131, 156. *)
Definition s_oom {A} (f : A -> json) (l : list A) : json :=
  match l with [a] => f a | _ => JArr (map f l) end.

(** [f64]: serde_json has no syntax for infinities and NaN and writes [null]. *)
Definition s_f64 (x : f64) : json := if f64_finite x then JFloat x else JNull.

(** ** Deserialization: members *)

(** Member without default that is not an [Option]. Repeated members are
    rejected ("duplicate field"). E.g. src/thing.rs 1433. *)
Definition req {A} (k : string) (d : json -> option A) (es : entries) : option A :=
  match get k es with [v] => d v | _ => None end.

(** [Option<A>] member. E.g. src/thing.rs 411. *)
Definition opt {A} (k : string) (d : json -> option A) (es : entries) : option (option A) :=
  match get k es with
  | [] => Some None
  | [JNull] => Some None
  | [v] => option_map Some (d v)
  | _ => None
  end.

(** [#[serde(default)]] member. E.g. src/thing.rs 485, 710. *)
Definition dflt {A} (k : string) (a : A) (d : json -> option A) (es : entries) : option A :=
  match get k es with [] => Some a | [v] => d v | _ => None end.

(** ** Deserialization: values *)

(** [String], e.g. src/thing.rs 1433. *)
Definition d_str (j : json) : option string :=
  match j with JStr s => Some s | _ => None end.

(** [bool], src/thing.rs 411, 486, 711. *)
Definition d_bool (j : json) : option bool :=
  match j with JBool b => Some b | _ => None end.

(** integer types: [lo <= n <= hi]; floats are rejected. E.g. src/thing.rs 802. *)
Definition d_int (lo hi : Z) (j : json) : option Z :=
  match j with
  | JInt n => if (lo <=? n)%Z && (n <=? hi)%Z then Some n else None
  | _ => None
  end.

(** [u8], src/protocol/coap.rs 64. *)
Definition d_u8 := d_int 0 255.
(** [u16], src/protocol/coap.rs 24, 66, 68. *)
Definition d_u16 := d_int 0 65535.
(** [u32], src/thing.rs 802, 805, 1084, 1087. *)
Definition d_u32 := d_int 0 4294967295.
(** [usize] (64 bits), src/protocol/http.rs 38. *)
Definition d_u64 := d_int 0 18446744073709551615.
(** [NonZeroU64], src/thing.rs 1027. *)
Definition d_nz_u64 := d_int 1 18446744073709551615.
(** [i64], src/thing.rs 1020, 1024. *)
Definition d_i64 := d_int (-9223372036854775808) 9223372036854775807.

(** [f64] accepts integers too ([visit_i64], [visit_u64]). *)
Definition d_f64 (j : json) : option f64 :=
  match j with
  | JFloat x => Some x
  | JInt n => Some (f64_of_Z n)
  | _ => None
  end.

(** [serde_json::Value]. src/thing.rs 61, 694, 1178. *)
Definition d_value (j : json) : option json := Some (canon j).

(** [Vec<A>], src/thing.rs 707. *)
Definition d_list {A} (d : json -> option A) (j : json) : option (list A) :=
  match j with JArr l => omap_all d l | _ => None end.

(** [HashMap<String, A>]; later entries win. E.g. src/thing.rs 30. *)
Definition d_map {A} (d : json -> option A) (j : json) : option (amap A) :=
  match j with
  | JObj es =>
      option_map mof
        (omap_all (fun kv => option_map (fun a => (fst kv, a)) (d (snd kv))) es)
  | _ => None
  end.

(** [serde_with::OneOrMany]: a single value is tried first, then a sequence. src/thing.rs 68, 131, 156. *)
Definition d_oom {A} (d : json -> option A) (j : json) : option (list A) :=
  match d j with
  | Some a => Some [a]
  | None => d_list d j
  end.

(** First entry of a name table with the given name: derived variant names. E.g. src/thing.rs 1293-1302, src/protocol/http.rs 8-16. *)
Fixpoint assoc_name {A} (s : string) (tbl : list (string * A)) : option A :=
  match tbl with
  | [] => None
  | (n, a) :: tbl' => if String.eqb s n then Some a else assoc_name s tbl'
  end.

(** Externally tagged enum of unit variants: the variant name as a string, or
    [{"name": null}].  Simplification: newer serde also takes [{"name": {}}]. E.g. src/thing.rs 1293-1302. *)
Definition d_variant {A} (tbl : list (string * A)) (j : json) : option A :=
  match j with
  | JStr s => assoc_name s tbl
  | JObj [(s, JNull)] => assoc_name s tbl
  | _ => None
  end.

(** Variant identifier of an internally tagged enum: name or index. src/thing.rs 737, 1134. *)
Definition d_tag {A} (tbl : list (string * A)) (j : json) : option A :=
  match j with
  | JStr s => assoc_name s tbl
  | JInt n => if (0 <=? n)%Z then nth_error (map snd tbl) (Z.to_nat n) else None
  | _ => None
  end.

(** Struct without flattened members: an object, or an array with the members in
    declaration order ([visit_seq]). [n] is the number of members. E.g. src/thing.rs 1428-1459. *)
Definition d_struct {A} (n : nat) (dobj : entries -> option A) (dseq : list json -> option A)
  (j : json) : option A :=
  match j with
  | JObj es => dobj es
  | JArr l => if Nat.leb (List.length l) n then dseq l else None
  | _ => None
  end.

(** Struct with flattened members: an object only ([deserialize_map]). E.g. src/thing.rs 165, 328. *)
Definition d_flat {A} (dobj : entries -> option A) (j : json) : option A :=
  match j with JObj es => dobj es | _ => None end.

(** Members of a struct read from an array ([visit_seq]). E.g. src/thing.rs 1433. *)
Definition sq_req {A} (i : nat) (d : json -> option A) (l : list json) : option A :=
  match nth_error l i with Some v => d v | None => None end.

(** [Option] member, e.g. src/thing.rs 1438. *)
Definition sq_opt {A} (i : nat) (d : json -> option A) (l : list json) : option (option A) :=
  match nth_error l i with
  | Some JNull => Some None
  | Some v => option_map Some (d v)
  | None => None
  end.

(** [Option] member with [#[serde(default)]]: may be missing at the end. src/thing.rs 1456-1458. *)
Definition sq_optd {A} (i : nat) (d : json -> option A) (l : list json) : option (option A) :=
  match nth_error l i with
  | Some JNull => Some None
  | Some v => option_map Some (d v)
  | None => Some None
  end.

(** [#[serde(default)]] member: may be missing at the end, e.g. src/thing.rs 1715. *)
Definition sq_dflt {A} (i : nat) (a : A) (d : json -> option A) (l : list json) : option A :=
  match nth_error l i with Some v => d v | None => Some a end.

(** ** Extensions

    A type plugged into one of the extension points ([ExtendablePiece],
    src/extend.rs 13).  [p_de] reads the members left over by the enclosing
    struct ([FlatMapDeserializer]).  A derived struct without flattened members
    removes the members it knows ([p_take]); everything else leaves them all
    ([p_take = []]).  Simplification: extensions that do not serialize as
    members (serde reports an error) are not represented. *)
Record piece := {
  pty : Type;
  p_ser : (entries -> json) -> pty -> entries;
  p_de : entries -> option pty;
  p_take : list string;
}.
