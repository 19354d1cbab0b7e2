(** * Vocabulary of the properties about JSON documents *)

From Coq Require Import String Bool ZArith List.
From Coq Require Import Floats.SpecFloat.
From Verif Require Import Base MinMax Json Serde Types SpecSerde.
Import ListNotations.
Set Implicit Arguments.
Local Open Scope string_scope.
Local Open Scope list_scope.

(** ** Unknown members

    The members with the given names, in document order. *)
Definition only (K : list string) (es : entries) : entries :=
  filter (fun kv => smem (fst kv) K) es.

(** The extension looks only at the members named in [K]. *)
Definition reads_only (p : piece) (K : list string) : Prop :=
  forall es es', only K es = only K es' -> p_de p es = p_de p es'.

Record exts_read_only (X : exts) (K : xnames) : Prop := {
  ro_t : reads_only (x_t X) (k_t K); ro_ia : reads_only (x_ia X) (k_ia K);
  ro_pa : reads_only (x_pa X) (k_pa K); ro_aa : reads_only (x_aa X) (k_aa K);
  ro_ea : reads_only (x_ea X) (k_ea K); ro_f : reads_only (x_f X) (k_f K);
  ro_er : reads_only (x_er X) (k_er K); ro_ds : reads_only (x_ds X) (k_ds K);
  ro_os : reads_only (x_os X) (k_os K); ro_as : reads_only (x_as X) (k_as K);
}.

(** What a JSON value stands for, as far as unknown members are concerned.  [DLeaf]:
    a value without optional unknown members (a string, a number, but also a constant or
    a security scheme, whose members are all kept). *)
Inductive doc_kind :=
| DThing | DProperty | DAction | DEvent | DForm | DLink | DSchema | DExpResp | DAddResp | DVersion
| DMap (k : doc_kind) | DList (k : doc_kind) | DOneOrMany (k : doc_kind) | DLeaf.

Section Names.
  Variable K : xnames.

  Definition info_names : list string := ["@type"; "title"; "titles"; "description"; "descriptions"].

  (** The names of [DataSchema] with those of all its types. *)
  Definition ds_names : list string :=
    info_names
    ++ ["const"; "default"; "unit"; "oneOf"; "enum"; "readOnly"; "writeOnly"; "format"; "type";
        "items"; "min_items"; "max_items"; "properties"; "required";
        "maximum"; "exclusiveMaximum"; "minimum"; "exclusiveMinimum"; "multipleOf";
        "minLength"; "maxLength"; "pattern"; "contentEncoding"; "contentMediaType"]
    ++ k_ds K ++ k_as K ++ k_os K.

  Definition interaction_names : list string := info_names ++ ["forms"; "uriVariables"] ++ k_ia K.

  (** The member names known for each kind of object. *)
  Definition names_of (d : doc_kind) : list string :=
    match d with
    | DThing =>
        ["@context"; "id"; "@type"; "title"; "titles"; "description"; "descriptions"; "version";
         "created"; "modified"; "support"; "base"; "properties"; "actions"; "events"; "links"; "forms";
         "security"; "securityDefinitions"; "uriVariables"; "profile"; "schemaDefinitions"] ++ k_t K
    | DProperty => "observable" :: interaction_names ++ ds_names ++ k_pa K
    | DAction =>
        ["input"; "output"; "safe"; "idempotent"; "synchronous"] ++ interaction_names ++ k_aa K
    | DEvent =>
        ["subscription"; "data"; "data_response"; "cancellation"] ++ interaction_names ++ k_ea K
    | DForm =>
        ["op"; "href"; "contentType"; "contentCoding"; "subprotocol"; "security"; "scopes"; "response";
         "additionalResponses"] ++ k_f K
    | DLink => ["href"; "type"; "rel"; "anchor"; "sizes"; "hreflang"]
    | DSchema => ds_names
    | DExpResp => "contentType" :: k_er K
    | DAddResp => ["success"; "contentType"; "schema"]
    | DVersion => ["instance"; "model"]
    | DMap _ | DList _ | DOneOrMany _ | DLeaf => []
    end.

  Definition is_struct (d : doc_kind) : bool :=
    match d with DMap _ | DList _ | DOneOrMany _ | DLeaf => false | _ => true end.
End Names.

Fixpoint lookup_kind (k : string) (l : list (string * doc_kind)) : doc_kind :=
  match l with
  | [] => DLeaf
  | (k', d) :: l' => if String.eqb k k' then d else lookup_kind k l'
  end.

(** The members of each kind of object that hold objects themselves. *)
Definition schema_members : list (string * doc_kind) :=
  [("oneOf", DList DSchema); ("items", DOneOrMany DSchema); ("properties", DMap DSchema)].

Definition interaction_members : list (string * doc_kind) :=
  [("forms", DList DForm); ("uriVariables", DMap DSchema)].

Definition member_kind (d : doc_kind) (k : string) : doc_kind :=
  lookup_kind k
    match d with
    | DThing =>
        [("version", DVersion); ("properties", DMap DProperty); ("actions", DMap DAction);
         ("events", DMap DEvent); ("links", DList DLink); ("forms", DList DForm);
         ("uriVariables", DMap DSchema); ("schemaDefinitions", DMap DSchema)]
    | DProperty => interaction_members ++ schema_members
    | DAction => [("input", DSchema); ("output", DSchema)] ++ interaction_members
    | DEvent =>
        [("subscription", DSchema); ("data", DSchema); ("data_response", DSchema);
         ("cancellation", DSchema)] ++ interaction_members
    | DForm => [("response", DExpResp); ("additionalResponses", DOneOrMany DAddResp)]
    | DSchema => schema_members
    | _ => []
    end.

(** [grown K d j j']: [j] and [j'], read as [d], differ in unknown members only.  At any
    depth objects may have had members with unknown names added or removed, anywhere. *)
Inductive grown (K : xnames) : doc_kind -> json -> json -> Prop :=
| g_same d j : grown K d j j
| g_struct d es es' :
    is_struct d = true ->
    Forall2 (fun kv kv' => fst kv = fst kv' /\ grown K (member_kind d (fst kv)) (snd kv) (snd kv'))
      (only (names_of K d) es) (only (names_of K d) es') ->
    grown K d (JObj es) (JObj es')
| g_map d es es' :
    Forall2 (fun kv kv' => fst kv = fst kv' /\ grown K d (snd kv) (snd kv')) es es' ->
    grown K (DMap d) (JObj es) (JObj es')
| g_list d l l' : Forall2 (grown K d) l l' -> grown K (DList d) (JArr l) (JArr l')
| g_one d j j' : grown K d j j' -> grown K (DOneOrMany d) j j'
| g_many d l l' : Forall2 (grown K d) l l' -> grown K (DOneOrMany d) (JArr l) (JArr l').

(** ** Repeated members and member order *)

(** No object in the document has two members with the same name. *)
Inductive no_repeats : json -> Prop :=
| nr_leaf j : (forall l, j <> JArr l) -> (forall es, j <> JObj es) -> no_repeats j
| nr_arr l : (forall j, In j l -> no_repeats j) -> no_repeats (JArr l)
| nr_obj es : NoDup (map fst es) -> (forall k j, In (k, j) es -> no_repeats j) -> no_repeats (JObj es).

(** [reordered j j']: the same document up to the order of members, at any depth. *)
Inductive reordered : json -> json -> Prop :=
| ro_refl j : reordered j j
| ro_trans j1 j2 j3 : reordered j1 j2 -> reordered j2 j3 -> reordered j1 j3
| ro_swap es1 kv kv' es2 :
    reordered (JObj (es1 ++ kv :: kv' :: es2)) (JObj (es1 ++ kv' :: kv :: es2))
| ro_member es1 k v v' es2 :
    reordered v v' -> reordered (JObj (es1 ++ (k, v) :: es2)) (JObj (es1 ++ (k, v') :: es2))
| ro_item l1 v v' l2 : reordered v v' -> reordered (JArr (l1 ++ v :: l2)) (JArr (l1 ++ v' :: l2)).

(** No object has both an inclusive and an exclusive bound of the same kind. *)
Inductive one_bound_each : json -> Prop :=
| ob_leaf j : (forall l, j <> JArr l) -> (forall es, j <> JObj es) -> one_bound_each j
| ob_arr l : (forall j, In j l -> one_bound_each j) -> one_bound_each (JArr l)
| ob_obj es :
    (In "maximum" (map fst es) -> ~ In "exclusiveMaximum" (map fst es)) ->
    (In "minimum" (map fst es) -> ~ In "exclusiveMinimum" (map fst es)) ->
    (forall k j, In (k, j) es -> one_bound_each j) -> one_bound_each (JObj es).

(** The extension does not care about the order of members (asked only of documents as
    in the properties). *)
Definition order_free (p : piece) : Prop :=
  forall es es', no_repeats (JObj es) -> one_bound_each (JObj es) ->
    reordered (JObj es) (JObj es') -> p_de p es = p_de p es'.

Record exts_order_free (X : exts) : Prop := {
  of_t : order_free (x_t X); of_ia : order_free (x_ia X); of_pa : order_free (x_pa X);
  of_aa : order_free (x_aa X); of_ea : order_free (x_ea X); of_f : order_free (x_f X);
  of_er : order_free (x_er X); of_ds : order_free (x_ds X); of_os : order_free (x_os X);
  of_as : order_free (x_as X);
}.

(** ** Numbers

    What [serde_json::Number] holds: [i64] and [u64] integers, finite floats. *)
Inductive document : json -> Prop :=
| doc_null : document JNull
| doc_bool b : document (JBool b)
| doc_int n : (- 2 ^ 63 <= n < 2 ^ 64)%Z -> document (JInt n)
| doc_float x : f64_finite x = true -> document (JFloat x)
| doc_str s : document (JStr s)
| doc_arr l : (forall j, In j l -> document j) -> document (JArr l)
| doc_obj es : (forall k j, In (k, j) es -> document j) -> document (JObj es).

(** The extension reads only values from [ok]. *)
Definition reads_ok (p : piece) (ok : pty p -> Prop) : Prop :=
  forall es a, document (JObj es) -> p_de p es = Some a -> ok a.

(** All extension points but expected responses. *)
Record exts_read_ok (X : exts) (V : xvalues X) : Prop := {
  rk_t : reads_ok (x_t X) (v_t V); rk_ia : reads_ok (x_ia X) (v_ia V);
  rk_pa : reads_ok (x_pa X) (v_pa V); rk_aa : reads_ok (x_aa X) (v_aa V);
  rk_ea : reads_ok (x_ea X) (v_ea V); rk_f : reads_ok (x_f X) (v_f V);
  rk_ds : reads_ok (x_ds X) (v_ds V); rk_os : reads_ok (x_os X) (v_os V);
  rk_as : reads_ok (x_as X) (v_as V);
}.
