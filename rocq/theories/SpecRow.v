(** * Structs written as arrays (C73)

    A derived [Deserialize] of a struct without flattened members also takes an array: the members, without their names, in the
    order in which the struct declares them. *)

From Coq Require Import String Bool ZArith List.
From Verif Require Import Base Json Serde Types Protocol SpecThing.
Import ListNotations.
Set Implicit Arguments.
Local Open Scope string_scope.
Local Open Scope list_scope.

(** A string that may be missing: [null] if it is. *)
Inductive text_cell : option string -> json -> Prop :=
| tc_none : text_cell None JNull
| tc_some s : text_cell (Some s) (JStr s).

(** A block size that may be missing. *)
Inductive block_cell : option block_size -> json -> Prop :=
| bc_none : block_cell None JNull
| bc_16 : block_cell (Some B16) (JInt 16)
| bc_32 : block_cell (Some B32) (JInt 32)
| bc_64 : block_cell (Some B64) (JInt 64)
| bc_128 : block_cell (Some B128) (JInt 128)
| bc_256 : block_cell (Some B256) (JInt 256)
| bc_512 : block_cell (Some B512) (JInt 512)
| bc_1024 : block_cell (Some B1024) (JInt 1024).

(** Languages, the last member of a link: nothing, [null], one of them or a list. *)
Inductive languages_end : option (list string) -> list json -> Prop :=
| le_nothing : languages_end None []
| le_null : languages_end None [JNull]
| le_one s : languages_end (Some [s]) [JStr s]
| le_many l : languages_end (Some l) [JArr (map JStr l)].

(** src/thing.rs 1431-1459: [href], [type], [rel], [anchor], [sizes], [hreflang]. *)
Inductive link_row : link -> list json -> Prop :=
| lr h t r a s ls ct cr ca cs rest :
    text_cell t ct -> text_cell r cr -> text_cell a ca -> text_cell s cs -> languages_end ls rest ->
    link_row {| l_href := h; l_type := t; l_rel := r; l_anchor := a; l_sizes := s; l_hreflang := ls |} (JStr h :: ct :: cr :: ca :: cs :: rest).

(** src/thing.rs 1713-1729: [success], [contentType], [schema]. *)
Inductive response_row : add_resp -> list json -> Prop :=
| rr s c n cc cn : text_cell c cc -> text_cell n cn ->
    response_row {| ar_success := s; ar_ctype := c; ar_schema := n |} [JBool s; cc; cn].

(** src/thing.rs 646-654: [instance], [model]. *)
Inductive version_row : version_info -> list json -> Prop :=
| vr i m cm : text_cell m cm -> version_row {| v_instance := i; v_model := m |} [JStr i; cm].

(** src/protocol/http.rs 19-27: [htv:fieldName], [htv:fieldValue]. *)
Inductive header_row : http_header -> list json -> Prop :=
| hr n v cn cv : text_cell n cn -> text_cell v cv -> header_row {| hh_name := n; hh_value := v |} [cn; cv].

(** src/protocol/coap.rs 42-50: [cov:block2Size], [cov:block1Size]. *)
Inductive blockwise_row : blockwise -> list json -> Prop :=
| br a b ca cb : block_cell a ca -> block_cell b cb -> blockwise_row {| bw_2 := a; bw_1 := b |} [ca; cb].
