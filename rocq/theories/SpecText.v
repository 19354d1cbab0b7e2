(** * Vocabulary for writing a Thing in two ways

    [s_thing mk_text t]: the text of [serde_json::to_string] as a tree, members in the order they are
    written and possibly repeated.  [s_thing mk_value t]: the [Value] of [serde_json::to_value].
    [canon j]: the [Value] that serde_json reads from the text [j] (of repeated members the last one
    counts). *)

From Coq Require Import String Bool List.
From Verif Require Import Base Json Serde Types.
Import ListNotations.
Set Implicit Arguments.
Local Open Scope string_scope.
Local Open Scope list_scope.

(** An extension writes the same members in both ways. *)
Definition writes_alike (p : piece) : Prop :=
  forall a, p_ser p mk_value a = map (fun kv => (fst kv, canon (snd kv))) (p_ser p mk_text a).

Record exts_write_alike (X : exts) : Prop := {
  wa_t : writes_alike (x_t X); wa_ia : writes_alike (x_ia X); wa_pa : writes_alike (x_pa X);
  wa_aa : writes_alike (x_aa X); wa_ea : writes_alike (x_ea X); wa_f : writes_alike (x_f X);
  wa_er : writes_alike (x_er X); wa_ds : writes_alike (x_ds X); wa_os : writes_alike (x_os X);
  wa_as : writes_alike (x_as X);
}.

(** What keeps a Thing from being written at all: a date RFC 3339 cannot express, or a custom
    security scheme whose data has no members (a number, a string, a list). *)
Definition flattens (j : json) : Prop := j = JNull \/ exists es, j = JObj es.

Definition writable E X (t : thing E X) : Prop :=
  (forall d, t_created t = Some d \/ t_modified t = Some d -> exists s, date_fmt E d = Some s)
  /\ forall n s scheme data, In (n, s) (t_secdefs t) -> ss_subtype s = Unknown scheme data -> flattens data.
