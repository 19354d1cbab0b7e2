(** * Vocabulary: documents up to member order, where order cannot matter

    Two members are rivals if the first of them counts: the same member given twice, or the inclusive
    and the exclusive form of a bound. *)

From Coq Require Import String List.
From Verif Require Import Base Json Serde Types.
Import ListNotations.
Set Implicit Arguments.
Local Open Scope string_scope.
Local Open Scope list_scope.

Definition rivals (k k' : string) : Prop :=
  k = k'
  \/ (In k ["maximum"; "exclusiveMaximum"] /\ In k' ["maximum"; "exclusiveMaximum"])
  \/ (In k ["minimum"; "exclusiveMinimum"] /\ In k' ["minimum"; "exclusiveMinimum"]).

(** Bounds are numbers. *)
Definition numeric (j : json) : Prop := match j with JInt _ | JFloat _ => True | _ => False end.

(** Two members whose order does not count: they have different names, and if these are the names of bounds neither
    is a number (as in a map with entries of those names). *)
Definition may_swap (kv kv' : string * json) : Prop :=
  fst kv <> fst kv' /\ (rivals (fst kv) (fst kv') -> ~ numeric (snd kv) /\ ~ numeric (snd kv')).

(** [shuffled j j']: the same document up to the order of members at any depth, rivals keeping their
    order.  Members may be repeated. *)
Inductive shuffled : json -> json -> Prop :=
| sh_refl j : shuffled j j
| sh_trans j1 j2 j3 : shuffled j1 j2 -> shuffled j2 j3 -> shuffled j1 j3
| sh_swap es1 kv kv' es2 :
    may_swap kv kv' ->
    shuffled (JObj (es1 ++ kv :: kv' :: es2)) (JObj (es1 ++ kv' :: kv :: es2))
| sh_member es1 k v v' es2 :
    shuffled v v' -> shuffled (JObj (es1 ++ (k, v) :: es2)) (JObj (es1 ++ (k, v') :: es2))
| sh_item l1 v v' l2 : shuffled v v' -> shuffled (JArr (l1 ++ v :: l2)) (JArr (l1 ++ v' :: l2)).

(** Extensions that do not care either. *)
Definition shuffle_free (p : piece) : Prop :=
  forall es es', shuffled (JObj es) (JObj es') -> p_de p es = p_de p es'.

Record exts_shuffle_free (X : exts) : Prop := {
  sf_t : shuffle_free (x_t X); sf_ia : shuffle_free (x_ia X); sf_pa : shuffle_free (x_pa X);
  sf_aa : shuffle_free (x_aa X); sf_ea : shuffle_free (x_ea X); sf_f : shuffle_free (x_f X);
  sf_er : shuffle_free (x_er X); sf_ds : shuffle_free (x_ds X); sf_os : shuffle_free (x_os X);
  sf_as : shuffle_free (x_as X);
}.
