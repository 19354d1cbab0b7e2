(** * Heterogeneous lists and extensions (src/hlist.rs, src/extend.rs) *)

From Coq Require Import String Bool ZArith List.
From Verif Require Import Base MinMax Json Serde Types.
Import ListNotations.
Set Implicit Arguments.
Local Open Scope string_scope.
Local Open Scope list_scope.

(** ** Lists

    src/hlist.rs 9 [Nil], 13-25 [Cons].  The type of a list is the list of the types
    of its elements; [hl ts] are the lists of type [ts].  Simplification: tails
    that are not lists themselves ([Cons<A, B>] with [B] neither [Cons] nor [Nil])
    only occur in serialization, see [cons_piece]. *)
Fixpoint hl (ts : list Type) : Type :=
  match ts with
  | [] => unit
  | T :: ts' => (T * hl ts')%type
  end.

(** src/hlist.rs 9, [Nil] *)
Definition hnil : hl [] := tt.

(** src/hlist.rs 30, 41, [cons]; src/extend.rs 143, 159, [Extend::ext] *)
Definition hcons {T ts} (l : hl ts) (v : T) : hl (T :: ts) := (v, l).

(** src/hlist.rs 49, [split_head] *)
Definition hsplit_head {T ts} (l : hl (T :: ts)) : T * hl ts := l.

(** Associated types of [NonEmptyHList], src/hlist.rs 141-152, 161-163, 183-185:
    [Last] and [Init] of the list type [T :: ts], [Reversed] of [ts]. *)
Fixpoint last_ty (T : Type) (ts : list Type) : Type :=
  match ts with [] => T | U :: ts' => last_ty U ts' end.

(** src/hlist.rs 141-152, 161-163, 183-185: [Init] of the list type [T :: ts] *)
Fixpoint init_ty (T : Type) (ts : list Type) : list Type :=
  match ts with [] => [] | U :: ts' => T :: init_ty U ts' end.

(** src/hlist.rs 166-170, 187-193, [split_last] *)
Fixpoint hsplit_last (ts : list Type) : forall T, hl (T :: ts) -> last_ty T ts * hl (init_ty T ts) :=
  match ts return forall T, hl (T :: ts) -> last_ty T ts * hl (init_ty T ts) with
  | [] => fun T l => (fst l, snd l)
  | U :: ts' => fun T l =>
      let (last, tail) := @hsplit_last ts' U (snd l) in
      (last, (fst l, tail))
  end.

(** [Reversed], src/hlist.rs 163, 185.  [n] is the length of the list: the
    recursion is on [Init], which is not a part of the list. *)
Fixpoint rev_ty (n : nat) (ts : list Type) : list Type :=
  match n, ts with
  | S n', T :: ts' => last_ty T ts' :: rev_ty n' (init_ty T ts')
  | _, _ => ts
  end.

(** src/hlist.rs 173-175, 195-200, [reverse] *)
Fixpoint hreverse (n : nat) : forall ts, hl ts -> hl (rev_ty n ts) :=
  match n return forall ts, hl ts -> hl (rev_ty n ts) with
  | O => fun ts l => l
  | S n' => fun ts =>
      match ts return hl ts -> hl (rev_ty (S n') ts) with
      | [] => fun l => l
      | T :: ts' => fun l =>
          let (last, init) := @hsplit_last ts' T l in (last, @hreverse n' _ init)
      end
  end.

(** ** References

    A reference into a value of type [S] is a way to read and to replace a part of
    it. *)
(** No counterpart in /repo; stands for [&T] and [&mut T] (src/hlist.rs 56-136). *)
Record ref (S T : Type) := { r_get : S -> T; r_set : T -> S -> S }.

(** The reference to [head], src/hlist.rs 18 *)
Definition fst_ref {S T U} (r : ref S (T * U)) : ref S T :=
  {| r_get := fun s => fst (r_get r s); r_set := fun v s => r_set r (v, snd (r_get r s)) s |}.
(** The reference to [tail], src/hlist.rs 24 *)
Definition snd_ref {S T U} (r : ref S (T * U)) : ref S U :=
  {| r_get := fun s => snd (r_get r s); r_set := fun v s => r_set r (fst (r_get r s), v) s |}.
(** [self] as a reference, src/hlist.rs 62, 113 *)
Definition id_ref {S} : ref S S := {| r_get := fun s => s; r_set := fun v _ => v |}.

(** src/hlist.rs 57-88 [HListRef::to_ref], 92-136 [HListMut::to_mut] *)
Fixpoint hto_ref {S} (ts : list Type) : ref S (hl ts) -> hl (map (ref S) ts) :=
  match ts return ref S (hl ts) -> hl (map (ref S) ts) with
  | [] => fun _ => tt
  | T :: ts' => fun r => (fst_ref r, hto_ref ts' (@snd_ref S T (hl ts') r))
  end.

(** ** Serialization of extensions *)

(** [()]; src/extend.rs 19-20 *)
Definition unit_piece : piece :=
  {| pty := unit; p_ser := fun _ _ => []; p_de := fun _ => Some tt; p_take := [] |}.

(** src/hlist.rs 203-223, [Nil] *)
Definition nil_piece : piece :=
  {| pty := unit; p_ser := fun _ _ => []; p_de := fun _ => Some tt; p_take := [] |}.

(** src/hlist.rs 13-25, [Cons]: both members are flattened, so it reads a map and
    leaves its members to whoever comes next. *)
Definition cons_piece (p q : piece) : piece :=
  {| pty := pty p * pty q;
     p_ser := fun mk ab => p_ser p mk (fst ab) ++ p_ser q mk (snd ab);
     p_de := fun es =>
       let? a := p_de p es in
       let? b := p_de q (without (p_take p) es) in
       Some (a, b);
     p_take := [] |}.

(** src/hlist.rs 13-25, by recursion on the type of the list *)
Fixpoint list_piece (ps : list piece) : piece :=
  match ps with [] => nil_piece | p :: ps' => cons_piece p (list_piece ps') end.

(** ** Extension points *)

(** src/extend.rs 68-78, [ExtendableThing for Nil] *)
Definition nil_exts (t : piece) : exts :=
  {| x_t := t; x_ia := nil_piece; x_pa := nil_piece; x_aa := nil_piece; x_ea := nil_piece;
     x_f := nil_piece; x_er := nil_piece; x_ds := nil_piece; x_os := nil_piece; x_as := nil_piece |}.

(** src/extend.rs 80-94, [ExtendableThing for Cons] *)
Definition cons_exts (a b : exts) : exts :=
  {| x_t := cons_piece (x_t a) (x_t b);
     x_ia := cons_piece (x_ia a) (x_ia b); x_pa := cons_piece (x_pa a) (x_pa b);
     x_aa := cons_piece (x_aa a) (x_aa b); x_ea := cons_piece (x_ea a) (x_ea b);
     x_f := cons_piece (x_f a) (x_f b); x_er := cons_piece (x_er a) (x_er b);
     x_ds := cons_piece (x_ds a) (x_ds b); x_os := cons_piece (x_os a) (x_os b);
     x_as := cons_piece (x_as a) (x_as b) |}.
