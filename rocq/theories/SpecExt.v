(** * Vocabulary of the extension properties *)

From Coq Require Import String Bool ZArith List.
From Verif Require Import Base MinMax Json Serde Types DsBuilder Builder HList Extend Protocol SpecSerde.
Import ListNotations.
Set Implicit Arguments.
Local Open Scope string_scope.
Local Open Scope list_scope.

(** ** Heterogeneous lists as plain lists

    The elements of a list together with their types, from the head on. *)
Definition dyn : Type := {T : Type & T}.
Definition any {T : Type} (v : T) : dyn := existT (fun T => T) T v.

Fixpoint elems (ts : list Type) : hl ts -> list dyn :=
  match ts return hl ts -> list dyn with
  | [] => fun _ => []
  | T :: ts' => fun l => any (fst l) :: elems ts' (snd l)
  end.

(** Replace the [n]th element of a plain list. *)
Fixpoint update {A} (n : nat) (a : A) (l : list A) : list A :=
  match l, n with
  | [], _ => []
  | _ :: l', O => a :: l'
  | b :: l', S n' => b :: update n' a l'
  end.

(** The [n]th of a list of references, with the type of what it refers to. *)
Fixpoint ref_at (S : Type) (ts : list Type) (n : nat) : hl (map (ref S) ts) -> option {T : Type & ref S T} :=
  match ts return hl (map (ref S) ts) -> option {T : Type & ref S T} with
  | [] => fun _ => None
  | T :: ts' => fun l =>
      match n with
      | O => Some (existT (ref S) T (fst l))
      | Datatypes.S n' => ref_at S ts' n' (snd l)
      end
  end.

(** ** Extensions with the member names they use and the values considered *)
Record named_ext := { e_piece : piece; e_names : list string; e_ok : pty e_piece -> Prop }.

(** Extensions combined with [Cons] and [Nil] in any shape. *)
Inductive ext_tree :=
| ENil
| EOne (e : named_ext)
| ECons (a b : ext_tree).

Fixpoint tree_piece (t : ext_tree) : piece :=
  match t with
  | ENil => nil_piece
  | EOne e => e_piece e
  | ECons a b => cons_piece (tree_piece a) (tree_piece b)
  end.

(** The extensions in a tree, in order. *)
Fixpoint tree_exts (t : ext_tree) : list named_ext :=
  match t with
  | ENil => []
  | EOne e => [e]
  | ECons a b => tree_exts a ++ tree_exts b
  end.

Definition tree_names (t : ext_tree) : list string := concat (map e_names (tree_exts t)).

(** Every part of a value is one of those considered. *)
Fixpoint tree_ok (t : ext_tree) : pty (tree_piece t) -> Prop :=
  match t return pty (tree_piece t) -> Prop with
  | ENil => fun _ => True
  | EOne e => e_ok e
  | ECons a b => fun v => tree_ok a (fst v) /\ tree_ok b (snd v)
  end.

(** The members each part contributes, in order. *)
Fixpoint tree_members (mk : entries -> json) (t : ext_tree) : pty (tree_piece t) -> list entries :=
  match t return pty (tree_piece t) -> list entries with
  | ENil => fun _ => []
  | EOne e => fun v => [p_ser (e_piece e) mk v]
  | ECons a b => fun v => tree_members mk a (fst v) ++ tree_members mk b (snd v)
  end.

(** No two extensions share a member name. *)
Definition apart (l : list named_ext) : Prop :=
  ForallOrdPairs (fun a b => disjoint (e_names a) (e_names b)) l.

(** ** Builders reached by calls

    [form_reached cs ts s]: the calls [cs] on a new builder lead to [s]. *)
Inductive form_reached (X : exts)
  : list (call (fop X) dyn) -> forall ts, open_form X (hl ts) -> Prop :=
| fr_new : form_reached [] [] (open_form_new X)
| fr_call cs ts s o s' :
    form_reached cs ts s -> form_call o s = Some s' -> form_reached (cs ++ [Call dyn o]) ts s'
| fr_ext cs ts s T (v : T) :
    form_reached cs ts s -> form_reached (cs ++ [Ext (fop X) (any v)]) (T :: ts) (form_ext v s).

(** Affordance builders have two extensions: that of the interaction affordance ([inl]),
    and their own ([inr]). *)
Inductive property_reached (X : exts)
  : list (call (pop X) (dyn + dyn)) ->
    forall ti to, open_property X (dstate (pty (x_ds X)) (pty (x_as X)) (pty (x_os X))) (hl ti) (hl to)
    -> Prop :=
| pr_new : property_reached [] [] [] (open_property_new X (@dempty (pty (x_ds X)) (pty (x_as X)) (pty (x_os X))))
| pr_call cs ti to s o s' :
    property_reached cs ti to s -> property_call o s = Some s' ->
    property_reached (cs ++ [Call (dyn + dyn) o]) ti to s'
| pr_ext_ia cs ti to s T (v : T) :
    property_reached cs ti to s ->
    property_reached (cs ++ [Ext (pop X) (inl (any v))]) (T :: ti) to (property_ext_ia v s)
| pr_ext cs ti to s T (v : T) :
    property_reached cs ti to s ->
    property_reached (cs ++ [Ext (pop X) (inr (any v))]) ti (T :: to) (property_ext v s).

Inductive action_reached (X : exts)
  : list (call (aop X) (dyn + dyn)) -> forall ti to, open_action X (hl ti) (hl to) -> Prop :=
| ar_new : action_reached [] [] [] (open_action_new X)
| ar_call cs ti to s o s' :
    action_reached cs ti to s -> action_call o s = Some s' ->
    action_reached (cs ++ [Call (dyn + dyn) o]) ti to s'
| ar_ext_ia cs ti to s T (v : T) :
    action_reached cs ti to s ->
    action_reached (cs ++ [Ext (aop X) (inl (any v))]) (T :: ti) to (action_ext_ia v s)
| ar_ext cs ti to s T (v : T) :
    action_reached cs ti to s ->
    action_reached (cs ++ [Ext (aop X) (inr (any v))]) ti (T :: to) (action_ext v s).

Inductive event_reached (X : exts)
  : list (call (eop X) (dyn + dyn)) -> forall ti to, open_event X (hl ti) (hl to) -> Prop :=
| er_new : event_reached [] [] [] (open_event_new X)
| er_call cs ti to s o s' :
    event_reached cs ti to s -> event_call o s = Some s' ->
    event_reached (cs ++ [Call (dyn + dyn) o]) ti to s'
| er_ext_ia cs ti to s T (v : T) :
    event_reached cs ti to s ->
    event_reached (cs ++ [Ext (eop X) (inl (any v))]) (T :: ti) to (event_ext_ia v s)
| er_ext cs ti to s T (v : T) :
    event_reached cs ti to s ->
    event_reached (cs ++ [Ext (eop X) (inr (any v))]) ti (T :: to) (event_ext v s).

(** The two kinds of extensions added to an affordance *)
Definition lefts {A B} (l : list (A + B)) : list A :=
  flat_map (fun x => match x with inl a => [a] | inr _ => [] end) l.
Definition rights {A B} (l : list (A + B)) : list B :=
  flat_map (fun x => match x with inl _ => [] | inr b => [b] end) l.

Inductive ds_reached (AS OS : Type)
  : list (call ds_early dyn) -> forall ts, open_ds (hl ts) AS OS -> Prop :=
| dr_new : ds_reached [] [] (open_ds_new AS OS)
| dr_call cs ts s o :
    ds_reached cs ts s -> ds_reached (cs ++ [Call dyn o]) ts (ds_call o s)
| dr_ext cs ts s T (v : T) :
    ds_reached cs ts s -> ds_reached (cs ++ [Ext ds_early (any v)]) (T :: ts) (ds_ext v s).

(** A value of the extension of a thing builder, and those in a list of extensions *)
Definition thing_dyn : Type := {A : exts & pty (x_t A)}.

Fixpoint thing_elems (l : list exts) : pty (x_t (all_exts l)) -> list thing_dyn :=
  match l return pty (x_t (all_exts l)) -> list thing_dyn with
  | [] => fun _ => []
  | A :: l' => fun v => existT (fun A => pty (x_t A)) A (fst v) :: thing_elems l' (snd v)
  end.

Inductive thing_reached (E : env) (title : string)
  : list (call (thing_early E) thing_dyn) -> forall l, tstate E (all_exts l) -> Prop :=
| tr_new : thing_reached title [] [] (open_thing_new E title)
| tr_call cs l s o s' :
    thing_reached title cs l s -> tstep (thing_late (all_exts l) o) s = Some s' ->
    thing_reached title (cs ++ [Call thing_dyn o]) l s'
| tr_ext cs l s A (v : pty (x_t A)) :
    thing_reached title cs l s ->
    thing_reached title (cs ++ [Ext (thing_early E) (existT (fun A => pty (x_t A)) A v)]) (A :: l)
      (thing_ext A v s).

(** What [prop_run] (Builder.v) starts from. *)
Definition property_start X (xi : pty (x_ia X)) (xp : pty (x_pa X)) : property_b X :=
  {| pb_ia := ia_new X xi; pb_ds := dempty; pb_observable := None; pb_other := xp |}.

(** None of the members whose type depends on the extension is set. *)
Definition thing_bare E X (s : tstate E X) : Prop :=
  tb_properties s = [] /\ tb_actions s = [] /\ tb_events s = [] /\ tb_forms s = None
  /\ tb_uri s = None /\ tb_schemas s = [] /\ tb_extended s = false.

(** ** Protocol bindings

    The member names of the bindings. *)
Definition http_names : xnames :=
  {| k_t := []; k_ia := []; k_pa := []; k_aa := []; k_ea := []; k_f := ["htv:methodName"];
     k_er := ["htv:headers"; "htv:statusCodeValue"]; k_ds := []; k_os := []; k_as := [] |}.

Definition coap_names : xnames :=
  {| k_t := []; k_ia := []; k_pa := []; k_aa := []; k_ea := [];
     k_f := ["cov:method"; "cov:blockwise"; "cov:qblockwise"; "cov:hopLimit"; "cov:accept";
             "cov:contentFormat"];
     k_er := ["cov:contentFormat"]; k_ds := []; k_os := []; k_as := [] |}.

Definition mqtt_names : xnames :=
  {| k_t := []; k_ia := []; k_pa := []; k_aa := []; k_ea := [];
     k_f := ["mqv:retain"; "mqv:controlPacket"; "mqv:qos"; "mqv:topic"; "mqv:filter"];
     k_er := []; k_ds := []; k_os := []; k_as := [] |}.

(** A response without headers cannot be read back (see [C33]). *)
Definition http_response_ok (r : http_response) : Prop :=
  hr_headers r <> [] /\ all_some in_u64 (hr_status r).

Definition http_values : xvalues http_exts :=
  {| v_t := fun _ : pty (x_t http_exts) => True;
     v_ia := fun _ : pty (x_ia http_exts) => True; v_pa := fun _ : pty (x_pa http_exts) => True;
     v_aa := fun _ : pty (x_aa http_exts) => True; v_ea := fun _ : pty (x_ea http_exts) => True;
     v_f := fun _ : pty (x_f http_exts) => True; v_er := http_response_ok : pty (x_er http_exts) -> Prop;
     v_ds := fun _ : pty (x_ds http_exts) => True; v_os := fun _ : pty (x_os http_exts) => True;
     v_as := fun _ : pty (x_as http_exts) => True |}.

(** The ranges of [u8] and [u16]. *)
Definition coap_form_ok (f : coap_form) : Prop :=
  all_some in_u8 (cf_hop f) /\ all_some in_u16 (cf_accept f) /\ all_some in_u16 (cf_format f).

Definition coap_response_ok (r : coap_response) : Prop := all_some in_u16 (cr_format r).

Definition coap_values : xvalues coap_exts :=
  {| v_t := fun _ : pty (x_t coap_exts) => True;
     v_ia := fun _ : pty (x_ia coap_exts) => True; v_pa := fun _ : pty (x_pa coap_exts) => True;
     v_aa := fun _ : pty (x_aa coap_exts) => True; v_ea := fun _ : pty (x_ea coap_exts) => True;
     v_f := coap_form_ok : pty (x_f coap_exts) -> Prop;
     v_er := coap_response_ok : pty (x_er coap_exts) -> Prop;
     v_ds := fun _ : pty (x_ds coap_exts) => True; v_os := fun _ : pty (x_os coap_exts) => True;
     v_as := fun _ : pty (x_as coap_exts) => True |}.

Definition mqtt_values : xvalues mqtt_exts :=
  {| v_t := fun _ : pty (x_t mqtt_exts) => True;
     v_ia := fun _ : pty (x_ia mqtt_exts) => True; v_pa := fun _ : pty (x_pa mqtt_exts) => True;
     v_aa := fun _ : pty (x_aa mqtt_exts) => True; v_ea := fun _ : pty (x_ea mqtt_exts) => True;
     v_f := fun _ : pty (x_f mqtt_exts) => True; v_er := fun _ : pty (x_er mqtt_exts) => True;
     v_ds := fun _ : pty (x_ds mqtt_exts) => True; v_os := fun _ : pty (x_os mqtt_exts) => True;
     v_as := fun _ : pty (x_as mqtt_exts) => True |}.

(** ** Two sets of extensions together *)
Definition both_names (K K' : xnames) : xnames :=
  {| k_t := k_t K ++ k_t K'; k_ia := k_ia K ++ k_ia K'; k_pa := k_pa K ++ k_pa K';
     k_aa := k_aa K ++ k_aa K'; k_ea := k_ea K ++ k_ea K'; k_f := k_f K ++ k_f K';
     k_er := k_er K ++ k_er K'; k_ds := k_ds K ++ k_ds K'; k_os := k_os K ++ k_os K';
     k_as := k_as K ++ k_as K' |}.

Definition both {A B} (P : A -> Prop) (Q : B -> Prop) (v : A * B) : Prop := P (fst v) /\ Q (snd v).

Definition both_values X X' (V : xvalues X) (V' : xvalues X') : xvalues (cons_exts X X') :=
  @Build_xvalues (cons_exts X X') (both (v_t V) (v_t V'))
    (both (v_ia V) (v_ia V')) (both (v_pa V) (v_pa V')) (both (v_aa V) (v_aa V'))
    (both (v_ea V) (v_ea V')) (both (v_f V) (v_f V')) (both (v_er V) (v_er V'))
    (both (v_ds V) (v_ds V')) (both (v_os V) (v_os V')) (both (v_as V) (v_as V')).

Record xdisjoint (K K' : xnames) : Prop := {
  xd_t : disjoint (k_t K) (k_t K'); xd_ia : disjoint (k_ia K) (k_ia K');
  xd_pa : disjoint (k_pa K) (k_pa K'); xd_aa : disjoint (k_aa K) (k_aa K');
  xd_ea : disjoint (k_ea K) (k_ea K'); xd_f : disjoint (k_f K) (k_f K');
  xd_er : disjoint (k_er K) (k_er K'); xd_ds : disjoint (k_ds K) (k_ds K');
  xd_os : disjoint (k_os K) (k_os K'); xd_as : disjoint (k_as K) (k_as K');
}.
