(** * The arguments of builder calls

    [args_typed]: what the Rust types of the arguments guarantee.  [args_ok]: arguments that
    survive being written and read. *)

From Coq Require Import String Bool ZArith List.
From Verif Require Import Base MinMax Json Serde Types DsBuilder Builder Spec SpecCalls SpecThing SpecSerde SpecTyped.
Import ListNotations.
Set Implicit Arguments.
Local Open Scope string_scope.
Local Open Scope list_scope.

(** [calls p o]: the call [o] is made in [p] or, at any depth, in a closure passed in [p]. *)
Section Calls.
  Variables DS AS OS : Type.
  Notation dsop := (dsop DS AS OS).

  Definition closure (o : dsop) : option (list dsop) :=
    match o with DOneOf q | DAppend q | DSetItem q | DProperty _ _ q => Some q | _ => None end.

  Inductive calls : list dsop -> dsop -> Prop :=
  | calls_here p o : In o p -> calls p o
  | calls_inside p o q o' : In o p -> closure o = Some q -> calls q o' -> calls p o'.
End Calls.

Section Args.
  Variable E : env.
  Variable X : exts.
  Notation dsop := (dsop (pty (x_ds X)) (pty (x_as X)) (pty (x_os X))).

  (** What is asked of the arguments. *)
  Record limits := {
    lm_value : json -> Prop;               (* constants and defaults *)
    lm_enum : json -> Prop;                (* values of enumerations *)
    lm_float : f64 -> Prop;
    lm_custom : string -> json -> Prop;    (* custom security schemes: name and data *)
    lm_date : date E -> Prop;
    lm_ext : xvalues X;
  }.

  Variable L : limits.

  Definition dsop_fits (o : dsop) : Prop :=
    match o with
    | DConstant v | DDefault v => lm_value L v
    | DEnum v => lm_enum L v
    | DFinish x => v_ds (lm_ext L) x
    | DTuple x | DVec x => v_as (lm_ext L) x
    | DObject x => v_os (lm_ext L) x
    | DMinItems n | DMaxItems n | DMinLength n | DMaxLength n => in_u32 n
    | DNumMin m => lm_float L (min_val m)
    | DNumMax m => lm_float L (max_val m)
    | DNumMult x => lm_float L x
    | DIntMin m => in_i64 (min_val m)
    | DIntMax m => in_i64 (max_val m)
    | DIntMult n => in_nz_u64 n
    | _ => True
    end.

  Definition ds_args (p : list dsop) : Prop := forall o, calls p o -> dsop_fits o.

  Definition form_args (x : pty (x_f X)) (p : list (fop X)) : Prop :=
    v_f (lm_ext L) x /\ forall c y, In (FResponse c y) p -> v_er (lm_ext L) y.

  Definition ia_args (x : pty (x_ia X)) (p : list (ia_op X)) : Prop :=
    v_ia (lm_ext L) x
    /\ (forall y q, In (IForm y q) p -> form_args y q)
    /\ forall n q, In (IUri n q) p -> ds_args q.

  Definition sec_args (p : list sec_op) : Prop :=
    forall scheme, In (SCustom scheme) p ->
      lm_custom L scheme (match lasto (picks w_data p) with Some v => v | None => JNull end).

  Definition top_fits (o : top E X) : Prop :=
    match o with
    | TCreated d | TModified d => lm_date L d
    | TSecurity p => sec_args p
    | TForm x p => form_args x p
    | TUri _ q | TSchema _ q => ds_args q
    | TProperty _ xi xp p => ia_args xi (picks (@p_ia X) p) /\ ds_args (picks (@p_ds X) p) /\ v_pa (lm_ext L) xp
    | TAction _ xi xa p =>
        ia_args xi (picks (@a_ia X) p) /\ v_aa (lm_ext L) xa
        /\ forall q, In (AInput q) p \/ In (AOutput q) p -> ds_args q
    | TEvent _ xi xe p =>
        ia_args xi (picks (@e_ia X) p) /\ v_ea (lm_ext L) xe
        /\ forall q, In (ESubscription q) p \/ In (EData q) p \/ In (EDataResponse q) p \/ In (ECancellation q) p ->
             ds_args q
    | _ => True
    end.

  Definition args (x : pty (x_t X)) (p : list (top E X)) : Prop :=
    v_t (lm_ext L) x /\ forall o, In o p -> top_fits o.
End Args.

(** Guaranteed by the types *)
Definition typed_limits E X (T : xvalues X) : limits E X :=
  {| lm_value := value_typed; lm_enum := value_typed; lm_float := fun _ => True;
     lm_custom := fun _ v => value_typed v; lm_date := fun _ => True; lm_ext := T |}.

Definition args_typed E X (T : xvalues X) : pty (x_t X) -> list (top E X) -> Prop := args (typed_limits E T).

(** Constants and defaults that are not [null], finite numbers, custom schemes that are not
    taken for known ones and whose data is an object without the members of a scheme,
    dates that can be written, extension values that survive. *)
Definition ok_limits E X (V : xvalues X) : limits E X :=
  {| lm_value := some_value; lm_enum := value_ok; lm_float := finite;
     lm_custom := custom_ok distinct; lm_date := date_ok E; lm_ext := V |}.

Definition args_ok E X (V : xvalues X) : pty (x_t X) -> list (top E X) -> Prop := args (ok_limits E V).

(** ** The calls that count

    Of several properties (actions, events) with the same name, the last one is kept. *)
Section Affordances.
  Variable E : env.
  Variable X : exts.

  (** The calls [q] describe an affordance of the Thing: its form and URI variable calls. *)
  Inductive affordance_calls (p : list (top E X)) : list (ia_op X) -> Prop :=
  | ac_property n xi xp q : llook n (picks (@t_of_property E X) p) = Some (xi, xp, q) ->
      affordance_calls p (picks (@p_ia X) q)
  | ac_action n xi xa q : llook n (picks (@t_of_action E X) p) = Some (xi, xa, q) ->
      affordance_calls p (picks (@a_ia X) q)
  | ac_event n xi xe q : llook n (picks (@t_of_event E X) p) = Some (xi, xe, q) ->
      affordance_calls p (picks (@e_ia X) q).

  (** The affordances of a Thing *)
  Inductive affordance (t : thing E X) : interaction X -> Prop :=
  | af_property ps n a : t_properties t = Some ps -> In (n, a) ps -> affordance t (pa_ia a)
  | af_action ps n a : t_actions t = Some ps -> In (n, a) ps -> affordance t (aa_ia a)
  | af_event ps n a : t_events t = Some ps -> In (n, a) ps -> affordance t (ea_ia a).

  (** Some property is given a title, a description or a type. *)
  Definition titles_property (p : list (top E X)) : Prop :=
    exists n xi xp q o, llook n (picks (@t_of_property E X) p) = Some (xi, xp, q) /\ In (PDs (DInfo o)) q.
End Affordances.
