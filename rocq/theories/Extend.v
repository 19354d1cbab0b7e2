(** * Assembling extensions ([ext], [ext_with])

    [Builder.v] gives builders their extension when they are created.  Here it is
    assembled by [ext] calls, as in the code: the extension is a heterogeneous list,
    whose type changes with every call.  [ext_with(f)] is [ext(f())] (src/extend.rs
    124-129), so one definition models both. *)

From Coq Require Import String Bool ZArith List.
From Verif Require Import Base MinMax Json Serde Types DsBuilder Builder HList.
Import ListNotations.
Set Implicit Arguments.
Local Open Scope string_scope.
Local Open Scope list_scope.

(** ** Form builders *)

(** src/builder.rs 2582-2596, [FormBuilder<Other, _, OtherForm>] *)
Record open_form (X : exts) (O : Type) := {
  of_op : form_ops;
  of_href : option string;
  of_ctype : option string;
  of_ccoding : option string;
  of_subprotocol : option string;
  of_security : option (list string);
  of_scopes : option (list string);
  of_response : option (exp_resp (pty (x_er X)));
  of_additional : list add_resp;
  of_other : O;
}.

(** src/builder.rs 2603-2619, [FormBuilder::new] *)
Definition open_form_new X : open_form X (hl []) :=
  {| of_op := OpDefault; of_href := None; of_ctype := None; of_ccoding := None;
     of_subprotocol := None; of_security := None; of_scopes := None; of_response := None;
     of_additional := []; of_other := hnil |}.

(** src/builder.rs 2787-2822 [ext_with], 2827 [ext] *)
Definition form_ext X ts T (v : T) (s : open_form X (hl ts)) : open_form X (hl (T :: ts)) :=
  {| of_op := of_op s; of_href := of_href s; of_ctype := of_ctype s; of_ccoding := of_ccoding s;
     of_subprotocol := of_subprotocol s; of_security := of_security s; of_scopes := of_scopes s;
     of_response := of_response s; of_additional := of_additional s;
     of_other := hcons (of_other s) v |}.
Arguments form_ext {X ts T} v s.

(** The other calls, see [fstep] in Builder.v (src/builder.rs 2622-2780) *)
Definition form_call X O (o : fop X) (s : open_form X O) : option (open_form X O) :=
  let upd op href ctype ccoding sub sec sc resp add :=
    Some {| of_op := op; of_href := href; of_ctype := ctype; of_ccoding := ccoding;
            of_subprotocol := sub; of_security := sec; of_scopes := sc; of_response := resp;
            of_additional := add; of_other := of_other s |} in
  let op := of_op s in let href := of_href s in let ctype := of_ctype s in
  let ccoding := of_ccoding s in let sub := of_subprotocol s in let sec := of_security s in
  let sc := of_scopes s in let resp := of_response s in let add := of_additional s in
  match o with
  | FHref v => match href with
               | None => upd op (Some v) ctype ccoding sub sec sc resp add
               | Some _ => None
               end
  | FCtype v => upd op href (Some v) ccoding sub sec sc resp add
  | FCcoding v => upd op href ctype (Some v) sub sec sc resp add
  | FSubprotocol v => upd op href ctype ccoding (Some v) sec sc resp add
  | FOp v => upd (match op with OpDefault => OpCustom [v] | OpCustom l => OpCustom (l ++ [v]) end)
               href ctype ccoding sub sec sc resp add
  | FSecurity v => upd op href ctype ccoding sub (opush sec v) sc resp add
  | FScope v => upd op href ctype ccoding sub sec (opush sc v) resp add
  | FResponse c x => upd op href ctype ccoding sub sec sc (Some {| er_ctype := c; er_other := x |}) add
  | FAdditional p => upd op href ctype ccoding sub sec sc resp (add ++ [resp_run p])
  end.

(** The builder of [Builder.v]; [conv]: the assembled list is used where an
    [Other::Form] is expected (src/builder.rs 1485-1494, [Into]). *)
Definition form_close X O (conv : O -> pty (x_f X)) (s : open_form X O) : form_b X :=
  {| fb_op := of_op s; fb_href := of_href s; fb_ctype := of_ctype s; fb_ccoding := of_ccoding s;
     fb_subprotocol := of_subprotocol s; fb_security := of_security s; fb_scopes := of_scopes s;
     fb_response := of_response s; fb_additional := of_additional s;
     fb_other := conv (of_other s) |}.

(** ** Affordance builders *)

(** src/builder/affordance.rs 163-172, [PartialInteractionAffordanceBuilder] *)
Record open_ia (X : exts) (O : Type) := {
  oi_forms : list (form X);
  oi_uri : amap (dsx X);
  oi_other : O;
}.

(** src/builder/affordance.rs 189-202, [empty] *)
Definition open_ia_new X : open_ia X (hl []) := {| oi_forms := []; oi_uri := []; oi_other := hnil |}.

(** src/builder/affordance.rs 208-227, [ext_with] *)
Definition ia_ext X ts T (v : T) (s : open_ia X (hl ts)) : open_ia X (hl (T :: ts)) :=
  {| oi_forms := oi_forms s; oi_uri := oi_uri s; oi_other := hcons (oi_other s) v |}.
Arguments ia_ext {X ts T} v s.

(** See [ia_step] in Builder.v (src/builder/affordance.rs 308-342) *)
Definition ia_call X O (o : ia_op X) (s : open_ia X O) : option (open_ia X O) :=
  match o with
  | IForm x p =>
      let? f := form_run x p in
      Some {| oi_forms := oi_forms s ++ [f]; oi_uri := oi_uri s; oi_other := oi_other s |}
  | IUri name p =>
      let? d := dbuild p in
      Some {| oi_forms := oi_forms s; oi_uri := minsert name d (oi_uri s); oi_other := oi_other s |}
  end.

(** src/builder/affordance.rs 230-253, [into_usable] *)
Definition ia_close X O (conv : O -> pty (x_ia X)) (s : open_ia X O) : ia_b X :=
  {| ib_forms := oi_forms s; ib_uri := oi_uri s; ib_other := conv (oi_other s) |}.

(** src/builder/affordance.rs 526-539, [PropertyAffordanceBuilder<Other, DataSchema, ..>];
    [info] is part of the data schema, see [property_b] in Builder.v. *)
Record open_property (X : exts) (D I O : Type) := {
  op_ia : open_ia X I;
  op_ds : D;
  op_observable : option bool;
  op_other : O;
}.

(** src/builder/affordance.rs 1030-1057, [empty] *)
Definition open_property_new X D (d : D) : open_property X D (hl []) (hl []) :=
  {| op_ia := open_ia_new X; op_ds := d; op_observable := None; op_other := hnil |}.

(** src/builder/affordance.rs 1063-1091 [ext_interaction_with], 1095 [ext_interaction] *)
Definition property_ext_ia X D ts O T (v : T) (s : open_property X D (hl ts) O)
  : open_property X D (hl (T :: ts)) O :=
  {| op_ia := ia_ext v (op_ia s); op_ds := op_ds s; op_observable := op_observable s;
     op_other := op_other s |}.
Arguments property_ext_ia {X D ts O T} v s.

(** src/builder/affordance.rs 1111-1139 [ext_with], 1143 [ext] *)
Definition property_ext X D I ts T (v : T) (s : open_property X D I (hl ts))
  : open_property X D I (hl (T :: ts)) :=
  {| op_ia := op_ia s; op_ds := op_ds s; op_observable := op_observable s;
     op_other := hcons (op_other s) v |}.
Arguments property_ext {X D I ts T} v s.

(** src/builder/affordance.rs 1170-1200, 1255-1285 [ext_data_schema_with], 1218-1241,
    1303-1326 [finish_extend_data_schema]: [f] acts on the data schema builder. *)
Definition property_on_ds X D D' I O (f : D -> D') (s : open_property X D I O)
  : open_property X D' I O :=
  {| op_ia := op_ia s; op_ds := f (op_ds s); op_observable := op_observable s;
     op_other := op_other s |}.

(** See [pstep] in Builder.v (src/builder/affordance.rs 344-382, 1000-1030, 1533-1848) *)
Definition property_call X I O (o : pop X)
  (s : open_property X (dstate (pty (x_ds X)) (pty (x_as X)) (pty (x_os X))) I O)
  : option (open_property X (dstate (pty (x_ds X)) (pty (x_as X)) (pty (x_os X))) I O) :=
  match o with
  | PDs o =>
      let? d := if delegated X o then dstep o (op_ds s) else None in
      Some {| op_ia := op_ia s; op_ds := d; op_observable := op_observable s; op_other := op_other s |}
  | PIa o =>
      let? i := ia_call o (op_ia s) in
      Some {| op_ia := i; op_ds := op_ds s; op_observable := op_observable s; op_other := op_other s |}
  | PObservable b =>
      Some {| op_ia := op_ia s; op_ds := op_ds s; op_observable := Some b; op_other := op_other s |}
  end.

(** src/builder/affordance.rs 1329-1359, [into_usable] *)
Definition property_close X I O (ci : I -> pty (x_ia X)) (co : O -> pty (x_pa X))
  (s : open_property X (dstate (pty (x_ds X)) (pty (x_as X)) (pty (x_os X))) I O) : property_b X :=
  {| pb_ia := ia_close ci (op_ia s); pb_ds := op_ds s; pb_observable := op_observable s;
     pb_other := co (op_other s) |}.

(** src/builder/affordance.rs 699-713, [ActionAffordanceBuilder] *)
Record open_action (X : exts) (I O : Type) := {
  oa_info : info;
  oa_ia : open_ia X I;
  oa_input : option (dsx X);
  oa_output : option (dsx X);
  oa_safe : bool;
  oa_idempotent : bool;
  oa_synchronous : option bool;
  oa_other : O;
}.

(** src/builder/affordance.rs 741-755, [empty] *)
Definition open_action_new X : open_action X (hl []) (hl []) :=
  {| oa_info := no_info; oa_ia := open_ia_new X; oa_input := None; oa_output := None;
     oa_safe := false; oa_idempotent := false; oa_synchronous := None; oa_other := hnil |}.

(** src/builder/affordance.rs 1365-1392 [ext_interaction_with], 266-277 *)
Definition action_ext_ia X ts O T (v : T) (s : open_action X (hl ts) O) : open_action X (hl (T :: ts)) O :=
  {| oa_info := oa_info s; oa_ia := ia_ext v (oa_ia s); oa_input := oa_input s;
     oa_output := oa_output s; oa_safe := oa_safe s; oa_idempotent := oa_idempotent s;
     oa_synchronous := oa_synchronous s; oa_other := oa_other s |}.
Arguments action_ext_ia {X ts O T} v s.

(** src/builder/affordance.rs 1407-1434 [ext_with], 1438 [ext] *)
Definition action_ext X I ts T (v : T) (s : open_action X I (hl ts)) : open_action X I (hl (T :: ts)) :=
  {| oa_info := oa_info s; oa_ia := oa_ia s; oa_input := oa_input s;
     oa_output := oa_output s; oa_safe := oa_safe s; oa_idempotent := oa_idempotent s;
     oa_synchronous := oa_synchronous s; oa_other := hcons (oa_other s) v |}.
Arguments action_ext {X I ts T} v s.

(** See [astep] in Builder.v (src/builder/affordance.rs 1850-2030) *)
Definition action_call X I O (o : aop X) (s : open_action X I O) : option (open_action X I O) :=
  let upd i ia inp out sf id sy :=
    Some {| oa_info := i; oa_ia := ia; oa_input := inp; oa_output := out; oa_safe := sf;
            oa_idempotent := id; oa_synchronous := sy; oa_other := oa_other s |} in
  let i := oa_info s in let ia := oa_ia s in let inp := oa_input s in let out := oa_output s in
  let sf := oa_safe s in let id := oa_idempotent s in let sy := oa_synchronous s in
  match o with
  | AInfo o => upd (info_step o i) ia inp out sf id sy
  | AIa o => let? ia := ia_call o ia in upd i ia inp out sf id sy
  | AInput p => let? d := dbuild p in upd i ia (Some d) out sf id sy
  | AOutput p => let? d := dbuild p in upd i ia inp (Some d) sf id sy
  | ASafe => upd i ia inp out true id sy
  | AIdempotent => upd i ia inp out sf true sy
  | ASynchronous b => upd i ia inp out sf id (Some b)
  end.

(** src/builder/affordance.rs 2379-2428, [into_usable] *)
Definition action_close X I O (ci : I -> pty (x_ia X)) (co : O -> pty (x_aa X))
  (s : open_action X I O) : action_b X :=
  {| ab_info := oa_info s; ab_ia := ia_close ci (oa_ia s); ab_input := oa_input s;
     ab_output := oa_output s; ab_safe := oa_safe s; ab_idempotent := oa_idempotent s;
     ab_synchronous := oa_synchronous s; ab_other := co (oa_other s) |}.

(** src/builder/affordance.rs 891-910, [EventAffordanceBuilder] *)
Record open_event (X : exts) (I O : Type) := {
  oe_info : info;
  oe_ia : open_ia X I;
  oe_subscription : option (dsx X);
  oe_data : option (dsx X);
  oe_data_response : option (dsx X);
  oe_cancellation : option (dsx X);
  oe_other : O;
}.

(** src/builder/affordance.rs 918-927, [empty] *)
Definition open_event_new X : open_event X (hl []) (hl []) :=
  {| oe_info := no_info; oe_ia := open_ia_new X; oe_subscription := None; oe_data := None;
     oe_data_response := None; oe_cancellation := None; oe_other := hnil |}.

(** src/builder/affordance.rs 1453-1478, [ext_interaction_with] *)
Definition event_ext_ia X ts O T (v : T) (s : open_event X (hl ts) O) : open_event X (hl (T :: ts)) O :=
  {| oe_info := oe_info s; oe_ia := ia_ext v (oe_ia s); oe_subscription := oe_subscription s;
     oe_data := oe_data s; oe_data_response := oe_data_response s;
     oe_cancellation := oe_cancellation s; oe_other := oe_other s |}.
Arguments event_ext_ia {X ts O T} v s.

(** src/builder/affordance.rs 1493-1518 [ext_with], 1522 [ext] *)
Definition event_ext X I ts T (v : T) (s : open_event X I (hl ts)) : open_event X I (hl (T :: ts)) :=
  {| oe_info := oe_info s; oe_ia := oe_ia s; oe_subscription := oe_subscription s;
     oe_data := oe_data s; oe_data_response := oe_data_response s;
     oe_cancellation := oe_cancellation s; oe_other := hcons (oe_other s) v |}.
Arguments event_ext {X I ts T} v s.

(** See [estep] in Builder.v (src/builder/affordance.rs 2032-2335) *)
Definition event_call X I O (o : eop X) (s : open_event X I O) : option (open_event X I O) :=
  let upd i ia su da dr ca :=
    Some {| oe_info := i; oe_ia := ia; oe_subscription := su; oe_data := da;
            oe_data_response := dr; oe_cancellation := ca; oe_other := oe_other s |} in
  let i := oe_info s in let ia := oe_ia s in let su := oe_subscription s in
  let da := oe_data s in let dr := oe_data_response s in let ca := oe_cancellation s in
  match o with
  | EInfo o => upd (info_step o i) ia su da dr ca
  | EIa o => let? ia := ia_call o ia in upd i ia su da dr ca
  | ESubscription p => let? d := dbuild p in upd i ia (Some d) da dr ca
  | EData p => let? d := dbuild p in upd i ia su (Some d) dr ca
  | EDataResponse p => let? d := dbuild p in upd i ia su da (Some d) ca
  | ECancellation p => let? d := dbuild p in upd i ia su da dr (Some d)
  end.

(** src/builder/affordance.rs 930-977, [into_usable] *)
Definition event_close X I O (ci : I -> pty (x_ia X)) (co : O -> pty (x_ea X))
  (s : open_event X I O) : event_b X :=
  {| eb_info := oe_info s; eb_ia := ia_close ci (oe_ia s); eb_subscription := oe_subscription s;
     eb_data := oe_data s; eb_data_response := oe_data_response s;
     eb_cancellation := oe_cancellation s; eb_other := co (oe_other s) |}.

(** ** Data schema builders *)

(** src/builder/data_schema.rs 109-122, 366-369, in status [ToExtend] *)
Record open_ds (DS AS OS : Type) := {
  od_info : info;
  od_const : option json;
  od_default : option json;
  od_unit : option string;
  od_one_of : list (ds DS AS OS);
  od_enum : list json;
  od_ro : bool;
  od_wo : bool;
  od_format : option string;
  od_other : DS;
}.

(** src/builder/data_schema.rs 125-141, 400-410, [empty] *)
Definition open_ds_new AS OS : open_ds (hl []) AS OS :=
  {| od_info := no_info; od_const := None; od_default := None; od_unit := None; od_one_of := [];
     od_enum := []; od_ro := false; od_wo := false; od_format := None; od_other := hnil |}.

(** src/builder/data_schema.rs 146-176, 373-381 [ext_with], 180, 385 [ext]: [one_of] is
    dropped, since its type mentions the extension *)
Definition ds_ext ts AS OS T (v : T) (s : open_ds (hl ts) AS OS) : open_ds (hl (T :: ts)) AS OS :=
  {| od_info := od_info s; od_const := od_const s; od_default := od_default s; od_unit := od_unit s;
     od_one_of := []; od_enum := od_enum s; od_ro := od_ro s; od_wo := od_wo s;
     od_format := od_format s; od_other := hcons (od_other s) v |}.
Arguments ds_ext {ts AS OS T} v s.

(** The calls that do not need status [Extended] (src/builder/data_schema.rs 2212-2273) *)
Inductive ds_early :=
| EaInfo (o : info_op) | EaUnit (s : string) | EaFormat (s : string) | EaDefault (j : json).

(** src/builder/data_schema.rs 2127-2259, 2246-2273 *)
Definition ds_call DS AS OS (o : ds_early) (s : open_ds DS AS OS) : open_ds DS AS OS :=
  let upd i df u f :=
    {| od_info := i; od_const := od_const s; od_default := df; od_unit := u; od_one_of := od_one_of s;
       od_enum := od_enum s; od_ro := od_ro s; od_wo := od_wo s; od_format := f;
       od_other := od_other s |} in
  match o with
  | EaInfo o => upd (info_step o (od_info s)) (od_default s) (od_unit s) (od_format s)
  | EaUnit v => upd (od_info s) (od_default s) (Some v) (od_format s)
  | EaFormat v => upd (od_info s) (od_default s) (od_unit s) (Some v)
  | EaDefault v => upd (od_info s) (Some v) (od_unit s) (od_format s)
  end.

(** The same call in [DsBuilder.v] (src/builder/data_schema.rs 2212-2273) *)
Definition ds_late DS AS OS (o : ds_early) : dsop DS AS OS :=
  match o with
  | EaInfo o => DInfo o | EaUnit s => DUnit s | EaFormat s => DFormat s
  | EaDefault j => DDefault j
  end.

(** src/builder/data_schema.rs 188-213, 393-397, [finish_extend] *)
Definition ds_finish DS AS OS (s : open_ds DS AS OS) : dstate DS AS OS :=
  {| b_info := od_info s; b_const := od_const s; b_default := od_default s; b_unit := od_unit s;
     b_one_of := od_one_of s; b_enum := od_enum s; b_ro := od_ro s; b_wo := od_wo s;
     b_format := od_format s; b_other := Some (od_other s); b_kind := @KBase DS AS OS;
     b_wrap := WNone |}.

(** ** The thing builder

    Its extension decides what the extensions of forms, affordances and schemas are:
    src/extend.rs 68-94, [nil_exts] and [cons_exts] in HList.v. *)

(** The extensions given by a list of [ext] calls, newest first. (src/builder.rs 637-754, [ext_with], [ext]) *)
Definition all_exts (l : list exts) : exts := fold_right cons_exts (nil_exts nil_piece) l.

(** src/builder.rs 472-506, [new_empty] *)
Definition open_thing_new E (title : string) : tstate E (all_exts []) :=
  @thing_new E (all_exts []) title tt.

(** src/builder.rs 637-741 [ext_with], 748 [ext]: the members whose type mentions the
    extension are dropped *)
Definition thing_ext E X (A : exts) (v : pty (x_t A)) (s : tstate E X) : tstate E (cons_exts A X) :=
  {| tb_context := tb_context s; tb_id := tb_id s; tb_attype := tb_attype s; tb_title := tb_title s;
     tb_titles := tb_titles s; tb_description := tb_description s;
     tb_descriptions := tb_descriptions s; tb_version := tb_version s; tb_created := tb_created s;
     tb_modified := tb_modified s; tb_support := tb_support s; tb_base := tb_base s;
     tb_properties := []; tb_actions := []; tb_events := []; tb_links := tb_links s;
     tb_forms := None; tb_uri := None; tb_security := tb_security s; tb_secdefs := tb_secdefs s;
     tb_profile := tb_profile s; tb_schemas := [];
     tb_other := (v, tb_other s) : pty (x_t (cons_exts A X)); tb_extended := tb_extended s |}.
Arguments thing_ext {E X} A v s.

(** The calls that do not need status [Extended], whatever the extension is (src/builder.rs 1065-1388) *)
Inductive thing_early (E : env) :=
| TeId (s : string) | TeDescription (s : string) | TeVersion (v : version_info)
| TeCreated (d : date E) | TeModified (d : date E) | TeSupport (s : string) | TeBase (s : string)
| TeContext (s : string) | TeContextMap (adds : list (string * string))
| TeAttype (s : string)
| TeTitles (adds : list (string * string)) | TeDescriptions (adds : list (string * string))
| TeLink (href : string) | TeLinkWith (p : list link_op)
| TeSecurity (p : list sec_op)
| TeProfile (s : string).

(** The same call in [Builder.v] (src/builder.rs 1065-1388) *)
Definition thing_late E X (o : thing_early E) : top E X :=
  match o with
  | TeId _ s => TId s | TeDescription _ s => TDescription s
  | TeVersion _ v => TVersion v | TeCreated _ d => TCreated d
  | TeModified _ d => TModified d | TeSupport _ s => TSupport s
  | TeBase _ s => TBase s | TeContext _ s => TContext s
  | TeContextMap _ l => TContextMap l | TeAttype _ s => TAttype s
  | TeTitles _ l => TTitles l | TeDescriptions _ l => TDescriptions l
  | TeLink _ s => TLink s | TeLinkWith _ p => TLinkWith p
  | TeSecurity _ p => TSecurity p | TeProfile _ s => TProfile s
  end.

(** ** Call chains that mix both kinds of calls *)

(** A call ([Call]) or an [ext] call ([Ext]), e.g. src/builder.rs 637-754 *)
Inductive call (C D : Type) := Call (c : C) | Ext (d : D).

(** The [C] calls and the [D] calls of a chain, in order; no line of its own in /repo *)
Fixpoint calls {C D} (l : list (call C D)) : list C :=
  match l with [] => [] | Call _ c :: l' => c :: calls l' | Ext _ _ :: l' => calls l' end.
(** The [ext] calls; no line of its own in /repo *)
Fixpoint added {C D} (l : list (call C D)) : list D :=
  match l with [] => [] | Call _ _ :: l' => added l' | Ext _ d :: l' => d :: added l' end.
