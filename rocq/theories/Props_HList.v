(** * Extensions and heterogeneous lists (C20, C40, C41)

    [hl ts]: heterogeneous lists with elements of the types [ts]; [elems ts l]: the
    elements as a plain list, head first, each with its type; [any v]: a value with its
    type. *)

From Coq Require Import String Bool ZArith List.
From Verif Require Import Base MinMax Json Serde Types DsBuilder Builder HList Extend Protocol SpecSerde
  SpecExt ExtFacts ExtendFacts HListFacts SpecMethods MethodFacts.
Import ListNotations.
Set Implicit Arguments.
Local Open Scope string_scope.
Local Open Scope list_scope.

(** ** C20

    [form_reached cs ts s]: the calls [cs], among them [ext] calls anywhere, lead from a
    new builder to [s].  [added cs]: the extensions added by [cs]; [calls cs]: the other
    calls of [cs].  The builder holds the extensions, newest first; everything else is
    what it would be if the [ext] calls were not there and the extension had been given
    from the start. *)
Theorem C20_form :
  forall X cs ts (s : open_form X (hl ts)),
    form_reached cs ts s ->
    elems ts (of_other s) = rev (added cs)
    /\ forall conv, orun (@fstep X) (calls cs) (form_new X (conv (of_other s)))
                    = Some (form_close conv s).
Proof. exact form_assembled. Qed.
Print Assumptions C20_form.

Example C20_form_used :
  exists s, form_reached form_chain [bool : Type; string : Type; nat : Type] s
            /\ of_href s = Some "h" /\ of_op s = OpCustom [ReadProperty]
            /\ of_other s = (true, ("x", (1, tt))).
Proof. exact form_chain_reached. Qed.

Theorem C20_property :
  forall X cs ti to s,
    @property_reached X cs ti to s ->
    elems ti (oi_other (op_ia s)) = rev (lefts (added cs))
    /\ elems to (op_other s) = rev (rights (added cs))
    /\ forall ci co,
        orun (@pstep X) (calls cs) (property_start X (ci (oi_other (op_ia s))) (co (op_other s)))
        = Some (property_close ci co s).
Proof. exact property_assembled. Qed.
Print Assumptions C20_property.

Example C20_property_used :
  exists s, property_reached property_chain [bool : Type; nat : Type] [string : Type] s
            /\ op_observable s = Some true
            /\ oi_other (op_ia s) = (true, (1, tt)) /\ op_other s = ("x", tt).
Proof. exact property_chain_reached. Qed.

Theorem C20_action :
  forall X cs ti to s,
    @action_reached X cs ti to s ->
    elems ti (oi_other (oa_ia s)) = rev (lefts (added cs))
    /\ elems to (oa_other s) = rev (rights (added cs))
    /\ forall ci co,
        action_run (ci (oi_other (oa_ia s))) (co (oa_other s)) (calls cs)
        = Some (action_close ci co s).
Proof. exact action_assembled. Qed.
Print Assumptions C20_action.

Example C20_action_used :
  exists s, action_reached action_chain [nat : Type] [string : Type] s
            /\ oa_safe s = true /\ oa_input s <> None
            /\ oi_other (oa_ia s) = (1, tt) /\ oa_other s = ("x", tt).
Proof. exact action_chain_reached. Qed.

Theorem C20_event :
  forall X cs ti to s,
    @event_reached X cs ti to s ->
    elems ti (oi_other (oe_ia s)) = rev (lefts (added cs))
    /\ elems to (oe_other s) = rev (rights (added cs))
    /\ forall ci co,
        event_run (ci (oi_other (oe_ia s))) (co (oe_other s)) (calls cs)
        = Some (event_close ci co s).
Proof. exact event_assembled. Qed.
Print Assumptions C20_event.

Example C20_event_used :
  exists s, event_reached event_chain [nat : Type] [string : Type] s
            /\ i_title (oe_info s) = Some "t" /\ oe_data s <> None
            /\ oi_other (oe_ia s) = (1, tt) /\ oe_other s = ("x", tt).
Proof. exact event_chain_reached. Qed.

Theorem C20_data_schema :
  forall AS OS cs ts (s : open_ds (hl ts) AS OS),
    ds_reached cs ts s ->
    elems ts (od_other s) = rev (added cs)
    /\ drun (map (ds_late (hl ts) AS OS) (calls cs) ++ [DFinish (od_other s)]) (@dempty (hl ts) AS OS)
       = Some (ds_finish s).
Proof.
  exact (fun AS OS cs ts s H =>
           conj (proj1 (proj2 (ds_assembled H))) (ds_finish_assembled H)).
Qed.
Print Assumptions C20_data_schema.

Example C20_data_schema_used :
  exists s : open_ds (hl [string : Type; nat : Type]) unit unit,
    ds_reached ds_chain [string : Type; nat : Type] s
    /\ od_unit s = Some "m" /\ i_title (od_info s) = Some "t" /\ od_other s = ("x", (1, tt)).
Proof. exact ds_chain_reached. Qed.

(** [ext] on a thing builder drops affordances, forms and schemas; there are none as
    long as it can be called. *)
Theorem C20_thing :
  forall E title cs l (s : tstate E (all_exts l)),
    thing_reached title cs l s ->
    thing_bare s
    /\ thing_elems l (tb_other s) = rev (added cs)
    /\ trun (map (thing_late (all_exts l)) (calls cs)) (thing_new E (all_exts l) title (tb_other s))
       = Some s.
Proof. exact thing_assembled. Qed.
Print Assumptions C20_thing.

(** The calls that can be mixed with [ext] are the methods of the same names, with their arguments, and all but these seven. *)
Theorem C20_thing_calls :
  forall E X,
    (forall o, method (thing_late X o) = early_method (E := E) o)
    /\ (forall o o', @thing_late E X o = thing_late X o' -> o = o')
    /\ forall o : top E X,
         (exists e, o = thing_late X e)
         <-> ~ In (method o) ["finish_extend"; "form"; "uri_variable"; "property"; "action"; "event"; "schema_definition"].
Proof. exact early_calls. Qed.
Print Assumptions C20_thing_calls.

(** Hence every program considered in [Props_Build.v] can be written with [ext] calls. *)
Theorem C20_thing_then :
  forall E title cs l (s : tstate E (all_exts l)) q,
    thing_reached title cs l s ->
    trun (map (thing_late (all_exts l)) (calls cs) ++ q)
      (thing_new E (all_exts l) title (tb_other s))
    = trun q s.
Proof. exact thing_assembled_then. Qed.
Print Assumptions C20_thing_then.

Example C20_thing_used :
  forall E, exists s, thing_reached "lamp" (thing_chain E) [coap_exts; http_exts] s
                      /\ tb_id s = Some "i" /\ tb_base s = Some "b" /\ tb_title s = "lamp".
Proof. exact thing_chain_reached. Qed.

(** ** C40 *)
Theorem C40_cons :
  forall T ts (v : T) (l : hl ts),
    elems (T :: ts) (hcons l v) = any v :: elems ts l /\ hsplit_head (hcons l v) = (v, l).
Proof. exact cons_elems. Qed.
Print Assumptions C40_cons.

Theorem C40_split_last :
  forall ts T (l : hl (T :: ts)),
    elems (T :: ts) l
    = elems (init_ty T ts) (snd (hsplit_last l)) ++ [any (fst (hsplit_last l))].
Proof. exact split_last_elems. Qed.
Print Assumptions C40_split_last.

Theorem C40_reverse :
  forall ts (l : hl ts), elems _ (hreverse (length ts) ts l) = rev (elems ts l).
Proof. exact (fun ts l => @reverse_elems (length ts) ts l (le_n _)). Qed.
Print Assumptions C40_reverse.

Theorem C40_reverse_twice :
  forall ts (l : hl ts),
    elems _ (hreverse (length (rev_ty (length ts) ts)) _ (hreverse (length ts) ts l)) = elems ts l.
Proof. exact reverse_twice. Qed.
Print Assumptions C40_reverse_twice.

(** The [n]th reference reads the [n]th element and replaces it, and nothing else;
    there is one for every element. *)
Theorem C40_to_ref :
  forall ts n q,
    ref_at (hl ts) ts n (hto_ref ts id_ref) = Some q ->
    (forall l, nth_error (elems ts l) n = Some (any (r_get (projT2 q) l)))
    /\ forall v l, elems ts (r_set (projT2 q) v l) = update n (any v) (elems ts l).
Proof. exact to_ref_spec. Qed.
Print Assumptions C40_to_ref.

Theorem C40_to_ref_all :
  forall ts n, n < length ts -> exists q, ref_at (hl ts) ts n (hto_ref ts id_ref) = Some q.
Proof. exact (fun ts n => @ref_at_length (hl ts) ts id_ref n). Qed.
Print Assumptions C40_to_ref_all.

Example C40_used :
  elems _ sample_list = [any "x"; any 7; any true]
  /\ hsplit_last sample_list = (true, ("x", (7, tt)))
  /\ hreverse 3 _ sample_list = (true, (7, ("x", tt)))
  /\ match ref_at _ _ 1 (hto_ref _ (@id_ref (hl [string : Type; nat : Type; bool : Type]))) with
     | Some (existT _ T r) => any (r_get r sample_list) = any 7
     | None => False
     end.
Proof. repeat split. Qed.

(** ** C41

    A tree describes a nesting of [Cons] and [Nil]; its leaves are extensions with the
    member names they use. *)
Theorem C41_written :
  forall mk t v, p_ser (tree_piece t) mk v = concat (tree_members mk t v).
Proof. exact tree_members_concat. Qed.
Print Assumptions C41_written.

Theorem C41_round_trip :
  forall t,
    (forall e, In e (tree_exts t) -> round_trips (e_piece e) (e_names e) (e_ok e)) ->
    apart (tree_exts t) ->
    round_trips (tree_piece t) (tree_names t) (tree_ok t).
Proof. exact tree_round_trips. Qed.
Print Assumptions C41_round_trip.

(** At every extension point of a Thing. *)
Theorem C41_things :
  forall X X' K K' (V : xvalues X) (V' : xvalues X'),
    exts_round_trip K V -> exts_round_trip K' V' -> xdisjoint K K' ->
    exts_round_trip (both_names K K') (both_values V V').
Proof. exact cons_exts_round_trip. Qed.
Print Assumptions C41_things.

Example C41_used :
  (forall e, In e (tree_exts sample_tree) -> round_trips (e_piece e) (e_names e) (e_ok e))
  /\ apart (tree_exts sample_tree)
  /\ tree_ok sample_tree sample_value
  /\ p_de (tree_piece sample_tree) (("title", JStr "t") :: p_ser (tree_piece sample_tree) mk_text sample_value)
     = Some sample_value.
Proof. exact (conj sample_tree_exts (conj sample_tree_apart (conj sample_value_ok eq_refl))). Qed.

(** Without disjoint names it fails. *)
Example C41_overlap :
  let p := cons_piece http_form_piece http_form_piece in
  let v := ({| hf_method := Some HPut |}, {| hf_method := Some HGet |}) in
  p_de p (p_ser p mk_text v) = None /\ p_de p (mof (p_ser p mk_value v)) <> Some v.
Proof. exact overlap. Qed.
