(** * What [ThingBuilder::build] guarantees (C01 - C19, C62)

    [thing_program ord title x p]: [ThingBuilder::new(title)] with extension value
    [x], then the calls [p], then [build]; [ord] is the iteration order of the hash
    maps.  [None]: the calls do not type check in Rust.  The words used in the
    statements are defined in [Spec], [SpecCalls] and [SpecThing]. *)

From Coq Require Import String Bool ZArith Permutation List.
From Verif Require Import Base MinMax Json Serde Types DsBuilder Builder Spec SpecCalls SpecThing
  OrderFacts CommuteFacts ProgramProps HList Protocol Samples SampleFacts UncheckedFacts SpecResponses ResponseFacts OrderExact
  SpecReorder ReorderFacts.
Import ListNotations.
Set Implicit Arguments.
Local Open Scope string_scope.
Local Open Scope list_scope.

(** The example program builds, under two iteration orders. *)
Example lamp_builds :
  run id_order lamp = Some (Ok the_lamp) /\ run rev_order lamp = Some (Ok the_lamp)
  /\ order_ok id_order /\ order_ok rev_order.
Proof. exact lamp_ok. Qed.

(** ** C01 *)
Theorem C01_security_names_defined :
  forall E X ord title x p (t : thing E X),
    order_ok ord -> thing_program ord title x p = Some (Ok t) ->
    forall n,
      In n (t_security t)
      \/ (exists c f l, form_at (thing_body t) c f /\ f_security f = Some l /\ In n l) ->
      In n (mkeys (t_secdefs t)).
Proof. exact (fun E X ord title x p t Ho => @built_security E X ord Ho title x p t). Qed.
Print Assumptions C01_security_names_defined.

Example C01_used :
  t_security the_lamp = ["basic_sc"; "combo"] /\ mkeys (t_secdefs the_lamp) = ["basic_sc"; "combo"; "nosec"]
  /\ run id_order [TFinish; TSecurity [SNoSec]; TForm no_method (FSecurity "basic" :: a_form)]
     = Some (Err (UndefinedSecurity "basic"))
  /\ run id_order [TFinish; TAction "a" tt tt [AIa (IForm no_method [FHref "/"; FSecurity "basic"])]]
     = Some (Err (UndefinedSecurity "basic")).
Proof. repeat split; reflexivity. Qed.

(** ** C02 *)
Theorem C02_security_definitions_kept :
  forall E X ord title x p (t : thing E X),
    order_ok ord -> thing_program ord title x p = Some (Ok t) ->
    exists rs,
      Forall2 (sec_says (tag_parse E)) (picks (@t_of_security E X) p) rs
      /\ t_security t = map (fun r => fst (fst r)) (filter (fun r => snd (fst r)) rs)
      /\ NoDup (map (fun r => fst (fst r)) rs)
      /\ msorted (t_secdefs t)
      /\ forall k s, In (k, s) (t_secdefs t) <-> In (k, s) (map (fun r => (fst (fst r), snd r)) rs).
Proof. exact built_security_definitions. Qed.
Print Assumptions C02_security_definitions_kept.

Theorem C02_same_name_fails :
  forall E X ord title x p (r : result error (thing E X)),
    order_ok ord -> thing_program ord title x p = Some r ->
    forall rs n,
      Forall2 (sec_says Some) (picks (@t_of_security E X) p) rs ->
      twice n (map (fun r => fst (fst r)) rs) ->
      exists e, r = Err e.
Proof. exact sec_twice_fails. Qed.
Print Assumptions C02_same_name_fails.

Example C02_used :
  length (picks (@t_of_security sample_env http_exts) lamp) = 3 /\ length (t_secdefs the_lamp) = 3
  /\ run id_order [TSecurity [SBasic]; TSecurity [SNoSec]; TSecurity [SDigest; SWithKey "basic"]]
     = Some (Err (DuplicatedSecurityDefinition "basic")).
Proof. repeat split; reflexivity. Qed.

(** ** C03 *)
Theorem C03_combo_refers_to_defined :
  forall E X ord title x p (t : thing E X),
    order_ok ord -> thing_program ord title x p = Some (Ok t) ->
    forall k s n, In (k, s) (t_secdefs t) -> combined s n -> In n (mkeys (t_secdefs t)).
Proof. exact built_combo. Qed.
Print Assumptions C03_combo_refers_to_defined.

Example C03_used :
  (exists s, In ("combo", s) (t_secdefs the_lamp) /\ combined s "basic_sc")
  /\ run id_order [TSecurity [SCombo; SOneOf ["basic"]]] = Some (Err (MissingSchemaDefinition "basic")).
Proof. split; [exact lamp_combo|reflexivity]. Qed.

(** ** C04 *)
Theorem C04_thing_form_ops :
  forall E X ord title x p (t : thing E X),
    order_ok ord -> thing_program ord title x p = Some (Ok t) ->
    forall f, In f (olist (t_forms t)) ->
      exists l, f_op f = OpCustom l /\ l <> []
        /\ incl l [ReadAllProperties; WriteAllProperties; ReadMultipleProperties; WriteMultipleProperties;
                   ObserveAllProperties; UnobserveAllProperties; SubscribeAllEvents; UnsubscribeAllEvents;
                   QueryAllActions].
Proof. exact (fun E X ord title x p t Ho => @built_thing_ops E X ord Ho title x p t). Qed.
Print Assumptions C04_thing_form_ops.

Example C04_used :
  map (@f_op _) (olist (t_forms the_lamp)) = [OpCustom [ReadAllProperties; ObserveAllProperties]]
  /\ run id_order [TFinish; TForm no_method [FHref "/"]] = Some (Err MissingOpInForm)
  /\ run id_order [TFinish; TForm no_method [FHref "/"; FOp QueryAllActions; FOp ReadProperty]]
     = Some (Err (InvalidOpInForm CtxThing ReadProperty)).
Proof. repeat split; reflexivity. Qed.

(** ** C05 *)
Theorem C05_affordance_form_ops :
  forall E X ord title x p (t : thing E X),
    order_ok ord -> thing_program ord title x p = Some (Ok t) ->
    (forall n a f l, In (n, a) (olist (t_properties t)) -> In f (ia_forms (pa_ia a)) -> f_op f = OpCustom l ->
       incl l [ReadProperty; WriteProperty; ObserveProperty; UnobserveProperty])
    /\ (forall n a f l, In (n, a) (olist (t_actions t)) -> In f (ia_forms (aa_ia a)) -> f_op f = OpCustom l ->
       incl l [InvokeAction; QueryAction; CancelAction])
    /\ (forall n a f l, In (n, a) (olist (t_events t)) -> In f (ia_forms (ea_ia a)) -> f_op f = OpCustom l ->
       incl l [SubscribeEvent; UnsubscribeEvent]).
Proof. exact built_affordance_ops. Qed.
Print Assumptions C05_affordance_form_ops.

Example C05_used :
  map (fun e => map (@f_op _) (ia_forms (ea_ia (snd e)))) (olist (t_events the_lamp))
    = [[]; [OpCustom [SubscribeEvent; UnsubscribeEvent]]]
  /\ run id_order [TFinish; TAction "a" tt tt [AIa (IForm no_method [FHref "/"; FOp ReadProperty])]]
     = Some (Err (InvalidOpInForm CtxAction ReadProperty)).
Proof. repeat split; reflexivity. Qed.

(** ** C06

    The full property speaks of every form; it holds for the forms of the thing and
    fails for the forms of affordances. *)
Theorem C06_thing_responses_partial :
  forall E X ord title x p (t : thing E X),
    order_ok ord -> thing_program ord title x p = Some (Ok t) ->
    forall f l r n,
      In f (olist (t_forms t)) -> f_additional f = Some l -> In r l -> ar_schema r = Some n ->
      In n (mkeys (olist (t_schemas t))).
Proof. exact (fun E X ord title x p t Ho => @built_responses E X ord Ho title x p t). Qed.
Print Assumptions C06_thing_responses_partial.

Theorem C06_affordance_responses_refuted :
  exists (p : list hop) t c f l r n,
    run id_order p = Some (Ok t)
    /\ form_at (thing_body t) c f /\ f_additional f = Some l /\ In r l /\ ar_schema r = Some n
    /\ ~ In n (mkeys (olist (t_schemas t))).
Proof. exact affordance_responses. Qed.
Print Assumptions C06_affordance_responses_refuted.

(** They have no influence on [build] at all: leaving out every such call gives the
    same verdict, the same error, and the same thing but for these responses. *)
Theorem C06_affordance_responses_ignored :
  forall E X ord title x p,
    thing_program ord title x (map (@drop_t E X) p)
    = option_map (on_ok (@erase_thing E X)) (thing_program ord title x p).
Proof. exact program_quiet. Qed.
Print Assumptions C06_affordance_responses_ignored.

Example C06_used :
  mkeys (olist (t_schemas the_lamp)) = ["Problem"]
  /\ run id_order [TFinish; TForm no_method (FAdditional [RSchema "Problem"] :: a_form)]
     = Some (Err (MissingSchemaDefinition "Problem"))
  /\ map (@drop_t _ _) unchecked_response
     = [TFinish; TSecurity [SNoSec]; TAction "a" tt tt [AIa (IForm no_method [FHref "/"])]].
Proof. repeat split; reflexivity. Qed.

(** ** C07 *)
Theorem C07_affordances_kept :
  forall E X ord title x p (t : thing E X),
    order_ok ord -> thing_program ord title x p = Some (Ok t) ->
    (NoDup (map fst (picks (@t_of_property E X) p))
     /\ omap_says (property_says (tag_parse E)) (picks (@t_of_property E X) p) (t_properties t))
    /\ (NoDup (map fst (picks (@t_of_action E X) p))
        /\ omap_says (action_says (tag_parse E)) (picks (@t_of_action E X) p) (t_actions t))
    /\ (NoDup (map fst (picks (@t_of_event E X) p))
        /\ omap_says (event_says (tag_parse E)) (picks (@t_of_event E X) p) (t_events t)).
Proof. exact built_affordances. Qed.
Print Assumptions C07_affordances_kept.

Theorem C07_same_name_fails :
  forall E X ord title x p (r : result error (thing E X)),
    order_ok ord -> thing_program ord title x p = Some r ->
    forall n,
      twice n (map fst (picks (@t_of_property E X) p)) \/ twice n (map fst (picks (@t_of_action E X) p))
      \/ twice n (map fst (picks (@t_of_event E X) p)) ->
      exists e, r = Err e.
Proof. exact aff_twice_fails. Qed.
Print Assumptions C07_same_name_fails.

Example C07_used :
  mkeys (olist (t_properties the_lamp)) = ["status"] /\ mkeys (olist (t_actions the_lamp)) = ["status"]
  /\ mkeys (olist (t_events the_lamp)) = ["overheated"; "status"]
  /\ run id_order [TFinish; TEvent "a" tt tt []; TEvent "b" tt tt []; TEvent "a" tt tt []]
     = Some (Err (DuplicatedAffordance AEvent "a")).
Proof. repeat split; reflexivity. Qed.

(** ** C08 *)
Theorem C08_bounds_sane :
  forall E X ord title x p (t : thing E X),
    order_ok ord -> thing_program ord title x p = Some (Ok t) ->
    forall d, checked_schema (thing_body t) d -> all_sane d.
Proof. exact built_bounds. Qed.
Print Assumptions C08_bounds_sane.

Example C08_used :
  (exists d, checked_schema (thing_body the_lamp) d
     /\ exists e n, sub_ds e d /\ ds_sub e = Some (SInteger n) /\ z_min n <> None /\ z_max n <> None)
  /\ run id_order [TFinish; TEvent "e" tt tt [ECancellation bad_bounds]] = Some (Err InvalidMinMax).
Proof. split; [exact lamp_bounds|reflexivity]. Qed.

(** ** C09

    [schemaDefinitions], [uriVariables] and [dataResponse] are not validated. *)
Theorem C09_unchecked_bounds_refuted :
  exists (p : list hop) t,
    run id_order p = Some (Ok t)
    /\ (exists n d, In (n, d) (olist (t_schemas t)) /\ ~ all_sane d)
    /\ (exists n d, In (n, d) (olist (t_uri t)) /\ ~ all_sane d)
    /\ (exists m a n d, In (m, a) (olist (t_actions t)) /\ In (n, d) (olist (ia_uri (aa_ia a))) /\ ~ all_sane d)
    /\ (exists m a d, In (m, a) (olist (t_events t)) /\ ea_data_response a = Some d /\ ~ all_sane d).
Proof. exact unchecked_bounds. Qed.
Print Assumptions C09_unchecked_bounds_refuted.

(** Whatever the bounds in it, one more schema in these places leaves a description
    valid: only its language tags are looked at (and, for variables, its type). *)
Theorem C09_definitions_never_validated :
  forall E X ord title x, order_ok ord ->
  forall p n c d (t : thing E X) r,
    thing_program ord title x p = Some (Ok t) ->
    thing_program ord title x (p ++ [TSchema n c]) = Some r ->
    ds_says Some c d -> (forall s, ds_tag d s -> parsable E s) ->
    exists t', r = Ok t'.
Proof. exact schema_definition_unchecked. Qed.
Print Assumptions C09_definitions_never_validated.

Theorem C09_variables_never_validated :
  forall E X ord title x, order_ok ord ->
  forall p n c d (t : thing E X) r,
    thing_program ord title x p = Some (Ok t) ->
    thing_program ord title x (p ++ [TUri n c]) = Some r ->
    ds_says Some c d -> ~ is_aggregate d -> (forall s, ds_tag d s -> parsable E s) ->
    exists t', r = Ok t'.
Proof. exact uri_variable_unchecked. Qed.
Print Assumptions C09_variables_never_validated.

Theorem C09_responses_never_validated :
  forall E X ord title x, order_ok ord ->
  forall p n xi xe c d (t : thing E X) r,
    thing_program ord title x p = Some (Ok t) ->
    thing_program ord title x (p ++ [TEvent n xi xe [EDataResponse c]]) = Some r ->
    ~ In n (map fst (picks (@t_of_event E X) p)) ->
    ds_says Some c d -> (forall s, ds_tag d s -> parsable E s) ->
    exists t', r = Ok t'.
Proof. exact data_response_unchecked. Qed.
Print Assumptions C09_responses_never_validated.

Example C09_used :
  ds_says Some unsane unsane_schema /\ ~ all_sane unsane_schema /\ ~ is_aggregate unsane_schema
  /\ (forall s, ~ ds_tag unsane_schema s)
  /\ ~ In "late" (map fst (picks (@t_of_event sample_env http_exts) lamp))
  /\ (exists r, run id_order (lamp ++ [TSchema "late" unsane]) = Some r)
  /\ (exists r, run id_order (lamp ++ [TUri "late" unsane]) = Some r)
  /\ (exists r, run id_order (lamp ++ [TEvent "late" tt tt [EDataResponse unsane]]) = Some r).
Proof. exact unsane_used. Qed.

(** ** C10 *)
Theorem C10_uri_variables_simple :
  forall E X ord title x p (t : thing E X),
    order_ok ord -> thing_program ord title x p = Some (Ok t) ->
    forall d, uri_variable (thing_body t) d -> ~ is_aggregate d.
Proof. exact built_uris. Qed.
Print Assumptions C10_uri_variables_simple.

Example C10_used :
  (exists d, uri_variable (thing_body the_lamp) d /\ ds_sub d = Some SBoolean)
  /\ run id_order [TFinish; TUri "xs" [DFinish tt; DVec tt]] = Some (Err InvalidUriVariables)
  /\ run id_order [TFinish; TProperty "p" tt tt [PDs (DFinish tt); PDs DBool; PIa (IUri "o" [DFinish tt; DObject tt])]]
     = Some (Err InvalidUriVariables).
Proof. split; [exact lamp_uri|split; reflexivity]. Qed.

(** ** C11

    Every tag in the thing is one the parser returned; if the parser accepts what
    it returns, it is accepted. *)
Theorem C11_tags_parsed :
  forall E X ord title x p (t : thing E X),
    order_ok ord -> thing_program ord title x p = Some (Ok t) ->
    forall s, tag_in (thing_body t) s -> exists k, tag_parse E k = Some s.
Proof. exact built_tags_parsed. Qed.
Print Assumptions C11_tags_parsed.

Theorem C11_tags_accepted :
  forall E X ord title x p (t : thing E X),
    order_ok ord -> thing_program ord title x p = Some (Ok t) ->
    (forall k k', tag_parse E k = Some k' -> tag_parse E k' = Some k') ->
    forall s, tag_in (thing_body t) s -> tag_parse E s = Some s.
Proof. exact built_tags_accepted. Qed.
Print Assumptions C11_tags_accepted.

Theorem C11_bad_tag_fails :
  forall E X ord title x p (r : result error (thing E X)),
    order_ok ord -> thing_program ord title x p = Some r ->
    forall y s, declares p y -> tag_in y s -> tag_parse E s = None -> exists e, r = Err e.
Proof. exact bad_tag_fails. Qed.
Print Assumptions C11_bad_tag_fails.

Example C11_used :
  tag_in (thing_body the_lamp) "en" /\ tag_in (thing_body the_lamp) "de-at"
  /\ (forall k k', tag_parse sample_env k = Some k' -> tag_parse sample_env k' = Some k')
  /\ run id_order
       [TFinish; TSchema "s" [DFinish tt; DVec tt; DSetItem [DInfo (ITitles [("en", "x"); ("e n", "x")]); DFinish tt; DBool]]]
     = Some (Err (InvalidLanguageTag "e n")).
Proof. exact lamp_tags. Qed.

(** ** C12 *)
Theorem C12_sizes_only_on_icons :
  forall E X ord title x p (t : thing E X),
    order_ok ord -> thing_program ord title x p = Some (Ok t) ->
    forall l z, In l (olist (t_links t)) -> l_sizes l = Some z -> l_rel l = Some "icon".
Proof. exact built_links. Qed.
Print Assumptions C12_sizes_only_on_icons.

Example C12_used :
  map (fun l => (l_sizes l, l_rel l)) (olist (t_links the_lamp)) = [(None, None); (Some "16x16", Some "icon")]
  /\ run id_order [TLinkWith [LHref "x"; LSizes "1x1"; LRel "Icon"]] = Some (Err SizesWithRelNotIcon).
Proof. repeat split; reflexivity. Qed.

(** ** C13

    A program that type checks declares exactly one description; it succeeds exactly
    when the description is consistent, and does not panic. *)
Theorem C13_build_iff_consistent :
  forall E X ord title x p (r : result error (thing E X)),
    order_ok ord -> thing_program ord title x p = Some r ->
    exists y,
      declares p y /\ (forall y', declares p y' -> y' = y)
      /\ ((exists t, r = Ok t) <-> consistent (parsable E) y)
      /\ r <> Err EPanic.
Proof. exact build_iff_consistent. Qed.
Print Assumptions C13_build_iff_consistent.

Example C13_used :
  (exists y, declares lamp y /\ consistent (parsable sample_env) y)
  /\ (exists y, @declares sample_env http_exts [TLinkWith [LHref "x"; LSizes "1x1"]] y
                /\ ~ consistent (parsable sample_env) y).
Proof. exact lamp_consistent. Qed.

(** ** C14

    [defect] reads [MissingSchemaDefinition n] as: a form of the thing uses the
    schema name [n], or a combo scheme the security name [n], and [n] is not
    defined. The full property has the first alternative only, and fails. *)
Theorem C14_errors_name_defects_partial :
  forall E X ord title x p (r : result error (thing E X)),
    order_ok ord -> thing_program ord title x p = Some r ->
    forall y e, declares p y -> r = Err e -> defect E y e.
Proof. exact errors_name_defects. Qed.
Print Assumptions C14_errors_name_defects_partial.

Theorem C14_missing_schema_refuted :
  exists (p : list hop) n,
    run id_order p = Some (Err (MissingSchemaDefinition n))
    /\ forall y, declares p y ->
         ~ exists c f l r, form_at y c f /\ f_additional f = Some l /\ In r l /\ ar_schema r = Some n.
Proof. exact missing_schema_misused. Qed.
Print Assumptions C14_missing_schema_refuted.

Example C14_used :
  map (fun q => run id_order q)
    [ [TSecurity [SAuto]; TSecurity [SCustom "auto"]];
      [TFinish; TForm no_method [FHref "/"]];
      [TFinish; TForm no_method [FHref "/"; FOp InvokeAction]];
      [TFinish; TForm no_method (FSecurity "x" :: a_form)];
      [TFinish; TAction "a" tt tt [AInput bad_bounds]];
      [TFinish; TProperty "p" tt tt (map (@PDs http_exts) [DFinish tt; DNumber; DNumMax (MaxIncl (f64_of_Z 1)); DNumMin (MinIncl Floats.SpecFloat.S754_nan)])];
      [TFinish; TEvent "e" tt tt [EData [DFinish tt; DNumber; DNumMult (f64_of_Z (-1))]]];
      [TFinish; TAction "a" tt tt []; TAction "a" tt tt []];
      [TFinish; TForm no_method (FAdditional [RSchema "s"] :: a_form)];
      [TFinish; TUri "u" [DFinish tt; DTuple tt]];
      [TDescriptions [("", "")]];
      [TLinkWith [LHref "x"; LSizes "1x1"]] ]
  = map (fun e => Some (Err e))
      [DuplicatedSecurityDefinition "auto"; MissingOpInForm; InvalidOpInForm CtxThing InvokeAction;
       UndefinedSecurity "x"; InvalidMinMax; NanMinMax; InvalidMultipleOf; DuplicatedAffordance AAction "a";
       MissingSchemaDefinition "s"; InvalidUriVariables; InvalidLanguageTag ""; SizesWithRelNotIcon].
Proof. reflexivity. Qed.

(** ** C15 *)
Theorem C15_content_declared :
  forall E X ord title x p (t : thing E X),
    order_ok ord -> thing_program ord title x p = Some (Ok t) -> thing_says title x p t.
Proof. exact (fun E X ord title x p t Ho => @built_says E X ord Ho title x p t). Qed.
Print Assumptions C15_content_declared.

(** The description of the content leaves no choice when the parser keeps tags
    apart. *)
Theorem C15_content_unique :
  forall E X title x p (t t' : thing E X),
    (forall k k' s, tag_parse E k = Some s -> tag_parse E k' = Some s -> k = k') ->
    thing_says title x p t -> thing_says title x p t' -> t = t'.
Proof. exact content_unique. Qed.
Print Assumptions C15_content_unique.

Example C15_used :
  t_titles the_lamp = Some [("en", "Lamp"); ("it", "Lampada")]
  /\ option_map (@t_id _ _) (match run id_order [TId "a"; TBase "b"; TId "c"] with Some (Ok t) => Some t | _ => None end)
     = Some (Some "c")
  /\ (forall k k' s, tag_parse plain_env k = Some s -> tag_parse plain_env k' = Some s -> k = k').
Proof. split; [|split]; [reflexivity..|exact plain_injective]. Qed.

(** ** C16 *)
Theorem C16_context :
  forall E X ord title x p (t : thing E X),
    order_ok ord -> thing_program ord title x p = Some (Ok t) ->
    exists js,
      ~ In (JStr "https://www.w3.org/2022/wot/td/v1.1") js
      /\ ((js = [] /\ t_context t = JStr "https://www.w3.org/2022/wot/td/v1.1")
          \/ (js <> [] /\ t_context t = JArr (JStr "https://www.w3.org/2022/wot/td/v1.1" :: js)))
      /\ Forall2 context_is (picks (@t_of_context E X) p) js.
Proof. exact (fun E X ord title x p t Ho => @built_context E X ord Ho title x p t). Qed.
Print Assumptions C16_context.

Example C16_used :
  t_context the_lamp
  = JArr [JStr "https://www.w3.org/2022/wot/td/v1.1"; JObj [("saref", JStr "https://w3id.org/saref#")]]
  /\ option_map (@t_context _ _)
       (match run id_order [TContext "b"; TContext "https://www.w3.org/2022/wot/td/v1.1"; TContext "a"] with
        | Some (Ok t) => Some t | _ => None end)
     = Some (JArr [JStr "https://www.w3.org/2022/wot/td/v1.1"; JStr "b"; JStr "a"])
  /\ option_map (@t_context _ _) (match run id_order [] with Some (Ok t) => Some t | _ => None end)
     = Some (JStr "https://www.w3.org/2022/wot/td/v1.1").
Proof. repeat split; reflexivity. Qed.

(** ** C17 *)
Theorem C17_empty_absent :
  forall E X ord title x p (t : thing E X),
    order_ok ord -> thing_program ord title x p = Some (Ok t) ->
    absent_iff_none (t_forms t) (picks (@t_of_form E X) p)
    /\ absent_iff_none (t_links t) (picks (@t_of_link E X) p)
    /\ absent_iff_none (t_properties t) (picks (@t_of_property E X) p)
    /\ absent_iff_none (t_actions t) (picks (@t_of_action E X) p)
    /\ absent_iff_none (t_events t) (picks (@t_of_event E X) p)
    /\ absent_iff_none (t_uri t) (picks (@t_of_uri E X) p)
    /\ absent_iff_none (t_schemas t) (picks (@t_of_schema E X) p)
    /\ absent_iff_none (t_profile t) (picks (@t_of_profile E X) p)
    /\ absent_iff_none (t_attype t) (picks (@t_of_attype E X) p).
Proof. exact (fun E X ord title x p t Ho => @empties E X ord Ho title x p t). Qed.
Print Assumptions C17_empty_absent.

Theorem C17_empty_absent_nested :
  forall E X ord title x p (t : thing E X),
    order_ok ord -> thing_program ord title x p = Some (Ok t) ->
    Forall2 (fun q l => absent_iff_none (l_hreflang l) (picks k_hreflang q))
      (picks (@t_of_link E X) p) (olist (t_links t))
    /\ (forall n a, In (n, a) (olist (t_properties t)) ->
          exists xi xp q, In (n, (xi, xp, q)) (picks (@t_of_property E X) p)
            /\ absent_iff_none (ia_uri (pa_ia a)) (picks (@i_uri X) (picks (@p_ia X) q)))
    /\ (forall n a, In (n, a) (olist (t_actions t)) ->
          exists xi xp q, In (n, (xi, xp, q)) (picks (@t_of_action E X) p)
            /\ absent_iff_none (ia_uri (aa_ia a)) (picks (@i_uri X) (picks (@a_ia X) q)))
    /\ (forall n a, In (n, a) (olist (t_events t)) ->
          exists xi xp q, In (n, (xi, xp, q)) (picks (@t_of_event E X) p)
            /\ absent_iff_none (ia_uri (ea_ia a)) (picks (@i_uri X) (picks (@e_ia X) q))).
Proof. exact empties_nested. Qed.
Print Assumptions C17_empty_absent_nested.

Example C17_used :
  map (@l_hreflang) (olist (t_links the_lamp)) = [None; Some ["de-at"]]
  /\ map (fun a => option_map (@length _) (ia_uri (aa_ia (snd a)))) (olist (t_actions the_lamp)) = [None]
  /\ map (fun a => option_map (@length _) (ia_uri (pa_ia (snd a)))) (olist (t_properties the_lamp)) = [Some 1]
  /\ option_map (fun t => (t_forms t, t_links t, t_uri t))
       (match run id_order [TFinish] with Some (Ok t) => Some t | _ => None end) = Some (None, None, None).
Proof. repeat split; reflexivity. Qed.

(** ** C18

    Success never depends on the order. The thing does not either, provided no
    language map of the description gives different texts for two tags that the
    parser records as the same tag; and it always does without the proviso. *)
Theorem C18_order_success :
  forall E X ord1 ord2 title x (p : list (top E X)),
    order_ok ord1 -> order_ok ord2 ->
    (thing_program ord1 title x p = None <-> thing_program ord2 title x p = None)
    /\ ((exists t, thing_program ord1 title x p = Some (Ok t))
        <-> (exists t, thing_program ord2 title x p = Some (Ok t))).
Proof. exact order_independent_success. Qed.
Print Assumptions C18_order_success.

Theorem C18_order_thing_partial :
  forall E X ord1 ord2 title x (p : list (top E X)) t,
    order_ok ord1 -> order_ok ord2 ->
    (forall y m k v k' v' s, declares p y -> lang_map_in y m -> In (k, v) m -> In (k', v') m ->
       tag_parse E k = Some s -> tag_parse E k' = Some s -> v = v') ->
    thing_program ord1 title x p = Some (Ok t) -> thing_program ord2 title x p = Some (Ok t).
Proof. exact order_independent_thing. Qed.
Print Assumptions C18_order_thing_partial.

Theorem C18_order_exact :
  forall E X ord title x (p : list (top E X)) t,
    order_ok ord -> thing_program ord title x p = Some (Ok t) ->
    ((forall ord1 ord2, order_ok ord1 -> order_ok ord2 ->
        thing_program ord1 title x p = thing_program ord2 title x p)
     <-> (forall y m k v k' v' s, declares p y -> lang_map_in y m -> In (k, v) m -> In (k', v') m ->
            tag_parse E k = Some s -> tag_parse E k' = Some s -> v = v')).
Proof. exact order_exact. Qed.
Print Assumptions C18_order_exact.

Theorem C18_order_thing_refuted :
  exists (p : list hop) t1 t2,
    order_ok id_order /\ order_ok rev_order
    /\ run id_order p = Some (Ok t1) /\ run rev_order p = Some (Ok t2)
    /\ t_titles t1 = Some [("en", "b")] /\ t_titles t2 = Some [("en", "a")].
Proof. exact order_dependent_thing. Qed.
Print Assumptions C18_order_thing_refuted.

Example C18_used :
  (forall k k' s, tag_parse plain_env k = Some s -> tag_parse plain_env k' = Some s -> k = k')
  /\ exists t, @thing_program plain_env http_exts rev_order "Lamp" tt (lamp_calls plain_env "today") = Some (Ok t)
               /\ t_titles t = Some [("EN", "Lamp"); ("it", "Lampada")].
Proof. exact plain_lamp. Qed.

(** ** C19

    [finish_extend] sets no member; it may be moved wherever the program still
    type checks. *)
Theorem C19_calls_commute :
  forall E X ord title x (p q : list (top E X)) o1 o2,
    target o1 <> target o2 -> target o1 <> VStatus -> target o2 <> VStatus ->
    thing_program ord title x (p ++ o1 :: o2 :: q) = thing_program ord title x (p ++ o2 :: o1 :: q).
Proof. exact swap_program. Qed.
Print Assumptions C19_calls_commute.

Theorem C19_finish_commutes :
  forall E X ord title x (p q : list (top E X)) o r1 r2,
    thing_program ord title x (p ++ o :: TFinish :: q) = Some r1 ->
    thing_program ord title x (p ++ TFinish :: o :: q) = Some r2 -> r1 = r2.
Proof. exact swap_finish. Qed.
Print Assumptions C19_finish_commutes.

Example C19_used :
  @target sample_env http_exts (TId "a") <> @target sample_env http_exts (TSecurity [SAuto])
  /\ (let see p := match run id_order p with Some (Ok t) => Some (t_id t, mkeys (t_secdefs t)) | _ => None end in
      see ([TBase "/"] ++ TId "a" :: TSecurity [SAuto] :: [TFinish]) = Some (Some "a", ["auto"])
      /\ see ([TBase "/"] ++ TSecurity [SAuto] :: TId "a" :: [TFinish]) = Some (Some "a", ["auto"])
      /\ see ([TBase "/"] ++ TId "a" :: TFinish :: []) = Some (Some "a", [])
      /\ see ([TBase "/"] ++ TFinish :: TId "a" :: []) = Some (Some "a", [])).
Proof. split; [discriminate|repeat split; reflexivity]. Qed.

(** ** C62 *)
Theorem C62_reordered :
  forall E X ord title x (p p' : list (top E X)) t,
    order_ok ord -> reordered p p' ->
    (thing_program ord title x p = Some (Ok t) <-> thing_program ord title x p' = Some (Ok t))
    /\ (thing_program ord title x p = None <-> thing_program ord title x p' = None).
Proof. exact reordered_builds. Qed.
Print Assumptions C62_reordered.

Theorem C62_affordances_any_order :
  forall E X ord title x p l l' q (t : thing E X),
    order_ok ord -> Forall (@declares_affordance E X) l -> Permutation l l' ->
    (thing_program ord title x (p ++ l ++ q) = Some (Ok t) <-> thing_program ord title x (p ++ l' ++ q) = Some (Ok t)).
Proof. exact affordances_any_order. Qed.
Print Assumptions C62_affordances_any_order.

(** What is declared twice in this way is told apart by the errors only: the first of
    two wrong declarations is reported. *)
Theorem C62_error_refuted :
  exists (p p' : list hop) e e',
    reordered p p' /\ run id_order p = Some (Err e) /\ run id_order p' = Some (Err e') /\ e <> e'.
Proof. exact reordered_errors. Qed.
Print Assumptions C62_error_refuted.

(** Security schemes, definitions and properties exchanged; and three pairs whose
    order is recorded: required schemes, links, and definitions of one name. *)
Example C62_used :
  let basic : hop := TSecurity [SBasic; SWithKey "b"; SRequired] in
  let nosec : hop := TSecurity [SNoSec] in
  let auto : hop := TSecurity [SAuto; SRequired] in
  let def n (c : dsop unit unit unit) : hop := TSchema n [DFinish tt; c] in
  let on : hop := TProperty "on" tt tt [PDs (DFinish tt); PDs DBool] in
  let hue : hop := TProperty "hue" tt tt [PDs (DFinish tt); PDs DInteger] in
  let p := [TFinish; basic; nosec; def "z" DBool; def "a" DNumber; on; hue] in
  let p' := [TFinish; nosec; basic; def "a" DNumber; def "z" DBool; hue; on] in
  let see p := match run id_order p with
               | Some (Ok t) => Some (t_security t, mkeys (t_secdefs t), option_map (@mkeys _) (t_schemas t), option_map (@mkeys _) (t_properties t))
               | _ => None end in
  reordered p p' /\ see p = see p'
  /\ see p = Some (["b"], ["b"; "nosec"], Some ["a"; "z"], Some ["hue"; "on"])
  /\ see [TFinish; basic; auto] <> see [TFinish; auto; basic]
  /\ (let links p := match run id_order p with Some (Ok t) => option_map (map (@l_href)) (t_links t) | _ => None end in
      links [TLink "a"; TLink "b"] <> links [TLink "b"; TLink "a"])
  /\ (let defs p := match run id_order p with Some (Ok t) => option_map (map (fun c => ds_sub (snd c))) (t_schemas t) | _ => None end in
      defs [TFinish; def "a" DBool; def "a" DNumber] <> defs [TFinish; def "a" DNumber; def "a" DBool]).
Proof.
  split; [|split; [reflexivity|split; [reflexivity|split; [|split]]]].
  - apply (re_swap [TFinish] _ _ _); [right; reflexivity|].
    apply (re_swap [TFinish; _; _] _ _ _); [discriminate|].
    apply (re_swap [TFinish; _; _; _; _] _ _ _); [exact I|]. apply re_refl.
  - discriminate.
  - discriminate.
  - discriminate.
Qed.
