(** * The two chains of schema builders (C54) *)

From Coq Require Import String Bool ZArith List.
From Verif Require Import Base MinMax Json Serde Types DsBuilder Builder HList Protocol Samples SampleFacts Spec SpecThing
  SchemaStructs SchemaStructFacts SpecStruct StructFacts.
Import ListNotations.
Set Implicit Arguments.
Local Open Scope string_scope.
Local Open Scope list_scope.

(** [dbuild2 p]: the calls [p] on a [DataSchemaBuilder], struct by struct, converted into an
    [UncheckedDataSchema].  [pbuild2 p]: the same calls on a [PropertyAffordanceBuilder], whose
    human readable fields are its own and whose schema passes through [PartialDataSchemaBuilder]
    into a [PartialDataSchema].  [is_schema i r d]: the members of [d] are those of [i] and [r]. *)

(** A property affordance offers the calls of a data schema, except those about the text of strings. *)
Theorem C54_calls :
  forall DS AS OS (p : list (dsop DS AS OS)),
  (exists i r, pbuild2 p = Some (i, r)) <-> (exists d, dbuild2 p = Some d) /\ ~ exists o, In o p /\ about_text o.
Proof. exact property_calls. Qed.
Print Assumptions C54_calls.

(** The same calls give the same schema. *)
Theorem C54_schema :
  forall DS AS OS (p : list (dsop DS AS OS)) i r d,
  pbuild2 p = Some (i, r) -> dbuild2 p = Some d -> is_schema i r d.
Proof. exact property_schema. Qed.
Print Assumptions C54_schema.

(** The same schema gives the same verdict of the check. *)
Theorem C54_check :
  forall DS AS OS ord i (r : partial_ds DS AS OS) d, is_schema i r d -> partial_check ord r = check ord d.
Proof. exact property_checks. Qed.
Print Assumptions C54_check.

(** The property that is built has the schema that would be built from the ordinary unchecked schema,
    and its human readable fields are those of that schema. *)
Theorem C54_build :
  forall E X ord (u : uproperty2 X) d a,
  is_schema (u_info u) (u_schema u) d -> property_build2 E ord u = Ok a ->
  ds_build ord (tag_parse E) d = Ok (pa_ds a) /\ ia_info (pa_ia a) = ds_info (pa_ds a).
Proof. exact property_builds. Qed.
Print Assumptions C54_build.

(** When it cannot be built, the error is that of the schema or of the URI variables. *)
Theorem C54_error :
  forall E X ord (u : uproperty2 X) d e,
  is_schema (u_info u) (u_schema u) d -> property_build2 E ord u = Err e ->
  ds_build ord (tag_parse E) d = Err e \/ @ia_uri_build E X ord (ib_uri (u_ia u)) = Err e.
Proof. exact property_fails. Qed.
Print Assumptions C54_error.

(** The chain of structs is what the rest of the model says it is: the merged builder of DsBuilder.v
    and Builder.v, on which the other properties are proved. *)
Theorem C54_refines_schema :
  forall DS AS OS (p : list (dsop DS AS OS)), dbuild2 p = dbuild p.
Proof. exact dbuild2_dbuild. Qed.
Print Assumptions C54_refines_schema.

Theorem C54_refines_property :
  forall E X ord xi xp (p : list (pop X)),
  match prop_run2 xi xp p, prop_run xi xp p with
  | Some u, Some v =>
      up_ia v = u_ia u /\ is_schema (u_info u) (u_schema u) (up_ds v) /\ up_observable v = u_observable u
      /\ up_other v = u_other u /\ property_build2 E ord u = property_build E ord v
  | None, None => True
  | _, _ => False
  end.
Proof. exact prop_refines. Qed.
Print Assumptions C54_refines_property.

Theorem C54_refines_properties :
  forall E X ord defs (l : list (string * (pty (x_ia X) * pty (x_pa X) * list (pop X)))) us vs,
  Forall2 (fun c u => fst c = fst u /\ prop_run2 (fst (fst (snd c))) (snd (fst (snd c))) (snd (snd c)) = Some (snd u))
    l us ->
  Forall2 (fun c v => fst c = fst v /\ prop_run (fst (fst (snd c))) (snd (fst (snd c))) (snd (snd c)) = Some (snd v))
    l vs ->
  properties_build2 E ord defs us
  = affordances_build ord defs AProperty (@up_ia X) (fun p => [Some (up_ds p)]) (property_build E ord) vs.
Proof. exact properties_refine. Qed.
Print Assumptions C54_refines_properties.

(** As a consequence no property of a built Thing says anything about the text of its strings,
    ... *)
Theorem C54_no_text :
  forall E X ord title x (p : list (top E X)) t, order_ok ord ->
  thing_program ord title x p = Some (Ok t) ->
  forall ps n a, t_properties t = Some ps -> In (n, a) ps -> no_text (pa_ds a).
Proof. exact built_no_text. Qed.
Print Assumptions C54_no_text.

(** ... although schemas can. *)
Theorem C54_all_calls_refuted :
  exists (p : list (dsop unit unit unit)) d, dbuild2 p = Some d /\ ~ no_text d /\ pbuild2 p = None.
Proof. exact text_lost. Qed.
Print Assumptions C54_all_calls_refuted.

Example C54_used :
  let p : list (dsop unit unit unit) := [DInfo (ITitle "Level"); DFinish tt; DUnit "percent"; DObject tt;
            DProperty "b" false [DFinish tt; DOneOf [DFinish tt; DString; DMinLength 3%Z]];
            DProperty "a" true [DFinish tt; DInteger; DIntMin (MinIncl 1%Z)]; DReadOnly] in
  (exists i r d, pbuild2 p = Some (i, r) /\ dbuild2 p = Some d
    /\ i_title i = Some "Level" /\ r_unit r = Some "percent" /\ r_ro r = true
    /\ ds_sub d <> None /\ partial_check id_order r = Ok tt)
  /\ exists i r,
      pbuild2 [DFinish tt; DInteger; @DIntMin unit unit unit (MinIncl 3%Z); DIntMax (MaxIncl 2%Z)] = Some (i, r)
      /\ partial_check id_order r = Err InvalidMinMax.
Proof.
  split; [do 3 eexists; (split; [vm_compute; reflexivity|]); (split; [vm_compute; reflexivity|]); do 3 (split; [reflexivity|]); split; [discriminate|vm_compute; reflexivity]|].
  do 2 eexists. split; vm_compute; reflexivity.
Qed.

Example C54_used_thing :
  (exists u, prop_run2 (X := http_exts) tt tt
      (map (@PDs http_exts) [DFinish tt; DInfo (ITitle "Status"); DString; DReadOnly]) = Some u
    /\ exists a, property_build2 sample_env id_order u = Ok a /\ ia_info (pa_ia a) <> no_info)
  /\ match run id_order (one_property sample_env http_exts "status" tt tt tt
            [DInfo (ITitle "Status"); DString; DReadOnly]) with
     | Some (Ok t) =>
         match t_properties t with
         | Some [(n, a)] => n = "status" /\ match ds_sub (pa_ds a) with Some (SString _) => True | _ => False end
         | _ => False
         end
     | _ => False
     end.
Proof.
  split.
  - eexists. split; [reflexivity|]. eexists. split; [reflexivity|]. cbn. discriminate.
  - vm_compute. auto.
Qed.
