(** * Debug output and copies (C61) *)

From Coq Require Import String Bool ZArith List.
From Verif Require Import Base MinMax Json Serde Types HList Protocol Debug SpecDebug DebugFacts Samples.
Import ListNotations.
Set Implicit Arguments.
Local Open Scope string_scope.
Local Open Scope list_scope.

(** ** C61

    [shows name g fields]: a struct of that name is printed, with every field under its name, and what is
    printed there tells its values apart. *)
Theorem C61_fields :
  forall E X (G : dbgs E X), dbgs_exact G ->
    shows "Thing" (g_thing G) (thing_fields E X)
    /\ shows "InteractionAffordance" (g_interaction G) (interaction_fields X)
    /\ shows "PropertyAffordance" (g_property G) (property_fields X)
    /\ shows "ActionAffordance" (g_action G) (action_fields X)
    /\ shows "EventAffordance" (g_event G) (event_fields X).
Proof.
  exact (fun E X G H => conj (thing_shows H) (conj (interaction_shows H)
           (conj (property_shows H) (conj (action_shows H) (event_shows H))))).
Qed.
Print Assumptions C61_fields.

(** Things, schemas and forms that print alike are the same, at any depth. *)
Theorem C61_tells_apart :
  forall E X (G : dbgs E X), dbgs_exact G ->
    (forall t t', g_thing G t = g_thing G t' -> t = t')
    /\ (forall d d', g_schema G d = g_schema G d' -> d = d')
    /\ (forall f f', g_form G f = g_form G f' -> f = f').
Proof. exact (fun E X G H => conj (thing_apart H) (conj (schema_apart H) (form_apart H))). Qed.
Print Assumptions C61_tells_apart.

Theorem C61_bindings :
  forall E (g : date E -> dbg), (forall a b, g a = g b -> a = b) ->
    dbgs_exact (http_dbgs E g) /\ dbgs_exact (coap_dbgs E g) /\ dbgs_exact (mqtt_dbgs E g)
    /\ forall X X' (G : dbgs E X) (G' : dbgs E X'), dbgs_exact G -> dbgs_exact G' -> dbgs_exact (cons_dbgs G G').
Proof. exact (fun E g H => conj (@http_exact E g H) (conj (@coap_exact E g H) (conj (@mqtt_exact E g H) (@cons_exact E)))). Qed.
Print Assumptions C61_bindings.

(** A copy of a form is the form, if copies of its extensions are. *)
Theorem C61_copy :
  forall X c_er c_f (f : form X),
    (forall r, c_er r = r) -> (forall o, c_f o = o) -> clone_form c_er c_f f = f.
Proof. exact clone_same. Qed.
Print Assumptions C61_copy.

Definition lamp_form : form http_exts :=
  @Build_form http_exts (OpCustom [ReadAllProperties]) "/all" None (Some "gzip") None (Some ["basic_sc"]) None
    (Some (@Build_exp_resp http_response "text/plain" {| hr_headers := []; hr_status := Some 200%Z |})) None
    {| hf_method := Some HGet |}.

Example C61_used :
  dbgs_exact (http_dbgs sample_env GStr)
  /\ shown "title" (g_thing (http_dbgs sample_env GStr) the_lamp) = Some (GStr (t_title the_lamp))
  /\ shown "created" (g_thing (http_dbgs sample_env GStr) the_lamp)
     = Some (GVariant "Some" [GStr "2022-11-16T10:00:00Z"])
  /\ shown "data" (g_thing (http_dbgs sample_env GStr) the_lamp) = None
  /\ @clone_form http_exts (fun r : http_response => {| hr_headers := hr_headers r; hr_status := hr_status r |} : pty (x_er http_exts))
       (fun f : http_form => {| hf_method := hf_method f |} : pty (x_f http_exts)) lamp_form = lamp_form.
Proof.
  exact (conj (@http_exact sample_env GStr str_apart) (conj eq_refl (conj eq_refl (conj eq_refl eq_refl)))).
Qed.
