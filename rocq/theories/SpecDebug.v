(** * What debug output should show: every field, under its name *)

From Coq Require Import String Bool ZArith List.
From Verif Require Import Base MinMax Json Serde Types HList Protocol Debug.
Import ListNotations.
Set Implicit Arguments.
Local Open Scope string_scope.
Local Open Scope list_scope.

(** What is printed after [name:] in a struct *)
Definition shown (name : string) (g : dbg) : option dbg :=
  match g with
  | GStruct _ fs => option_map snd (find (fun kv => String.eqb (fst kv) name) fs)
  | _ => None
  end.

Definition field_names (g : dbg) : list string :=
  match g with GStruct _ fs => map fst fs | _ => [] end.

Definition struct_name (g : dbg) : string :=
  match g with GStruct n _ => n | _ => "" end.

(** Dates and extensions that print differently if they differ *)
Definition tells_apart {A} (f : A -> dbg) : Prop := forall a b, f a = f b -> a = b.

Record dbgs_exact E X (G : dbgs E X) : Prop := {
  ge_date : tells_apart (g_date G); ge_t : tells_apart (g_t G); ge_ia : tells_apart (g_ia G);
  ge_pa : tells_apart (g_pa G); ge_aa : tells_apart (g_aa G); ge_ea : tells_apart (g_ea G);
  ge_f : tells_apart (g_f G); ge_er : tells_apart (g_er G); ge_ds : tells_apart (g_ds G);
  ge_os : tells_apart (g_os G); ge_as : tells_apart (g_as G);
}.

(** Two values agree in a field.  The names are those of the Rust structs: src/thing.rs 51-167,
    299-330, 397-416, 475-506, 574-589. *)
Section Agree.
  Variable E : env.
  Variable X : exts.

  Definition thing_fields : list (string * (thing E X -> thing E X -> Prop)) :=
    [("context", fun t t' => t_context t = t_context t');
     ("id", fun t t' => t_id t = t_id t');
     ("attype", fun t t' => t_attype t = t_attype t');
     ("title", fun t t' => t_title t = t_title t');
     ("titles", fun t t' => t_titles t = t_titles t');
     ("description", fun t t' => t_description t = t_description t');
     ("descriptions", fun t t' => t_descriptions t = t_descriptions t');
     ("version", fun t t' => t_version t = t_version t');
     ("created", fun t t' => t_created t = t_created t');
     ("modified", fun t t' => t_modified t = t_modified t');
     ("support", fun t t' => t_support t = t_support t');
     ("base", fun t t' => t_base t = t_base t');
     ("properties", fun t t' => t_properties t = t_properties t');
     ("actions", fun t t' => t_actions t = t_actions t');
     ("events", fun t t' => t_events t = t_events t');
     ("links", fun t t' => t_links t = t_links t');
     ("forms", fun t t' => t_forms t = t_forms t');
     ("security", fun t t' => t_security t = t_security t');
     ("security_definitions", fun t t' => t_secdefs t = t_secdefs t');
     ("uri_variables", fun t t' => t_uri t = t_uri t');
     ("profile", fun t t' => t_profile t = t_profile t');
     ("schema_definitions", fun t t' => t_schemas t = t_schemas t');
     ("other", fun t t' => t_other t = t_other t')].

  Definition interaction_fields : list (string * (interaction X -> interaction X -> Prop)) :=
    [("attype", fun i i' => i_attype (ia_info i) = i_attype (ia_info i'));
     ("title", fun i i' => i_title (ia_info i) = i_title (ia_info i'));
     ("titles", fun i i' => i_titles (ia_info i) = i_titles (ia_info i'));
     ("description", fun i i' => i_description (ia_info i) = i_description (ia_info i'));
     ("descriptions", fun i i' => i_descriptions (ia_info i) = i_descriptions (ia_info i'));
     ("forms", fun i i' => ia_forms i = ia_forms i');
     ("uri_variables", fun i i' => ia_uri i = ia_uri i');
     ("other", fun i i' => ia_other i = ia_other i')].

  Definition property_fields : list (string * (property X -> property X -> Prop)) :=
    [("interaction", fun p p' => pa_ia p = pa_ia p'); ("data_schema", fun p p' => pa_ds p = pa_ds p');
     ("observable", fun p p' => pa_observable p = pa_observable p');
     ("other", fun p p' => pa_other p = pa_other p')].

  Definition action_fields : list (string * (action X -> action X -> Prop)) :=
    [("interaction", fun a a' => aa_ia a = aa_ia a'); ("input", fun a a' => aa_input a = aa_input a');
     ("output", fun a a' => aa_output a = aa_output a'); ("safe", fun a a' => aa_safe a = aa_safe a');
     ("idempotent", fun a a' => aa_idempotent a = aa_idempotent a');
     ("synchronous", fun a a' => aa_synchronous a = aa_synchronous a');
     ("other", fun a a' => aa_other a = aa_other a')].

  Definition event_fields : list (string * (event X -> event X -> Prop)) :=
    [("interaction", fun e e' => ea_ia e = ea_ia e');
     ("subscription", fun e e' => ea_subscription e = ea_subscription e');
     ("data", fun e e' => ea_data e = ea_data e');
     ("data_response", fun e e' => ea_data_response e = ea_data_response e');
     ("cancellation", fun e e' => ea_cancellation e = ea_cancellation e');
     ("other", fun e e' => ea_other e = ea_other e')].
End Agree.

(** [shows name g fields]: [g] prints a struct [name] with the fields of the table, in that order, and a
    field of two values is printed alike exactly if they agree in it. *)
Definition shows {A} (name : string) (g : A -> dbg) (fields : list (string * (A -> A -> Prop))) : Prop :=
  (forall a, struct_name (g a) = name /\ field_names (g a) = map fst fields)
  /\ forall k same a b, In (k, same) fields -> (shown k (g a) = shown k (g b) <-> same a b).
