(** * Which error is reported (C64)

    [defect_at y p e]: the error [e] describes a defect of the description [y], found at the position [p].
    Positions are lists of numbers in lexicographic order: first the kind of thing looked at, then which one
    in the order of declaration, then the check.  Where members of a hash map are looked at, they share
    one position. *)

From Coq Require Import String Bool ZArith List.
From Verif Require Import Base MinMax Json Serde Types DsBuilder Builder Spec SpecCalls SpecThing.
Import ListNotations.
Set Implicit Arguments.
Local Open Scope string_scope.
Local Open Scope list_scope.

Definition position := list nat.

(** [p] is [q] or comes before it. *)
Fixpoint not_after (p q : position) : Prop :=
  match p, q with
  | [], _ => True
  | _ :: _, [] => False
  | a :: p', b :: q' => a < b \/ (a = b /\ not_after p' q')
  end.

Section First.
  Variable E : env.
  Variable X : exts.
  Notation dsx := (dsx X).

  Definition invalid (s : string) : Prop := tag_parse E s = None.

  (** What build looks at in an affordance: the interaction, the schemas whose bounds are checked, the others *)
  Record part := { pt_ia : interaction X; pt_checked : list (option dsx); pt_others : list (option dsx) }.

  Definition property_part (a : property X) : part :=
    {| pt_ia := pa_ia a; pt_checked := [Some (pa_ds a)]; pt_others := [] |}.
  Definition action_part (a : action X) : part :=
    {| pt_ia := aa_ia a; pt_checked := [aa_input a; aa_output a]; pt_others := [] |}.
  Definition event_part (a : event X) : part :=
    {| pt_ia := ea_ia a; pt_checked := [ea_subscription a; ea_data a; ea_cancellation a];
       pt_others := [ea_data_response a] |}.

  Definition parts (y : body X) (k : affordance_type) : list (string * part) :=
    match k with
    | AProperty => map (fun na => (fst na, property_part (snd na))) (y_properties y)
    | AAction => map (fun na => (fst na, action_part (snd na))) (y_actions y)
    | AEvent => map (fun na => (fst na, event_part (snd na))) (y_events y)
    end.

  Definition rank (k : affordance_type) : nat := match k with AProperty => 6 | AAction => 7 | AEvent => 8 end.

  (** The strings used as language tags in it *)
  Inductive part_tag (a : part) (s : string) : Prop :=
  | pt_info : info_tag (ia_info (pt_ia a)) s -> part_tag a s
  | pt_uri n d : In (n, d) (olist (ia_uri (pt_ia a))) -> ds_tag d s -> part_tag a s
  | pt_schema d : In (Some d) (pt_checked a ++ pt_others a) -> ds_tag d s -> part_tag a s.

  Inductive defect_at (y : body X) : position -> error -> Prop :=
  (* security definitions, one after the other *)
  | at_scheme_tag i n c m s :
      nth_error (y_secdefs y) i = Some (n, c) -> ss_descriptions c = Some m -> In s (mkeys m) -> invalid s ->
      defect_at y [0; i; 0] (InvalidLanguageTag s)
  | at_scheme_twice i n c :
      nth_error (y_secdefs y) i = Some (n, c) -> In n (map fst (firstn i (y_secdefs y))) ->
      defect_at y [0; i; 1] (DuplicatedSecurityDefinition n)
  (* combinations of schemes *)
  | at_combo k c n :
      In (k, c) (y_secdefs y) -> combined c n -> ~ In n (secnames y) -> defect_at y [1] (MissingSchemaDefinition n)
  (* schema definitions *)
  | at_schema_tag n d s : In (n, d) (y_schemas y) -> ds_tag d s -> invalid s -> defect_at y [2] (InvalidLanguageTag s)
  (* forms of the thing: security, operations, responses *)
  | at_form_security i f j n :
      nth_error (y_forms y) i = Some f -> nth_error (olist (f_security f)) j = Some n -> ~ In n (secnames y) ->
      defect_at y [3; i; 0; j] (UndefinedSecurity n)
  | at_form_default i f :
      nth_error (y_forms y) i = Some f -> f_op f = OpDefault -> defect_at y [3; i; 1] MissingOpInForm
  | at_form_op i f l j o :
      nth_error (y_forms y) i = Some f -> f_op f = OpCustom l -> nth_error l j = Some o -> ~ In o (ops_of CtxThing) ->
      defect_at y [3; i; 1; j] (InvalidOpInForm CtxThing o)
  | at_form_response i f j r n :
      nth_error (y_forms y) i = Some f -> nth_error (olist (f_additional f)) j = Some r -> ar_schema r = Some n ->
      ~ In n (map fst (y_schemas y)) -> defect_at y [3; i; 2; j] (MissingSchemaDefinition n)
  (* URI variables of the thing *)
  | at_uri n d : In (n, d) (y_uris y) -> is_aggregate d -> defect_at y [4] InvalidUriVariables
  | at_uri_tag n d s : In (n, d) (y_uris y) -> ds_tag d s -> invalid s -> defect_at y [5] (InvalidLanguageTag s)
  (* properties, then actions, then events: forms, URI variables, bounds, name, language tags *)
  | at_aff_op k i n a j f l m o :
      nth_error (parts y k) i = Some (n, a) -> nth_error (ia_forms (pt_ia a)) j = Some f -> f_op f = OpCustom l ->
      nth_error l m = Some o -> ~ In o (ops_of (ctx_of k)) ->
      defect_at y [rank k; i; 0; j; 0; m] (InvalidOpInForm (ctx_of k) o)
  | at_aff_security k i n a j f m s :
      nth_error (parts y k) i = Some (n, a) -> nth_error (ia_forms (pt_ia a)) j = Some f ->
      nth_error (olist (f_security f)) m = Some s -> ~ In s (secnames y) ->
      defect_at y [rank k; i; 0; j; 1; m] (UndefinedSecurity s)
  | at_aff_uri k i n a v d :
      nth_error (parts y k) i = Some (n, a) -> In (v, d) (olist (ia_uri (pt_ia a))) -> is_aggregate d ->
      defect_at y [rank k; i; 1] InvalidUriVariables
  | at_aff_bounds k i n a m d e' b e :
      nth_error (parts y k) i = Some (n, a) -> nth_error (pt_checked a) m = Some (Some d) ->
      sub_ds e' d -> ds_sub e' = Some b -> bounds_defect e b -> defect_at y [rank k; i; 2; m] e
  | at_aff_twice k i n a :
      nth_error (parts y k) i = Some (n, a) -> In n (map fst (firstn i (parts y k))) ->
      defect_at y [rank k; i; 3] (DuplicatedAffordance k n)
  | at_aff_tag k i n a s :
      nth_error (parts y k) i = Some (n, a) -> part_tag a s -> invalid s ->
      defect_at y [rank k; i; 4] (InvalidLanguageTag s)
  (* links: sizes, languages *)
  | at_link_sizes i l z :
      nth_error (y_links y) i = Some l -> l_sizes l = Some z -> l_rel l <> Some "icon" ->
      defect_at y [9; i; 0] SizesWithRelNotIcon
  | at_link_tag i l j s :
      nth_error (y_links y) i = Some l -> nth_error (olist (l_hreflang l)) j = Some s -> invalid s ->
      defect_at y [9; i; 1; j] (InvalidLanguageTag s)
  (* titles and descriptions of the thing *)
  | at_title s : In s (mkeys (y_titles y)) -> invalid s -> defect_at y [10] (InvalidLanguageTag s)
  | at_description s : In s (mkeys (y_descriptions y)) -> invalid s -> defect_at y [11] (InvalidLanguageTag s).

  (** Nothing is wrong before [p]. *)
  Definition earliest (y : body X) (p : position) : Prop := forall q e, defect_at y q e -> not_after p q.

  (** Positions where the visiting order of a hash map may decide which defect is found *)
  Definition unordered (p : position) : Prop :=
    match p with
    | [0; _; 0] | [1] | [2] | [5] | [10] | [11] => True
    | [S (S (S (S (S (S _))))); _; 2; _] | [S (S (S (S (S (S _))))); _; 4] => True
    | _ => False
    end.
End First.
