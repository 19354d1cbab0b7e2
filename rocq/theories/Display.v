(** * Messages of builder errors *)

From Coq Require Import String List.
From Verif Require Import Base Json Serde Types DsBuilder Ser.
Set Implicit Arguments.
Local Open Scope string_scope.

(** The double quote character. src/builder.rs 305-366. *)
Definition quote : string := """".


(** src/builder.rs 386-397, [Display for FormContext] *)
Definition context_display (c : form_context) : string :=
  match c with
  | CtxThing => "Thing"
  | CtxProperty => "PropertyAffordance"
  | CtxAction => "ActionAffordance"
  | CtxEvent => "EventAffordance"
  end.

(** src/builder.rs 422-432, [Display for AffordanceType] *)
Definition affordance_display (t : affordance_type) : string :=
  match t with AProperty => "property" | AAction => "action" | AEvent => "event" end.

(** src/builder.rs 305-366, the [#[error(..)]] attributes of [Error] ([Display], by thiserror).
    [None]: [EPanic] is no Rust value. *)
Definition error_display (e : error) : option string :=
  match e with
  | DuplicatedSecurityDefinition n => Some ("Two security definitions use the name " ++ quote ++ n ++ quote)
  | MissingOpInForm => Some "A Form directly placed in a Thing must contain at least one relevant operation"
  | InvalidOpInForm c o =>
      Some ("Invalid Form operation " ++ op_display o ++ " in " ++ context_display c ++ " context")
  | UndefinedSecurity n =>
      Some ("Security " ++ quote ++ n ++ quote ++ " is not specified in Thing security definitions")
  | InvalidMinMax => Some "Min value greater than max value"
  | NanMinMax => Some "Min or Max value is NaN"
  | DuplicatedAffordance t n =>
      Some ("Two affordances of type " ++ affordance_display t ++ " use the name " ++ quote ++ n ++ quote)
  | InvalidMultipleOf => Some (quote ++ "multipleOf" ++ quote ++ " field must be strictly greater than 0")
  | MissingSchemaDefinition n =>
      Some ("Using the data schema " ++ quote ++ n ++ quote ++ ", which is not declared in the schema definitions")
  | InvalidUriVariables => Some "An uriVariable cannot be an ObjectSchema or ArraySchema"
  | InvalidLanguageTag s => Some ("Invalid language tag " ++ quote ++ s ++ quote)
  | SizesWithRelNotIcon =>
      Some ("A sizes field can be used only when " ++ quote ++ "rel" ++ quote ++ " is " ++ quote ++ "icon" ++ quote)
  | EPanic => None
  end.
