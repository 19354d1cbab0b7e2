(** * The methods of the thing builder by name (C20)

    Calls before [finish_extend] have a type of their own, since the extension is not known yet; here both types are described by
    the names of the methods in src/builder.rs. *)

From Coq Require Import String Bool ZArith List.
From Verif Require Import Base MinMax Json Serde Types DsBuilder Builder HList Extend SpecThing.
Set Implicit Arguments.
Local Open Scope string_scope.

(** Setters 1065-1073, [context] 1076, [context_map] 1121, [attype] 1133, [titles] 1185, [descriptions] 1199, [link] 1210, [link_with]
    1259, [security] 1324, [profile] 1385; the others in status [Extended] only (src/builder.rs). *)
Definition method E X (o : top E X) : string :=
  match o with
  | TId _ => "id" | TDescription _ => "description" | TVersion _ => "version" | TCreated _ => "created"
  | TModified _ => "modified" | TSupport _ => "support" | TBase _ => "base" | TContext _ => "context"
  | TContextMap _ => "context_map" | TAttype _ => "attype" | TTitles _ => "titles" | TDescriptions _ => "descriptions"
  | TLink _ => "link" | TLinkWith _ => "link_with" | TSecurity _ => "security" | TProfile _ => "profile"
  | TFinish => "finish_extend" | TForm _ _ => "form" | TUri _ _ => "uri_variable" | TProperty _ _ _ _ => "property"
  | TAction _ _ _ _ => "action" | TEvent _ _ _ _ => "event" | TSchema _ _ => "schema_definition"
  end.

(** Those that can be called before [finish_extend] (src/builder.rs 1065-1388). *)
Definition early_method E (o : thing_early E) : string :=
  match o with
  | TeId _ _ => "id" | TeDescription _ _ => "description" | TeVersion _ _ => "version" | TeCreated _ _ => "created"
  | TeModified _ _ => "modified" | TeSupport _ _ => "support" | TeBase _ _ => "base" | TeContext _ _ => "context"
  | TeContextMap _ _ => "context_map" | TeAttype _ _ => "attype" | TeTitles _ _ => "titles" | TeDescriptions _ _ => "descriptions"
  | TeLink _ _ => "link" | TeLinkWith _ _ => "link_with" | TeSecurity _ _ => "security" | TeProfile _ _ => "profile"
  end.
