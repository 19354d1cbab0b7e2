(** * Affordances, links and forms are checked one by one (C66)

    [SpecApart.v] says which calls of the builder declare them; [frame p] are the other calls. *)

From Coq Require Import String Bool List.
From Verif Require Import Base Json Serde Types DsBuilder Builder Spec Protocol Samples SpecThing SpecApart SampleFacts ApartFacts.
Import ListNotations.
Set Implicit Arguments.
Local Open Scope string_scope.
Local Open Scope list_scope.

(** A Thing is built exactly when the Thing without these declarations is, so is the Thing with any one of them,
    and no two affordances of a kind have the same name. *)
Theorem C66_separate :
  forall E X (ord : order), order_ok ord ->
  forall title x (p : list (top E X)), thing_program ord title x p <> None ->
    ((exists t, thing_program ord title x p = Some (Ok t))
     <-> (exists t, thing_program ord title x (frame p) = Some (Ok t))
         /\ (forall o, In o p -> separable o = true -> exists t, thing_program ord title x (frame p ++ [o]) = Some (Ok t))
         /\ (forall k, NoDup (names k p))).
Proof. exact checked_apart. Qed.
Print Assumptions C66_separate.

(** It has what these Things have: the rest of the Thing is that of the one without the declarations,
    the affordances are those found in the ones with a single affordance, and the links and forms follow in the order
    of the calls. *)
Theorem C66_content :
  forall E X (ord : order), order_ok ord ->
  forall title x (p : list (top E X)) t, thing_program ord title x p = Some (Ok t) ->
    (exists t0, thing_program ord title x (frame p) = Some (Ok t0) /\ same_frame t t0
       /\ t_properties t0 = None /\ t_actions t0 = None /\ t_events t0 = None /\ t_links t0 = None /\ t_forms t0 = None)
    /\ (forall n a, In (n, a) (olist (t_properties t))
         <-> exists o t', In o p /\ is_property o = true /\ thing_program ord title x (frame p ++ [o]) = Some (Ok t')
             /\ t_properties t' = Some [(n, a)])
    /\ (forall n a, In (n, a) (olist (t_actions t))
         <-> exists o t', In o p /\ is_action o = true /\ thing_program ord title x (frame p ++ [o]) = Some (Ok t')
             /\ t_actions t' = Some [(n, a)])
    /\ (forall n a, In (n, a) (olist (t_events t))
         <-> exists o t', In o p /\ is_event o = true /\ thing_program ord title x (frame p ++ [o]) = Some (Ok t')
             /\ t_events t' = Some [(n, a)])
    /\ Forall2 (fun o l => exists t', thing_program ord title x (frame p ++ [o]) = Some (Ok t') /\ t_links t' = Some [l])
         (filter (@is_link E X) p) (olist (t_links t))
    /\ Forall2 (fun o f => exists t', thing_program ord title x (frame p ++ [o]) = Some (Ok t') /\ t_forms t' = Some [f])
         (filter (@is_form E X) p) (olist (t_forms t)).
Proof. exact apart_content. Qed.
Print Assumptions C66_content.

(** Leaving out any of the declarations leaves a Thing that is built, and that has the rest unchanged. *)
Theorem C66_left_out :
  forall E X (ord : order), order_ok ord ->
  forall title x (p p' : list (top E X)) t, thinned p p' -> thing_program ord title x p = Some (Ok t) ->
  exists t', thing_program ord title x p' = Some (Ok t') /\ same_frame t t'
    /\ (forall n a, In (n, a) (olist (t_properties t')) <-> In (n, a) (olist (t_properties t)) /\ In n (names AProperty p'))
    /\ (forall n a, In (n, a) (olist (t_actions t')) <-> In (n, a) (olist (t_actions t)) /\ In n (names AAction p'))
    /\ (forall n a, In (n, a) (olist (t_events t')) <-> In (n, a) (olist (t_events t)) /\ In n (names AEvent p'))
    /\ sublist (olist (t_links t)) (olist (t_links t')) /\ sublist (olist (t_forms t)) (olist (t_forms t')).
Proof. exact apart_left_out. Qed.
Print Assumptions C66_left_out.

(** The lamp has seven such declarations and is built without its events as well; with a second property "status", or
    with sizes on a link that is no icon, it is not, though the rest is. *)
Example C66_used :
  order_ok id_order
  /\ run id_order lamp = Some (Ok the_lamp) /\ length (filter (@separable sample_env http_exts) lamp) = 7
  /\ names AEvent lamp = ["status"; "overheated"]
  /\ thinned lamp (filter (fun o => negb (is_event o)) lamp)
  /\ run id_order (lamp ++ [TProperty "status" tt tt [PDs (DFinish tt); PDs DBool]]) = Some (Err (DuplicatedAffordance AProperty "status"))
  /\ names AProperty (lamp ++ [TProperty "status" tt tt [PDs (DFinish tt); PDs DBool]]) = ["status"; "status"]
  /\ run id_order (lamp ++ [TLinkWith [LHref "/"; LSizes "1"]]) = Some (Err SizesWithRelNotIcon)
  /\ run id_order (frame lamp ++ [TLinkWith [LHref "/"; LSizes "1"]]) = Some (Err SizesWithRelNotIcon).
Proof.
  split; [exact id_order_ok|]. split; [exact (proj1 lamp_ok)|]. split; [reflexivity|]. split; [reflexivity|].
  split; [apply thinned_filter; intros []; first [discriminate|reflexivity]|]. repeat apply conj; reflexivity.
Qed.
