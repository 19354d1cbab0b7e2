(** * Lemmas and samples for Props_Member *)

From Coq Require Import String Bool ZArith List.
From Verif Require Import Base MinMax Json Serde Types HList Ser De Protocol Spec Samples SpecSerde SpecExt SpecDoc
  SpecMember SerdeFacts RoundTrip ExtFacts SerdeSamples DocSamples MemberFacts NameFacts WrittenFacts Witnesses
  ShapeFacts.
Import ListNotations.
Set Implicit Arguments.
Local Open Scope string_scope.
Local Open Scope list_scope.

Section Lacks.
  Variable E : env.
  Variable X : exts.

  Lemma thing_lacks j : lacks DThing j -> d_thing E X j = None.
  Proof. exact (@lacks_fails E X DThing j). Qed.
  Lemma property_lacks j : lacks DProperty j -> d_property E X j = None.
  Proof. exact (@lacks_fails E X DProperty j). Qed.
  Lemma action_lacks j : lacks DAction j -> d_action E X j = None.
  Proof. exact (@lacks_fails E X DAction j). Qed.
  Lemma event_lacks j : lacks DEvent j -> d_event E X j = None.
  Proof. exact (@lacks_fails E X DEvent j). Qed.
  Lemma exp_resp_lacks j : lacks DExpResp j -> d_exp_resp X j = None.
  Proof. exact (@lacks_fails E X DExpResp j). Qed.
  Lemma link_lacks j : lacks DLink j -> d_link E j = None.
  Proof. exact (@lacks_fails E X DLink j). Qed.
  Lemma form_lacks j : lacks DForm j -> d_form X j = None.
  Proof. exact (@lacks_fails E X DForm j). Qed.
  Lemma version_lacks j : lacks DVersion j -> d_version j = None.
  Proof. exact (@lacks_fails E X DVersion j). Qed.
End Lacks.

(** The door without the address of the form of its action. *)
Definition door_no_href : json :=
  JObj [("title", JStr "Door"); ("security", JStr "nosec_sc");
        ("securityDefinitions", JObj [("nosec_sc", JObj [("scheme", JStr "nosec")])]);
        ("actions", JObj [("open", JObj [("safe", JBool true);
           ("forms", JArr [door_form []; JObj [("op", JStr "invokeaction")]])])])].

Lemma door_lacks : lacks DThing door_no_href.
Proof.
  eapply lk_member; [reflexivity|do 3 right; left; reflexivity|]. simpl member_kind.
  eapply lk_map; [left; reflexivity|].
  eapply lk_member; [reflexivity|right; left; reflexivity|]. simpl member_kind.
  eapply lk_list; [right; left; reflexivity|].
  apply (@lk_here DForm "href"); [left; reflexivity|]. intros [[=]|[]].
Qed.

Lemma bearer_sample :
  d_security sample_env (JObj [("scheme", JStr "bearer"); ("name", JStr "token")])
  = Some {| ss_attype := None; ss_description := None; ss_descriptions := None; ss_proxy := None;
            ss_subtype := Known (KBearer {| be_auth := None; be_name := Some "token"; be_alg := "ES256";
                                            be_format := "jwt"; be_loc := LHeader |}) |}
  /\ absent "alg" [("scheme", JStr "bearer"); ("name", JStr "token")].
Proof. split; [reflexivity|]. intros [[=]|[[=]|[]]]. Qed.

Lemma malformed_sample : malformed [("type", JStr "number"); ("readOnly", JStr "yes")].
Proof.
  right. exists "readOnly", is_bool, (JStr "yes"). split; [left; reflexivity|].
  split; [right; left; reflexivity|]. intros (b & F). discriminate F.
Qed.

Definition bad_multiple : entries := [("type", JStr "integer"); ("maximum", JInt 5); ("multipleOf", JStr "x")].
Definition bad_type : entries := [("type", JStr "whole"); ("maximum", JInt 5)].

Lemma bad_multiple_ill : ill_typed bad_multiple.
Proof.
  right. exists "integer", [("multipleOf", is_int_in in_nz_u64)], "multipleOf", (is_int_in in_nz_u64), (JStr "x").
  split; [left; reflexivity|]. split; [simpl; tauto|]. split; [left; reflexivity|].
  split; [right; right; left; reflexivity|]. split; [discriminate|]. intros (n & F & _). discriminate F.
Qed.

Lemma bad_type_ill : ill_typed bad_type.
Proof.
  left. exists (JStr "whole"). split; [left; reflexivity|]. intros (n & [[F H]|(i & F)]); [|discriminate F].
  injection F as <-. simpl in H. intuition discriminate.
Qed.

Lemma ill_typed_refuted :
  (exists es, ill_typed es /\ In ("multipleOf", JStr "x") es
     /\ option_map (@ds_sub _ _ _) (d_ds sample_env http_exts (JObj es)) = Some None)
  /\ (exists es, ill_typed es /\ In ("type", JStr "whole") es
     /\ option_map (@ds_sub _ _ _) (d_ds sample_env http_exts (JObj es)) = Some None)
  /\ option_map (@ds_sub _ _ _)
       (d_ds sample_env http_exts (JObj [("type", JStr "integer"); ("maximum", JStr "x")]))
     = Some (Some (SInteger {| z_max := None; z_min := None; z_mult := None |})).
Proof.
  split; [exists bad_multiple; split; [exact bad_multiple_ill|split; [simpl; tauto|reflexivity]]|].
  split; [exists bad_type; split; [exact bad_type_ill|split; [simpl; tauto|reflexivity]]|].
  reflexivity.
Qed.

Lemma array_names :
  (
     s_ds mk_text (w_schema no_info None (Some (SArray None (Some 1%Z) (Some 2%Z) tt)))
     = JObj [("readOnly", JBool false); ("writeOnly", JBool false); ("type", JStr "array");
             ("min_items", JInt 1); ("max_items", JInt 2)])
  /\ option_map (@ds_sub _ _ _)
       (d_ds sample_env http_exts (JObj [("type", JStr "array"); ("minItems", JInt 1); ("maxItems", JInt 2)]))
     = Some (Some (SArray None None None tt))
  /\ option_map (@ea_data_response _)
       (d_event sample_env http_exts
          (JObj [("forms", JArr []); ("dataResponse", JObj [("type", JStr "null")])])) = Some None.
Proof. split; [reflexivity|split; reflexivity]. Qed.
