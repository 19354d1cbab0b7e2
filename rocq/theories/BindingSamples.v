(** * Documents with members of the protocol bindings *)

From Coq Require Import String Bool ZArith Lia List.
From Verif Require Import Base MinMax Json Serde Types HList Ser De Protocol Samples Spec SpecThing SpecSerde SpecDoc SpecMember
  SpecTyped SpecShape SerdeSamples DocSamples ReadsFacts BindingFacts ShapeSamples.
Import ListNotations.
Set Implicit Arguments.
Local Open Scope string_scope.
Local Open Scope list_scope.

(** The three bindings together *)
Definition all_exts : exts := cons_exts http_exts (cons_exts coap_exts mqtt_exts).
Definition any_member (k : string) (v : json) : Prop := http_member k v /\ coap_member k v /\ mqtt_member k v.

Lemma all_readable : exts_readable all_exts any_member /\ reads_with any_member ["htv:headers"] (x_er all_exts).
Proof.
  destruct bindings_read as ((H1 & H2) & (C1 & C2) & (M1 & M2) & _ & J).
  destruct (J _ _ _ _ C1 M1) as [D1 D2]. destruct (J _ _ _ _ H1 D1) as [F1 F2]. split; [exact F1|].
  apply (F2 ["htv:headers"] []); [exact H2|apply (D2 [] []); [exact C2|exact M2|intros k []]|intros k []].
Qed.

(** A property reachable through all three *)
Definition bound_forms : json :=
  JArr
    [JObj [("href", JStr "https://valve.example/state"); ("op", JArr [JStr "readproperty"; JStr "writeproperty"]);
           ("htv:methodName", JStr "PATCH");
           ("response", JObj [("contentType", JStr "application/json");
              ("htv:headers", JArr [JObj [("htv:fieldName", JStr "ETag"); ("htv:fieldValue", JStr "7")];
                                    JObj [("htv:fieldName", JStr "Retry-After")]]);
              ("htv:statusCodeValue", JInt 200)])];
     JObj [("href", JStr "coap://valve.example/state"); ("cov:method", JStr "iPATCH"); ("cov:hopLimit", JInt 16);
           ("cov:blockwise", JObj [("cov:block1Size", JInt 64); ("cov:block2Size", JInt 1024)]); ("cov:contentFormat", JInt 60)];
     JObj [("href", JStr "mqtt://broker.example"); ("mqv:retain", JBool true); ("mqv:controlPacket", JStr "mqv:subscribe");
           ("mqv:qos", JStr "quality:1"); ("mqv:filter", JArr [JStr "valve/#"; JStr "alarm"])]].

Definition valve : json :=
  JObj [("title", JStr "Valve"); ("security", JStr "nosec_sc");
        ("securityDefinitions", JObj [("nosec_sc", JObj [("scheme", JStr "nosec")])]);
        ("properties", JObj [("state", JObj [("type", JStr "boolean"); ("forms", bound_forms)])])].

Lemma valve_conforms E : conforms E (Object PThing) valve.
Proof. unfold valve, bound_forms. conf_tac. Qed.

Lemma valve_no_repeats : no_repeats valve.
Proof. unfold valve, bound_forms. nr. Qed.

Ltac member_tac :=
  let H := fresh in intros H; try destruct H as [H|H]; try discriminate H; clear H;
  repeat match goal with
    | |- exists _, _ => eexists
    | |- is_one_of _ _ => eexists
    | |- is_text _ => eexists
    | |- is_number _ _ _ => eexists
    | |- is_object _ => eexists
    | |- _ = _ /\ _ => split; [reflexivity|]
    end;
  first [reflexivity | lia | (cbn; tauto) | (let H' := fresh in intros ? H'; in_tac H'; eexists; reflexivity)
        | right; eexists; split; [reflexivity|]; let H' := fresh in intros ? H'; in_tac H'; eexists; reflexivity].

Ltac aw_tac solve_member :=
  lazymatch goal with
  | |- always _ (JObj _) =>
      apply aw_obj;
      [let H := fresh in intros ? ? H; cbn in H; repeat destruct H as [[= <- <-]|H]; try destruct H; solve_member
      |let H := fresh in intros ? ? H; cbn in H; repeat destruct H as [[= <- <-]|H]; try destruct H; aw_tac solve_member]
  | |- always _ (JArr _) => apply aw_arr; let H := fresh in intros ? H; in_tac H; aw_tac solve_member
  | |- always _ _ => apply aw_leaf; [intros ? Hx; discriminate Hx|intros ? Hx; discriminate Hx]
  end.

Lemma valve_members : always any_member valve.
Proof.
  unfold valve, bound_forms.
  aw_tac ltac:(split; [split; [|split; [|split]]|split; [split; [|split; [|split; [|split]]]|split; [|split; [|split; [|split]]]]];
    member_tac).
Qed.

Lemma valve_answers : answers ["htv:headers"] valve.
Proof.
  unfold valve, bound_forms, answers.
  aw_tac ltac:(let F := fresh in intros F; try discriminate F; intros ? [= <-] ? [<-|[]]; cbn; tauto).
Qed.

Lemma valve_fine :
  conforms sample_env (Object PThing) valve /\ no_repeats valve /\ always any_member valve /\ answers ["htv:headers"] valve
  /\ exts_readable all_exts any_member /\ reads_with any_member ["htv:headers"] (x_er all_exts).
Proof.
  exact (conj (valve_conforms _) (conj valve_no_repeats (conj valve_members (conj valve_answers all_readable)))).
Qed.

(** A method that is none of HTTP, a block size that is none of CoAP, a quality of service beyond 2 *)
Definition with_form (es : entries) : json :=
  JObj [("title", JStr "Valve"); ("security", JStr "nosec_sc");
        ("securityDefinitions", JObj [("nosec_sc", JObj [("scheme", JStr "nosec")])]);
        ("forms", JArr [JObj (("href", JStr "/") :: es)])].

Definition misread (X : exts) (es : entries) : Prop :=
  conforms sample_env (Object PThing) (with_form es) /\ no_repeats (with_form es) /\ d_thing sample_env X (with_form es) = None.

Lemma bindings_strict :
  misread http_exts [("htv:methodName", JStr "OPTIONS")]
  /\ misread coap_exts [("cov:blockwise", JObj [("cov:block1Size", JInt 48)])]
  /\ misread mqtt_exts [("mqv:qos", JStr "quality:3")].
Proof.
  unfold misread, with_form.
  split; [|split]; (split; [conf_tac|split; [nr|reflexivity]]).
Qed.

Lemma typed_schema_read :
  conforms sample_env (Object PSchema) (JObj typed_schema) /\ no_repeats (JObj typed_schema)
  /\ always http_member (JObj typed_schema) /\ in_range typed_schema
  /\ In ("type", JStr "array") typed_schema.
Proof.
  destruct typed_schema_fine as (H1 & H2 & _ & H4 & H5). repeat (split; [assumption|]). split; [|split; assumption].
  unfold typed_schema. aw_tac ltac:(split; [|split; [|split]]; member_tac).
Qed.
