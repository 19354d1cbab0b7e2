(** * Documents that are read although build would refuse what they say *)

From Coq Require Import String Bool ZArith Lia List.
From Coq Require Import Floats.SpecFloat.
From Verif Require Import Base MinMax Json Serde Types DsBuilder Builder HList Ser De Protocol Samples Spec SpecThing
  SpecSerde SpecExt SpecDoc SpecMember SpecTyped SpecEqual SpecRead SpecShape SpecMade SpecLax SerdeFacts MemberFacts
  CleanFacts SerdeSamples DocSamples SerdeMore ExchangeMore BuildFacts ReadFacts ShapeSamples LaxFacts.
Import ListNotations.
Set Implicit Arguments.
Local Open Scope string_scope.
Local Open Scope list_scope.

(** A Thing Description with some further members *)
Definition note (es : entries) : json :=
  JObj ([("title", JStr "a"); ("security", JArr []); ("securityDefinitions", JObj [])] ++ es).

(** with a form of the Thing or of an affordance *)
Definition note_form (c : form_context) (es : entries) : json :=
  let forms := ("forms", JArr [JObj (("href", JStr "/") :: es)]) in
  match c with
  | CtxThing => note [forms]
  | CtxProperty => note [("properties", JObj [("p", JObj [forms])])]
  | CtxAction => note [("actions", JObj [("p", JObj [forms])])]
  | CtxEvent => note [("events", JObj [("p", JObj [forms])])]
  end.

(** with the schema of an input *)
Definition note_input (es : entries) : json :=
  note [("actions", JObj [("p", JObj [("forms", JArr []); ("input", JObj es)])])].

Definition lax_note (e : error) : json :=
  match e with
  | MissingOpInForm => note_form CtxThing []
  | InvalidOpInForm c o => note_form c [("op", JStr (op_name o))]
  | UndefinedSecurity n => note_form CtxProperty [("security", JStr n)]
  | InvalidMinMax => note_input [("type", JStr "integer"); ("minimum", JInt 2); ("maximum", JInt 1)]
  | InvalidMultipleOf => note_input [("type", JStr "number"); ("multipleOf", JInt (-1))]
  | MissingSchemaDefinition n =>
      note_form CtxThing [("op", JStr "readallproperties"); ("additionalResponses", JObj [("schema", JStr n)])]
  | InvalidUriVariables => note [("uriVariables", JObj [("v", JObj [("type", JStr "array")])])]
  | InvalidLanguageTag s => note [("titles", JObj [(s, JStr "a")])]
  | SizesWithRelNotIcon => note [("links", JArr [JObj [("href", JStr "/"); ("sizes", JStr "16x16")]])]
  | _ => JNull
  end.

Lemma lax_document E e : unnoticed E e -> document (lax_note e).
Proof.
  destruct e as [| |c o| | | | | | | | | |]; cbn [unnoticed lax_note]; intros H; try contradiction; try destruct c;
    unfold note_form, note_input, note; cbn [app]; doc_tac.
Qed.

Lemma titled_conforms E s : tag_ok E s = true -> conforms E (Object PThing) (note [("titles", JObj [(s, JStr "a")])]).
Proof.
  intros H. unfold note. cbn [app]. apply cf_object; [|intros k j sh Hk Ha|discriminate].
  - intros k Hk. cbn in Hk. repeat destruct Hk as [<-|Hk]; try destruct Hk; apply smem_In; reflexivity.
  - cbn in Hk. repeat destruct Hk as [[= <- <-]|Hk]; try destruct Hk; vm_compute in Ha; apply some_inj in Ha; subst;
      first [conf_tac|idtac].
    apply cf_texts. intros k v [[= <- <-]|[]]. split; [exact H|eexists; reflexivity].
Qed.

Lemma lax_conforms E e : unnoticed E e -> conforms E (Object PThing) (lax_note e).
Proof.
  destruct e as [| |c o| | | | | | | |s| |]; cbn [unnoticed lax_note]; intros H; try contradiction;
    [..|apply titled_conforms, H|]; try (destruct c, o);
    unfold note_form, note_input, note; cbn [app op_name]; conf_tac.
Qed.

Lemma op_read o : d_ops (JStr (op_name o)) = Some (OpCustom [o]).
Proof. destruct o; reflexivity. Qed.

Lemma lax_read E e : unnoticed E e -> exists t, d_thing E http_exts (lax_note e) = Some t /\ defect E (thing_body t) e.
Proof.
  destruct e as [| |c o| | | | | | | |s| |]; cbn [unnoticed lax_note]; intros H; try contradiction.
  - eexists. split; [reflexivity|]. eexists. split; [constructor; left; reflexivity|reflexivity].
  - destruct c, o; try (exfalso; apply H; cbn; tauto); (eexists; split; [reflexivity|]; do 2 eexists;
      split; [first [apply form_thing; left; reflexivity
                    |change CtxProperty with (ctx_of AProperty); eapply form_aff; [econstructor; left; reflexivity|left; reflexivity]
                    |change CtxAction with (ctx_of AAction); eapply form_aff; [econstructor; left; reflexivity|left; reflexivity]
                    |change CtxEvent with (ctx_of AEvent); eapply form_aff; [econstructor; left; reflexivity|left; reflexivity]]|];
      split; [reflexivity|]; split; [left; reflexivity|exact H]).
  - eexists. split; [reflexivity|]. do 3 eexists.
    split; [eapply form_aff; [econstructor; left; reflexivity|left; reflexivity]|].
    split; [reflexivity|]. split; [left; reflexivity|intros []].
  - eexists. split; [reflexivity|]. do 3 eexists. split; [eapply chk_input; [left; reflexivity|reflexivity]|].
    split; [constructor|]. split; [reflexivity|]. do 2 eexists. split; [reflexivity|]. split; [reflexivity|].
    intros [_ F]. cbn in F. lia.
  - eexists. split; [reflexivity|]. do 3 eexists. split; [eapply chk_input; [left; reflexivity|reflexivity]|].
    split; [constructor|]. split; [reflexivity|]. eexists. split; [reflexivity|]. left. reflexivity.
  - eexists. split; [reflexivity|]. left. do 3 eexists. split; [apply form_thing; left; reflexivity|].
    split; [reflexivity|]. split; [left; reflexivity|]. split; [reflexivity|intros []].
  - eexists. split; [reflexivity|]. eexists. split; [eapply uri_thing; left; reflexivity|]. left. do 4 eexists. reflexivity.
  - destruct H as [H1 H2].
    assert (d_multilang E (JObj [(s, JStr "a")]) = Some [(s, "a")]) as G by (cbn; rewrite H1; reflexivity).
    eexists. split.
    + unfold note, d_thing, d_flat, De.thing_body. cbn -[d_multilang]. rewrite G. reflexivity.
    + split; [|exact H2]. eapply tag_map; [apply lm_title; reflexivity|left; reflexivity].
  - eexists. split; [reflexivity|]. do 2 eexists. split; [left; reflexivity|]. split; [reflexivity|discriminate].
Qed.

Lemma lax_exact E e :
  (exists j (t : thing E http_exts), document j /\ conforms E (Object PThing) j /\ d_thing E http_exts j = Some t
     /\ defect E (thing_body t) e) <-> unnoticed E e.
Proof.
  split.
  - intros (j & t & Hj & _ & Ht & H). exact (read_noticed http_read_typed e Hj Ht H).
  - intros H. destruct (lax_read E e H) as (t & Ht & Hd). exists (lax_note e), t.
    split; [eapply lax_document; eauto|]. split; [apply lax_conforms; exact H|]. auto.
Qed.

(** A property that can be invoked and whose form needs a scheme nobody defined *)
Definition muddle : json :=
  note_form CtxProperty [("op", JArr [JStr "readproperty"; JStr "invokeaction"]); ("security", JArr [JStr "who"])].

Lemma muddle_clean : document muddle /\ conforms sample_env (Object PThing) muddle.
Proof. unfold muddle, note_form, note. cbn [app]. split; [doc_tac|conf_tac]. Qed.

Lemma muddle_read : exists t, d_thing sample_env http_exts muddle = Some t
  /\ defect sample_env (thing_body t) (InvalidOpInForm CtxProperty InvokeAction)
  /\ defect sample_env (thing_body t) (UndefinedSecurity "who").
Proof.
  eexists. split; [reflexivity|]. split.
  - do 2 eexists.
    split; [change CtxProperty with (ctx_of AProperty); eapply form_aff; [econstructor; left; reflexivity|left; reflexivity]|].
    split; [reflexivity|]. split; [right; left; reflexivity|cbn; intuition discriminate].
  - do 3 eexists. split; [eapply form_aff; [econstructor; left; reflexivity|left; reflexivity]|].
    split; [reflexivity|]. split; [left; reflexivity|intros []].
Qed.
