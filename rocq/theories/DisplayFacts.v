(** * Proofs about the messages of builder errors *)

From Coq Require Import String Ascii Lia List.
From Verif Require Import Base Json Serde Types DsBuilder Ser Display SpecMember NameFacts.
Import ListNotations.
Set Implicit Arguments.
Local Open Scope string_scope.

Lemma str_len a b : String.length (a ++ b) = String.length a + String.length b.
Proof. induction a as [|x a IH]; cbn; [reflexivity|]. rewrite IH. reflexivity. Qed.

Lemma str_app_tail b : forall c a, b ++ a = c ++ a -> b = c.
Proof.
  induction b as [|x b IH]; intros [|y c] a H; cbn in H.
  - reflexivity.
  - apply (f_equal String.length) in H. cbn in H. rewrite str_len in H. lia.
  - apply (f_equal String.length) in H. cbn in H. rewrite str_len in H. lia.
  - injection H as -> H. f_equal. eapply IH. exact H.
Qed.

(** The messages about operations: there are finitely many. *)
Definition all_ops : list form_op := map snd td_operations.
Definition all_contexts : list form_context := [CtxThing; CtxProperty; CtxAction; CtxEvent].
Definition all_pairs : list (form_context * form_op) := list_prod all_contexts all_ops.

Definition op_text (x : form_context * form_op) : string :=
  op_display (snd x) ++ " in " ++ context_display (fst x) ++ " context".

Fixpoint nodupb (l : list string) : bool :=
  match l with [] => true | s :: l' => negb (existsb (String.eqb s) l') && nodupb l' end.

Lemma nodupb_inj A (f : A -> string) l :
  nodupb (map f l) = true -> forall a b, In a l -> In b l -> f a = f b -> a = b.
Proof.
  induction l as [|x l IH]; cbn; intros H a b Ha Hb Hf; [destruct Ha|].
  apply andb_prop in H as [Hx Hl]. apply Bool.negb_true_iff in Hx.
  assert (Hno : forall y, In y l -> f x = f y -> False).
  { intros y Hy E. rewrite <- Bool.not_true_iff_false in Hx. apply Hx. apply existsb_exists.
    exists (f y). split; [apply in_map; exact Hy|]. rewrite E. apply String.eqb_refl. }
  destruct Ha as [<-|Ha], Hb as [<-|Hb].
  - reflexivity.
  - destruct (Hno b Hb Hf).
  - destruct (Hno a Ha (eq_sym Hf)).
  - apply IH; auto.
Qed.

Lemma op_text_inj x y : op_text x = op_text y -> x = y.
Proof.
  assert (Hin : forall z, In z all_pairs).
  { intros [c o]. apply in_prod; [destruct c; cbn; tauto|apply op_table_one_to_one]. }
  apply (@nodupb_inj _ op_text all_pairs); [vm_compute; reflexivity|apply Hin|apply Hin].
Qed.

(** Messages with different beginnings differ; what is between the same words is the same. *)
Lemma messages_apart e e' m : error_display e = Some m -> error_display e' = Some m -> e = e'.
Proof.
  intros H H'. rewrite <- H in H'. clear H m. unfold error_display, quote in H'.
  destruct e as [n| |c o|n| | |t n| |n| |s| |], e' as [n'| |c' o'|n'| | |t' n'| |n'| |s'| |];
    try reflexivity; try discriminate.
  - injection H' as H. apply str_app_tail in H. congruence.
  - assert (Hp : (c, o) = (c', o')); [|congruence].
    apply op_text_inj. unfold op_text. cbn [fst snd]. injection H' as H. exact (eq_sym H).
  - injection H' as H. apply str_app_tail in H. congruence.
  - destruct t, t'; try (exfalso; cbn in H'; discriminate); injection H' as H; apply str_app_tail in H; congruence.
  - injection H' as H. apply str_app_tail in H. congruence.
  - injection H' as H. apply str_app_tail in H. congruence.
Qed.

Lemma op_message c o s p :
  In (s, o) td_operations ->
  In (p, c) [("Thing", CtxThing); ("PropertyAffordance", CtxProperty); ("ActionAffordance", CtxAction); ("EventAffordance", CtxEvent)] ->
  error_display (InvalidOpInForm c o) = Some ("Invalid Form operation " ++ s ++ " in " ++ p ++ " context").
Proof.
  intros H Hp. cbn [error_display].
  replace (op_display o) with s by (symmetry; apply (op_table s o); exact H).
  replace (context_display c) with p; [reflexivity|].
  repeat destruct Hp as [[= <- <-]|Hp]; try reflexivity; destruct Hp.
Qed.

Lemma kind_message t n p :
  In (p, t) [("property", AProperty); ("action", AAction); ("event", AEvent)] ->
  error_display (DuplicatedAffordance t n)
  = Some ("Two affordances of type " ++ p ++ " use the name " ++ quote ++ n ++ quote).
Proof. intros Hp. repeat destruct Hp as [[= <- <-]|Hp]; try reflexivity; destruct Hp. Qed.

Lemma has_message e : e <> EPanic -> exists m, error_display e = Some m.
Proof. destruct e; intros H; try (eexists; reflexivity). congruence. Qed.

Lemma name_quoted e n :
  e = DuplicatedSecurityDefinition n \/ e = UndefinedSecurity n \/ e = MissingSchemaDefinition n
  \/ e = InvalidLanguageTag n \/ (exists t, e = DuplicatedAffordance t n) ->
  exists pre post, error_display e = Some (pre ++ quote ++ n ++ quote ++ post).
Proof.
  intros [->|[->|[->|[->|[t ->]]]]].
  - exists "Two security definitions use the name ", "". reflexivity.
  - exists "Security ", " is not specified in Thing security definitions". reflexivity.
  - exists "Using the data schema ", ", which is not declared in the schema definitions". reflexivity.
  - exists "Invalid language tag ", "". reflexivity.
  - exists ("Two affordances of type " ++ affordance_display t ++ " use the name "), "". destruct t; reflexivity.
Qed.
