(** * Defects of Things that are read *)

From Coq Require Import String Bool ZArith Lia List.
From Coq Require Import Floats.SpecFloat.
From Verif Require Import Base MinMax Json Serde Types DsBuilder Builder HList Ser De Protocol Samples Spec SpecThing SpecCalls SpecSerde
  SpecExt SpecDoc SpecMember SpecTyped SpecEqual SpecRead SpecShape SpecMade SpecLax BuildFacts ReadFacts ThingMadeFacts
  SerdeSamples DocSamples ExchangeMore ShapeSamples.
Import ListNotations.
Set Implicit Arguments.
Local Open Scope string_scope.
Local Open Scope list_scope.

(** ** What can not occur *)

Section Only.
  Variable E : env.
  Variable X : exts.
  Variable T : xvalues X.
  Variable t : thing E X.
  Hypothesis HT : thing_typed T t.
  Notation y := (thing_body t).

  Lemma olist_In A (o : option (list A)) a : In a (olist o) -> exists l, o = Some l /\ In a l.
  Proof. destruct o as [l|]; cbn; [eauto|intros []]. Qed.

  Lemma typed_affordance k n i : affordance y k n i -> interaction_typed E T i.
  Proof.
    destruct HT as (_ & _ & _ & Hp & Ha & He & _). intros [n' a H|n' a H|n' a H]; cbn in H; apply olist_In in H as (m & Hm & H).
    - destruct (Hp _ Hm) as [_ G]. apply (G _ _ H).
    - destruct (Ha _ Hm) as [_ G]. apply (G _ _ H).
    - destruct (He _ Hm) as [_ G]. apply (G _ _ H).
  Qed.

  Lemma typed_schema d : schema_in y d -> schema_typed E T d.
  Proof.
    destruct HT as (_ & _ & _ & Hp & Ha & He & _ & _ & _ & Hu & Hs & _).
    intros [[n a H Q|n a H Q|n a H Q|n a H Q|n a H Q|n a H Q]|n a H Q|[n H|k m i n Hi H]|n H].
    1-6: cbn in H; apply olist_In in H as (m & Hm & H).
    - destruct (Hp _ Hm) as [_ G]. subst d. apply (G _ _ H).
    - destruct (Ha _ Hm) as [_ G]. destruct (G _ _ H) as (_ & G1 & _). apply G1, Q.
    - destruct (Ha _ Hm) as [_ G]. destruct (G _ _ H) as (_ & _ & G1 & _). apply G1, Q.
    - destruct (He _ Hm) as [_ G]. destruct (G _ _ H) as (_ & G1 & _). apply G1, Q.
    - destruct (He _ Hm) as [_ G]. destruct (G _ _ H) as (_ & _ & G1 & _). apply G1, Q.
    - destruct (He _ Hm) as [_ G]. destruct (G _ _ H) as (_ & _ & _ & _ & G1 & _). apply G1, Q.
    - cbn in H. apply olist_In in H as (m & Hm & H). destruct (He _ Hm) as [_ G].
      destruct (G _ _ H) as (_ & _ & _ & G1 & _). apply G1, Q.
    - cbn in H. apply olist_In in H as (m & Hm & H). destruct (Hu _ Hm) as [_ G]. apply (G _ _ H).
    - apply olist_In in H as (u & Hu' & H). destruct (typed_affordance Hi) as (_ & _ & G & _).
      destruct (G _ Hu') as [_ G']. apply (G' _ _ H).
    - cbn in H. apply olist_In in H as (m & Hm & H). destruct (Hs _ Hm) as [_ G]. apply (G _ _ H).
  Qed.

  Lemma typed_tag s : tag_in y s -> tag_ok E s = true.
  Proof.
    intros [m [H|H|n c H Q|k n i Hi Hm|d Hd (e & He & Hm)] Hs|l hs H Q Hs].
    - destruct HT as (_ & G & _). cbn in H. subst m. destruct (t_titles t) as [m|]; [|destruct Hs].
      apply (G m eq_refl). exact Hs.
    - destruct HT as (_ & _ & G & _). cbn in H. subst m. destruct (t_descriptions t) as [m|]; [|destruct Hs].
      apply (G m eq_refl). exact Hs.
    - destruct HT as (_ & _ & _ & _ & _ & _ & _ & _ & [_ G] & _). destruct (G _ _ H) as [G1 _]. apply (G1 _ Q). exact Hs.
    - destruct (typed_affordance Hi) as (G & _). apply (G _ Hm). exact Hs.
    - destruct (typed_schema Hd He) as (G & _). apply (G _ Hm). exact Hs.
    - destruct HT as (_ & _ & _ & _ & _ & _ & G & _). cbn in H. apply olist_In in H as (ls & Hl & H).
      specialize (G _ Hl). rewrite Forall_forall in G. specialize (G _ H _ Q). rewrite Forall_forall in G. auto.
  Qed.

  Lemma typed_keys A (P : A -> Prop) o : all_some (map_ok P) o -> NoDup (map fst (olist o)).
  Proof.
    intros H. destruct o as [m|]; cbn; [|constructor]. destruct (H m eq_refl) as [G _]. apply msorted_NoDup, G.
  Qed.

  Lemma typed_noticed e : numbers_finite t -> defect E y e -> unnoticed E e.
  Proof.
    intros Hf. destruct HT as (_ & _ & _ & Hp & Ha & He & _ & _ & [Hs _] & _).
    destruct e; cbn [defect unnoticed]; auto.
    - intros H. apply (twice_not_NoDup H), msorted_NoDup, Hs.
    - intros (f & l & _ & _ & _ & H). exact H.
    - intros (d & e' & s & Hd & He' & Hs' & H). cbn in H. destruct s; try contradiction.
      assert (forall x, number_in n x -> is_nan x -> False) as F.
      { intros x Hx ->. assert (f64_finite S754_nan = true) as G by (eapply Hf; eauto using in_checked). discriminate G. }
      destruct H as [(a & Hm & H)|(b & Hm & H)]; (eapply F; [|exact H]); unfold number_in; destruct a || destruct b; cbn; auto.
    - intros H. apply (twice_not_NoDup H). destruct t0; cbn; eapply typed_keys; eauto.
    - intros (Ht & Hn). split; [apply typed_tag; exact Ht|exact Hn].
  Qed.
End Only.

Lemma read_noticed E X (T : xvalues X) : exts_read_typed T ->
  forall j (t : thing E X) e, document j -> d_thing E X j = Some t -> defect E (thing_body t) e -> unnoticed E e.
Proof.
  intros HX j t e Hj Ht. eapply typed_noticed; [eapply thing_read; eauto|eapply thing_read_finite; eauto].
Qed.

(** ** Defects and consistency *)

Lemma op_dec (a b : form_op) : {a = b} + {a <> b}.
Proof. decide equality. Qed.

Lemma In_stable A (dec : forall a b : A, {a = b} + {a <> b}) (a : A) (l : list A) : ~ ~ In a l -> In a l.
Proof. intros H. destruct (in_dec dec a l); [auto|contradiction]. Qed.

Lemma once_NoDup (l : list string) : (forall n, ~ twice n l) -> NoDup l.
Proof.
  induction l as [|a l IH]; intros H; constructor.
  - intros Hin. apply in_split in Hin as (l1 & l2 & ->). apply (H a). exists [], l1, l2. reflexivity.
  - apply IH. intros n (l1 & l2 & l3 & ->). apply (H n). exists (a :: l1), l2, l3. reflexivity.
Qed.

Lemma bounds_stable DS AS OS (s : dsub DS AS OS) : (forall e, ~ bounds_defect e s) <-> accepted_bounds s.
Proof.
  unfold accepted_bounds. split.
  - intros H.
    pose proof (H InvalidMinMax) as H1. pose proof (H NanMinMax) as H2. pose proof (H InvalidMultipleOf) as H3.
    destruct s as [i mn mx o| |n|n| | |]; cbn in *; split; auto.
    + intros a b -> ->. cbn in H1. lia.
    + assert (forall a b, n_min n = Some a -> n_max n = Some b -> same_kind a b /\ fle (min_val a) (max_val b)) as G.
      { intros a b Ha Hb.
        assert (forall x y, {fle x y} + {~ fle x y}) as F.
        { intros x y. unfold fle. destruct (SFcompare x y) as [[]|]; auto; right; intros [|]; discriminate. }
        assert ({same_kind a b} + {~ same_kind a b}) as K by (destruct a, b; cbn; auto).
        destruct K as [K|K], (F (min_val a) (max_val b)) as [L|L]; auto; exfalso; apply H1; exists a, b; tauto. }
      split; [|split; [|split]].
      * intros a Ha F. apply H2. left. eauto.
      * intros a Ha F. apply H2. right. eauto.
      * intros a b Ha Hb. apply G; auto.
      * intros x Hx F. apply H3. eauto.
    + intros a b Ha Hb. destruct a, b; cbn; auto; apply H1; do 2 eexists; (split; [exact Ha|split; [exact Hb|intros [[] _]]]).
    + intros a b Ha Hb. destruct (Z_le_gt_dec (min_val a) (max_val b)); auto. exfalso. apply H1. exists a, b. intuition lia.
    + intros a b Ha Hb. destruct a, b; cbn; auto; apply H1; do 2 eexists; (split; [exact Ha|split; [exact Hb|intros [[] _]]]).
  - intros [H1 H2] e He. destruct e; cbn in He; auto; destruct s as [i mn mx o| |n|n| | |]; cbn in *; auto.
    + destruct mn as [a|], mx as [b|]; auto. specialize (H1 a b eq_refl eq_refl). lia.
    + destruct He as (a & b & Ha & Hb & F). apply F. split; [eauto|]. apply H1; auto.
    + destruct He as (a & b & Ha & Hb & F). apply F. split; eauto.
    + destruct H1 as (G1 & G2 & _). destruct He as [(a & Ha & F)|(a & Ha & F)]; [eapply G1|eapply G2]; eauto.
    + destruct H1 as (_ & _ & _ & G). destruct He as (x & Hx & F). eapply G; eauto.
Qed.

Lemma consistent_sound E X (y : body X) : consistent (parsable E) y -> forall e, ~ defect E y e.
Proof.
  intros H e He. destruct e; cbn [defect] in He.
  - apply (twice_not_NoDup He), (co_secdefs H).
  - destruct He as (f & Hf & Ho). exact (co_thing_ops H Hf Ho).
  - destruct He as (f & l & Hf & Ho & Hin & F). apply F. eapply co_ops; eauto.
  - destruct He as (c & f & l & Hf & Ho & Hin & F). apply F. eapply co_security; eauto.
  - destruct He as (d & e' & s & Hd & He & Hs & F). exact (proj2 (bounds_stable s) (co_bounds H Hd He Hs) _ F).
  - destruct He as (d & e' & s & Hd & He & Hs & F). exact (proj2 (bounds_stable s) (co_bounds H Hd He Hs) _ F).
  - apply (twice_not_NoDup He). destruct t; apply H.
  - destruct He as (d & e' & s & Hd & He & Hs & F). exact (proj2 (bounds_stable s) (co_bounds H Hd He Hs) _ F).
  - destruct He as [(f & l & r & Hf & Hl & Hr & Hn & F)|(k & s & Hin & Hc & F)]; apply F;
      [eapply co_responses|eapply co_combo]; eauto.
  - destruct He as (d & Hd & F). exact (co_uris H Hd F).
  - destruct He as [Ht F]. exact (co_tags H Ht F).
  - destruct He as (l & z & Hl & Hz & F). apply F. eapply co_links; eauto.
  - exact He.
Qed.

Lemma consistent_complete E X (y : body X) : (forall e, ~ defect E y e) -> consistent (parsable E) y.
Proof.
  intros H. constructor.
  - apply once_NoDup. intros n. apply (H (DuplicatedSecurityDefinition n)).
  - intros k s n Hin Hc. apply (In_stable string_dec). intros F. apply (H (MissingSchemaDefinition n)). right. exists k, s. auto.
  - intros c f l n Hf Hl Hin. apply (In_stable string_dec). intros F. apply (H (UndefinedSecurity n)). exists c, f, l. auto.
  - intros f Hf Ho. apply (H MissingOpInForm). exists f. auto.
  - intros c f l o Hf Hl Hin. apply (In_stable op_dec). intros F. apply (H (InvalidOpInForm c o)). exists f, l. auto.
  - intros f l r n Hf Hl Hr Hn. apply (In_stable string_dec). intros F. apply (H (MissingSchemaDefinition n)). left.
    exists f, l, r. auto.
  - intros d Hd F. apply (H InvalidUriVariables). exists d. auto.
  - apply once_NoDup. intros n. apply (H (DuplicatedAffordance AProperty n)).
  - apply once_NoDup. intros n. apply (H (DuplicatedAffordance AAction n)).
  - apply once_NoDup. intros n. apply (H (DuplicatedAffordance AEvent n)).
  - intros d Hd e s He Hs. apply bounds_stable. intros b Hb. apply (H b).
    destruct b; cbn in Hb |- *; try contradiction; exists d, e, s; auto.
  - intros s Hs F. apply (H (InvalidLanguageTag s)). split; auto.
  - intros l z Hl Hz. destruct (l_rel l) as [r|] eqn:Q.
    + destruct (string_dec r "icon") as [->|F]; auto. exfalso. apply (H SizesWithRelNotIcon). exists l, z.
      split; [auto|split; [auto|congruence]].
    + exfalso. apply (H SizesWithRelNotIcon). exists l, z. split; [auto|split; [auto|congruence]].
Qed.

Lemma consistent_exact E X (y : body X) : consistent (parsable E) y <-> forall e, ~ defect E y e.
Proof. split; [apply consistent_sound|apply consistent_complete]. Qed.

Lemma read_consistent E X (T : xvalues X) : exts_read_typed T ->
  forall j (t : thing E X), document j -> d_thing E X j = Some t ->
    (consistent (parsable E) (thing_body t) <-> forall e, unnoticed E e -> ~ defect E (thing_body t) e).
Proof.
  intros HX j t Hj Ht. rewrite consistent_exact. split; intros H e; [auto|]. intros F. exact (H e (read_noticed HX e Hj Ht F) F).
Qed.

(** No calls build a Thing with a defect. *)
Lemma defective_unbuilt E X (ord : order) (t : thing E X) e : order_ok ord -> tags_stable E -> defect E (thing_body t) e ->
  forall title x p, thing_program ord title x p <> Some (Ok t).
Proof.
  intros Ho Hs He title x p Hp. apply built_thing_made in Hp; [|exact Ho]. revert He. apply consistent_sound.
  destruct (tm_fits Hp). constructor; auto. intros s Hin F. destruct (co_tags s Hin) as [k Hk]. rewrite (Hs _ _ Hk) in F. discriminate F.
Qed.
