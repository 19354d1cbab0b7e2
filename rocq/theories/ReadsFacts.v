(** * Documents of the prescribed shape are read *)

From Coq Require Import String Bool ZArith Permutation Lia List.
From Verif Require Import Base MinMax Json Serde Types Spec SpecThing SpecSerde SpecDoc SpecMember SpecTyped SpecShape
  Ser De SerdeFacts CanonFacts RoundTrip RoundTripDs ProtocolFacts CleanFacts ConformFacts.
Import ListNotations.
Set Implicit Arguments.
Local Open Scope string_scope.
Local Open Scope list_scope.

Lemma bind_reads A B (x : option A) (f : A -> option B) : x <> None -> (forall a, f a <> None) -> obind x f <> None.
Proof. destruct x; simpl; auto. Qed.

Lemma map_reads A B (x : option A) (f : A -> B) : x <> None -> option_map f x <> None.
Proof. destruct x; simpl; [discriminate|auto]. Qed.

Lemma nodup_get k (es : entries) : NoDup (map fst es) -> get k es = [] \/ exists v, get k es = [v] /\ In (k, v) es.
Proof.
  intros H. induction es as [|[k' v] es IH]; [left; reflexivity|]. cbn in H. inversion H as [|? ? H1 H2]; subst.
  rewrite get_cons. destruct (String.eqb k k') eqn:Q.
  - apply String.eqb_eq in Q as ->. right. exists v. assert (get k' es = []) as -> by (apply get_nil_iff; exact H1).
    split; [reflexivity|left; reflexivity].
  - destruct (IH H2) as [G|(w & G & G')]; [left; exact G|]. right. exists w. split; [exact G|right; exact G'].
Qed.

Lemma omap_reads A B (f : A -> option B) l : (forall a, In a l -> f a <> None) -> omap_all f l <> None.
Proof.
  induction l as [|a l IH]; simpl; intros H; [discriminate|].
  pose proof (H a (or_introl eq_refl)) as G. destruct (f a); [|congruence].
  assert (omap_all f l <> None) as G' by auto. destruct (omap_all f l); [discriminate|congruence].
Qed.

Lemma opt_reads A k (d : json -> option A) es : NoDup (map fst es) -> (forall v, In (k, v) es -> d v <> None) ->
  opt k d es <> None.
Proof.
  intros Hn H. unfold opt. destruct (@nodup_get k es Hn) as [->|(v & -> & Hin)]; [discriminate|].
  specialize (H v Hin). destruct v; try discriminate; destruct (d _); try discriminate; congruence.
Qed.

Lemma dflt_reads A k (a : A) d es : NoDup (map fst es) -> (forall v, In (k, v) es -> d v <> None) ->
  dflt k a d es <> None.
Proof.
  intros Hn H. unfold dflt. destruct (@nodup_get k es Hn) as [->|(v & -> & Hin)]; [discriminate|auto].
Qed.

Lemma req_reads A k (d : json -> option A) es : NoDup (map fst es) -> In k (map fst es) ->
  (forall v, In (k, v) es -> d v <> None) -> req k d es <> None.
Proof.
  intros Hn Hk H. unfold req. destruct (@nodup_get k es Hn) as [F|(v & -> & Hin)]; [|auto].
  apply get_nil_iff in F. contradiction.
Qed.

Lemma without_In ks k v (es : entries) : In (k, v) (without ks es) <-> In (k, v) es /\ ~ In k ks.
Proof.
  unfold without. rewrite filter_In. cbn [fst]. rewrite negb_true_iff, smem_false. reflexivity.
Qed.

Lemma without_NoDup ks (es : entries) : NoDup (map fst es) -> NoDup (map fst (without ks es)).
Proof.
  unfold without. induction es as [|[k v] es IH]; cbn; [auto|]. intros H. inversion H as [|? ? H1 H2]; subst.
  destruct (negb (smem k ks)); cbn; auto. constructor; auto.
  intros F. apply H1. apply in_map_iff in F as ([k' v'] & <- & F). apply filter_In in F as [F _].
  apply in_map_iff. exists (k', v'). auto.
Qed.

Lemma without_keys ks (es : entries) k : In k (map fst (without ks es)) -> In k (map fst es).
Proof.
  intros H. apply in_map_iff in H as ([k' v] & <- & H). apply without_In in H as [H _].
  apply in_map_iff. exists (k', v). auto.
Qed.

(** ** Values *)

Section Reads.
  Variable E : env.
  Variable X : exts.
  Variable W : string -> json -> Prop.
  Variable R : list string.
  Hypothesis HX : exts_readable X W.
  Notation conforms := (conforms E).

  Lemma r_str j : conforms Text j -> d_str j <> None.
  Proof. intros H. inversion H. discriminate. Qed.
  Lemma r_flag j : conforms Flag j -> d_bool j <> None.
  Proof. intros H. inversion H. discriminate. Qed.
  Lemma r_date j : conforms Date j -> d_date E j <> None.
  Proof. intros H. inversion H. auto. Qed.
  Lemma r_value j : d_value j <> None.
  Proof. discriminate. Qed.
  Lemma r_tag j : conforms Tag j -> d_langtag E j <> None.
  Proof. intros H. inversion H as [| | | | | | |? G| | | | | | |]; subst. cbn. rewrite G. discriminate. Qed.
  Lemma r_op j : conforms (OneOf (map fst td_operations)) j -> d_op j <> None.
  Proof.
    intros H. inversion H as [| | | | | |? ? G| | | | | | | |]; subst. clear H. simpl in G.
    repeat destruct G as [<-|G]; try destruct G; discriminate.
  Qed.

  Lemma r_texts j : conforms Texts j -> d_multilang E j <> None.
  Proof.
    intros H. inversion H as [| | | | | | | |? G| | | | | |]; subst. cbn. apply map_reads, omap_reads.
    intros [k v] Hin. cbn. destruct (G _ _ Hin) as [-> [s ->]]. discriminate.
  Qed.

  Definition sound_for (P : json -> Prop) A (s : shape) (d : json -> option A) : Prop :=
    forall j, P j -> conforms s j -> d j <> None.

  (** [P]: what is assumed of documents, here down to their parts *)
  Definition kept (P : json -> Prop) : Prop :=
    (forall l j, P (JArr l) -> In j l -> P j) /\ (forall es k j, P (JObj es) -> In (k, j) es -> P j).

  Lemma r_list P A s (d : json -> option A) : kept P -> sound_for P s d -> sound_for P (ListOf s) (d_list d).
  Proof.
    intros [K1 _] Hd j Hp H. inversion H as [| | | | | | | | | |? l G| | | |]; subst. cbn. apply omap_reads.
    intros v Hv. apply Hd; eauto.
  Qed.

  Lemma r_oom P A s (d : json -> option A) : kept P -> sound_for P s d -> sound_for P (OneOrMore s) (d_oom d).
  Proof.
    intros [K1 _] Hd j Hp H. unfold d_oom. inversion H as [| | | | | | | | | | |? ? G|? l G| |]; subst.
    - specialize (Hd j Hp G). destruct (d j); [discriminate|congruence].
    - destruct (d (JArr l)); [discriminate|]. cbn. apply omap_reads. intros v Hv. apply Hd; eauto.
  Qed.

  Lemma r_map P A s (d : json -> option A) : kept P -> sound_for P s d -> sound_for P (MapOf s) (d_map d).
  Proof.
    intros [_ K2] Hd j Hp H. inversion H as [| | | | | | | | | | | | |? es G|]; subst. cbn. apply map_reads, omap_reads.
    intros [k v] Hin. cbn. apply map_reads. apply Hd; eauto.
  Qed.

  Lemma any_reads P A s (d : json -> option A) : (forall j, conforms s j -> d j <> None) -> sound_for P s d.
  Proof. intros H j _. apply H. Qed.

  (** Documents without repeated members, with members of extensions as prescribed *)
  Definition plain (j : json) : Prop := no_repeats j /\ always W j /\ answers R j.

  Lemma plain_kept : kept plain.
  Proof.
    split.
    - intros l j (H1 & H2 & H3) Hin. split; [|split].
      + inversion H1 as [? F|? G|]; subst; [exfalso; eapply F; reflexivity|auto].
      + inversion H2 as [? F|? G|]; subst; [exfalso; eapply F; reflexivity|auto].
      + inversion H3 as [? F|? G|]; subst; [exfalso; eapply F; reflexivity|apply G; auto].
    - intros es k j (H1 & H2 & H3) Hin. split; [|split].
      + inversion H1 as [? ? F| |? G1 G2]; subst; [exfalso; eapply F; reflexivity|eauto].
      + inversion H2 as [? ? F| |? G1 G2]; subst; [exfalso; eapply F; reflexivity|apply (G2 k j Hin)].
      + inversion H3 as [? ? F| |? G1 G2]; subst; [exfalso; eapply F; reflexivity|apply (G2 k j Hin)].
  Qed.

  Lemma plain_obj es : plain (JObj es) -> NoDup (map fst es).
  Proof. intros [H1 _]. inversion H1 as [? ? F| |]; subst; [exfalso; eapply F; reflexivity|auto]. Qed.

  Lemma plain_member es k j : plain (JObj es) -> In (k, j) es -> plain j.
  Proof. apply plain_kept. Qed.

  Lemma plain_without ks es : plain (JObj es) -> plain (JObj (without ks es)).
  Proof.
    intros Hp. destruct Hp as (H1 & H2 & H3). split; [|split].
    - inversion H1 as [? ? F| |? G1 G2]; subst; [exfalso; eapply F; reflexivity|].
      apply nr_obj; [apply without_NoDup; exact G1|]. intros k j Hin. apply without_In in Hin as [Hin _]. eauto.
    - inversion H2 as [? ? F| |? G1 G2]; subst; [exfalso; eapply F; reflexivity|].
      apply aw_obj; intros k j Hin; apply without_In in Hin as [Hin _]; eauto.
    - inversion H3 as [? ? F| |? G1 G2]; subst; [exfalso; eapply F; reflexivity|].
      apply aw_obj; intros k j Hin; apply without_In in Hin as [Hin _]; [apply (G1 k j Hin)|apply (G2 k j Hin)].
  Qed.

  Lemma ext_reads (p : piece) es ks : plain (JObj es) -> reads_with W [] p -> p_de p (without ks es) <> None.
  Proof. intros Hp H. apply (plain_without ks) in Hp as (H1 & H2 & _). apply H; auto. intros k []. Qed.

  (** Members of an object that has a shape *)
  Definition shaped (tbl : list (string * shape)) (es : entries) : Prop :=
    plain (JObj es) /\ forall k v s, In (k, v) es -> assoc_name k tbl = Some s -> conforms s v.

  Lemma shaped_opt tbl A k s (d : json -> option A) es : shaped tbl es -> assoc_name k tbl = Some s -> sound_for plain s d ->
    opt k d es <> None.
  Proof.
    intros [Hp Hs] Ha Hd. apply opt_reads; [apply plain_obj; exact Hp|]. intros v Hin. apply Hd; eauto using plain_member.
  Qed.

  Lemma shaped_dflt tbl A k s a (d : json -> option A) es : shaped tbl es -> assoc_name k tbl = Some s -> sound_for plain s d ->
    dflt k a d es <> None.
  Proof.
    intros [Hp Hs] Ha Hd. apply dflt_reads; [apply plain_obj; exact Hp|]. intros v Hin. apply Hd; eauto using plain_member.
  Qed.

  Lemma shaped_req tbl A k s (d : json -> option A) es : shaped tbl es -> assoc_name k tbl = Some s -> sound_for plain s d ->
    In k (map fst es) -> req k d es <> None.
  Proof.
    intros [Hp Hs] Ha Hd Hk. apply req_reads; [apply plain_obj; exact Hp|exact Hk|]. intros v Hin. apply Hd; eauto using plain_member.
  Qed.

  Lemma shaped_without tbl ks es : shaped tbl es -> shaped tbl (without ks es).
  Proof.
    intros [Hp Hs]. split; [apply plain_without; exact Hp|]. intros k v s Hin. apply without_In in Hin as [Hin _]. eauto.
  Qed.

  Lemma shaped_sub tbl tbl' es : (forall k s, assoc_name k tbl' = Some s -> assoc_name k tbl = Some s) ->
    shaped tbl es -> shaped tbl' es.
  Proof. intros H [Hp Hs]. split; eauto. Qed.

  Lemma object_shaped p j : plain j -> conforms (Object p) j ->
    exists es, j = JObj es /\ shaped (members p) es /\ forall k, In k (needed p) -> In k (map fst es).
  Proof.
    intros Hp H. inversion H as [| | | | | | | | | | | | | |? es H1 H2 H3]; subst. exists es. repeat split; auto; apply Hp.
  Qed.

  Ltac leaf :=
    first
      [ exact plain_kept
      | apply any_reads; first [exact r_str | exact r_flag | exact r_date | exact r_texts | exact r_tag | exact r_op
          | (intros; apply r_value)]
      | apply r_oom; [exact plain_kept|leaf]
      | apply r_list; [exact plain_kept|leaf]
      | apply r_map; [exact plain_kept|leaf] ].

  Lemma r_info tbl es : (forall k s, assoc_name k info_shape = Some s -> assoc_name k tbl = Some s) -> shaped tbl es ->
    d_info E es <> None.
  Proof.
    intros Ht Hs. apply (shaped_sub _ Ht) in Hs. unfold d_info.
    repeat (apply bind_reads; [eapply shaped_opt; [exact Hs|reflexivity|leaf]|intros ?]). discriminate.
  Qed.

  (** ** Data schemas *)

  Lemma r_misc es : shaped schema_shape es -> d_misc es <> None.
  Proof.
    intros Hs. unfold d_misc.
    repeat (apply bind_reads; [first [eapply shaped_opt; [exact Hs|reflexivity|leaf] | eapply shaped_dflt; [exact Hs|reflexivity|leaf]]|intros ?]).
    discriminate.
  Qed.

  Lemma r_ds j : plain j -> conforms (Object PSchema) j -> d_ds E X j <> None.
  Proof.
    remember (jdepth j) as n eqn:Hn. revert j Hn. induction n as [n IH] using lt_wf_ind. intros j Hn Hp Hc.
    destruct (object_shaped Hp Hc) as (es & -> & Hs & _). cbn [members] in Hs.
    rewrite d_ds_obj. unfold ds_body.
    apply bind_reads; [eapply r_info; [|exact Hs]|intros i].
    { intros k s Hk. unfold schema_shape. revert Hk. unfold info_shape. cbn.
      repeat (destruct (String.eqb k _); [tauto|]). discriminate. }
    apply bind_reads; [apply r_misc; exact Hs|intros m].
    apply bind_reads; [|intros l].
    - apply opt_reads; [apply plain_obj; exact Hp|]. intros v Hin.
      pose proof (proj2 Hs _ _ _ Hin (eq_refl : assoc_name "oneOf" schema_shape = Some (ListOf (Object PSchema)))) as G.
      inversion G as [| | | | | | | | | |? l G'| | | |]; subst. cbn. apply omap_reads. intros c Hc'.
      pose proof (jdepth_obj _ _ _ Hin) as D1. pose proof (jdepth_arr _ _ Hc') as D2.
      eapply IH; [|reflexivity| |auto]; [lia|]. eapply (proj1 plain_kept); [|exact Hc']. eapply plain_member; eauto.
    - apply bind_reads; [apply ext_reads; [exact Hp|apply (rw_ds HX)]|discriminate].
  Qed.

  Lemma s_ds_sound : sound_for plain (Object PSchema) (d_ds E X).
  Proof. intros j. apply r_ds. Qed.

  (** ** Versions, links, responses, forms *)

  Ltac step Hs :=
    apply bind_reads; [first [eapply shaped_opt; [exact Hs|reflexivity|] | eapply shaped_dflt; [exact Hs|reflexivity|]
                             | eapply shaped_req; [exact Hs|reflexivity| |]]; try leaf|intros ?].

  Lemma version_sound : sound_for plain (Object PVersion) d_version.
  Proof.
    intros j Hp Hc. destruct (object_shaped Hp Hc) as (es & -> & Hs & Hn). cbn [d_version d_struct].
    step Hs; [apply Hn; left; reflexivity|]. step Hs. discriminate.
  Qed.

  Lemma link_sound : sound_for plain (Object PLink) (d_link E).
  Proof.
    intros j Hp Hc. destruct (object_shaped Hp Hc) as (es & -> & Hs & Hn). cbn [d_link d_struct].
    step Hs; [apply Hn; left; reflexivity|]. repeat step Hs. discriminate.
  Qed.

  Lemma add_resp_sound : sound_for plain (Object PAddResponse) d_add_resp.
  Proof.
    intros j Hp Hc. destruct (object_shaped Hp Hc) as (es & -> & Hs & Hn). cbn [d_add_resp d_struct].
    repeat step Hs. discriminate.
  Qed.

  Hypothesis HE : reads_with W R (x_er X).
  Hypothesis HR : ~ In "contentType" R.

  Lemma exp_resp_sound es : plain (JObj es) -> conforms (Object PResponse) (JObj es) ->
    (forall r, In r R -> In r (map fst es)) -> d_exp_resp X (JObj es) <> None.
  Proof.
    intros Hp Hc Hr. destruct (object_shaped Hp Hc) as (es' & [= <-] & Hs & Hn). cbn [d_exp_resp d_flat]. unfold exp_resp_body.
    step Hs; [apply Hn; left; reflexivity|].
    apply bind_reads; [|discriminate]. apply (plain_without ["contentType"]) in Hp as (H1 & H2 & _).
    apply HE; auto. intros r Hin. specialize (Hr r Hin). apply in_map_iff in Hr as ([k v] & Q0 & H). cbn in Q0. subst k.
    apply in_map_iff. exists (r, v). split; auto. apply without_In. split; auto. intros [<-|[]]. auto.
  Qed.

  Lemma ops_sound : sound_for plain (OneOrMore (OneOf (map fst td_operations))) d_ops.
  Proof.
    assert (sound_for plain (OneOrMore (OneOf (map fst td_operations))) (d_oom d_op)) as H.
    { apply r_oom; [exact plain_kept|]. intros j _. apply r_op. }
    intros j Hp Hc. specialize (H j Hp Hc). unfold d_ops. destruct j; try (apply map_reads; exact H). discriminate.
  Qed.

  Lemma form_sound : sound_for plain (Object PForm) (d_form X).
  Proof.
    intros j Hp Hc. destruct (object_shaped Hp Hc) as (es & -> & Hs & Hn). cbn [d_form d_flat]. unfold form_body.
    step Hs.
    { exact ops_sound. }
    step Hs; [apply Hn; left; reflexivity|]. do 5 step Hs.
    apply bind_reads; [|intros ?].
    { apply opt_reads; [apply plain_obj; exact Hp|]. intros v Hin.
      pose proof (proj2 Hs _ _ _ Hin (eq_refl : assoc_name "response" (members PForm) = Some (Object PResponse))) as G.
      pose proof (plain_member _ _ Hp Hin) as Hv. destruct (object_shaped Hv G) as (rs & -> & _).
      apply exp_resp_sound; auto. intros r Hr.
      destruct Hp as (_ & _ & Ha). inversion Ha as [? ? F| |? G1 _]; subst; [exfalso; eapply F; reflexivity|]. eapply (G1 _ _ Hin); eauto. }
    step Hs; [apply r_oom; [exact plain_kept|exact add_resp_sound]|].
    apply bind_reads; [apply ext_reads; [exact Hp|apply (rw_f HX)]|discriminate].
  Qed.

  (** ** Affordances *)

  Lemma r_interaction es : shaped interaction_shape es -> In "forms" (map fst es) -> interaction_body E X es <> None.
  Proof.
    intros Hs Hf. unfold interaction_body.
    apply bind_reads; [eapply r_info; [|exact Hs]|intros i].
    { intros k s Hk. unfold interaction_shape. revert Hk. unfold info_shape. cbn.
      repeat (destruct (String.eqb k _); [tauto|]). discriminate. }
    step Hs; [apply r_list; [exact plain_kept|exact form_sound]|exact Hf|].
    step Hs; [apply r_map; [exact plain_kept|exact s_ds_sound]|].
    apply bind_reads; [apply ext_reads; [apply Hs|apply (rw_ia HX)]|discriminate].
  Qed.

  Lemma forms_left ks (es : entries) : ~ In "forms" ks -> In "forms" (map fst es) -> In "forms" (map fst (without ks es)).
  Proof.
    intros Hk H. apply in_map_iff in H as ([k v] & Q & H). cbn in Q. subst k. apply in_map_iff. exists ("forms", v).
    split; auto. apply without_In. auto.
  Qed.

  Ltac not_key := let H := fresh in intros H; apply smem_In in H; discriminate H.
  Ltac table k := let s := fresh in let H := fresh in intros s H; revert H; cbn;
    repeat (destruct (String.eqb k _); [tauto|]); discriminate.

  Lemma property_sound : sound_for plain (Object PProperty) (d_property E X).
  Proof.
    intros j Hp Hc. destruct (object_shaped Hp Hc) as (es & -> & Hs & Hn). cbn [d_property d_flat]. unfold property_body.
    step Hs. cbn zeta. assert (shaped (members PProperty) (without property_keys es)) as Hs' by (apply shaped_without; exact Hs).
    assert (forall k s, assoc_name k interaction_shape = Some s -> assoc_name k (members PProperty) = Some s) as H1.
    { intros k s H. assert (In k (map fst interaction_shape)) as Hk.
      { clear - H. induction interaction_shape as [|[n a] l IH]; cbn in *; [discriminate|].
        destruct (String.eqb k n) eqn:Q; [left; symmetry; apply String.eqb_eq, Q|auto]. }
      cbn in Hk. repeat destruct Hk as [<-|Hk]; try destruct Hk; cbn in H |- *; exact H. }
    assert (forall k s, assoc_name k schema_shape = Some s -> assoc_name k (members PProperty) = Some s) as H2.
    { intros k s H. assert (In k (map fst schema_shape)) as Hk.
      { clear - H. induction schema_shape as [|[n a] l IH]; cbn in *; [discriminate|].
        destruct (String.eqb k n) eqn:Q; [left; symmetry; apply String.eqb_eq, Q|auto]. }
      cbn in Hk. repeat destruct Hk as [<-|Hk]; try destruct Hk; cbn in H |- *; exact H. }
    apply bind_reads; [apply r_interaction; [eapply shaped_sub; [exact H1|exact Hs']|]|intros i].
    { apply forms_left; [not_key|apply Hn; left; reflexivity]. }
    apply bind_reads; [apply r_ds; [apply Hs'|]|intros d].
    { constructor; [intros k []| |intros F; discriminate F]. intros k v s Hin Ha. exact (proj2 Hs' k v s Hin (H2 k s Ha)). }
    apply bind_reads; [apply ext_reads; [exact Hp|apply (rw_pa HX)]|discriminate].
  Qed.

  Lemma action_sound : sound_for plain (Object PAction) (d_action E X).
  Proof.
    intros j Hp Hc. destruct (object_shaped Hp Hc) as (es & -> & Hs & Hn). cbn [d_action d_flat]. unfold action_body.
    step Hs; [exact s_ds_sound|]. step Hs; [exact s_ds_sound|]. do 3 step Hs. cbn zeta.
    assert (shaped (members PAction) (without action_keys es)) as Hs' by (apply shaped_without; exact Hs).
    assert (forall k s, assoc_name k interaction_shape = Some s -> assoc_name k (members PAction) = Some s) as H1.
    { intros k s H. assert (In k (map fst interaction_shape)) as Hk.
      { clear - H. induction interaction_shape as [|[n a] l IH]; cbn in *; [discriminate|].
        destruct (String.eqb k n) eqn:Q; [left; symmetry; apply String.eqb_eq, Q|auto]. }
      cbn in Hk. repeat destruct Hk as [<-|Hk]; try destruct Hk; cbn in H |- *; exact H. }
    apply bind_reads; [apply r_interaction; [eapply shaped_sub; [exact H1|exact Hs']|]|intros i].
    { apply forms_left; [not_key|apply Hn; left; reflexivity]. }
    apply bind_reads; [apply ext_reads; [exact Hp|apply (rw_aa HX)]|discriminate].
  Qed.

  Lemma event_sound : sound_for plain (Object PEvent) (d_event E X).
  Proof.
    intros j Hp Hc. destruct (object_shaped Hp Hc) as (es & -> & Hs & Hn). cbn [d_event d_flat]. unfold event_body.
    do 4 (step Hs; [exact s_ds_sound|]). cbn zeta.
    assert (shaped (members PEvent) (without event_keys es)) as Hs' by (apply shaped_without; exact Hs).
    assert (forall k s, assoc_name k interaction_shape = Some s -> assoc_name k (members PEvent) = Some s) as H1.
    { intros k s H. assert (In k (map fst interaction_shape)) as Hk.
      { clear - H. induction interaction_shape as [|[n a] l IH]; cbn in *; [discriminate|].
        destruct (String.eqb k n) eqn:Q; [left; symmetry; apply String.eqb_eq, Q|auto]. }
      cbn in Hk. repeat destruct Hk as [<-|Hk]; try destruct Hk; cbn in H |- *; exact H. }
    apply bind_reads; [apply r_interaction; [eapply shaped_sub; [exact H1|exact Hs']|]|intros i].
    { apply forms_left; [not_key|apply Hn; left; reflexivity]. }
    apply bind_reads; [apply ext_reads; [exact Hp|apply (rw_ea HX)]|discriminate].
  Qed.

  Lemma security_sound : sound_for plain (Object PSecurity) (d_security E).
  Proof.
    intros j Hp Hc. destruct (object_shaped Hp Hc) as (es & -> & Hs & Hn). cbn [d_security d_flat]. unfold security_body.
    do 4 step Hs. apply bind_reads; [|discriminate]. unfold d_subtype.
    destruct (d_known _); [discriminate|]. unfold d_unknown. apply bind_reads; [|discriminate].
    apply (shaped_without security_keys) in Hs. eapply shaped_req; [exact Hs|reflexivity|leaf|].
    specialize (Hn "scheme" (or_introl eq_refl)). apply in_map_iff in Hn as ([k v] & Q & H). cbn in Q. subst k.
    apply in_map_iff. exists ("scheme", v). split; auto. apply without_In. split; auto. not_key.
  Qed.

  (** ** Things *)

  Theorem thing_sound : sound_for plain (Object PThing) (d_thing E X).
  Proof.
    intros j Hp Hc. destruct (object_shaped Hp Hc) as (es & -> & Hs & Hn). cbn [d_thing d_flat]. unfold De.thing_body.
    do 3 step Hs. step Hs; [apply Hn; left; reflexivity|]. do 3 step Hs.
    step Hs; [exact version_sound|]. do 4 step Hs.
    step Hs; [apply r_map; [exact plain_kept|exact property_sound]|].
    step Hs; [apply r_map; [exact plain_kept|exact action_sound]|].
    step Hs; [apply r_map; [exact plain_kept|exact event_sound]|].
    step Hs; [apply r_list; [exact plain_kept|exact link_sound]|].
    step Hs; [apply r_list; [exact plain_kept|exact form_sound]|].
    step Hs; [apply Hn; right; left; reflexivity|].
    step Hs; [apply r_map; [exact plain_kept|exact security_sound]|apply Hn; right; right; left; reflexivity|].
    step Hs; [apply r_map; [exact plain_kept|exact s_ds_sound]|].
    step Hs.
    step Hs; [apply r_map; [exact plain_kept|exact s_ds_sound]|].
    apply bind_reads; [apply ext_reads; [exact Hp|apply (rw_t HX)]|discriminate].
  Qed.

  (** ** Types of schemas are kept *)

  Lemma r_u32 k es v : in_range es -> In k ["min_items"; "max_items"; "minLength"; "maxLength"] -> In (k, v) es ->
    conforms Natural v -> d_u32 v <> None.
  Proof. clear HE HR.
    intros [H _] Hk Hin Hc. inversion Hc as [| | | | |n Hn| | | | | | | | |]; subst. specialize (H k n Hk Hin).
    unfold in_u32 in H. unfold d_u32, d_int.
    destruct (Z.leb_spec 0 n); [|lia]. destruct (Z.leb_spec n 4294967295); [discriminate|lia].
  Qed.

  Lemma range_without ks es : in_range es -> in_range (without ks es).
  Proof. clear HE HR.
    intros [H1 H2]. split.
    - intros k n Hk Hin. apply without_In in Hin as [Hin _]. eauto.
    - intros Ht v Hv. apply without_In in Ht as [Ht _]. apply without_In in Hv as [Hv _]. eauto.
  Qed.

  Lemma range_opt k es : in_range es -> shaped schema_shape es -> In k ["min_items"; "max_items"; "minLength"; "maxLength"] ->
    assoc_name k schema_shape = Some Natural -> opt k d_u32 es <> None.
  Proof. clear HE HR.
    intros Hr0 [Hp Hs] Hk Ha. apply opt_reads; [apply plain_obj; exact Hp|]. intros v Hin. eapply r_u32; eauto.
  Qed.

  Lemma r_f64 j : conforms Number j -> d_f64 j <> None.
  Proof. clear HE HR. intros H. inversion H; subst; discriminate. Qed.

  Theorem type_kept es d n : plain (JObj es) -> conforms (Object PSchema) (JObj es) -> in_range es ->
    In ("type", JStr n) es -> d_ds E X (JObj es) = Some d ->
    exists s, ds_sub d = Some s /\ type_name s = n.
  Proof. clear HE HR.
    intros Hp Hc Hran Ht H. destruct (object_shaped Hp Hc) as (es' & Q & Hs & _). injection Q as <-.
    cbn [members] in Hs. rewrite d_ds_obj in H. unfold ds_body in H.
    apply obind_inv in H as (i & _ & H). apply obind_inv in H as (m & _ & H). apply obind_inv in H as (l & _ & H).
    apply obind_inv in H as (o & _ & H). apply some_inj in H as <-. cbn [ds_sub].
    set (r := without ds_keys es).
    assert (In ("type", JStr n) r) as Htr by (apply without_In; split; [exact Ht|not_key]).
    assert (shaped schema_shape r) as Hsr by (apply shaped_without; exact Hs).
    assert (shaped schema_shape (without ["type"] r)) as Hsc by (apply shaped_without; exact Hsr).
    assert (in_range (without ["type"] r)) as Hrc by (apply range_without, range_without; exact Hran).
    assert (plain (JObj r)) as Hpr by apply Hsr.
    assert (get "type" r = [JStr n]) as Hg by (destruct (@nodup_get "type" _ (plain_obj Hpr)) as [Q|(v & Q & Hv)];
        [apply get_In in Htr; rewrite Q in Htr; destruct Htr
        |apply get_In in Htr; rewrite Q in Htr; destruct Htr as [->|[]]; exact Q]).
    clear i m l o. unfold sub_body. unfold req. rewrite Hg. cbn zeta. clear Hg.
    pose proof (proj2 Hsr _ _ _ Htr (eq_refl : assoc_name "type" schema_shape = Some (OneOf ["object"; "array"; "string"; "number"; "integer"; "boolean"; "null"]))) as G.
    inversion G as [| | | | | |? ? G'| | | | | | | |]; subst. clear G.
    set (c := without ["type"] r) in *.
    repeat destruct G' as [<-|G']; try destruct G'; cbn [d_tag sub_names assoc_name String.eqb Ascii.eqb Bool.eqb obind].
    - (* object *)
      assert (opt "properties" (d_map (d_ds E X)) c <> None) as G1
        by (eapply shaped_opt; [exact Hsc|reflexivity|apply r_map; [exact plain_kept|exact s_ds_sound]]).
      assert (opt "required" (d_list d_str) c <> None) as G2
        by (eapply shaped_opt; [exact Hsc|reflexivity|leaf]).
      assert (p_de (x_os X) (without object_keys c) <> None) as G3
        by (apply ext_reads; [apply Hsc|apply (rw_os HX)]).
      destruct (opt "properties" _ c); [|congruence]. destruct (opt "required" _ c); [|congruence].
      destruct (p_de _ _); [|congruence]. eexists. split; reflexivity.
    - (* array *)
      assert (opt "items" (d_boxed (d_ds E X)) c <> None) as G1.
      { eapply shaped_opt; [exact Hsc|reflexivity|]. intros j Hj Hcj. unfold d_boxed.
        assert (d_oom (d_ds E X) j <> None) as G by (apply (@r_oom plain _ _ _ plain_kept s_ds_sound j Hj Hcj)).
        unfold d_oom in G. destruct (d_ds E X j); [discriminate|].
        unfold d_list in *. destruct j; try congruence. apply map_reads.
        intros F. rewrite F in G. apply G. reflexivity. }
      assert (opt "min_items" d_u32 c <> None) as G2 by (apply range_opt; auto; cbn; tauto).
      assert (opt "max_items" d_u32 c <> None) as G3 by (apply range_opt; auto; cbn; tauto).
      assert (p_de (x_as X) (without array_keys c) <> None) as G4
        by (apply ext_reads; [apply Hsc|apply (rw_as HX)]).
      destruct (opt "items" _ c); [|congruence]. destruct (opt "min_items" _ c); [|congruence].
      destruct (opt "max_items" _ c); [|congruence].
      destruct (p_de _ _); [|congruence]. eexists. split; reflexivity.
    - (* string *)
      assert (d_string c <> None) as G1.
      { unfold d_string. do 2 (apply bind_reads; [apply range_opt; auto; cbn; tauto|intros ?]). repeat step Hsc. discriminate. }
      destruct (d_string c); [|congruence]. eexists. split; reflexivity.
    - (* number *)
      assert (d_number c <> None) as G1.
      { unfold d_number. apply bind_reads; [|discriminate]. eapply shaped_opt; [exact Hsc|reflexivity|].
        apply any_reads. exact r_f64. }
      destruct (d_number c); [|congruence]. eexists. split; reflexivity.
    - (* integer *)
      assert (d_integer c <> None) as G1.
      { unfold d_integer. apply bind_reads; [|discriminate]. apply opt_reads; [apply plain_obj, Hsc|].
        intros v Hv. unfold c, r in Hv. apply without_In in Hv as [Hv _]. apply without_In in Hv as [Hv _].
        destruct (proj2 Hran Ht v Hv) as (z & -> & Hz). unfold in_nz_u64 in Hz. unfold d_nz_u64, d_int.
        destruct (Z.leb_spec 1 z); [|lia]. destruct (Z.leb_spec z 18446744073709551615); [discriminate|lia]. }
      destruct (d_integer c); [|congruence]. eexists. split; reflexivity.
    - eexists. split; reflexivity.
    - eexists. split; reflexivity.
  Qed.
End Reads.

(** ** Extensions that are read *)

Lemma always_imp (Q Q' : string -> json -> Prop) j : (forall k v, Q k v -> Q' k v) -> always Q j -> always Q' j.
Proof. intros Hi H. induction H; [apply aw_leaf|apply aw_arr|apply aw_obj]; eauto. Qed.

Lemma never_always L j : never L j -> always (fun k _ => ~ In k L) j.
Proof.
  intros H. induction H as [j H1 H2|l H IH|es H1 H2 IH]; [apply aw_leaf|apply aw_arr|apply aw_obj]; auto.
  intros k v Hin. apply H1. apply in_map_iff. exists (k, v). auto.
Qed.

Lemma always_obj Q es k v : always Q (JObj es) -> In (k, v) es -> Q k v /\ always Q v.
Proof. intros H. inversion H as [? ? F| |? G1 G2]; subst; [exfalso; eapply F; reflexivity|eauto]. Qed.

Lemma always_arr Q l v : always Q (JArr l) -> In v l -> always Q v.
Proof. intros H. inversion H as [? F| |]; subst; [exfalso; eapply F; reflexivity|eauto]. Qed.

Lemma reads_weaker (Q Q' : string -> json -> Prop) R R' p : (forall k v, Q' k v -> Q k v) -> incl R R' -> reads_with Q R p -> reads_with Q' R' p.
Proof. intros Hq Hr H es Hn Ha Hk. apply H; [exact Hn|exact (always_imp _ Hq Ha)|auto]. Qed.

Lemma optional_reads L L' R p : incl L L' -> reads_without p L -> reads_with (fun k _ => ~ In k L') R p.
Proof.
  intros Hi H es _ Ha _. apply H. intros k Hk F. apply in_map_iff in Hk as ([k' v] & Q & Hk). cbn in Q. subst k'.
  destruct (always_obj _ _ Ha Hk) as [G _]. apply G, Hi, F.
Qed.

Lemma optional_readable X K L : exts_optional X K -> incl (all_names K) L -> exts_readable X (fun k _ => ~ In k L).
Proof.
  intros HX Hi.
  assert (incl (k_t K) L /\ incl (k_ia K) L /\ incl (k_pa K) L /\ incl (k_aa K) L /\ incl (k_ea K) L /\ incl (k_f K) L
          /\ incl (k_ds K) L /\ incl (k_os K) L /\ incl (k_as K) L) as (? & ? & ? & ? & ? & ? & ? & ? & ?).
  { unfold all_names in Hi. repeat split; intros k Hk; apply Hi; rewrite !in_app_iff; tauto. }
  destruct HX. constructor; (eapply optional_reads; [|eassumption]; assumption).
Qed.

Lemma no_answers j : always (fun _ _ => True) j -> answers [] j.
Proof. apply always_imp. intros k v _ _ es _ r []. Qed.

Lemma conforming_read_with E X Q R : exts_readable X Q -> reads_with Q R (x_er X) -> ~ In "contentType" R ->
  forall j, no_repeats j -> always Q j -> answers R j -> conforms E (Object PThing) j -> exists t, d_thing E X j = Some t.
Proof.
  intros HX He HR j Hn Hv Ha Hc. destruct (d_thing E X j) as [t|] eqn:F; [eauto|]. exfalso.
  refine (thing_sound HX He HR _ Hc F). repeat split; assumption.
Qed.

Lemma conforming_read E X K : exts_optional X K -> reads_without (x_er X) (k_er K) ->
  forall j, no_repeats j -> never (all_names K) j -> conforms E (Object PThing) j -> exists t, d_thing E X j = Some t.
Proof.
  intros HX Hr j Hn Hv Hc. apply never_always in Hv.
  refine (conforming_read_with (R := []) (optional_readable HX (incl_refl _)) _ _ Hn Hv _ Hc).
  - eapply optional_reads; [|exact Hr]. unfold all_names. intros k Hk. rewrite !in_app_iff. tauto.
  - intros [].
  - apply no_answers. revert Hv. apply always_imp. auto.
Qed.

Lemma conforming_read_part E X K : exts_optional X K ->
  forall j, no_repeats j -> never ("response" :: all_names K) j -> conforms E (Object PThing) j ->
  exists t, d_thing E X j = Some t.
Proof.
  intros HX j Hn Hv Hc. apply never_always in Hv.
  refine (conforming_read_with (R := ["response"]) (optional_readable HX _) _ _ Hn Hv _ Hc).
  - intros k Hk. right; exact Hk.
  - intros es _ Ha Hk. exfalso. specialize (Hk "response" (or_introl eq_refl)).
    apply in_map_iff in Hk as ([k v] & Q & Hk). cbn in Q. subst k. destruct (always_obj _ _ Ha Hk) as [G _].
    apply G. left; reflexivity.
  - intros [F|[]]. discriminate F.
  - revert Hv. apply always_imp. intros k v Hk -> ? _. exfalso. apply Hk. left; reflexivity.
Qed.

Lemma conforming_schema_with E X Q : exts_readable X Q ->
  forall es, no_repeats (JObj es) -> always Q (JObj es) -> conforms E (Object PSchema) (JObj es) ->
  exists d, d_ds E X (JObj es) = Some d
    /\ (in_range es -> forall n, In ("type", JStr n) es -> exists s, ds_sub d = Some s /\ type_name s = n).
Proof.
  intros HX es Hn Hv Hc.
  assert (plain Q [] (JObj es)) as Hp.
  { split; [exact Hn|]. split; [exact Hv|]. apply no_answers. revert Hv. apply always_imp. auto. }
  destruct (d_ds E X (JObj es)) as [d|] eqn:F.
  - exists d. split; auto. intros Hr n Ht.
    eapply (type_kept HX); eassumption.
  - exfalso. exact (r_ds HX Hp Hc F).
Qed.

Lemma conforming_schema E X K : exts_optional X K ->
  forall es, no_repeats (JObj es) -> never (all_names K) (JObj es) -> conforms E (Object PSchema) (JObj es) ->
  exists d, d_ds E X (JObj es) = Some d
    /\ (in_range es -> forall n, In ("type", JStr n) es -> exists s, ds_sub d = Some s /\ type_name s = n).
Proof.
  intros HX es Hn Hv. apply (conforming_schema_with (optional_readable HX (incl_refl _))); [exact Hn|].
  apply never_always. exact Hv.
Qed.
