(** * Numbers in a built Thing come from the calls *)

From Coq Require Import String Bool ZArith Lia List.
From Coq Require Import Floats.SpecFloat.
From Verif Require Import Base MinMax Json Serde Types DsBuilder Builder HList Protocol Samples SampleFacts DsExamples
  Spec SpecNum SpecCalls SpecThing SpecSerde SpecArgs SpecEqual SpecRead SpecGiven DsFacts NumFacts DsProgFacts
  ProgFacts SaysFacts ThingFacts ProgramProps BoundFacts ArgFacts BuiltFacts.
Import ListNotations.
Set Implicit Arguments.
Local Open Scope string_scope.
Local Open Scope list_scope.

Section Schemas.
  Variable X : exts.
  Variable tg : string -> option string.
  Notation dsop := (dsop (pty (x_ds X)) (pty (x_as X)) (pty (x_os X))).
  Notation says := (@ds_says (pty (x_ds X)) (pty (x_as X)) (pty (x_os X)) tg).

  Lemma child_calls p (d c : dsx X) : says p d -> In c (ds_children d) ->
    exists q, says q c /\ exists o, In o p /\ closure o = Some q.
  Proof.
    intros [[_ _ _ _ _ _ (cs & Hcs & Hone) _ _ _ Hsub]] Hc. unfold ds_children in Hc.
    apply in_app_or in Hc as [Hc|Hc].
    - rewrite Hone in Hc. unfold nonempty in Hc.
      assert (In c cs) as Hin by (destruct cs; [destruct Hc|exact Hc]).
      destruct (from_call Hcs Hin) as (q & Hq & Hs). exists q. split; auto.
      apply picks_In in Hq as (o & Ho & Hoq). exists o. split; auto. destruct o; try discriminate Hoq. exact Hoq.
    - destruct (ds_sub d) as [s|] eqn:Hs; [|destruct Hc]. destruct Hsub.
      destruct s as [[[e|l]|] mn mx o| | | |[ps|] r o| |]; cbn in Hc; try destruct Hc as [<-|[]]; try destruct Hc.
      + cbn in sd_elem. apply omatch_r in sd_elem as (q & Hq & Hqe). exists q. split; auto.
        apply last_pick in Hq as (x & Hx & Hxq). exists x. split; auto. destruct x; try discriminate Hxq. exact Hxq.
      + cbn in sd_tuple. destruct (from_call sd_tuple Hc) as (q & Hq & Hqe). exists q. split; auto.
        apply picks_In in Hq as (x & Hx & Hxq). exists x. split; auto. destruct x; try discriminate Hxq. exact Hxq.
      + apply in_map_iff in Hc as ([k c'] & <- & Hin). destruct sd_props as [Hsort Hl]. cbn in Hsort, Hl.
        specialize (Hl k). rewrite (at_key Hsort Hin) in Hl. apply omatch_r in Hl as (q & Hq & Hqe).
        exists q. split; auto. apply llook_In, picks_In in Hq as (x & Hx & Hxq).
        exists x. split; auto. destruct x; try discriminate Hxq. injection Hxq as _ <-. reflexivity.
  Qed.

  Lemma number_calls p (d : dsx X) n v : says p d -> ds_sub d = Some (SNumber n) -> number_in n v ->
    exists o, calls p o /\ number_of X o = Some v.
  Proof.
    intros [[_ _ _ _ _ _ _ _ _ _ Hsub]] Hs Hv. rewrite Hs in Hsub. destruct Hsub. cbn in *.
    assert (forall B (o : option B) (f : dsop -> option B) b, o = lasto (picks f p) -> o = Some b ->
              (forall c, f c = Some b -> number_of X c = Some v) ->
              exists o, calls p o /\ number_of X o = Some v) as H.
    { intros B o f b -> Hb Hf. apply last_pick in Hb as (c & Hc & Hb). exists c. split; [constructor; auto|auto]. }
    destruct Hv as [Hv|[Hv|[Hv|[Hv|Hv]]]].
    - eapply H; [exact sd_nmult|exact Hv|]. intros [] F; try discriminate F; injection F as <-; reflexivity.
    - eapply H; [exact sd_nmax|exact Hv|]. intros [] F; try discriminate F; injection F as ->; reflexivity.
    - eapply H; [exact sd_nmax|exact Hv|]. intros [] F; try discriminate F; injection F as ->; reflexivity.
    - eapply H; [exact sd_nmin|exact Hv|]. intros [] F; try discriminate F; injection F as ->; reflexivity.
    - eapply H; [exact sd_nmin|exact Hv|]. intros [] F; try discriminate F; injection F as ->; reflexivity.
  Qed.

  Lemma sub_number_calls p (d e : dsx X) n v : says p d -> sub_ds e d -> ds_sub e = Some (SNumber n) -> number_in n v ->
    exists o, calls p o /\ number_of X o = Some v.
  Proof.
    intros Hs He Hn Hv. revert p Hs.
    assert (forall p (c d : dsx X), says p d -> In c (ds_children d) ->
              (forall q, says q c -> exists o, calls q o /\ number_of X o = Some v) ->
              exists o, calls p o /\ number_of X o = Some v) as Hstep.
    { intros p c d' Hs Hc IH. destruct (child_calls c Hs Hc) as (q & Hq & o & Ho & Hoq).
      destruct (IH q Hq) as (o' & H1 & H2). exists o'. split; auto. eapply calls_inside; eauto. }
    induction He as [|d l c Hd Hc _ IH|d c mn mx o Hd _ IH|d l c mn mx o Hd Hc _ IH|d ps k c r o Hd Hc _ IH];
      intros p Hs.
    - eapply number_calls; eauto.
    - eapply (Hstep p c d Hs); auto. unfold ds_children. rewrite Hd. apply in_or_app. left. exact Hc.
    - eapply (Hstep p c d Hs); auto. unfold ds_children. rewrite Hd. apply in_or_app. right. left. reflexivity.
    - eapply (Hstep p c d Hs); auto. unfold ds_children. rewrite Hd. apply in_or_app. right. exact Hc.
    - eapply (Hstep p c d Hs); auto. unfold ds_children. rewrite Hd. apply in_or_app. right. cbn.
      apply (in_map snd) in Hc. exact Hc.
  Qed.
End Schemas.

Section Things.
  Variable E : env.
  Variable X : exts.
  Notation dsop := (dsop (pty (x_ds X)) (pty (x_as X)) (pty (x_os X))).
  Notation says := (@ds_says (pty (x_ds X)) (pty (x_as X)) (pty (x_os X)) (tag_parse E)).

  Lemma in_olist P A (R : P -> A -> Prop) adds m n a : omap_says R adds m -> In (n, a) (olist m) ->
    exists c, In (n, c) adds /\ R c a.
  Proof.
    intros H Ha. destruct m as [ps|]; [|destruct Ha]. destruct (from_map H Ha) as (c & Hc & Hr).
    exists c. split; auto. apply llook_In. exact Hc.
  Qed.

  Lemma variable_says x p (i : interaction X) n d : ia_says (tag_parse E) x p i -> In (n, d) (olist (ia_uri i)) ->
    exists q, variable_calls p q /\ says q d.
  Proof.
    intros [_ H _] Hd. destruct (in_olist _ _ H Hd) as (q & Hq & Hs). exists q. split; auto. exists n.
    apply picks_In in Hq as (o & Ho & F). destruct o; try discriminate F. injection F as -> ->. exact Ho.
  Qed.

  Lemma last_says B (f : B -> option (list dsop)) l d : omatch says (lasto (picks f l)) (Some d) ->
    exists q o, In o l /\ f o = Some q /\ says q d.
  Proof.
    intros H. apply omatch_r in H as (q & Hq & Hs). apply last_pick in Hq as (o & Ho & F). eauto.
  Qed.

  (** Every schema of the Thing is what some calls say. *)
  Lemma schema_said title x p (t : thing E X) d : thing_says title x p t -> schema_in (thing_body t) d ->
    exists q, schema_calls p q /\ says q d.
  Proof.
    intros [] Hd.
    assert (forall n a, In (n, a) (y_properties (thing_body t)) ->
              exists xi xp c, In (TProperty n xi xp c) p /\ property_says (tag_parse E) (xi, xp, c) a) as HP.
    { intros n a Ha. destruct (in_olist _ _ ts_properties Ha) as ([[xi xp] c] & Hc & Hs). exists xi, xp, c. split; auto.
      apply picks_In in Hc as (o & Ho & F). destruct o; try discriminate F. injection F as -> -> -> ->. exact Ho. }
    assert (forall n a, In (n, a) (y_actions (thing_body t)) ->
              exists xi xp c, In (TAction n xi xp c) p /\ action_says (tag_parse E) (xi, xp, c) a) as HA.
    { intros n a Ha. destruct (in_olist _ _ ts_actions Ha) as ([[xi xp] c] & Hc & Hs). exists xi, xp, c. split; auto.
      apply picks_In in Hc as (o & Ho & F). destruct o; try discriminate F. injection F as -> -> -> ->. exact Ho. }
    assert (forall n a, In (n, a) (y_events (thing_body t)) ->
              exists xi xp c, In (TEvent n xi xp c) p /\ event_says (tag_parse E) (xi, xp, c) a) as HE.
    { intros n a Ha. destruct (in_olist _ _ ts_events Ha) as ([[xi xp] c] & Hc & Hs). exists xi, xp, c. split; auto.
      apply picks_In in Hc as (o & Ho & F). destruct o; try discriminate F. injection F as -> -> -> ->. exact Ho. }
    destruct Hd as [[n a Ha Hd|n a Ha Hd|n a Ha Hd|n a Ha Hd|n a Ha Hd|n a Ha Hd]|n a Ha Hd|[n Hd|k m i n Hi Hd]|n Hd].
    - apply HP in Ha as (xi & xp & c & Hc & Hs). exists (picks (@p_ds X) c). split.
      + eapply sc_property; [exact Hc|left; reflexivity].
      + rewrite <- Hd. exact (ps_ds Hs).
    - apply HA in Ha as (xi & xp & c & Hc & Hs). pose proof (as_input Hs) as H. rewrite Hd in H.
      apply last_says in H as (q & o & Ho & F & H). exists q. split; auto. destruct o; try discriminate F.
      injection F as ->. eapply sc_action; [exact Hc|auto].
    - apply HA in Ha as (xi & xp & c & Hc & Hs). pose proof (as_output Hs) as H. rewrite Hd in H.
      apply last_says in H as (q & o & Ho & F & H). exists q. split; auto. destruct o; try discriminate F.
      injection F as ->. eapply sc_action; [exact Hc|auto].
    - apply HE in Ha as (xi & xp & c & Hc & Hs). pose proof (es_subscription Hs) as H. rewrite Hd in H.
      apply last_says in H as (q & o & Ho & F & H). exists q. split; auto. destruct o; try discriminate F.
      injection F as ->. eapply sc_event; [exact Hc|auto].
    - apply HE in Ha as (xi & xp & c & Hc & Hs). pose proof (es_data Hs) as H. rewrite Hd in H.
      apply last_says in H as (q & o & Ho & F & H). exists q. split; auto. destruct o; try discriminate F.
      injection F as ->. eapply sc_event; [exact Hc|auto].
    - apply HE in Ha as (xi & xp & c & Hc & Hs). pose proof (es_cancellation Hs) as H. rewrite Hd in H.
      apply last_says in H as (q & o & Ho & F & H). exists q. split; auto. destruct o; try discriminate F.
      injection F as ->. eapply sc_event; [exact Hc|auto 6].
    - apply HE in Ha as (xi & xp & c & Hc & Hs). pose proof (es_data_response Hs) as H. rewrite Hd in H.
      apply last_says in H as (q & o & Ho & F & H). exists q. split; auto. destruct o; try discriminate F.
      injection F as ->. eapply sc_event; [exact Hc|auto].
    - destruct (in_olist _ _ ts_uri Hd) as (q & Hq & Hs). exists q. split; auto.
      apply picks_In in Hq as (o & Ho & F). destruct o; try discriminate F. injection F as -> ->.
      eapply sc_uri; eauto.
    - destruct Hi as [m a Ha|m a Ha|m a Ha].
      + apply HP in Ha as (xi & xp & c & Hc & Hs). destruct (variable_says _ _ (ps_ia Hs) Hd) as (q & Hq & H).
        exists q. split; auto. eapply sc_property; [exact Hc|auto].
      + apply HA in Ha as (xi & xp & c & Hc & Hs). destruct (variable_says _ _ (as_ia Hs) Hd) as (q & Hq & H).
        exists q. split; auto. eapply sc_action; [exact Hc|auto].
      + apply HE in Ha as (xi & xp & c & Hc & Hs). destruct (variable_says _ _ (es_ia Hs) Hd) as (q & Hq & H).
        exists q. split; auto. eapply sc_event; [exact Hc|auto 6].
    - destruct (in_olist _ _ ts_schemas Hd) as (q & Hq & Hs). exists q. split; auto.
      apply picks_In in Hq as (o & Ho & F). destruct o; try discriminate F. injection F as -> ->.
      eapply sc_schema; eauto.
  Qed.

  Lemma numbers_given ord title x p (t : thing E X) : order_ok ord -> thing_program ord title x p = Some (Ok t) ->
    forall d e n v, schema_in (thing_body t) d -> sub_ds e d -> ds_sub e = Some (SNumber n) -> number_in n v ->
      number_given p v.
  Proof.
    intros Ho Ht d e n v Hd He Hn Hv.
    destruct (schema_said (built_says Ho _ _ _ Ht) Hd) as (q & Hq & Hs).
    destruct (sub_number_calls Hs He Hn Hv) as (o & H1 & H2). exists q, o. auto.
  Qed.

  Lemma finite_given ord title x p (t : thing E X) : order_ok ord -> thing_program ord title x p = Some (Ok t) ->
    (forall v, number_given p v -> f64_finite v = true) -> numbers_finite t.
  Proof. intros Ho Ht H d e n v Hd He Hn Hv. apply H. eapply numbers_given; eauto. Qed.
End Things.

(** ** One number schema *)

Section Number.
  Variable E : env.
  Variable X : exts.
  Variable ord : order.
  Hypothesis Hord : order_ok ord.
  Variables (title n : string).
  Variables (x : pty (x_t X)) (xi : pty (x_ia X)) (xp : pty (x_pa X)) (xd : pty (x_ds X)).
  Notation dsop := (dsop (pty (x_ds X)) (pty (x_as X)) (pty (x_os X))).

  Lemma number_exact mn mx ml :
    (exists t, thing_program ord title x
       (one_property E X n xi xp xd
          (DNumber :: ocall (fun m => DNumMin m) mn ++ ocall (fun m => DNumMax m) mx ++ ocall (fun m => DNumMult m) ml))
       = Some (Ok t))
    <-> (forall a, mn = Some a -> ~ is_nan (min_val a))
        /\ (forall b, mx = Some b -> ~ is_nan (max_val b))
        /\ (forall a b, mn = Some a -> mx = Some b -> same_kind a b /\ fle (min_val a) (max_val b))
        /\ (forall m, ml = Some m -> ~ fle m (S754_zero false)).
  Proof.
    assert (exists d : dsx X, dbuild (DFinish xd :: DNumber :: ocall (fun m => DNumMin m) mn
                ++ ocall (fun m => DNumMax m) mx ++ ocall (fun m => DNumMult m) ml) = Some d
              /\ ds_info d = no_info /\ ds_children d = []
              /\ ds_sub d = Some (SNumber {| n_max := mx; n_min := mn; n_mult := ml |})) as (d & Hd & Hi & Hc & Hs).
    { destruct mn, mx, ml; eexists; (split; [reflexivity|]); (split; [reflexivity|]); split; reflexivity. }
    assert (forallb (delegated X) (DNumber :: ocall (fun m => DNumMin m) mn
                ++ ocall (fun m => DNumMax m) mx ++ ocall (fun m => DNumMult m) ml) = true) as Hg
      by (destruct mn, mx, ml; reflexivity).
    rewrite (one_property_outcome E X Hord title n x xi xp xd _ Hg Hd Hi Hc), Hs. split.
    - intros H. destruct (H _ eq_refl) as [(H1 & H2 & H3 & H4) H5]. cbn in *. repeat split; auto.
    - intros (H1 & H2 & H3 & H4) s F. injection F as <-. split; [split; [|split; [|split]]|]; cbn; auto.
      + intros a b Ha Hb. apply H3; auto.
      + intros a b Ha Hb. apply H3; auto.
  Qed.
End Number.

(** ** Examples *)

(** A property holding a nested number schema *)
Definition speeds : list (top sample_env http_exts) :=
  one_property sample_env http_exts "speeds" tt tt tt
    [DVec tt; DSetItem [DFinish tt; DNumber; DNumMin (MinIncl (f64_of_Z 3%Z)); DNumMult (f64_of_Z 2%Z)]].

Definition speeds_thing : thing sample_env http_exts.
Proof.
  let r := eval vm_compute in (run id_order speeds) in match r with Some (Ok ?t) => exact t end.
Defined.

Lemma speeds_numbers v : number_given speeds v -> v = f64_of_Z 3%Z \/ v = f64_of_Z 2%Z.
Proof.
  intros (q & o & Hq & Ho & Hv).
  assert (q = [DFinish tt; DVec tt;
               DSetItem [DFinish tt; DNumber; DNumMin (MinIncl (f64_of_Z 3%Z)); DNumMult (f64_of_Z 2%Z)]]) as ->.
  { destruct Hq as [n H|n H|n xi xp c H Hc|n xi xp c H Hc|n xi xp c H Hc];
      (destruct H as [H|[H|[]]]; try discriminate H).
    injection H as <- <- <- <-. destruct Hc as [->|[k []]]. reflexivity. }
  inversion Ho as [? ? H|? o1 q ? H Hc H2]; subst; clear Ho.
  - destruct H as [<-|[<-|[<-|[]]]]; discriminate Hv.
  - destruct H as [<-|[<-|[<-|[]]]]; try discriminate Hc. injection Hc as <-.
    inversion H2 as [? ? H|? o1 q ? H Hc H3]; subst; clear H2.
    + destruct H as [<-|[<-|[<-|[<-|[]]]]]; try discriminate Hv; injection Hv as <-; auto.
    + destruct H as [<-|[<-|[<-|[<-|[]]]]]; discriminate Hc.
Qed.

Lemma given_used :
  (exists d e n, schema_in (thing_body the_lamp) d /\ sub_ds e d /\ e <> d /\ ds_sub e = Some (SNumber n)
     /\ number_in n (f64_of_Z 1%Z))
  /\ number_given lamp (f64_of_Z 1%Z) /\ ~ number_given speeds (f64_of_Z 1%Z).
Proof.
  assert (exists d e n, schema_in (thing_body the_lamp) d /\ sub_ds e d /\ e <> d /\ ds_sub e = Some (SNumber n)
     /\ number_in n (f64_of_Z 1%Z)) as H.
  { do 3 eexists. split; [apply in_checked; eapply chk_property; [left; reflexivity|reflexivity]|].
    split; [eapply sub_prop; [reflexivity|right; right; left; reflexivity|];
            eapply sub_item; [reflexivity|]; apply sub_self|].
    split; [discriminate|]. split; [reflexivity|left; reflexivity]. }
  split; [exact H|]. split.
  - destruct H as (d & e & n & H1 & H2 & _ & H3 & H4).
    exact (numbers_given _ _ _ id_order_ok (proj1 lamp_ok) H1 H2 H3 H4).
  - intros F. apply speeds_numbers in F as [F|F]; discriminate F.
Qed.

Lemma finite_used :
  run id_order speeds = Some (Ok speeds_thing)
  /\ (forall v, number_given speeds v -> f64_finite v = true)
  /\ number_given speeds (f64_of_Z 2%Z).
Proof.
  split; [reflexivity|]. split.
  - intros v H. apply speeds_numbers in H as [-> | ->]; reflexivity.
  - eexists. exists (DNumMult (f64_of_Z 2%Z)). split; [eapply sc_property; [right; left; reflexivity|left; reflexivity]|].
    split; [|reflexivity]. eapply calls_inside; [right; right; left; reflexivity|reflexivity|].
    apply calls_here. right. right. right. left. reflexivity.
Qed.

Lemma number_exact_used :
  ~ fle S754_nan (S754_zero false) /\ ~ fle (S754_infinity false) (S754_zero false)
  /\ fle (S754_infinity true) (S754_zero false) /\ ~ is_nan (S754_infinity true)
  /\ fle (S754_infinity true) (S754_infinity false).
Proof.
  unfold fle, is_nan. cbn.
  split; [intros [F|F]; discriminate F|]. split; [intros [F|F]; discriminate F|].
  split; [left; reflexivity|]. split; [intros F; discriminate F || exact F|]. left; reflexivity.
Qed.
