(** * Schemas whose bounds the builder never looks at *)

From Coq Require Import String Bool ZArith List.
From Verif Require Import Base MinMax Json Serde Types DsBuilder Builder Spec SpecCalls SpecThing DsProgFacts ProgramProps HList Protocol Samples
  SampleFacts.
Import ListNotations.
Set Implicit Arguments.
Local Open Scope string_scope.
Local Open Scope list_scope.

Lemma NoDup_app_one A (l : list A) a : NoDup l -> ~ In a l -> NoDup (l ++ [a]).
Proof.
  intros H Ha. induction H as [|b l Hb _ IH]; cbn; [constructor; [auto|constructor]|].
  constructor; [|apply IH; intros Q; apply Ha; right; exact Q].
  intros Q. apply in_app_iff in Q. destruct Q as [Q|[->|[]]]; [auto|]. apply Ha. left. reflexivity.
Qed.

Section Unchecked.
  Variable E : env.
  Variable X : exts.

  (** A description that differs in schemas only *)
  Lemma consistent_grow good (y y' : body X) :
    consistent good y ->
    y_secdefs y' = y_secdefs y -> y_properties y' = y_properties y -> y_actions y' = y_actions y ->
    y_links y' = y_links y -> NoDup (map fst (y_events y')) ->
    (forall n, In n (map fst (y_schemas y)) -> In n (map fst (y_schemas y'))) ->
    (forall c f, form_at y' c f -> form_at y c f) ->
    (forall d, uri_variable y' d -> uri_variable y d \/ ~ is_aggregate d) ->
    (forall d, checked_schema y' d -> checked_schema y d) ->
    (forall m, lang_map_in y' m -> lang_map_in y m \/ forall s, In s (mkeys m) -> good s) ->
    consistent good y'.
  Proof.
    intros H Hs Hp Ha Hl He Hn Hf Hu Hc Hm. unfold secnames in *. destruct H. constructor; unfold secnames in *; rewrite ?Hs, ?Hp, ?Ha, ?Hl; eauto.
    - intros d Hd. destruct (Hu d Hd) as [Q|Q]; [eauto|exact Q].
    - intros s [m Hm' Hin|l hs Hin Hh Hi].
      + destruct (Hm m Hm') as [Q|Q]; [|auto]. apply co_tags. eapply tag_map; eauto.
      + apply co_tags. eapply tag_link; eauto. rewrite <- Hl. exact Hin.
  Qed.

  Lemma map_says_insert P A (R : P -> A -> Prop) adds m n c d :
    map_says R adds m -> R c d -> map_says R (adds ++ [(n, c)]) (minsert n d m).
  Proof.
    intros [Hs Hk] Hd. split; [apply msorted_minsert, Hs|]. intros k. rewrite mlook_minsert by exact Hs. rewrite llook_app. cbn.
    destruct (String.eqb k n); [constructor; exact Hd|apply Hk].
  Qed.

  Lemma minsert_In A k (v : A) m k' v' : msorted m -> In (k', v') (minsert k v m) -> (k', v') = (k, v) \/ In (k', v') m.
  Proof.
    intros Hs Hin. apply In_mlook in Hin; [|apply msorted_NoDup, msorted_minsert, Hs].
    rewrite mlook_minsert in Hin by exact Hs. destruct (String.eqb_spec k' k) as [->|N].
    - injection Hin as <-. left. reflexivity.
    - right. apply mlook_Some_In, Hin.
  Qed.

  Definition with_schemas (y : body X) (l : list (string * dsx X)) : body X :=
    {| y_secdefs := y_secdefs y; y_schemas := l; y_forms := y_forms y; y_uris := y_uris y;
       y_properties := y_properties y; y_actions := y_actions y; y_events := y_events y; y_links := y_links y;
       y_titles := y_titles y; y_descriptions := y_descriptions y |}.
  Definition with_uris (y : body X) (l : list (string * dsx X)) : body X :=
    {| y_secdefs := y_secdefs y; y_schemas := y_schemas y; y_forms := y_forms y; y_uris := l;
       y_properties := y_properties y; y_actions := y_actions y; y_events := y_events y; y_links := y_links y;
       y_titles := y_titles y; y_descriptions := y_descriptions y |}.
  Definition with_events (y : body X) (l : list (string * event X)) : body X :=
    {| y_secdefs := y_secdefs y; y_schemas := y_schemas y; y_forms := y_forms y; y_uris := y_uris y;
       y_properties := y_properties y; y_actions := y_actions y; y_events := l; y_links := y_links y;
       y_titles := y_titles y; y_descriptions := y_descriptions y |}.

  Variable ord : order.
  Variable title : string.
  Variable x : pty (x_t X).
  Hypothesis Hord : order_ok ord.

  (** One more call *)
  Lemma one_more p o (t : thing E X) (r : result error (thing E X)) :
    thing_program ord title x p = Some (Ok t) -> thing_program ord title x (p ++ [o]) = Some r ->
    (forall y, declares p y -> consistent (parsable E) y ->
       exists y', declares (p ++ [o]) y' /\ consistent (parsable E) y') ->
    exists t', r = Ok t'.
  Proof.
    intros H1 H2 H.
    destruct (@build_iff_consistent E X ord title x _ _ Hord H1) as (y & Hy & _ & Hc & _).
    destruct (@build_iff_consistent E X ord title x _ _ Hord H2) as (z & Hz & Hu & Hc' & _).
    destruct (H y Hy) as (y' & Hy' & Hk); [apply Hc; eauto|].
    rewrite (Hu y' Hy') in Hk. apply Hc', Hk.
  Qed.

  Notation says := (@ds_says (pty (x_ds X)) (pty (x_as X)) (pty (x_os X)) Some).

  Lemma schema_definition_unchecked p n c d (t : thing E X) r :
    thing_program ord title x p = Some (Ok t) ->
    thing_program ord title x (p ++ [TSchema n c]) = Some r ->
    says c d -> (forall s, ds_tag d s -> parsable E s) ->
    exists t', r = Ok t'.
  Proof.
    intros H1 H2 Hd Ht. apply (@one_more _ _ _ _ H1 H2). intros y Hy Hc.
    exists (with_schemas y (minsert n d (y_schemas y))). split.
    - destruct Hy. constructor; rewrite ?picks_app; cbn [picks flat_map otolist t_of_security t_of_schema t_of_form
        t_of_uri t_of_property t_of_action t_of_event t_of_link t_of_titles t_of_descriptions app]; rewrite ?app_nil_r; try assumption.
      apply map_says_insert; assumption.
    - apply (consistent_grow (y := y)); try reflexivity; try assumption.
      + destruct Hc. assumption.
      + intros k Hk. apply (mkeys_minsert n d (y_schemas y) k). right. exact Hk.
      + intros cx f [f' Hf|k m i f' Ha Hf]; [left; exact Hf|]. econstructor; [|exact Hf]. destruct Ha; econstructor; eassumption.
      + intros e He. left. destruct He as [m Hm|k m i m' Ha Hm]; [left with m; exact Hm|].
        right with k m i m'; [|exact Hm]. destruct Ha; econstructor; eassumption.
      + intros e He. destruct He; econstructor; eassumption.
      + intros m Hm. assert (Ha : forall k m i, affordance (with_schemas y (minsert n d (y_schemas y))) k m i -> affordance y k m i).
        { intros k m' i Ha. destruct Ha; econstructor; eassumption. }
        destruct Hm as [Q|Q|k s Q Q'|k m' i Q Q'|e Q Q'].
        * left. apply lm_title. exact Q.
        * left. apply lm_description. exact Q.
        * left. eapply lm_security; [exact Q|exact Q'].
        * left. eapply lm_affordance; [apply Ha; exact Q|exact Q'].
        * destruct Q as [Q|k a Q Q2|Q|k Q].
          -- left. eapply lm_schema; [|exact Q']. apply in_checked. destruct Q; econstructor; eassumption.
          -- left. eapply lm_schema; [|exact Q']. eapply in_response; eassumption.
          -- left. eapply lm_schema; [|exact Q']. apply in_uri. destruct Q as [k Q|k k' i k'' Q Q2]; [left with k; exact Q|].
             right with k k' i k''; [apply Ha; exact Q|exact Q2].
          -- cbn in Q. apply minsert_In in Q; [|destruct Hy; apply dc_schemas]. destruct Q as [Q|Q].
             ++ injection Q as -> ->. right. intros s Hs. apply Ht. exists m. split; assumption.
             ++ left. eapply lm_schema; [|exact Q']. eapply in_definitions. exact Q.
  Qed.

  Lemma uri_variable_unchecked p n c d (t : thing E X) r :
    thing_program ord title x p = Some (Ok t) ->
    thing_program ord title x (p ++ [TUri n c]) = Some r ->
    says c d -> ~ is_aggregate d -> (forall s, ds_tag d s -> parsable E s) ->
    exists t', r = Ok t'.
  Proof.
    intros H1 H2 Hd Hg Ht. apply (@one_more _ _ _ _ H1 H2). intros y Hy Hc.
    exists (with_uris y (minsert n d (y_uris y))). split.
    - destruct Hy. constructor; rewrite ?picks_app; cbn [picks flat_map otolist t_of_security t_of_schema t_of_form
        t_of_uri t_of_property t_of_action t_of_event t_of_link t_of_titles t_of_descriptions app]; rewrite ?app_nil_r; try assumption.
      apply map_says_insert; assumption.
    - assert (Ha : forall k m i, affordance (with_uris y (minsert n d (y_uris y))) k m i -> affordance y k m i).
      { intros k m' i Ha. destruct Ha; econstructor; eassumption. }
      assert (Hi : forall k e, In (k, e) (minsert n d (y_uris y)) -> e = d \/ In (k, e) (y_uris y)).
      { intros k e Q. apply minsert_In in Q; [|destruct Hy; apply dc_uris]. destruct Q as [Q|Q]; [|right; exact Q].
        injection Q as _ ->. left. reflexivity. }
      apply (consistent_grow (y := y)); try reflexivity; try assumption.
      + destruct Hc. assumption.
      + intros k Hk. exact Hk.
      + intros cx f [f' Hf|k m i f' Hf' Hf]; [left; exact Hf|]. econstructor; [|exact Hf]. apply Ha, Hf'.
      + intros e He. destruct He as [m Hm|k m i m' Hf' Hm].
        * destruct (Hi _ _ Hm) as [->|Q]; [right; exact Hg|left; left with m; exact Q].
        * left. right with k m i m'; [|exact Hm]. apply Ha, Hf'.
      + intros e He. destruct He; econstructor; eassumption.
      + intros m Hm. destruct Hm as [Q|Q|k s Q Q'|k m' i Q Q'|e Q Q'].
        * left. apply lm_title. exact Q.
        * left. apply lm_description. exact Q.
        * left. eapply lm_security; [exact Q|exact Q'].
        * left. eapply lm_affordance; [apply Ha; exact Q|exact Q'].
        * destruct Q as [Q|k a Q Q2|Q|k Q].
          -- left. eapply lm_schema; [|exact Q']. apply in_checked. destruct Q; econstructor; eassumption.
          -- left. eapply lm_schema; [|exact Q']. eapply in_response; eassumption.
          -- destruct Q as [k Q|k k' i k'' Q Q2].
             ++ destruct (Hi _ _ Q) as [->|Q2].
                ** right. intros s Hs. apply Ht. exists m. split; assumption.
                ** left. eapply lm_schema; [|exact Q']. apply in_uri. left with k; exact Q2.
             ++ left. eapply lm_schema; [|exact Q']. apply in_uri. right with k k' i k''; [apply Ha; exact Q|exact Q2].
          -- left. eapply lm_schema; [|exact Q']. eapply in_definitions. exact Q.
  Qed.

  (** An event with nothing but a schema for its responses *)
  Definition response_only (xi : pty (x_ia X)) (xe : pty (x_ea X)) (d : dsx X) : event X :=
    @Build_event X (@Build_interaction X no_info [] None xi) None None (Some d) None xe.

  Lemma data_response_unchecked p n xi xe c d (t : thing E X) r :
    thing_program ord title x p = Some (Ok t) ->
    thing_program ord title x (p ++ [TEvent n xi xe [EDataResponse c]]) = Some r ->
    ~ In n (map fst (picks (@t_of_event E X) p)) ->
    says c d -> (forall s, ds_tag d s -> parsable E s) ->
    exists t', r = Ok t'.
  Proof.
    intros H1 H2 Hn Hd Ht. apply (@one_more _ _ _ _ H1 H2). intros y Hy Hc.
    assert (Hn' : ~ In n (map fst (y_events y))).
    { intros Hin. apply Hn. destruct Hy. clear - dc_events Hin. induction dc_events as [|c' e' cs es [Hce _] _ IH]; [destruct Hin|].
      destruct Hin as [Q|Q]; [left; congruence|right; auto]. }
    set (ev := response_only xi xe d).
    exists (with_events y (y_events y ++ [(n, ev)])). split.
    - destruct Hy. constructor; rewrite ?picks_app; cbn [picks flat_map otolist t_of_security t_of_schema t_of_form
        t_of_uri t_of_property t_of_action t_of_event t_of_link t_of_titles t_of_descriptions app]; rewrite ?app_nil_r; try assumption.
      apply Forall2_app; [assumption|]. constructor; [|constructor]. split; [reflexivity|]. cbn [fst snd].
      constructor; cbn; try reflexivity; try constructor; try assumption; try reflexivity; try constructor.
      + split; [constructor|]. intros k. constructor.
      + split; intros _; reflexivity.
    - assert (He : forall k a, In (k, a) (y_events y ++ [(n, ev)]) -> a = ev \/ In (k, a) (y_events y)).
      { intros k a Q. apply in_app_iff in Q. destruct Q as [Q|[Q|[]]]; [right; exact Q|left; congruence]. }
      assert (Ha : forall k m i, affordance (with_events y (y_events y ++ [(n, ev)])) k m i -> affordance y k m i \/ i = ea_ia ev).
      { intros k m' i Ha. destruct Ha as [m a Q|m a Q|m a Q]; [left; econstructor; exact Q|left; econstructor; exact Q|].
        destruct (He _ _ Q) as [->|Q2]; [right; reflexivity|left; econstructor; exact Q2]. }
      apply (consistent_grow (y := y)); try reflexivity; try assumption.
      + cbn. rewrite map_app. cbn. apply NoDup_app_one; [apply Hc|exact Hn'].
      + intros k Hk. exact Hk.
      + intros cx f [f' Hf|k m i f' Hf' Hf]; [left; exact Hf|]. destruct (Ha _ _ _ Hf') as [Q| ->]; [|destruct Hf].
        econstructor; [|exact Hf]. exact Q.
      + intros e Q. left. destruct Q as [m Hm|k m i m' Hf' Hm]; [left with m; exact Hm|].
        destruct (Ha _ _ _ Hf') as [Q| ->]; [|destruct Hm]. right with k m i m'; [exact Q|exact Hm].
      + intros e Q. destruct Q as [k a Q Q'|k a Q Q'|k a Q Q'|k a Q Q'|k a Q Q'|k a Q Q'].
        1-3: econstructor; eassumption.
        all: destruct (He _ _ Q) as [->|Q2]; [discriminate Q'|econstructor; eassumption].
      + intros m Hm. destruct Hm as [Q|Q|k s Q Q'|k m' i Q Q'|e Q Q'].
        * left. apply lm_title. exact Q.
        * left. apply lm_description. exact Q.
        * left. eapply lm_security; [exact Q|exact Q'].
        * destruct (Ha _ _ _ Q) as [Q2| ->]; [left; eapply lm_affordance; [exact Q2|exact Q']|].
          destruct Q' as [Q'|Q']; discriminate Q'.
        * destruct Q as [Q|k a Q Q2|Q|k Q].
          -- left. eapply lm_schema; [|exact Q']. apply in_checked.
             destruct Q as [k a Q Q2|k a Q Q2|k a Q Q2|k a Q Q2|k a Q Q2|k a Q Q2].
             1-3: econstructor; eassumption.
             all: destruct (He _ _ Q) as [->|Q3]; [discriminate Q2|econstructor; eassumption].
          -- destruct (He _ _ Q) as [->|Q3].
             ++ injection Q2 as <-. right. intros s Hs. apply Ht. exists m. split; assumption.
             ++ left. eapply lm_schema; [|exact Q']. eapply in_response; eassumption.
          -- left. eapply lm_schema; [|exact Q']. apply in_uri. destruct Q as [k Q|k k' i k'' Q Q2]; [left with k; exact Q|].
             destruct (Ha _ _ _ Q) as [Q3| ->]; [|destruct Q2]. right with k k' i k''; [exact Q3|exact Q2].
          -- left. eapply lm_schema; [|exact Q']. eapply in_definitions. exact Q.
  Qed.
End Unchecked.

(** The schema of the examples: an integer from 5 to 4. *)
Definition unsane_schema : ds unit unit unit.
Proof. let r := eval vm_compute in (dbuild unsane) in match r with Some ?d => exact d end. Defined.

Lemma unsane_used :
  ds_says Some unsane unsane_schema /\ ~ all_sane unsane_schema /\ ~ is_aggregate unsane_schema
  /\ (forall s, ~ ds_tag unsane_schema s)
  /\ ~ In "late" (map fst (picks (@t_of_event sample_env http_exts) lamp))
  /\ (exists r, run id_order (lamp ++ [TSchema "late" unsane]) = Some r)
  /\ (exists r, run id_order (lamp ++ [TUri "late" unsane]) = Some r)
  /\ (exists r, run id_order (lamp ++ [TEvent "late" tt tt [EDataResponse unsane]]) = Some r).
Proof.
  split; [apply build_says; reflexivity|].
  split; [eapply unsane_bounds; [apply sub_self|reflexivity..]|].
  split; [intros [(a & b & c & e & Q)|(a & b & c & Q)]; discriminate Q|].
  split.
  { intros s (m & (e & He & Hm) & _). inversion He as [|? ? ? Q|? ? ? ? ? Q|? ? ? ? ? ? Q|? ? ? ? ? ? Q]; try discriminate Q.
    subst e. destruct Hm as [Q|Q]; discriminate Q. }
  split; [cbn; intuition discriminate|].
  split; [|split].
  all: match goal with |- exists r, ?t = Some r =>
         assert (Q : (match t with Some _ => true | None => false end) = true) by (vm_compute; reflexivity);
         destruct t as [r|]; [exists r; reflexivity|discriminate Q] end.
Qed.
