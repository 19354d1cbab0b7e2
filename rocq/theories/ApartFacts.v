(** * Affordances, links and forms are checked one by one *)

From Coq Require Import String Bool ZArith List.
From Verif Require Import Base MinMax Json Serde Types DsBuilder Builder Spec SpecCalls SpecThing SpecApart
  DsFacts ConvFacts CheckFacts DsProgFacts ProgFacts SaysFacts BuildFacts ThingFacts OrderFacts CommuteFacts ProgramProps ReorderFacts.
Import ListNotations.
Set Implicit Arguments.
Local Open Scope string_scope.
Local Open Scope list_scope.

(** ** Consistency, piece by piece *)

Section Pieces.
  Variable X : exts.
  Variable good : string -> Prop.

  Definition with_parts (y : body X) pr ac ev li fo : body X :=
    {| y_secdefs := y_secdefs y; y_schemas := y_schemas y; y_forms := fo; y_uris := y_uris y; y_properties := pr;
       y_actions := ac; y_events := ev; y_links := li; y_titles := y_titles y; y_descriptions := y_descriptions y |}.

  Lemma consistent_incl (y : body X) pr ac ev li fo :
    incl pr (y_properties y) -> incl ac (y_actions y) -> incl ev (y_events y) -> incl li (y_links y) -> incl fo (y_forms y) ->
    NoDup (map fst pr) -> NoDup (map fst ac) -> NoDup (map fst ev) ->
    consistent good y -> consistent good (with_parts y pr ac ev li fo).
  Proof.
    intros I1 I2 I3 I4 I5 N1 N2 N3 H. set (z := with_parts y pr ac ev li fo).
    assert (A : forall k n i, affordance z k n i -> affordance y k n i) by (intros k n i []; econstructor; eauto).
    assert (F : forall c f, form_at z c f -> form_at y c f).
    { intros c f [f' Hf|k n i f' Ha Hf]; [constructor; apply I5; exact Hf|econstructor; eauto]. }
    assert (U : forall d, uri_variable z d -> uri_variable y d).
    { intros d [n Hn|k m i n Ha Hn]; [left with n; exact Hn|econstructor 2; eauto]. }
    assert (C : forall d, checked_schema z d -> checked_schema y d) by (intros d [n a Q R|n a Q R|n a Q R|n a Q R|n a Q R|n a Q R]; [eapply chk_property|eapply chk_input|eapply chk_output|eapply chk_subscription|eapply chk_data|eapply chk_cancellation]; eauto).
    assert (L : forall m, lang_map_in z m -> lang_map_in y m).
    { intros m [Q|Q|n c Q Q'|k n i Q Q'|d Q Q'].
      - apply lm_title. exact Q.
      - apply lm_description. exact Q.
      - eapply lm_security; eauto.
      - eapply lm_affordance; eauto.
      - eapply lm_schema; [|exact Q']. destruct Q as [Q|n a Q Q2|Q|n Q].
        + apply in_checked; auto.
        + eapply in_response; eauto.
        + apply in_uri; auto.
        + eapply in_definitions. exact Q. }
    destruct H. constructor; auto.
    - intros c f l n Hf. apply F in Hf. exact (co_security c f l n Hf).
    - intros c f l o Hf. apply F in Hf. exact (co_ops c f l o Hf).
    - intros f l r n Hf. apply F in Hf. exact (co_responses f l r n Hf).
    - intros s [m Hm Hs|l hs Hl Hh Hs]; apply co_tags; [eapply tag_map; eauto|eapply tag_link; eauto].
    - intros l s Hl. apply co_links, I4, Hl.
  Qed.

  Lemma NoDup_one A (a : A) : NoDup [a].
  Proof. constructor; [intros []|constructor]. Qed.

  Lemma incl_one A (a : A) l : In a l -> incl [a] l.
  Proof. intros H b [<-|[]]. exact H. Qed.

  Lemma incl_none A (l : list A) : incl [] l.
  Proof. intros a []. Qed.

  (** The pieces *)
  Inductive piece_of (y : body X) : body X -> Prop :=
  | po_none : piece_of y (with_parts y [] [] [] [] [])
  | po_property c : In c (y_properties y) -> piece_of y (with_parts y [c] [] [] [] [])
  | po_action c : In c (y_actions y) -> piece_of y (with_parts y [] [c] [] [] [])
  | po_event c : In c (y_events y) -> piece_of y (with_parts y [] [] [c] [] [])
  | po_link l : In l (y_links y) -> piece_of y (with_parts y [] [] [] [l] [])
  | po_form f : In f (y_forms y) -> piece_of y (with_parts y [] [] [] [] [f]).

  Lemma pieces_consistent (y : body X) :
    consistent good y
    <-> (forall z, piece_of y z -> consistent good z)
        /\ NoDup (map fst (y_properties y)) /\ NoDup (map fst (y_actions y)) /\ NoDup (map fst (y_events y)).
  Proof.
    split.
    - intros H. split; [|destruct H; auto].
      intros z Hz. destruct Hz; apply consistent_incl; auto using incl_none, incl_one, NoDup_one, NoDup_nil;
        try (cbn [map]; auto using NoDup_one, NoDup_nil).
    - intros (H & N1 & N2 & N3).
      assert (B : consistent good (with_parts y [] [] [] [] [])) by (apply H, po_none).
      assert (A : forall k n i, affordance y k n i -> exists z, piece_of y z /\ affordance z k n i).
      { intros k n i [n' a Q|n' a Q|n' a Q]; eexists;
          (split; [first [eapply po_property; exact Q|eapply po_action; exact Q|eapply po_event; exact Q]|constructor; left; reflexivity]). }
      assert (F : forall c f, form_at y c f -> exists z, piece_of y z /\ form_at z c f).
      { intros c f [f' Q|k n i f' Q R].
        - eexists. split; [eapply po_form; exact Q|constructor; left; reflexivity].
        - destruct (A _ _ _ Q) as (z & Hz & G). exists z. split; [exact Hz|econstructor; eauto]. }
      assert (U : forall d, uri_variable y d -> exists z, piece_of y z /\ uri_variable z d).
      { intros d [n Q|k m i n Q R].
        - eexists. split; [apply po_none|left with n; exact Q].
        - destruct (A _ _ _ Q) as (z & Hz & G). exists z. split; [exact Hz|econstructor 2; eauto]. }
      assert (C : forall d, checked_schema y d -> exists z, piece_of y z /\ checked_schema z d).
      { intros d [n a Q R|n a Q R|n a Q R|n a Q R|n a Q R|n a Q R];
          (eexists; split; [first [eapply po_property; exact Q|eapply po_action; exact Q|eapply po_event; exact Q]|]);
          [eapply chk_property|eapply chk_input|eapply chk_output|eapply chk_subscription|eapply chk_data|eapply chk_cancellation];
          first [left; reflexivity|exact R]. }
      assert (L : forall m, lang_map_in y m -> exists z, piece_of y z /\ lang_map_in z m).
      { intros m [Q|Q|n c Q Q'|k n i Q Q'|d Q Q'].
        - eexists. split; [apply po_none|]. apply lm_title. exact Q.
        - eexists. split; [apply po_none|]. apply lm_description. exact Q.
        - eexists. split; [apply po_none|]. eapply lm_security; eauto.
        - destruct (A _ _ _ Q) as (z & Hz & G). exists z. split; [exact Hz|]. eapply lm_affordance; eauto.
        - destruct Q as [Q|n a Q Q2|Q|n Q].
          + destruct (C _ Q) as (z & Hz & G). exists z. split; [exact Hz|]. eapply lm_schema; [|exact Q']. apply in_checked; auto.
          + eexists. split; [eapply po_event; exact Q|]. eapply lm_schema; [|exact Q']. eapply in_response; [left; reflexivity|exact Q2].
          + destruct (U _ Q) as (z & Hz & G). exists z. split; [exact Hz|]. eapply lm_schema; [|exact Q']. apply in_uri; auto.
          + eexists. split; [apply po_none|]. eapply lm_schema; [|exact Q']. eapply in_definitions. exact Q. }
      assert (S : forall z, piece_of y z -> secnames z = secnames y /\ y_schemas z = y_schemas y) by (intros z []; split; reflexivity).
      constructor; auto.
      + exact (co_secdefs B).
      + exact (co_combo B).
      + intros c f l n Hf Hl Hn. destruct (F _ _ Hf) as (z & Hz & G). rewrite <- (proj1 (S z Hz)). eapply (co_security (H z Hz)); eauto.
      + intros f Hf. destruct (F _ _ Hf) as (z & Hz & G). exact (co_thing_ops (H z Hz) G).
      + intros c f l o Hf. destruct (F _ _ Hf) as (z & Hz & G). apply (co_ops (H z Hz)); exact G.
      + intros f l r n Hf. destruct (F _ _ Hf) as (z & Hz & G). rewrite <- (proj2 (S z Hz)). apply (co_responses (H z Hz)); exact G.
      + intros d Hd. destruct (U _ Hd) as (z & Hz & G). exact (co_uris (H z Hz) G).
      + intros d Hd. destruct (C _ Hd) as (z & Hz & G). exact (co_bounds (H z Hz) G).
      + intros s [m Hm Hs|l hs Hl Hh Hs].
        * destruct (L _ Hm) as (z & Hz & G). apply (co_tags (H z Hz)). eapply tag_map; eauto.
        * apply (co_tags (H _ (po_link y l Hl))). eapply tag_link; [left; reflexivity|exact Hh|exact Hs].
      + intros l s Hl. apply (co_links (H _ (po_link y l Hl)) l). left. reflexivity.
  Qed.
End Pieces.

(** ** Runs *)

Section Runs.
  Variable E : env.
  Variable X : exts.
  Notation tstate := (tstate E X).
  Notation top := (top E X).

  Definition fill (s : tstate) pr ac ev li fo : tstate :=
    set_tb_forms (set_tb_links (set_tb_events (set_tb_actions (set_tb_properties s pr) ac) ev) (nonempty li)) (nonempty fo).

  Definition add_p (o : top) :=
    match o with TProperty n xi xp p => match prop_run xi xp p with Some a => [(n, a)] | None => [] end | _ => [] end.
  Definition add_a (o : top) :=
    match o with TAction n xi xa p => match action_run xi xa p with Some a => [(n, a)] | None => [] end | _ => [] end.
  Definition add_e (o : top) :=
    match o with TEvent n xi xe p => match event_run xi xe p with Some a => [(n, a)] | None => [] end | _ => [] end.
  Definition add_l (o : top) :=
    match o with
    | TLink h => [set_lb_href link_new (Some h)]
    | TLinkWith p => match link_run p with Some l => [l] | None => [] end
    | _ => []
    end.
  Definition add_f (o : top) :=
    match o with TForm x p => match form_run x p with Some f => [f] | None => [] end | _ => [] end.

  Definition with_all (s : tstate) (p : list top) : tstate :=
    fill s (flat_map add_p p) (flat_map add_a p) (flat_map add_e p) (flat_map add_l p) (flat_map add_f p).

  Lemma opush_nonempty A (l : list A) a : opush (nonempty l) a = nonempty (l ++ [a]).
  Proof. destruct l; reflexivity. Qed.

  Lemma fill_fill s pr ac ev li fo pr' ac' ev' li' fo' :
    fill (fill s pr ac ev li fo) pr' ac' ev' li' fo' = fill s pr' ac' ev' li' fo'.
  Proof. reflexivity. Qed.

  (** One step from any filling *)
  Lemma step_fill o s s' : tstep o s = Some s' -> forall pr ac ev li fo,
    tstep o (fill s pr ac ev li fo)
    = Some (fill s' (pr ++ add_p o) (ac ++ add_a o) (ev ++ add_e o) (li ++ add_l o) (fo ++ add_f o)).
  Proof.
    intros H pr ac ev li fo.
    assert (Hx : tb_extended (fill s pr ac ev li fo) = tb_extended s) by reflexivity.
    destruct o; cbn [tstep add_p add_a add_e add_l add_f] in *; rewrite ?app_nil_r.
    all: try (injection H as <-; reflexivity).
    - destruct (s0 =? TD_CONTEXT_11); injection H as <-; reflexivity.
    - injection H as <-. change (tb_links (fill s pr ac ev li fo)) with (nonempty li). rewrite opush_nonempty. reflexivity.
    - destruct (link_run p) as [l|]; [|discriminate]. cbn [obind] in *. injection H as <-.
      change (tb_links (fill s pr ac ev li fo)) with (nonempty li). rewrite opush_nonempty. reflexivity.
    - destruct (sec_run p) as [[[n r] c]|]; [|discriminate]. cbn [obind] in *. injection H as <-. destruct r; reflexivity.
    - rewrite Hx. destruct (tb_extended s); [discriminate|]. injection H as <-. reflexivity.
    - unfold when_extended in *. rewrite Hx. destruct (tb_extended s); [|discriminate].
      destruct (form_run x p) as [f|]; [|discriminate]. cbn [obind] in *. injection H as <-.
      change (tb_forms (fill s pr ac ev li fo)) with (nonempty fo). rewrite opush_nonempty. reflexivity.
    - unfold when_extended in *. rewrite Hx. destruct (tb_extended s); [|discriminate].
      destruct (dbuild p); [|discriminate]. cbn [obind] in *. injection H as <-. reflexivity.
    - unfold when_extended in *. rewrite Hx. destruct (tb_extended s); [|discriminate].
      destruct (prop_run xi xp p); [|discriminate]. cbn [obind] in *. injection H as <-. reflexivity.
    - unfold when_extended in *. rewrite Hx. destruct (tb_extended s); [|discriminate].
      destruct (action_run xi xa p); [|discriminate]. cbn [obind] in *. injection H as <-. reflexivity.
    - unfold when_extended in *. rewrite Hx. destruct (tb_extended s); [|discriminate].
      destruct (event_run xi xe p); [|discriminate]. cbn [obind] in *. injection H as <-. reflexivity.
    - unfold when_extended in *. rewrite Hx. destruct (tb_extended s); [|discriminate].
      destruct (dbuild p); [|discriminate]. cbn [obind] in *. injection H as <-. reflexivity.
  Qed.

  (** A separable call changes nothing but the filling. *)
  Lemma step_separable o s s' : tstep o s = Some s' -> separable o = true -> forall pr ac ev li fo,
    fill s' pr ac ev li fo = fill s pr ac ev li fo.
  Proof.
    intros H Ho pr ac ev li fo. destruct o; try discriminate Ho; cbn [tstep] in H; unfold when_extended in H;
      try (injection H as <-; reflexivity).
    - destruct (link_run p); [|discriminate]. injection H as <-. reflexivity.
    - destruct (tb_extended s); [|discriminate]. destruct (form_run x p); [|discriminate]. injection H as <-. reflexivity.
    - destruct (tb_extended s); [|discriminate]. destruct (prop_run xi xp p); [|discriminate]. injection H as <-. reflexivity.
    - destruct (tb_extended s); [|discriminate]. destruct (action_run xi xa p); [|discriminate]. injection H as <-. reflexivity.
    - destruct (tb_extended s); [|discriminate]. destruct (event_run xi xe p); [|discriminate]. injection H as <-. reflexivity.
  Qed.

  Lemma frame_adds (o : top) : separable o = false ->
    add_p o = [] /\ add_a o = [] /\ add_e o = [] /\ add_l o = [] /\ add_f o = [].
  Proof. destruct o; try discriminate; intros _; repeat split. Qed.

  Definition run_fill (s : tstate) (q : list top) pr ac ev li fo : tstate :=
    fill s (pr ++ flat_map add_p q) (ac ++ flat_map add_a q) (ev ++ flat_map add_e q) (li ++ flat_map add_l q) (fo ++ flat_map add_f q).

  (** Thinned runs *)
  Lemma run_thinned (p p' : list top) : thinned p p' -> forall s s', trun p s = Some s' -> forall pr ac ev li fo,
    trun p' (fill s pr ac ev li fo) = Some (run_fill s' p' pr ac ev li fo).
  Proof.
    unfold trun, run_fill.
    induction 1 as [|o p p' H IH|o p p' Ho H IH]; intros s s' Hr pr ac ev li fo; cbn [orun flat_map] in *.
    - injection Hr as <-. rewrite !app_nil_r. reflexivity.
    - destruct (tstep o s) as [s1|] eqn:Q; [|discriminate]. cbn [obind] in *. rewrite (step_fill _ _ Q). cbn [obind].
      rewrite (IH _ _ Hr). rewrite !app_assoc. reflexivity.
    - destruct (tstep o s) as [s1|] eqn:Q; [|discriminate]. cbn [obind] in *.
      rewrite <- (step_separable _ _ Q Ho). apply (IH _ _ Hr).
  Qed.

  Lemma thinned_refl (p : list top) : thinned p p.
  Proof. induction p; constructor; auto. Qed.

  Lemma thinned_frame (p : list top) : thinned p (frame p).
  Proof.
    induction p as [|o p IH]; [constructor|]. cbn. destruct (separable o) eqn:Q; cbn; [apply th_drop|apply th_keep]; auto.
  Qed.

  Lemma thinned_filter (f : top -> bool) (p : list top) : (forall o, f o = false -> separable o = true) -> thinned p (filter f p).
  Proof.
    intros H. induction p as [|o p IH]; [constructor|]. cbn. destruct (f o) eqn:Q; [apply th_keep|apply th_drop]; auto.
  Qed.

  Lemma frame_all (p : list top) : flat_map add_p (frame p) = [] /\ flat_map add_a (frame p) = [] /\ flat_map add_e (frame p) = []
    /\ flat_map add_l (frame p) = [] /\ flat_map add_f (frame p) = [].
  Proof.
    induction p as [|o p IH]; [repeat split|]. cbn. destruct (separable o) eqn:Q; cbn; [exact IH|].
    destruct (frame_adds _ Q) as (-> & -> & -> & -> & ->). exact IH.
  Qed.

  Notation new title x := (thing_new E X title x).

  Lemma new_fill title x : new title x = fill (new title x) [] [] [] [] [].
  Proof. reflexivity. Qed.

  Lemma run_all title x p p' s : thinned p p' -> trun p (new title x) = Some s -> trun p' (new title x) = Some (with_all s p').
  Proof. intros H Hr. rewrite new_fill. exact (run_thinned H _ Hr [] [] [] [] []). Qed.

  Lemma run_self title x p s : trun p (new title x) = Some s -> s = with_all s p.
  Proof. intros H. pose proof (run_all _ _ (thinned_refl p) H) as Q. rewrite H in Q. injection Q as Q. exact Q. Qed.

  (** Extended once, extended for ever *)
  Lemma step_extended (o : top) s s' : tstep o s = Some s' -> tb_extended s = true -> tb_extended s' = true.
  Proof.
    intros H Hx. destruct o; cbn [tstep] in H; unfold when_extended in H; rewrite ?Hx in H; try (injection H as <-; exact Hx);
      try discriminate.
    - destruct (s0 =? TD_CONTEXT_11); injection H as <-; exact Hx.
    - destruct (link_run p); [|discriminate]. injection H as <-. exact Hx.
    - destruct (sec_run p) as [[[n r] c]|]; [|discriminate]. injection H as <-. destruct r; exact Hx.
    - destruct (form_run x p); [|discriminate]. injection H as <-. exact Hx.
    - destruct (dbuild p); [|discriminate]. injection H as <-. exact Hx.
    - destruct (prop_run xi xp p); [|discriminate]. injection H as <-. exact Hx.
    - destruct (action_run xi xa p); [|discriminate]. injection H as <-. exact Hx.
    - destruct (event_run xi xe p); [|discriminate]. injection H as <-. exact Hx.
    - destruct (dbuild p); [|discriminate]. injection H as <-. exact Hx.
  Qed.

  Lemma run_extended (p : list top) : forall s s' : tstate, trun p s = Some s' -> tb_extended s = true -> tb_extended s' = true.
  Proof.
    induction p as [|o p IH]; intros s s' H Hx; unfold trun in *; cbn [orun] in H; [injection H as <-; exact Hx|].
    destruct (tstep o s) as [s1|] eqn:Q; [|discriminate]. exact (IH _ _ H (step_extended _ _ Q Hx)).
  Qed.

  (** A separable call can be repeated at the end. *)
  Lemma step_again (p : list top) o : In o p -> separable o = true -> forall s s', trun p s = Some s' -> exists s2, tstep o s' = Some s2.
  Proof.
    intros Hin Ho. induction p as [|o' p IH]; [destruct Hin|]. intros s s' H. unfold trun in *. cbn [orun] in H.
    destruct (tstep o' s) as [s1|] eqn:Q; [|discriminate]. cbn [obind] in H. destruct Hin as [->|Hin]; [|eauto].
    assert (tb_extended s = true -> tb_extended s' = true) as Hx.
    { intros Hx. eapply run_extended; [exact H|]. eapply step_extended; eauto. }
    clear IH H. destruct o; try discriminate Ho; cbn [tstep] in *; unfold when_extended in *; eauto.
    - destruct (link_run p0); [|discriminate]. cbn. eauto.
    - destruct (tb_extended s); [|discriminate]. rewrite Hx by reflexivity. destruct (form_run x p0); [|discriminate]. cbn. eauto.
    - destruct (tb_extended s); [|discriminate]. rewrite Hx by reflexivity. destruct (prop_run xi xp p0); [|discriminate]. cbn. eauto.
    - destruct (tb_extended s); [|discriminate]. rewrite Hx by reflexivity. destruct (action_run xi xa p0); [|discriminate]. cbn. eauto.
    - destruct (tb_extended s); [|discriminate]. rewrite Hx by reflexivity. destruct (event_run xi xe p0); [|discriminate]. cbn. eauto.
  Qed.

  Lemma run_one title x p o s : trun p (new title x) = Some s -> In o p -> separable o = true ->
    trun (frame p ++ [o]) (new title x) = Some (with_all s [o]).
  Proof.
    intros H Hin Ho. unfold trun. rewrite orun_app.
    pose proof (run_all _ _ (thinned_frame p) H) as Q. unfold trun in Q. rewrite Q. cbn [obind orun].
    destruct (step_again _ _ Hin Ho _ H) as [s2 Hs].
    unfold with_all. destruct (frame_all p) as (-> & -> & -> & -> & ->).
    rewrite (step_fill _ _ Hs). cbn [obind app flat_map]. rewrite !app_nil_r.
    f_equal. apply (step_separable _ _ Hs Ho).
  Qed.
End Runs.

(** ** Builds *)

Section Builds.
  Variable E : env.
  Variable X : exts.
  Variable ord : order.
  Hypothesis Ho : order_ok ord.
  Variable title : string.
  Variable x : pty (x_t X).
  Notation top := (top E X).
  Notation new := (thing_new E X title x).
  Notation build q := (thing_program ord title x q).

  Lemma build_state (q : list top) s : trun q new = Some s -> forall t,
    build q = Some (Ok t) <-> t = thing_of ord s /\ consistent (parsable E) (body_of s).
  Proof.
    intros H t. unfold thing_program. rewrite H. cbn [obind].
    assert (W : tb_wf s) by (eapply tb_says_wf, (trun_says _ _ _ H)).
    pose proof (tbuild_judge Ho W) as J. destruct (tbuild ord s) as [t'|e]; cbn [judge] in J.
    - destruct J as [-> K]. split; [intros [= <-]; auto|intros [-> _]; reflexivity].
    - split; [discriminate|]. intros [_ K]. exfalso. eapply defect_inconsistent; eauto.
  Qed.

  Lemma build_ok (q : list top) s : trun q new = Some s ->
    (exists t, build q = Some (Ok t)) <-> consistent (parsable E) (body_of s).
  Proof.
    intros H. split.
    - intros [t Ht]. apply (build_state _ H) in Ht. apply Ht.
    - intros K. exists (thing_of ord s). apply (build_state _ H). auto.
  Qed.

  Lemma build_run (q : list top) : build q <> None -> exists s, trun q new = Some s.
  Proof. unfold thing_program. destruct (trun q new); [eauto|intros F; destruct (F eq_refl)]. Qed.

  Lemma olist_nonempty A (l : list A) : olist (nonempty l) = l.
  Proof. destruct l; reflexivity. Qed.

  Lemma body_all s (q : list top) :
    body_of (with_all s q)
    = with_parts (body_of s) (map (named_of (@property_of X)) (flat_map (@add_p E X) q))
        (map (named_of (@action_of X)) (flat_map (@add_a E X) q)) (map (named_of (@event_of X)) (flat_map (@add_e E X) q))
        (map link_of (flat_map (@add_l E X) q)) (flat_map (@add_f E X) q).
  Proof.
    unfold body_of, with_all, fill, with_parts.
    cbn [tb_secdefs tb_schemas tb_forms tb_uri tb_properties tb_actions tb_events tb_links tb_titles tb_descriptions
         set_tb_forms set_tb_links set_tb_events set_tb_actions set_tb_properties
         y_secdefs y_schemas y_uris y_titles y_descriptions].
    rewrite !olist_nonempty. reflexivity.
  Qed.

  (** What a call that type checks adds *)
  Lemma step_names (o : top) s s' : tstep o s = Some s' ->
    map fst (add_p o) = otolist (named_by AProperty o) /\ map fst (add_a o) = otolist (named_by AAction o)
    /\ map fst (add_e o) = otolist (named_by AEvent o).
  Proof.
    intros H. destruct o; cbn [add_p add_a add_e named_by]; try (repeat split; fail); cbn [tstep] in H; unfold when_extended in H;
      (destruct (tb_extended s); [|discriminate]).
    - destruct (prop_run xi xp p); [repeat split|discriminate].
    - destruct (action_run xi xa p); [repeat split|discriminate].
    - destruct (event_run xi xe p); [repeat split|discriminate].
  Qed.

  Lemma run_names (p : list top) : forall s s', trun p s = Some s' ->
    map fst (flat_map (@add_p E X) p) = names AProperty p /\ map fst (flat_map (@add_a E X) p) = names AAction p
    /\ map fst (flat_map (@add_e E X) p) = names AEvent p.
  Proof.
    unfold trun, names, picks. induction p as [|o p IH]; intros s s' H; [repeat split|]. cbn [orun flat_map] in *.
    destruct (tstep o s) as [s1|] eqn:Q; [|discriminate]. cbn [obind] in H. rewrite !map_app.
    destruct (step_names _ _ Q) as (-> & -> & ->). destruct (IH _ _ H) as (-> & -> & ->). repeat split.
  Qed.

  Lemma fst_named A B (f : A -> B) l : map fst (map (named_of f) l) = map fst l.
  Proof. rewrite map_map. reflexivity. Qed.

  Lemma step_one (o : top) s s' : tstep o s = Some s' -> separable o = true ->
    (exists c, add_p o = [c] /\ add_a o = [] /\ add_e o = [] /\ add_l o = [] /\ add_f o = [] /\ is_property o = true)
    \/ (exists c, add_p o = [] /\ add_a o = [c] /\ add_e o = [] /\ add_l o = [] /\ add_f o = [] /\ is_action o = true)
    \/ (exists c, add_p o = [] /\ add_a o = [] /\ add_e o = [c] /\ add_l o = [] /\ add_f o = [] /\ is_event o = true)
    \/ (exists c, add_p o = [] /\ add_a o = [] /\ add_e o = [] /\ add_l o = [c] /\ add_f o = [] /\ is_link o = true)
    \/ (exists c, add_p o = [] /\ add_a o = [] /\ add_e o = [] /\ add_l o = [] /\ add_f o = [c] /\ is_form o = true).
  Proof.
    intros H Hs. destruct o; try discriminate Hs; cbn [tstep] in H; unfold when_extended in H;
      cbn [add_p add_a add_e add_l add_f is_property is_action is_event is_link is_form].
    - do 3 right. left. eexists. repeat split.
    - destruct (link_run p) as [l|]; [|discriminate]. do 3 right. left. eexists. repeat split.
    - destruct (tb_extended s); [|discriminate]. destruct (form_run x0 p); [|discriminate]. do 4 right. eexists. repeat split.
    - destruct (tb_extended s); [|discriminate]. destruct (prop_run xi xp p); [|discriminate]. left. eexists. repeat split.
    - destruct (tb_extended s); [|discriminate]. destruct (action_run xi xa p); [|discriminate]. right. left. eexists. repeat split.
    - destruct (tb_extended s); [|discriminate]. destruct (event_run xi xe p); [|discriminate]. do 2 right. left. eexists. repeat split.
  Qed.

  Lemma run_lists (p : list top) s : trun p new = Some s ->
    y_properties (body_of s) = map (named_of (@property_of X)) (flat_map (@add_p E X) p)
    /\ y_actions (body_of s) = map (named_of (@action_of X)) (flat_map (@add_a E X) p)
    /\ y_events (body_of s) = map (named_of (@event_of X)) (flat_map (@add_e E X) p)
    /\ y_links (body_of s) = map link_of (flat_map (@add_l E X) p) /\ y_forms (body_of s) = flat_map (@add_f E X) p.
  Proof.
    intros H. assert (B := f_equal (@body_of E X) (run_self _ _ _ H)). rewrite body_all in B.
    split; [exact (f_equal (@y_properties X) B)|]. split; [exact (f_equal (@y_actions X) B)|].
    split; [exact (f_equal (@y_events X) B)|]. split; [exact (f_equal (@y_links X) B)|exact (f_equal (@y_forms X) B)].
  Qed.

  Lemma one_piece (p : list top) o s : trun p new = Some s -> In o p -> separable o = true ->
    piece_of (body_of s) (body_of (with_all s [o])).
  Proof.
    intros H Hin Hs. rewrite body_all. destruct (run_lists _ H) as (L1 & L2 & L3 & L4 & L5).
    destruct (step_again _ _ Hin Hs _ H) as [s2 Q]. cbn [flat_map]. rewrite !app_nil_r.
    assert (forall B (f : top -> list B) c, f o = [c] -> In c (flat_map f p)) as G
      by (intros B f c F; apply in_flat_map; exists o; split; [exact Hin|rewrite F; left; reflexivity]).
    destruct (step_one _ _ Q Hs) as [(c & E1 & E2 & E3 & E4 & E5 & _)|[(c & E1 & E2 & E3 & E4 & E5 & _)|[(c & E1 & E2 & E3 & E4 & E5 & _)|[(c & E1 & E2 & E3 & E4 & E5 & _)|(c & E1 & E2 & E3 & E4 & E5 & _)]]]];
      rewrite E1, E2, E3, E4, E5; cbn [map].
    - apply po_property. rewrite L1. apply in_map, G, E1.
    - apply po_action. rewrite L2. apply in_map, G, E2.
    - apply po_event. rewrite L3. apply in_map, G, E3.
    - apply po_link. rewrite L4. apply in_map, G, E4.
    - apply po_form. rewrite L5. apply G, E5.
  Qed.

  Lemma adds_one (o : top) :
    (forall c, In c (add_p o) -> add_p o = [c] /\ add_a o = [] /\ add_e o = [] /\ add_l o = [] /\ add_f o = [] /\ separable o = true)
    /\ (forall c, In c (add_a o) -> add_p o = [] /\ add_a o = [c] /\ add_e o = [] /\ add_l o = [] /\ add_f o = [] /\ separable o = true)
    /\ (forall c, In c (add_e o) -> add_p o = [] /\ add_a o = [] /\ add_e o = [c] /\ add_l o = [] /\ add_f o = [] /\ separable o = true)
    /\ (forall c, In c (add_l o) -> add_p o = [] /\ add_a o = [] /\ add_e o = [] /\ add_l o = [c] /\ add_f o = [] /\ separable o = true)
    /\ (forall c, In c (add_f o) -> add_p o = [] /\ add_a o = [] /\ add_e o = [] /\ add_l o = [] /\ add_f o = [c] /\ separable o = true).
  Proof.
    assert (forall A (c : A), ~ In c []) as N by (intros A c []).
    destruct o; cbn [add_p add_a add_e add_l add_f]; try (repeat split; exfalso; eapply N; eassumption).
    - repeat split; try (exfalso; eapply N; eassumption). destruct H as [<-|[]]. reflexivity.
    - destruct (link_run p); repeat split; try (exfalso; eapply N; eassumption). destruct H as [<-|[]]. reflexivity.
    - destruct (form_run x0 p); repeat split; try (exfalso; eapply N; eassumption). destruct H as [<-|[]]. reflexivity.
    - destruct (prop_run xi xp p); repeat split; try (exfalso; eapply N; eassumption). destruct H as [<-|[]]. reflexivity.
    - destruct (action_run xi xa p); repeat split; try (exfalso; eapply N; eassumption). destruct H as [<-|[]]. reflexivity.
    - destruct (event_run xi xe p); repeat split; try (exfalso; eapply N; eassumption). destruct H as [<-|[]]. reflexivity.
  Qed.

  Lemma piece_one (p : list top) s z : trun p new = Some s -> piece_of (body_of s) z ->
    z = body_of (with_all s (frame p)) \/ exists o, In o p /\ separable o = true /\ z = body_of (with_all s [o]).
  Proof.
    intros H Hz. destruct (run_lists _ H) as (L1 & L2 & L3 & L4 & L5).
    assert (forall o, body_of (with_all s [o])
      = with_parts (body_of s) (map (named_of (@property_of X)) (add_p o)) (map (named_of (@action_of X)) (add_a o))
          (map (named_of (@event_of X)) (add_e o)) (map link_of (add_l o)) (add_f o)) as G.
    { intros o. rewrite body_all. cbn [flat_map]. rewrite !app_nil_r. reflexivity. }
    destruct Hz as [|c Hc|c Hc|c Hc|c Hc|c Hc]; rewrite ?L1, ?L2, ?L3, ?L4, ?L5 in *;
      [left; rewrite body_all; destruct (frame_all p) as (-> & -> & -> & -> & ->); reflexivity|right..].
    1-4: apply in_map_iff in Hc as (c' & <- & Hc). all: apply in_flat_map in Hc as (o & Hin & Hc);
      destruct (adds_one o) as (A1 & A2 & A3 & A4 & A5); exists o; (split; [exact Hin|]).
    - destruct (A1 _ Hc) as (E1 & E2 & E3 & E4 & E5 & Hs). split; [exact Hs|]. rewrite G, E1, E2, E3, E4, E5. reflexivity.
    - destruct (A2 _ Hc) as (E1 & E2 & E3 & E4 & E5 & Hs). split; [exact Hs|]. rewrite G, E1, E2, E3, E4, E5. reflexivity.
    - destruct (A3 _ Hc) as (E1 & E2 & E3 & E4 & E5 & Hs). split; [exact Hs|]. rewrite G, E1, E2, E3, E4, E5. reflexivity.
    - destruct (A4 _ Hc) as (E1 & E2 & E3 & E4 & E5 & Hs). split; [exact Hs|]. rewrite G, E1, E2, E3, E4, E5. reflexivity.
    - destruct (A5 _ Hc) as (E1 & E2 & E3 & E4 & E5 & Hs). split; [exact Hs|]. rewrite G, E1, E2, E3, E4, E5. reflexivity.
  Qed.

  Lemma checked_apart (p : list top) : build p <> None ->
    (exists t, build p = Some (Ok t))
    <-> (exists t, build (frame p) = Some (Ok t))
        /\ (forall o, In o p -> separable o = true -> exists t, build (frame p ++ [o]) = Some (Ok t))
        /\ (forall k, NoDup (names k p)).
  Proof.
    intros Hp. destruct (build_run _ Hp) as [s H]. rewrite (build_ok _ H), pieces_consistent.
    rewrite (build_ok _ (run_all _ _ (thinned_frame p) H)).
    destruct (run_names _ _ H) as (N1 & N2 & N3). destruct (run_lists _ H) as (L1 & L2 & L3 & _).
    assert (map fst (y_properties (body_of s)) = names AProperty p) as M1
      by (rewrite L1, fst_named; exact N1).
    assert (map fst (y_actions (body_of s)) = names AAction p) as M2
      by (rewrite L2, fst_named; exact N2).
    assert (map fst (y_events (body_of s)) = names AEvent p) as M3
      by (rewrite L3, fst_named; exact N3).
    rewrite M1, M2, M3. split.
    - intros (Hc & K1 & K2 & K3). split; [|split].
      + apply Hc. rewrite body_all. destruct (frame_all p) as (-> & -> & -> & -> & ->). apply po_none.
      + intros o Hin Hs. apply (build_ok _ (run_one _ _ _ _ H Hin Hs)). apply Hc. eapply one_piece; eauto.
      + intros []; assumption.
    - intros (Hf & Hone & Hn). split; [|auto]. intros z Hz. destruct (piece_one _ H Hz) as [->|(o & Hin & Hs & ->)]; [exact Hf|].
      apply (build_ok _ (run_one _ _ _ _ H Hin Hs)). auto.
  Qed.

  (** ** Content *)

  Lemma frame_same s (q q' : list top) : same_frame (thing_of ord (with_all s q)) (thing_of ord (with_all s q')).
  Proof. constructor; reflexivity. Qed.

  Lemma one_consistent (p : list top) o s : trun p new = Some s -> consistent (parsable E) (body_of s) -> In o p ->
    separable o = true -> build (frame p ++ [o]) = Some (Ok (thing_of ord (with_all s [o]))).
  Proof.
    intros H Hc Hin Hs. apply (build_state _ (run_one _ _ _ _ H Hin Hs)). split; [reflexivity|].
    apply (proj1 (proj1 (pieces_consistent _ _) Hc)). eapply one_piece; eauto.
  Qed.

  Lemma the_map_In A B (g : A -> B) l n b : NoDup (map fst l) ->
    (In (n, b) (olist (the_map g l)) <-> exists a, In (n, a) l /\ b = g a).
  Proof.
    intros Hn. unfold the_map. destruct l as [|c l]; [cbn; split; [intros []|intros (a & [] & _)]|].
    cbn [nonempty option_map olist]. rewrite In_mof_iff by (rewrite fst_named; exact Hn). rewrite in_map_iff. split.
    - intros ([n' a] & [= <- <-] & Hin). eauto.
    - intros (a & Hin & ->). exists (n, a). auto.
  Qed.

  Lemma NoDup_fst_inj A (l : list (string * A)) n a a' : NoDup (map fst l) -> In (n, a) l -> In (n, a') l -> a' = a.
  Proof.
    intros H H1 H2. apply (In_mlook _ _ _ H) in H1. apply (In_mlook _ _ _ H) in H2. congruence.
  Qed.

  Section Maps.
    Variables A B : Type.
    Variable F : thing E X -> option (amap B).
    Variable add : top -> list (string * A).
    Variable g : A -> B.
    Variable isk : top -> bool.
    Hypothesis HF : forall s q, F (thing_of ord (with_all s q)) = the_map g (flat_map add q).
    Hypothesis Hadd : forall o c, In c (add o) -> add o = [c] /\ isk o = true.
    Hypothesis Hk : forall o, isk o = true -> separable o = true.
    Hypothesis Ht : forall o s s', tstep o s = Some s' -> isk o = true -> exists c, add o = [c].

    Lemma map_content (p : list top) s : trun p new = Some s -> consistent (parsable E) (body_of s) ->
      NoDup (map fst (flat_map add p)) -> forall n b,
      In (n, b) (olist (F (thing_of ord s)))
      <-> exists o t', In o p /\ isk o = true /\ build (frame p ++ [o]) = Some (Ok t') /\ F t' = Some [(n, b)].
    Proof.
      intros H Hc Hn n b. rewrite (run_self _ _ _ H) at 1. rewrite HF, the_map_In by exact Hn. split.
      - intros (a & Hin & ->). apply in_flat_map in Hin as (o & Ho' & Hin). destruct (@Hadd _ _ Hin) as [Ha Hi].
        exists o, (thing_of ord (with_all s [o])). split; [exact Ho'|]. split; [exact Hi|].
        split; [apply one_consistent; auto|]. rewrite HF. cbn [flat_map]. rewrite Ha. reflexivity.
      - intros (o & t' & Hin & Hi & Hb & Hf). rewrite (one_consistent _ _ H Hc Hin (@Hk _ Hi)) in Hb. injection Hb as <-.
        rewrite HF in Hf. cbn [flat_map] in Hf. destruct (step_again _ _ Hin (@Hk _ Hi) _ H) as [s2 Q].
        destruct (@Ht _ _ _ Q Hi) as [[m a] Ha]. rewrite Ha in Hf. injection Hf as <- <-. exists a. split; [|reflexivity].
        apply in_flat_map. exists o. split; [exact Hin|rewrite Ha; left; reflexivity].
    Qed.

    Lemma map_thinned (p p' : list top) s : thinned p p' -> trun p new = Some s ->
      NoDup (map fst (flat_map add p)) -> NoDup (map fst (flat_map add p')) -> forall n b,
      In (n, b) (olist (F (thing_of ord (with_all s p'))))
      <-> In (n, b) (olist (F (thing_of ord s))) /\ In n (map fst (flat_map add p')).
    Proof.
      intros Hp H Hn Hn' n b. rewrite (run_self _ _ _ H) at 2. rewrite !HF, !the_map_In by assumption.
      assert (incl (flat_map add p') (flat_map add p)) as Hi.
      { clear - Hp. induction Hp as [|o p p' _ IH|o p p' _ _ IH]; cbn; [intros a []| |].
        - apply incl_app; [apply incl_appl, incl_refl|apply incl_appr, IH].
        - apply incl_appr, IH. }
      split.
      - intros (a & Hin & ->). split; [eauto|]. exact (in_map fst _ _ Hin).
      - intros ((a & Hin & ->) & Hm). exists a. split; [|reflexivity].
        apply in_map_iff in Hm as ([m a'] & Hm & Hin'). cbn in Hm. subst m.
        assert (In (n, a') (flat_map add p)) as G by (apply Hi, Hin').
        assert (a' = a) as ->; [|exact Hin']. exact (NoDup_fst_inj _ _ _ _ Hn Hin G).
    Qed.
  End Maps.

  Section Lists.
    Variables A B : Type.
    Variable F : thing E X -> option (list B).
    Variable add : top -> list A.
    Variable g : A -> B.
    Variable isk : top -> bool.
    Hypothesis HF : forall s q, F (thing_of ord (with_all s q)) = option_map (map g) (nonempty (flat_map add q)).
    Hypothesis Hadd : forall o, isk o = false -> add o = [].
    Hypothesis Hk : forall o, isk o = true -> separable o = true.
    Hypothesis Ht : forall o s s', tstep o s = Some s' -> isk o = true -> exists c, add o = [c].

    Lemma list_content (p : list top) s : trun p new = Some s -> consistent (parsable E) (body_of s) ->
      Forall2 (fun o l => exists t', build (frame p ++ [o]) = Some (Ok t') /\ F t' = Some [l])
        (filter isk p) (olist (F (thing_of ord s))).
    Proof.
      intros H Hc. rewrite (run_self _ _ _ H). rewrite HF.
      replace (olist (option_map (map g) (nonempty (flat_map add p)))) with (map g (flat_map add p)) by (destruct (flat_map add p); reflexivity).
      assert (forall q, incl q p -> Forall2 (fun o l => exists t', build (frame p ++ [o]) = Some (Ok t') /\ F t' = Some [l])
        (filter isk q) (map g (flat_map add q))) as G; [|apply G, incl_refl].
      induction q as [|o q IH]; intros Hi; [constructor|]. apply incl_cons_inv in Hi as [Hin Hi]. cbn [filter flat_map].
      destruct (isk o) eqn:Q.
      - destruct (step_again _ _ Hin (@Hk _ Q) _ H) as [s2 Hs]. destruct (@Ht _ _ _ Hs Q) as [c Ha]. rewrite Ha. cbn [app map].
        constructor; [|auto]. exists (thing_of ord (with_all s [o])). split; [apply one_consistent; auto|].
        rewrite HF. cbn [flat_map]. rewrite Ha. reflexivity.
      - rewrite (@Hadd _ Q). auto.
    Qed.

    Lemma list_thinned (p p' : list top) s : thinned p p' -> trun p new = Some s ->
      sublist (olist (F (thing_of ord s))) (olist (F (thing_of ord (with_all s p')))).
    Proof.
      intros Hp H. rewrite (run_self _ _ _ H) at 1. rewrite !HF.
      replace (olist (option_map (map g) (nonempty (flat_map add p)))) with (map g (flat_map add p)) by (destruct (flat_map add p); reflexivity).
      replace (olist (option_map (map g) (nonempty (flat_map add p')))) with (map g (flat_map add p')) by (destruct (flat_map add p'); reflexivity).
      clear - Hp. induction Hp as [|o p p' _ IH|o p p' _ _ IH]; cbn; [constructor| |]; rewrite ?map_app.
      - induction (map g (add o)); [exact IH|]. apply sl_keep, IHl.
      - induction (map g (add o)); [exact IH|]. apply sl_drop, IHl.
    Qed.
  End Lists.

  Notation P_of := (fun u => property_tagged E ord (property_of u)).
  Notation A_of := (fun u => action_tagged E ord (action_of u)).
  Notation E_of := (fun u => event_tagged E ord (event_of u)).
  Notation L_of := (fun l => link_tagged E (link_of l)).

  Lemma F_p s q : t_properties (thing_of ord (with_all s q)) = the_map P_of (flat_map (@add_p E X) q).
  Proof. reflexivity. Qed.
  Lemma F_a s q : t_actions (thing_of ord (with_all s q)) = the_map A_of (flat_map (@add_a E X) q).
  Proof. reflexivity. Qed.
  Lemma F_e s q : t_events (thing_of ord (with_all s q)) = the_map E_of (flat_map (@add_e E X) q).
  Proof. reflexivity. Qed.
  Lemma F_l s q : t_links (thing_of ord (with_all s q)) = option_map (map L_of) (nonempty (flat_map (@add_l E X) q)).
  Proof. reflexivity. Qed.
  Lemma F_f s q : t_forms (thing_of ord (with_all s q)) = option_map (map (fun f => f)) (nonempty (flat_map (@add_f E X) q)).
  Proof.
    change (t_forms (thing_of ord (with_all s q))) with (nonempty (flat_map (@add_f E X) q)).
    destruct (nonempty (flat_map (@add_f E X) q)); [|reflexivity]. cbn. rewrite map_id. reflexivity.
  Qed.

  Lemma add_p_is (o : top) c : In c (add_p o) -> add_p o = [c] /\ is_property o = true.
  Proof.
    intros H. split; [apply (proj1 (adds_one o) _ H)|]. destruct o; cbn [add_p] in H; first [reflexivity|destruct H].
  Qed.
  Lemma add_a_is (o : top) c : In c (add_a o) -> add_a o = [c] /\ is_action o = true.
  Proof.
    intros H. split; [apply (proj1 (proj2 (adds_one o)) _ H)|]. destruct o; cbn [add_a] in H; first [reflexivity|destruct H].
  Qed.
  Lemma add_e_is (o : top) c : In c (add_e o) -> add_e o = [c] /\ is_event o = true.
  Proof.
    intros H. split; [apply (proj1 (proj2 (proj2 (adds_one o))) _ H)|]. destruct o; cbn [add_e] in H; first [reflexivity|destruct H].
  Qed.
  Lemma add_l_is (o : top) : is_link o = false -> add_l o = [].
  Proof. destruct o; first [discriminate|reflexivity]. Qed.
  Lemma add_f_is (o : top) : is_form o = false -> add_f o = [].
  Proof. destruct o; first [discriminate|reflexivity]. Qed.

  Lemma k_p (o : top) : is_property o = true -> separable o = true.
  Proof. destruct o; first [discriminate|reflexivity]. Qed.
  Lemma k_a (o : top) : is_action o = true -> separable o = true.
  Proof. destruct o; first [discriminate|reflexivity]. Qed.
  Lemma k_e (o : top) : is_event o = true -> separable o = true.
  Proof. destruct o; first [discriminate|reflexivity]. Qed.
  Lemma k_l (o : top) : is_link o = true -> separable o = true.
  Proof. destruct o; first [discriminate|reflexivity]. Qed.
  Lemma k_f (o : top) : is_form o = true -> separable o = true.
  Proof. destruct o; first [discriminate|reflexivity]. Qed.

  Ltac stepped H :=
    cbn [tstep] in H; unfold when_extended in H; try (destruct (tb_extended _); [|discriminate H]).

  Lemma s_p (o : top) s s' : tstep o s = Some s' -> is_property o = true -> exists c, add_p o = [c].
  Proof. destruct o; intros H Hi; try discriminate Hi. stepped H. cbn [add_p]. destruct (prop_run xi xp p); [eauto|discriminate]. Qed.
  Lemma s_a (o : top) s s' : tstep o s = Some s' -> is_action o = true -> exists c, add_a o = [c].
  Proof. destruct o; intros H Hi; try discriminate Hi. stepped H. cbn [add_a]. destruct (action_run xi xa p); [eauto|discriminate]. Qed.
  Lemma s_e (o : top) s s' : tstep o s = Some s' -> is_event o = true -> exists c, add_e o = [c].
  Proof. destruct o; intros H Hi; try discriminate Hi. stepped H. cbn [add_e]. destruct (event_run xi xe p); [eauto|discriminate]. Qed.
  Lemma s_l (o : top) s s' : tstep o s = Some s' -> is_link o = true -> exists c, add_l o = [c].
  Proof.
    destruct o; intros H Hi; try discriminate Hi; cbn [add_l]; [eauto|]. cbn [tstep] in H.
    destruct (link_run p); [eauto|discriminate].
  Qed.
  Lemma s_f (o : top) s s' : tstep o s = Some s' -> is_form o = true -> exists c, add_f o = [c].
  Proof. destruct o; intros H Hi; try discriminate Hi. stepped H. cbn [add_f]. destruct (form_run x0 p); [eauto|discriminate]. Qed.

  Lemma names_NoDup (p : list top) s : trun p new = Some s -> consistent (parsable E) (body_of s) ->
    NoDup (map fst (flat_map (@add_p E X) p)) /\ NoDup (map fst (flat_map (@add_a E X) p)) /\ NoDup (map fst (flat_map (@add_e E X) p)).
  Proof.
    intros H Hc. destruct (run_lists _ H) as (L1 & L2 & L3 & _). apply pieces_consistent in Hc as (_ & N1 & N2 & N3).
    rewrite L1, fst_named in N1. rewrite L2, fst_named in N2. rewrite L3, fst_named in N3. auto.
  Qed.

  Lemma apart_content (p : list top) t : build p = Some (Ok t) ->
    (exists t0, build (frame p) = Some (Ok t0) /\ same_frame t t0
       /\ t_properties t0 = None /\ t_actions t0 = None /\ t_events t0 = None /\ t_links t0 = None /\ t_forms t0 = None)
    /\ (forall n a, In (n, a) (olist (t_properties t))
         <-> exists o t', In o p /\ is_property o = true /\ build (frame p ++ [o]) = Some (Ok t') /\ t_properties t' = Some [(n, a)])
    /\ (forall n a, In (n, a) (olist (t_actions t))
         <-> exists o t', In o p /\ is_action o = true /\ build (frame p ++ [o]) = Some (Ok t') /\ t_actions t' = Some [(n, a)])
    /\ (forall n a, In (n, a) (olist (t_events t))
         <-> exists o t', In o p /\ is_event o = true /\ build (frame p ++ [o]) = Some (Ok t') /\ t_events t' = Some [(n, a)])
    /\ Forall2 (fun o l => exists t', build (frame p ++ [o]) = Some (Ok t') /\ t_links t' = Some [l])
         (filter (@is_link E X) p) (olist (t_links t))
    /\ Forall2 (fun o f => exists t', build (frame p ++ [o]) = Some (Ok t') /\ t_forms t' = Some [f])
         (filter (@is_form E X) p) (olist (t_forms t)).
  Proof.
    intros Hb. assert (exists s, trun p new = Some s) as [s H] by (apply build_run; rewrite Hb; discriminate).
    destruct (proj1 (build_state _ H t) Hb) as [Et Hc]. clear Hb. subst t. destruct (names_NoDup _ H Hc) as (N1 & N2 & N3). repeat apply conj.
    - exists (thing_of ord (with_all s (frame p))). split.
      + apply (build_state _ (run_all _ _ (thinned_frame p) H)). split; [reflexivity|].
        apply (build_ok _ (run_all _ _ (thinned_frame p) H)).
        assert (build p <> None) as Hp by (unfold thing_program; rewrite H; discriminate).
        exact (proj1 (proj1 (checked_apart p Hp) (proj2 (build_ok _ H) Hc))).
      + split; [rewrite (run_self _ _ _ H) at 1; apply frame_same|].
        rewrite F_p, F_a, F_e, F_l, F_f. destruct (frame_all p) as (-> & -> & -> & -> & ->). repeat split.
    - exact (map_content _ _ _ _ F_p add_p_is k_p s_p p H Hc N1).
    - exact (map_content _ _ _ _ F_a add_a_is k_a s_a p H Hc N2).
    - exact (map_content _ _ _ _ F_e add_e_is k_e s_e p H Hc N3).
    - exact (list_content _ _ _ _ F_l add_l_is k_l s_l p H Hc).
    - exact (list_content _ _ _ _ F_f add_f_is k_f s_f p H Hc).
  Qed.

  Lemma adds_incl B (f : top -> list B) (p p' : list top) : thinned p p' -> incl (flat_map f p') (flat_map f p).
  Proof.
    induction 1 as [|o p p' _ IH|o p p' _ _ IH]; cbn; [intros a []| |].
    - apply incl_app; [apply incl_appl, incl_refl|apply incl_appr, IH].
    - apply incl_appr, IH.
  Qed.

  Lemma NoDup_tail A (l l' : list A) : NoDup (l ++ l') -> NoDup l'.
  Proof. induction l as [|a l IH]; [auto|]. cbn. intros H. inversion H; auto. Qed.

  Lemma adds_NoDup A (f : top -> list (string * A)) (p p' : list top) : thinned p p' ->
    NoDup (map fst (flat_map f p)) -> NoDup (map fst (flat_map f p')).
  Proof.
    induction 1 as [|o p p' Hp IH|o p p' _ _ IH]; cbn; auto; rewrite !map_app; intros N.
    - assert (D := NoDup_tail _ _ N). specialize (IH D). clear D. revert N.
      generalize (map fst (f o)). intros l. induction l as [|n l IHl]; [auto|]. cbn. intros N. inversion N as [|? ? N1 N2]; subst.
      constructor; [|auto]. intros Hin. apply N1. apply in_app_iff in Hin. apply in_app_iff. destruct Hin as [Hin|Hin]; [auto|right].
      apply in_map_iff in Hin as (c & <- & Hc). apply in_map. exact (adds_incl f Hp _ Hc).
    - apply IH. exact (NoDup_tail _ _ N).
  Qed.

  Lemma apart_left_out (p p' : list top) t : thinned p p' -> build p = Some (Ok t) -> exists t',
    build p' = Some (Ok t') /\ same_frame t t'
    /\ (forall n a, In (n, a) (olist (t_properties t')) <-> In (n, a) (olist (t_properties t)) /\ In n (names AProperty p'))
    /\ (forall n a, In (n, a) (olist (t_actions t')) <-> In (n, a) (olist (t_actions t)) /\ In n (names AAction p'))
    /\ (forall n a, In (n, a) (olist (t_events t')) <-> In (n, a) (olist (t_events t)) /\ In n (names AEvent p'))
    /\ sublist (olist (t_links t)) (olist (t_links t')) /\ sublist (olist (t_forms t)) (olist (t_forms t')).
  Proof.
    intros Hp Hb. assert (exists s, trun p new = Some s) as [s H] by (apply build_run; rewrite Hb; discriminate).
    destruct (proj1 (build_state _ H t) Hb) as [Et Hc]. clear Hb. subst t. destruct (names_NoDup _ H Hc) as (N1 & N2 & N3).
    assert (H' := run_all _ _ Hp H). destruct (run_names _ _ H') as (M1 & M2 & M3).
    assert (N1' := adds_NoDup _ Hp N1). assert (N2' := adds_NoDup _ Hp N2). assert (N3' := adds_NoDup _ Hp N3).
    exists (thing_of ord (with_all s p')). split; [|split]; [| |rewrite <- M1, <- M2, <- M3; repeat apply conj].
    - apply (build_state _ H'). split; [reflexivity|]. rewrite body_all. destruct (run_lists _ H) as (L1 & L2 & L3 & L4 & L5).
      apply consistent_incl; rewrite ?L1, ?L2, ?L3, ?L4, ?L5, ?fst_named; auto; try apply incl_map; try apply adds_incl; auto.
    - rewrite (run_self _ _ _ H) at 1. apply frame_same.
    - exact (map_thinned _ _ _ F_p Hp H N1 N1').
    - exact (map_thinned _ _ _ F_a Hp H N2 N2').
    - exact (map_thinned _ _ _ F_e Hp H N3 N3').
    - exact (list_thinned _ _ _ F_l Hp H).
    - exact (list_thinned _ _ _ F_f Hp H).
  Qed.
End Builds.
