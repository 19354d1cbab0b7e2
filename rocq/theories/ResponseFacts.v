(** * The builder never looks at the additional responses of affordances *)

From Coq Require Import String Bool List.
From Verif Require Import Base MinMax Json Serde Types DsBuilder Builder SpecResponses HList Protocol Samples.
Import ListNotations.
Set Implicit Arguments.
Local Open Scope string_scope.
Local Open Scope list_scope.

Lemma orun_map O S (step : O -> S -> option S) (g : O -> O) (q : S -> S) :
  (forall o s, step (g o) (q s) = option_map q (step o s)) ->
  forall p s, orun step (map g p) (q s) = option_map q (orun step p s).
Proof.
  intros H p. induction p as [|o p IH]; intros s; cbn [orun map]; [reflexivity|].
  rewrite H. destruct (step o s); cbn; [apply IH|reflexivity].
Qed.

Section Responses.
  Variable E : env.
  Variable X : exts.

  Definition q_fb (s : form_b X) : form_b X := set_fb_additional s [].
  Definition q_ib (s : ia_b X) : ia_b X :=
    {| ib_forms := map (@erase_form X) (ib_forms s); ib_uri := ib_uri s; ib_other := ib_other s |}.
  Definition q_pb (s : property_b X) : property_b X :=
    {| pb_ia := q_ib (pb_ia s); pb_ds := pb_ds s; pb_observable := pb_observable s; pb_other := pb_other s |}.
  Definition q_up (s : uproperty X) : uproperty X :=
    {| up_ia := q_ib (up_ia s); up_ds := up_ds s; up_observable := up_observable s; up_other := up_other s |}.
  Definition q_ab (s : action_b X) : action_b X := set_ab_ia s (q_ib (ab_ia s)).
  Definition q_eb (s : event_b X) : event_b X := set_eb_ia s (q_ib (eb_ia s)).
  Definition q_ts (s : tstate E X) : tstate E X :=
    set_tb_events (set_tb_actions (set_tb_properties s (map (on_snd q_up) (tb_properties s)))
      (map (on_snd q_ab) (tb_actions s))) (map (on_snd q_eb) (tb_events s)).

  Lemma q_set_properties s l : q_ts (set_tb_properties s l) = set_tb_properties (q_ts s) (map (on_snd q_up) l).
  Proof. reflexivity. Qed.
  Lemma q_set_actions s l : q_ts (set_tb_actions s l) = set_tb_actions (q_ts s) (map (on_snd q_ab) l).
  Proof. reflexivity. Qed.
  Lemma q_set_events s l : q_ts (set_tb_events s l) = set_tb_events (q_ts s) (map (on_snd q_eb) l).
  Proof. reflexivity. Qed.

  Lemma form_quiet x p : form_run x (filter (@other_call X) p) = option_map (@erase_form X) (form_run x p).
  Proof.
    unfold form_run.
    assert (H : forall s, orun (@fstep X) (filter (@other_call X) p) (q_fb s) = option_map q_fb (orun (@fstep X) p s)).
    { induction p as [|o p IH]; intros s; [reflexivity|].
      destruct o; cbn [filter other_call orun].
      2-8: cbn [fstep]; cbn [obind]; match goal with |- _ = option_map q_fb (orun _ _ ?s1) => exact (IH s1) end.
      - cbn [fstep]. destruct (fb_href s) eqn:Q.
        + change (fb_href (q_fb s)) with (fb_href s). rewrite Q. reflexivity.
        + change (fb_href (q_fb s)) with (fb_href s). rewrite Q. cbn [obind]; match goal with |- _ = option_map q_fb (orun _ _ ?s1) => exact (IH s1) end.
      - cbn [fstep]. cbn [obind]; match goal with |- _ = option_map q_fb (orun _ _ ?s1) => exact (IH s1) end. }
    change (form_new X x) with (q_fb (form_new X x)) at 1. rewrite H.
    destruct (orun (@fstep X) p (form_new X x)) as [s|]; [|reflexivity]. cbn. unfold form_build.
    change (fb_href (q_fb s)) with (fb_href s). destruct (fb_href s); reflexivity.
  Qed.

  Lemma ia_quiet o s : ia_step (drop_ia o) (q_ib s) = option_map q_ib (ia_step o s).
  Proof.
    destruct o as [x p|n p]; cbn [drop_ia ia_step].
    - rewrite form_quiet. destruct (form_run x p); [|reflexivity]. cbn. unfold q_ib. cbn. rewrite map_app. reflexivity.
    - destruct (dbuild p); reflexivity.
  Qed.

  Lemma prop_quiet xi xp p : prop_run xi xp (map (@drop_p X) p) = option_map q_up (prop_run xi xp p).
  Proof.
    unfold prop_run.
    match goal with |- context [orun _ (map _ p) ?s0] => change s0 with (q_pb s0) at 1 end.
    rewrite orun_map.
    - match goal with |- context [orun _ p ?s0] => destruct (orun (@pstep X) p s0) as [s|] end; [|reflexivity].
      cbn. destruct (to_ds (pb_ds s)); reflexivity.
    - intros [o|o|b] s; cbn [drop_p pstep].
      + change (pb_ds (q_pb s)) with (pb_ds s). destruct (if delegated X o then dstep o (pb_ds s) else None); reflexivity.
      + change (pb_ia (q_pb s)) with (q_ib (pb_ia s)). rewrite ia_quiet. destruct (ia_step o (pb_ia s)); reflexivity.
      + reflexivity.
  Qed.

  Lemma action_quiet xi xa p : action_run xi xa (map (@drop_a X) p) = option_map q_ab (action_run xi xa p).
  Proof.
    unfold action_run. change (action_new X xi xa) with (q_ab (action_new X xi xa)) at 1. apply orun_map.
    intros o s. destruct o; cbn [drop_a astep]; try reflexivity.
    - change (ab_ia (q_ab s)) with (q_ib (ab_ia s)). rewrite ia_quiet. destruct (ia_step o (ab_ia s)); reflexivity.
    - destruct (dbuild p0); reflexivity.
    - destruct (dbuild p0); reflexivity.
  Qed.

  Lemma event_quiet xi xe p : event_run xi xe (map (@drop_e X) p) = option_map q_eb (event_run xi xe p).
  Proof.
    unfold event_run. change (event_new X xi xe) with (q_eb (event_new X xi xe)) at 1. apply orun_map.
    intros o s. destruct o; cbn [drop_e estep]; try reflexivity.
    1: change (eb_ia (q_eb s)) with (q_ib (eb_ia s)); rewrite ia_quiet; destruct (ia_step o (eb_ia s)); reflexivity.
    all: destruct (dbuild p0); reflexivity.
  Qed.

  Lemma trun_quiet p s : trun (map (@drop_t E X) p) (q_ts s) = option_map q_ts (trun p s).
  Proof.
    apply orun_map. clear. intros o s. destruct o; cbn [drop_t tstep]; try reflexivity.
    - destruct (s0 =? TD_CONTEXT_11); reflexivity.
    - destruct (link_run p); reflexivity.
    - destruct (sec_run p) as [[[n r] c]|]; [|reflexivity]. cbn. destruct r; reflexivity.
    - change (tb_extended (q_ts s)) with (tb_extended s). destruct (tb_extended s); reflexivity.
    - unfold when_extended. change (tb_extended (q_ts s)) with (tb_extended s). destruct (tb_extended s); [|reflexivity].
      destruct (form_run x p); reflexivity.
    - unfold when_extended. change (tb_extended (q_ts s)) with (tb_extended s). destruct (tb_extended s); [|reflexivity].
      destruct (dbuild p); reflexivity.
    - unfold when_extended. change (tb_extended (q_ts s)) with (tb_extended s). destruct (tb_extended s); [|reflexivity].
      rewrite prop_quiet. destruct (prop_run xi xp p) as [a|]; [|reflexivity]. cbn [option_map obind].
      rewrite q_set_properties, map_app. reflexivity.
    - unfold when_extended. change (tb_extended (q_ts s)) with (tb_extended s). destruct (tb_extended s); [|reflexivity].
      rewrite action_quiet. destruct (action_run xi xa p) as [a|]; [|reflexivity]. cbn [option_map obind].
      rewrite q_set_actions, map_app. reflexivity.
    - unfold when_extended. change (tb_extended (q_ts s)) with (tb_extended s). destruct (tb_extended s); [|reflexivity].
      rewrite event_quiet. destruct (event_run xi xe p) as [a|]; [|reflexivity]. cbn [option_map obind].
      rewrite q_set_events, map_app. reflexivity.
    - unfold when_extended. change (tb_extended (q_ts s)) with (tb_extended s). destruct (tb_extended s); [|reflexivity].
      destruct (dbuild p); reflexivity.
  Qed.

  Section Build.
    Variable ord : order.

    Lemma ia_check_quiet defs t i : @ia_check X ord defs t (q_ib i) = ia_check ord defs t i.
    Proof.
      unfold ia_check. cbn [q_ib ib_forms ib_uri].
      replace (rfor_each (check_form defs t) (map (@erase_form X) (ib_forms i))) with (rfor_each (check_form defs t) (ib_forms i)); [reflexivity|].
      induction (ib_forms i) as [|f l IH]; cbn; [reflexivity|]. change (check_form defs t (erase_form f)) with (check_form defs t f).
      rewrite IH. reflexivity.
    Qed.

    Lemma ia_build_quiet i s : @ia_build E X ord i (q_ib s) = on_ok (@erase_ia X) (ia_build E ord i s).
    Proof.
      unfold ia_build. destruct (info_build ord (tag_parse E) i); [|reflexivity]. cbn [rbind].
      change (ib_uri (q_ib s)) with (ib_uri s). destruct (ia_uri_build E ord (ib_uri s)); reflexivity.
    Qed.

    Lemma minsert_map A B (f : A -> B) k v (m : amap A) :
      minsert k (f v) (map (on_snd f) m) = map (on_snd f) (minsert k v m).
    Proof.
      induction m as [|[k' v'] m IH]; cbn; [reflexivity|].
      destruct (String.compare k k'); cbn; [reflexivity|reflexivity|]. rewrite IH. reflexivity.
    Qed.

    Lemma mhas_map A B (f : A -> B) k (m : amap A) : mhas k (map (on_snd f) m) = mhas k m.
    Proof.
      unfold mhas. induction m as [|[k' v'] m IH]; cbn; [reflexivity|].
      destruct (String.eqb k k'); [reflexivity|]. exact IH.
    Qed.

    Lemma affordances_quiet A B (qa : A -> A) (qb : B -> B) defs t get_ia get_ds (bld : A -> result error B) :
      (forall a, get_ia (qa a) = q_ib (get_ia a)) -> (forall a, get_ds (qa a) = get_ds a) ->
      (forall a, bld (qa a) = on_ok qb (bld a)) ->
      forall l, @affordances_build X ord A B defs t get_ia get_ds bld (map (on_snd qa) l)
        = on_ok (option_map (map (on_snd qb))) (affordances_build ord defs t get_ia get_ds bld l).
    Proof.
      intros H1 H2 H3.
      assert (H : forall l acc, @affordances_fold X ord A B defs t get_ia get_ds bld (map (on_snd qa) l) (map (on_snd qb) acc)
        = on_ok (map (on_snd qb)) (affordances_fold ord defs t get_ia get_ds bld l acc)).
      { intros l. induction l as [|[n a] l IH]; intros acc; cbn [map affordances_fold on_snd fst snd]; [reflexivity|].
        rewrite H1, H2, H3, ia_check_quiet, mhas_map.
        destruct (ia_check ord defs t (get_ia a)); [|reflexivity]. cbn [rbind].
        match goal with |- context [rfor_each ?f ?l] => destruct (rfor_each f l) end; [|reflexivity]. cbn [rbind].
        destruct (mhas n acc); [reflexivity|]. destruct (bld a); cbn [on_ok rbind]; [|reflexivity].
        rewrite minsert_map. apply IH. }
      intros [|c l]; [reflexivity|]. cbn [map]. unfold affordances_build.
      change (on_snd qa c :: map (on_snd qa) l) with (map (on_snd qa) (c :: l)).
      change (@nil (string * B)) with (map (on_snd qb) []) at 1. rewrite H.
      destruct (affordances_fold ord defs t get_ia get_ds bld (c :: l) []); reflexivity.
    Qed.

    Lemma tbuild_quiet s : tbuild ord (q_ts s) = on_ok (@erase_thing E X) (tbuild ord s).
    Proof.
      unfold tbuild.
      change (tb_secdefs (q_ts s)) with (tb_secdefs s). change (tb_schemas (q_ts s)) with (tb_schemas s).
      change (tb_forms (q_ts s)) with (tb_forms s). change (tb_context (q_ts s)) with (tb_context s).
      change (tb_uri (q_ts s)) with (tb_uri s). change (tb_links (q_ts s)) with (tb_links s).
      change (tb_titles (q_ts s)) with (tb_titles s). change (tb_descriptions (q_ts s)) with (tb_descriptions s).
      change (tb_properties (q_ts s)) with (map (on_snd q_up) (tb_properties s)).
      change (tb_actions (q_ts s)) with (map (on_snd q_ab) (tb_actions s)).
      change (tb_events (q_ts s)) with (map (on_snd q_eb) (tb_events s)).
      Ltac one := match goal with |- rbind ?r _ = on_ok _ (rbind ?r _) => destruct r; [cbn [rbind]|reflexivity] end.
      do 7 one.
      rewrite (affordances_quiet q_up (@erase_p X)).
      2: reflexivity. 2: reflexivity.
      2: { clear; intros a. unfold property_build. cbn [q_up up_ia up_ds]. rewrite ia_build_quiet.
           destruct (ia_build E ord (ds_info (up_ds a)) (up_ia a)); [|reflexivity]. cbn [on_ok rbind].
           destruct (ds_build ord (tag_parse E) (up_ds a)); reflexivity. }
      match goal with |- rbind (on_ok _ ?r) _ = _ => destruct r; [cbn [on_ok rbind]|reflexivity] end.
      rewrite (affordances_quiet q_ab (@erase_a X)).
      2: reflexivity. 2: reflexivity.
      2: { clear; intros a. unfold action_build. change (ab_ia (q_ab a)) with (q_ib (ab_ia a)). rewrite ia_build_quiet.
           change (ab_info (q_ab a)) with (ab_info a).
           destruct (ia_build E ord (ab_info a) (ab_ia a)); [|reflexivity]. cbn [on_ok rbind].
           change (ab_input (q_ab a)) with (ab_input a). change (ab_output (q_ab a)) with (ab_output a).
           do 2 one. reflexivity. }
      match goal with |- rbind (on_ok _ ?r) _ = _ => destruct r; [cbn [on_ok rbind]|reflexivity] end.
      rewrite (affordances_quiet q_eb (@erase_e X)).
      2: reflexivity. 2: reflexivity.
      2: { clear; intros a. unfold event_build. change (eb_ia (q_eb a)) with (q_ib (eb_ia a)). rewrite ia_build_quiet.
           change (eb_info (q_eb a)) with (eb_info a).
           destruct (ia_build E ord (eb_info a) (eb_ia a)); [|reflexivity]. cbn [on_ok rbind].
           change (eb_subscription (q_eb a)) with (eb_subscription a). change (eb_data (q_eb a)) with (eb_data a).
           change (eb_cancellation (q_eb a)) with (eb_cancellation a).
           change (eb_data_response (q_eb a)) with (eb_data_response a).
           do 4 one. reflexivity. }
      match goal with |- rbind (on_ok _ ?r) _ = _ => destruct r; [cbn [on_ok rbind]|reflexivity] end.
      do 3 one. reflexivity.
    Qed.
  End Build.

  Lemma program_quiet ord title x p :
    thing_program ord title x (map (@drop_t E X) p)
    = option_map (on_ok (@erase_thing E X)) (thing_program ord title x p).
  Proof.
    unfold thing_program. change (thing_new E X title x) with (q_ts (thing_new E X title x)) at 1.
    rewrite trun_quiet. destruct (trun p (thing_new E X title x)); [|reflexivity]. cbn [option_map obind].
    rewrite tbuild_quiet. reflexivity.
  Qed.
End Responses.
