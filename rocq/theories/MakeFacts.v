(** * Programs making the parts of a Thing *)

From Coq Require Import String Bool ZArith Lia Permutation List.
From Verif Require Import Base MinMax Json Serde Types DsBuilder Builder Spec SpecCalls SpecThing SpecMade SpecGrammar
  DsFacts ConvFacts DsProgFacts ProgFacts SaysFacts ProgramProps ArgFacts GrammarFacts MadeFacts.
Import ListNotations.
Set Implicit Arguments.
Local Open Scope string_scope.
Local Open Scope list_scope.

(** ** Runs *)

Lemma run_app O S (step : O -> S -> option S) p q s s' : orun step p s = Some s' ->
  orun step (p ++ q) s = orun step q s'.
Proof. intros H. rewrite ProgFacts.orun_app, H. reflexivity. Qed.

(** Calls adding elements *)
Lemma run_adds O S A (step : O -> S -> option S) (set : list A -> S) os l :
  Forall2 (fun o a => forall l, step o (set l) = Some (set (l ++ [a]))) os l -> forall pre,
  orun step os (set pre) = Some (set (pre ++ l)).
Proof.
  induction 1 as [|o a os l H _ IH]; intros pre.
  - rewrite app_nil_r. reflexivity.
  - cbn [orun]. rewrite H. cbn [obind]. rewrite IH, <- app_assoc. reflexivity.
Qed.

Lemma run_map O S A (step : O -> S -> option S) (f : A -> O) (set : list A -> S) l :
  (forall a l, step (f a) (set l) = Some (set (l ++ [a]))) ->
  orun step (map f l) (set []) = Some (set l).
Proof.
  intros H. apply (@run_adds _ _ _ step set (map f l) l); auto.
  induction l; constructor; auto.
Qed.

(** Calls of a part *)
Lemma run_part O O' S S' (step : O -> S -> option S) (step' : O' -> S' -> option S') (f : O -> O') (set : S -> S') p :
  (forall o s, In o p -> step' (f o) (set s) = let? s' := step o s in Some (set s')) -> forall s s',
  orun step p s = Some s' -> orun step' (map f p) (set s) = Some (set s').
Proof.
  induction p as [|o p IH]; cbn [orun map]; intros H s s' Hr.
  - injection Hr as <-. reflexivity.
  - rewrite H by (left; reflexivity). destruct (step o s) as [s1|]; [|discriminate]. cbn [obind] in *.
    apply IH; auto. intros o' s0 Ho. apply H. right. exact Ho.
Qed.

Lemma kept A (o : option (list A)) : not_empty o -> nonempty (olist o) = o.
Proof. destruct o as [[|]|]; intros H; try reflexivity. contradiction H. reflexivity. Qed.

Lemma each A B (P : A -> B -> Prop) (l : list B) : (forall b, In b l -> exists a, P a b) -> exists l', Forall2 P l' l.
Proof.
  induction l as [|b l IH]; intros H.
  - exists []. constructor.
  - destruct (H b) as [a Ha]; [left; reflexivity|]. destruct IH as [l' Hl]; [intros b' Hb; apply H; right; exact Hb|].
    exists (a :: l'). constructor; auto.
Qed.

(** ** Links *)

Definition raw_link (l : link) : link_b :=
  {| lb_href := Some (l_href l); lb_type := l_type l; lb_rel := l_rel l; lb_anchor := l_anchor l;
     lb_sizes := l_sizes l; lb_hreflang := olist (l_hreflang l) |}.

Definition link_calls (l : link) : list link_op :=
  LHref (l_href l) :: call LType (l_type l) ++ call LRel (l_rel l) ++ call LAnchor (l_anchor l)
  ++ call LSizes (l_sizes l) ++ map LHreflang (olist (l_hreflang l)).

Lemma link_made l : link_run (link_calls l) = Some (raw_link l).
Proof.
  assert (orun link_step (link_calls l) link_new = Some (raw_link l)) as H.
  { unfold link_calls. rewrite !app_comm_cons, !app_assoc. erewrite run_app.
    - apply (@run_map _ _ _ link_step LHreflang (fun v => {| lb_href := Some (l_href l); lb_type := l_type l; lb_rel := l_rel l;
        lb_anchor := l_anchor l; lb_sizes := l_sizes l; lb_hreflang := v |})). reflexivity.
    - destruct l as [h [t|] [r|] [a|] [z|] hl]; reflexivity. }
  unfold link_run. rewrite H. reflexivity.
Qed.

Lemma raw_link_of l : not_empty (l_hreflang l) -> ProgFacts.link_of (raw_link l) = l.
Proof. intros H. unfold ProgFacts.link_of, raw_link. cbn. rewrite (kept H). destruct l; reflexivity. Qed.

(** ** Security schemes *)

Definition scheme_calls (t : sec_subtype) : list sec_op :=
  match t with
  | Known KNoSec => [SNoSec]
  | Known KAuto => [SAuto]
  | Known (KCombo (COneOf l)) => [SCombo; SOneOf l]
  | Known (KCombo (CAllOf l)) => [SCombo; SAllOf l]
  | Known (KBasic b) => SBasic :: SLocation (ln_loc b) :: call SName (ln_name b)
  | Known (KDigest q b) => SDigest :: SQop q :: SLocation (ln_loc b) :: call SName (ln_name b)
  | Known (KBearer b) =>
      SBearer :: SAlg (be_alg b) :: SFormat (be_format b) :: SLocation (be_loc b)
      :: call SAuthorization (be_auth b) ++ call SName (be_name b)
  | Known (KPsk _) => [SPsk]
  | Known (KOAuth2 a) =>
      SOAuth2 (oa_flow a) :: call SAuthorization (oa_auth a) ++ call SToken (oa_token a)
      ++ call SRefresh (oa_refresh a) ++ map SScope (olist (oa_scopes a))
  | Known (KApiKey b) => SApiKey :: SLocation (ln_loc b) :: call SName (ln_name b)
  | Unknown s d => [SCustom s; SData d]
  end.

Definition sec_state a d ds p n k r : sec_b :=
  {| sb_attype := a; sb_description := d; sb_descriptions := ds; sb_proxy := p; sb_name := n; sb_kind := k;
     sb_required := r |}.

Definition sec_calls (n : string) (r : bool) (c : security_scheme) : list sec_op :=
  map SAttype (olist (ss_attype c)) ++ (call SDescription (ss_description c) ++ call SDescriptions (ss_descriptions c)
  ++ call SProxy (ss_proxy c) ++ SWithKey n :: (if r then [SRequired] else [])) ++ scheme_calls (ss_subtype c).

Lemma scheme_run c : scheme_made c -> forall a d ds p n r,
  orun sec_step (scheme_calls (ss_subtype c)) (sec_state a d ds p n SKNone r)
  = Some (sec_state a d ds p n (SKSub (ss_subtype c)) r).
Proof.
  intros [_ _ Hpsk Hsc] a d ds p n r. destruct (ss_subtype c) as [[| |[l|l]|[lo [nm|]]|q [lo [nm|]]|[au al f lo nm]|i|[au t re sc fl]|[lo [nm|]]]|s j];
    try reflexivity.
  - destruct au, nm; reflexivity.
  - rewrite (Hpsk _ eq_refl). reflexivity.
  - pose proof (Hsc _ eq_refl) as H. cbn [oa_scopes] in H. cbn [scheme_calls oa_flow oa_auth oa_token oa_refresh oa_scopes].
    rewrite !app_comm_cons, !app_assoc. erewrite run_app.
    + rewrite <- (kept H) at 2.
      apply (@run_map _ _ _ sec_step SScope (fun v => sec_state a d ds p n (SKSub (Known (KOAuth2
        {| oa_auth := au; oa_token := t; oa_refresh := re; oa_scopes := nonempty v; oa_flow := fl |}))) r)).
      intros v l. cbn. unfold set_sb_kind. cbn. rewrite opush_nonempty. reflexivity.
    + destruct au, t, re; reflexivity.
Qed.

Lemma scheme_built n r c : scheme_made c -> sec_run (sec_calls n r c) = Some (n, r, c).
Proof.
  intros Hc. unfold sec_run, sec_calls.
  rewrite (@run_app _ _ sec_step _ _ sec_new (sec_state (ss_attype c) None None None None SKNone false)).
  2:{ rewrite <- (kept (sm_attype Hc)) at 2.
      apply (@run_map _ _ _ sec_step SAttype (fun v => sec_state (nonempty v) None None None None SKNone false)).
      intros v l. cbn. unfold set_sb_attype. cbn. rewrite opush_nonempty. reflexivity. }
  rewrite (@run_app _ _ sec_step _ _ (sec_state (ss_attype c) None None None None SKNone false)
             (sec_state (ss_attype c) (ss_description c) (ss_descriptions c) (ss_proxy c) (Some n) SKNone r)).
  2:{ assert (forall m, ss_descriptions c = Some m -> ml_of m = m) as H
        by (intros m Hm; apply mof_sorted, (sm_descriptions Hc), Hm).
      destruct (ss_description c), (ss_descriptions c) as [m|], (ss_proxy c), r; cbn; unfold set_sb_descriptions; cbn;
        rewrite ?(H _ eq_refl); reflexivity. }
  rewrite (scheme_run Hc). cbn. destruct c; reflexivity.
Qed.

(** ** Forms *)

Definition resp_calls (r : add_resp) : list resp_op :=
  (if ar_success r then [RSuccess] else []) ++ call RCtype (ar_ctype r) ++ call RSchema (ar_schema r).

Lemma resp_made r : resp_run (resp_calls r) = r.
Proof. destruct r as [[] [c|] [s|]]; reflexivity. Qed.

Section Things.
  Variable E : env.
  Variable X : exts.
  Notation dsop := (dsop (pty (x_ds X)) (pty (x_as X)) (pty (x_os X))).
  Notation made := (schema_made any_tag).

  Definition form_calls (f : form X) : list (fop X) :=
    (FHref (f_href f) :: call (fun v => FCtype v) (f_ctype f) ++ call (fun v => FCcoding v) (f_ccoding f)
     ++ call (fun v => FSubprotocol v) (f_subprotocol f)
     ++ call (fun r => FResponse (er_ctype r) (er_other r)) (f_response f))
    ++ map (fun o => FOp o) (match f_op f with OpCustom l => l | OpDefault => [] end)
    ++ map (fun v => FSecurity v) (olist (f_security f)) ++ map (fun v => FScope v) (olist (f_scopes f))
    ++ map (fun r => FAdditional (resp_calls r)) (olist (f_additional f)).

  Definition form_state (f : form X) op se sc ad : form_b X :=
    {| fb_op := op; fb_href := Some (f_href f); fb_ctype := f_ctype f; fb_ccoding := f_ccoding f;
       fb_subprotocol := f_subprotocol f; fb_security := se; fb_scopes := sc; fb_response := f_response f;
       fb_additional := ad; fb_other := f_other f |}.

  Definition ops_made (l : list form_op) : form_ops := match l with [] => OpDefault | _ => OpCustom l end.

  Lemma form_built f : form_made f -> form_run (f_other f) (form_calls f) = Some f.
  Proof.
    intros [h1 h2 h3 h4]. unfold form_run, form_calls.
    rewrite (@run_app _ _ (@fstep X) _ _ (form_new X (f_other f)) (form_state f OpDefault None None [])).
    2:{ destruct f as [op h [c|] [cc|] [sp|] se sc [[rc rx]|] ad x]; reflexivity. }
    rewrite (@run_app _ _ (@fstep X) _ _ _ (form_state f (f_op f) None None [])).
    2:{ replace (f_op f) with (ops_made (match f_op f with OpCustom l => l | OpDefault => [] end)) at 2
          by (destruct (f_op f) as [|[|]]; try reflexivity; contradiction h1; reflexivity).
        apply (@run_map _ _ _ (@fstep X) (fun o => FOp o) (fun l => form_state f (ops_made l) None None [])).
        intros o [|o' l]; reflexivity. }
    rewrite (@run_app _ _ (@fstep X) _ _ _ (form_state f (f_op f) (f_security f) None [])).
    2:{ rewrite <- (kept h2) at 2.
        apply (@run_map _ _ _ (@fstep X) (fun o => FSecurity o) (fun l => form_state f (f_op f) (nonempty l) None [])).
        intros v l. cbn. unfold set_fb_security. cbn. rewrite opush_nonempty. reflexivity. }
    rewrite (@run_app _ _ (@fstep X) _ _ _ (form_state f (f_op f) (f_security f) (f_scopes f) [])).
    2:{ rewrite <- (kept h3) at 2.
        apply (@run_map _ _ _ (@fstep X) (fun o => FScope o) (fun l => form_state f (f_op f) (f_security f) (nonempty l) [])).
        intros v l. cbn. unfold set_fb_scopes. cbn. rewrite opush_nonempty. reflexivity. }
    rewrite (@run_map _ _ _ (@fstep X) (fun r => FAdditional (resp_calls r))
               (fun l => form_state f (f_op f) (f_security f) (f_scopes f) l)).
    2:{ intros r l. cbn. rewrite resp_made. reflexivity. }
    cbn. rewrite (kept h4). destruct f; reflexivity.
  Qed.

  (** ** Interactions *)

  Definition raw_ia (i : interaction X) : ia_b X :=
    {| ib_forms := ia_forms i; ib_uri := olist (ia_uri i); ib_other := ia_other i |}.

  Lemma mof_snoc A (l : list (string * A)) n a : mof (l ++ [(n, a)]) = minsert n a (mof l).
  Proof. unfold mof. rewrite fold_left_app. reflexivity. Qed.

  Lemma schemas_made (m : option (amap (dsx X))) : map_made made m ->
    exists qs : list (string * list dsop),
      Forall2 (fun q nd => fst q = fst nd /\ dbuild (snd q) = Some (snd nd)) qs (olist m) /\ mof (olist m) = olist m.
  Proof.
    intros [_ H]. destruct m as [m|]; cbn [olist].
    - destruct (H m eq_refl) as [Hs Hm].
      destruct (@each (string * list dsop) _ (fun q nd => fst q = fst nd /\ dbuild (snd q) = Some (snd nd)) m) as [qs Hqs].
      + intros [n d] Hin. destruct (all_made (Hm _ _ Hin)) as [q Hq]. exists (n, q). auto.
      + exists qs. split; auto. apply mof_sorted. exact Hs.
    - exists []. split; [constructor|reflexivity].
  Qed.

  Lemma ia_built i : interaction_made i -> exists p, orun (@ia_step X) p (ia_new X (ia_other i)) = Some (raw_ia i).
  Proof.
    intros [_ Hf Hu]. destruct (schemas_made Hu) as (qs & Hqs & Hm).
    exists (map (fun f => IForm (f_other f) (form_calls f)) (ia_forms i) ++ map (fun q => IUri (fst q) (snd q)) qs).
    rewrite (@run_app _ _ (@ia_step X) _ _ _ {| ib_forms := ia_forms i; ib_uri := []; ib_other := ia_other i |}).
    - unfold raw_ia. rewrite <- Hm.
      apply (@run_adds _ _ _ (@ia_step X) (fun l => {| ib_forms := ia_forms i; ib_uri := mof l; ib_other := ia_other i |})
               (map (fun q => IUri (fst q) (snd q)) qs) (olist (ia_uri i))) with (pre := []).
      clear Hm. induction Hqs as [|q [n d] qs m [H1 H2] _ IH]; cbn [map]; constructor; auto.
      intros l. cbn in *. rewrite H2. cbn. rewrite mof_snoc, H1. reflexivity.
    - apply (@run_adds _ _ _ (@ia_step X) (fun l => {| ib_forms := l; ib_uri := []; ib_other := ia_other i |})
               (map (fun f => IForm (f_other f) (form_calls f)) (ia_forms i)) (ia_forms i)) with (pre := []).
      clear Hqs Hm Hu. induction (ia_forms i) as [|f fs IH]; cbn [map]; constructor.
      + intros l. cbn [ia_step]. rewrite (form_built (Hf f (or_introl eq_refl))). reflexivity.
      + apply IH. intros f' H. apply Hf. right. exact H.
  Qed.

  (** ** Affordances *)

  Definition raw_property (a : property X) : uproperty X :=
    {| up_ia := raw_ia (pa_ia a); up_ds := pa_ds a; up_observable := pa_observable a; up_other := pa_other a |}.

  Lemma only_delegated (p : list dsop) d : dbuild p = Some d -> (forall s, ds_sub d = Some (SString s) -> s = no_limits) ->
    forall o, In o p -> @delegated X o = true.
  Proof.
    intros Hp Hd o Ho. rewrite delegated_ok. destruct (belongs CString o) eqn:Eb; [exfalso|reflexivity].
    destruct (build_says _ Hp) as [[_ _ _ _ _ _ _ _ _ _ Hs]].
    assert (forall B (f : dsop -> option B), lasto (picks f p) = None -> f o = None) as H.
    { intros B f Hn. destruct (f o) as [b|] eqn:Ef; [|reflexivity].
      assert (In b (picks f p)) as Hin by (apply picks_In; eauto).
      destruct (picks f p) as [|x l]; [destruct Hin|]. cbn in Hn. destruct (lasto l); discriminate Hn. }
    pose proof (sd_smin Hs) as E1. pose proof (sd_smax Hs) as E2. pose proof (sd_pattern Hs) as E3.
    pose proof (sd_encoding Hs) as E4. pose proof (sd_media Hs) as E5.
    destruct (ds_sub d) as [[]|]; try (rewrite (Hd _ eq_refl) in *); cbn in E1, E2, E3, E4, E5;
      symmetry in E1, E2, E3, E4, E5; apply H in E1; apply H in E2; apply H in E3; apply H in E4; apply H in E5;
      destruct o; discriminate.
  Qed.

  Lemma drun_orun (p : list dsop) : forall s, drun p s = orun (@dstep _ _ _) p s.
  Proof. induction p as [|o p IH]; intros s; cbn [drun orun]; [reflexivity|]. destruct (dstep o s); cbn; auto. Qed.

  Lemma property_built a : property_made a -> exists p, prop_run (ia_other (pa_ia a)) (pa_other a) p = Some (raw_property a).
  Proof.
    intros [Hi Hd _ Hs]. destruct (ia_built Hi) as [pi Hpi]. destruct (all_made Hd) as [pd Hpd].
    pose proof (only_delegated _ Hpd Hs) as Hdel.
    unfold dbuild in Hpd. destruct (drun pd dempty) as [sd|] eqn:Esd; [|discriminate]. cbn [obind] in Hpd.
    exists (map (fun o => PIa o) pi ++ map (fun o => PDs o) pd ++ call (fun b => PObservable b) (pa_observable a)).
    unfold prop_run.
    rewrite (@run_app _ _ (@pstep X) _ _ _ {| pb_ia := raw_ia (pa_ia a); pb_ds := dempty; pb_observable := None; pb_other := pa_other a |}).
    2:{ apply (@run_part _ _ _ _ (@ia_step X) (@pstep X) (fun o => PIa o)
          (fun s => {| pb_ia := s; pb_ds := dempty; pb_observable := None; pb_other := pa_other a |}) pi); auto. }
    rewrite (@run_app _ _ (@pstep X) _ _ _ {| pb_ia := raw_ia (pa_ia a); pb_ds := sd; pb_observable := None; pb_other := pa_other a |}).
    2:{ apply (@run_part _ _ _ _ (@dstep _ _ _) (@pstep X) (fun o => PDs o)
          (fun s => {| pb_ia := raw_ia (pa_ia a); pb_ds := s; pb_observable := None; pb_other := pa_other a |}) pd).
        - intros o s Ho. cbn [pstep]. rewrite (Hdel _ Ho). reflexivity.
        - rewrite <- drun_orun. exact Esd. }
    destruct (pa_observable a) as [b|] eqn:Eb; cbn; rewrite Hpd; cbn; unfold raw_property; rewrite Eb; reflexivity.
  Qed.

  Lemma schema_call O S (step : O -> S -> option S) (f : list dsop -> O) (set : option (dsx X) -> S) o :
    schema_opt o -> (forall p, step (f p) (set None) = let? d := dbuild p in Some (set (Some d))) ->
    exists p, orun step p (set None) = Some (set o).
  Proof.
    intros Ho H. destruct o as [d|].
    - destruct (all_made (Ho d eq_refl)) as [p Hp]. exists [f p]. cbn. rewrite H, Hp. reflexivity.
    - exists []. reflexivity.
  Qed.

  Lemma infos_part O S (step : O -> S -> option S) (f : info_op -> O) (set : info -> S) :
    (forall o i, step (f o) (set i) = Some (set (info_step o i))) -> forall l i,
    orun step (map f l) (set i) = Some (set (info_run l i)).
  Proof.
    intros H l. induction l as [|o l IH]; intros i; cbn [map orun]; [reflexivity|]. rewrite H. cbn [obind]. apply IH.
  Qed.

  Definition raw_action (a : action X) : action_b X :=
    {| ab_info := ia_info (aa_ia a); ab_ia := raw_ia (aa_ia a); ab_input := aa_input a; ab_output := aa_output a;
       ab_safe := aa_safe a; ab_idempotent := aa_idempotent a; ab_synchronous := aa_synchronous a; ab_other := aa_other a |}.

  Lemma action_built a : action_made a -> exists p, action_run (ia_other (aa_ia a)) (aa_other a) p = Some (raw_action a).
  Proof.
    intros [Hi Hin Hout]. destruct (ia_built Hi) as [pi Hpi]. unfold action_run.
    set (st := fun nf i iu ou => {| ab_info := nf; ab_ia := i; ab_input := iu; ab_output := ou; ab_safe := false;
       ab_idempotent := false; ab_synchronous := None; ab_other := aa_other a |} : action_b X).
    destruct (@schema_call _ _ (@astep X) (fun p => AInput p) (fun o => st (ia_info (aa_ia a)) (raw_ia (aa_ia a)) o None) _ Hin)
      as [p1 H1]; [reflexivity|].
    destruct (@schema_call _ _ (@astep X) (fun p => AOutput p) (fun o => st (ia_info (aa_ia a)) (raw_ia (aa_ia a)) (aa_input a) o) _ Hout)
      as [p2 H2]; [reflexivity|].
    exists (map (fun o => AInfo o) (info_calls (ia_info (aa_ia a))) ++ map (fun o => AIa o) pi ++ p1 ++ p2
            ++ (if aa_safe a then [ASafe] else []) ++ (if aa_idempotent a then [AIdempotent] else [])
            ++ call (fun b => ASynchronous b) (aa_synchronous a)).
    rewrite (@run_app _ _ (@astep X) _ _ _ (st (ia_info (aa_ia a)) (ia_new X (ia_other (aa_ia a))) None None)).
    2:{ rewrite <- (info_calls_run (it_info Hi)) at 2.
        apply (@infos_part _ _ (@astep X) (fun o => AInfo o) (fun i => st i (ia_new X (ia_other (aa_ia a))) None None)). reflexivity. }
    rewrite (@run_app _ _ (@astep X) _ _ _ (st (ia_info (aa_ia a)) (raw_ia (aa_ia a)) None None)).
    2:{ apply (@run_part _ _ _ _ (@ia_step X) (@astep X) (fun o => AIa o) (fun s => st (ia_info (aa_ia a)) s None None) pi); auto. }
    rewrite (run_app _ _ _ _ H1), (run_app _ _ _ _ H2).
    unfold st, raw_action. destruct a as [ia i o [] [] [] x]; reflexivity.
  Qed.

  Definition raw_event (a : event X) : event_b X :=
    {| eb_info := ia_info (ea_ia a); eb_ia := raw_ia (ea_ia a); eb_subscription := ea_subscription a; eb_data := ea_data a;
       eb_data_response := ea_data_response a; eb_cancellation := ea_cancellation a; eb_other := ea_other a |}.

  Lemma event_built a : event_made a -> exists p, event_run (ia_other (ea_ia a)) (ea_other a) p = Some (raw_event a).
  Proof.
    intros [Hi G1 G2 G3 G4]. destruct (ia_built Hi) as [pi Hpi]. unfold event_run.
    set (st := fun nf i a1 a2 a3 a4 => {| eb_info := nf; eb_ia := i; eb_subscription := a1; eb_data := a2;
       eb_data_response := a3; eb_cancellation := a4; eb_other := ea_other a |} : event_b X).
    set (nf := ia_info (ea_ia a)). set (ib := raw_ia (ea_ia a)).
    destruct (@schema_call _ _ (@estep X) (fun p => ESubscription p) (fun o => st nf ib o None None None) _ G1) as [p1 H1]; [reflexivity|].
    destruct (@schema_call _ _ (@estep X) (fun p => EData p) (fun o => st nf ib (ea_subscription a) o None None) _ G2)
      as [p2 H2]; [reflexivity|].
    destruct (@schema_call _ _ (@estep X) (fun p => EDataResponse p) (fun o => st nf ib (ea_subscription a) (ea_data a) o None) _ G3)
      as [p3 H3]; [reflexivity|].
    destruct (@schema_call _ _ (@estep X) (fun p => ECancellation p)
                (fun o => st nf ib (ea_subscription a) (ea_data a) (ea_data_response a) o) _ G4) as [p4 H4]; [reflexivity|].
    exists (map (fun o => EInfo o) (info_calls nf) ++ map (fun o => EIa o) pi ++ p1 ++ p2 ++ p3 ++ p4).
    rewrite (@run_app _ _ (@estep X) _ _ _ (st nf (ia_new X (ia_other (ea_ia a))) None None None None)).
    2:{ pose proof (info_calls_run (it_info Hi)) as Hr. fold nf in Hr. rewrite <- Hr at 2.
        apply (@infos_part _ _ (@estep X) (fun o => EInfo o) (fun i => st i (ia_new X (ia_other (ea_ia a))) None None None None)). reflexivity. }
    rewrite (@run_app _ _ (@estep X) _ _ _ (st nf ib None None None None)).
    2:{ apply (@run_part _ _ _ _ (@ia_step X) (@estep X) (fun o => EIa o) (fun s => st nf s None None None None) pi); auto. }
    rewrite (run_app _ _ _ _ H1), (run_app _ _ _ _ H2), (run_app _ _ _ _ H3). exact H4.
  Qed.

  Lemma raw_ia_of i : map_made made (ia_uri i) -> ia_of (ia_info i) (raw_ia i) = i.
  Proof. intros [H _]. apply kept in H. destruct i as [i f u x]. unfold ia_of, raw_ia. cbn in *. f_equal. exact H. Qed.

  Lemma raw_property_of a : property_made a -> ProgFacts.property_of (raw_property a) = a.
  Proof.
    intros [Hi _ He _]. unfold ProgFacts.property_of, raw_property. cbn. rewrite <- He, (raw_ia_of _ (it_uri Hi)).
    destruct a; reflexivity.
  Qed.

  Lemma raw_action_of a : action_made a -> ProgFacts.action_of (raw_action a) = a.
  Proof.
    intros [Hi _ _]. unfold ProgFacts.action_of, raw_action. cbn. rewrite (raw_ia_of _ (it_uri Hi)). destruct a; reflexivity.
  Qed.

  Lemma raw_event_of a : event_made a -> ProgFacts.event_of (raw_event a) = a.
  Proof.
    intros [Hi _ _ _ _]. unfold ProgFacts.event_of, raw_event. cbn. rewrite (raw_ia_of _ (it_uri Hi)). destruct a; reflexivity.
  Qed.
End Things.
