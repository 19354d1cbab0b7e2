(** * Facts about builder programs: what the builders hold is what was declared *)

From Coq Require Import String Bool ZArith Permutation Lia List.
From Verif Require Import Base MinMax Json Serde Types DsBuilder Builder Spec SpecCalls SpecThing
  DsFacts ConvFacts DsProgFacts.
Import ListNotations.
Set Implicit Arguments.
Local Open Scope string_scope.
Local Open Scope list_scope.

Local Hint Constructors omatch : core.

(** ** Chains of calls *)

Lemma orun_app O S (step : O -> S -> option S) p q s :
  orun step (p ++ q) s = let? s' := orun step p s in orun step q s'.
Proof. revert s. induction p as [|o p IH]; intros s; simpl; auto. destruct (step o s); simpl; auto. Qed.

Lemma orun_inv O S (step : O -> S -> option S) (s0 : S) (I : list O -> S -> Prop) :
  I [] s0 ->
  (forall p o s s', I p s -> step o s = Some s' -> I (p ++ [o]) s') ->
  forall p s, orun step p s0 = Some s -> I p s.
Proof.
  intros H0 Hs p. induction p as [|o p IH] using rev_ind; intros s H.
  - simpl in H. inversion H; subst; auto.
  - rewrite orun_app in H. destruct (orun step p s0) as [s1|] eqn:E; [|discriminate].
    simpl in H. destruct (step o s1) as [s2|] eqn:E2; [|discriminate]. simpl in H.
    inversion H; subst. eauto.
Qed.

Ltac inv := repeat match goal with
  | H : Some _ = Some _ |- _ => inversion H; subst; clear H
  | H : None = Some _ |- _ => discriminate H
  | H : Some _ = None |- _ => discriminate H
  end.

Ltac snoc := rewrite ?picks_app, ?picks_one, ?some_call_app, ?flat_map_app; simpl;
  rewrite ?app_nil_r, ?lasto_snoc, ?orb_false_r, ?orb_true_r, <- ?opush_nonempty.

(** ** Links *)

(** The link a complete link builder stands for. *)
Definition link_of (l : link_b) : link :=
  {| l_href := match lb_href l with Some h => h | None => "" end; l_type := lb_type l;
     l_rel := lb_rel l; l_anchor := lb_anchor l; l_sizes := lb_sizes l;
     l_hreflang := nonempty (lb_hreflang l) |}.

Record lb_says (p : list link_op) (l : link_b) : Prop := {
  lbs_href : picks k_href p = otolist (lb_href l);
  lbs_type : lb_type l = lasto (picks k_type p);
  lbs_rel : lb_rel l = lasto (picks k_rel p);
  lbs_anchor : lb_anchor l = lasto (picks k_anchor p);
  lbs_sizes : lb_sizes l = lasto (picks k_sizes p);
  lbs_hreflang : lb_hreflang l = picks k_hreflang p;
}.

Lemma link_steps p l : orun link_step p link_new = Some l -> lb_says p l.
Proof.
  revert p l. apply orun_inv.
  - constructor; reflexivity.
  - intros p o s s' [h1 h2 h3 h4 h5 h6] H. destruct o; simpl in H; inv.
    1: destruct (lb_href s) eqn:E; inv.
    all: constructor; simpl; snoc; rewrite ?h1, ?E; simpl; congruence.
Qed.

Lemma link_run_says p l : link_run p = Some l -> link_says Some p (link_of l) /\ lb_href l <> None.
Proof.
  unfold link_run. destruct (orun link_step p link_new) as [l'|] eqn:E; [|discriminate]. simpl.
  destruct (lb_href l') as [h|] eqn:Eh; intros H; inv. apply link_steps in E as [h1 h2 h3 h4 h5 h6].
  split; [|congruence]. constructor; simpl; auto; try congruence; [rewrite Eh in *; auto|].
  exists (lb_hreflang l). rewrite h6. split; auto. clear. induction (picks k_hreflang p); constructor; auto.
Qed.

(** ** Responses *)

Lemma resp_run_says p : resp_says p (resp_run p).
Proof.
  unfold resp_run. induction p as [|o p IH] using rev_ind; [constructor; reflexivity|].
  rewrite fold_left_app. simpl. destruct IH as [h1 h2 h3]. destruct o; constructor; simpl; snoc; auto.
Qed.

(** ** Security schemes *)

Definition sec_kind_says (p : list sec_op) (k : sec_kind) : Prop :=
  match k with
  | SKNone => picks w_choice p = [] /\ picks w_all_of p = [] /\ flat_map w_combined p = []
              /\ picks w_location p = [] /\ picks w_name p = [] /\ picks w_qop p = []
              /\ picks w_authorization p = [] /\ picks w_alg p = [] /\ picks w_format p = []
              /\ picks w_token p = [] /\ picks w_refresh p = [] /\ picks w_scope p = []
              /\ picks w_data p = []
  | SKEmptyCombo => picks w_choice p = [SCombo] /\ picks w_all_of p = [] /\ flat_map w_combined p = []
  | SKSub t => exists c, picks w_choice p = [c] /\ scheme_says p c t (sec_default_name t)
  end.

Definition is_combo_kind (k : sec_kind) : bool :=
  match k with SKEmptyCombo => true | SKSub (Known (KCombo _)) => true | _ => false end.

Record sb_says (p : list sec_op) (s : sec_b) : Prop := {
  sbs_kind : sec_kind_says p (sb_kind s);
  sbs_combo : some_call is_combo p = is_combo_kind (sb_kind s);
  sbs_key : sb_name s = lasto (picks (w_key (some_call is_combo p)) p);
  sbs_nameless : match sb_kind s with SKNone => forall b, picks (w_key b) p = picks (w_key false) p | _ => True end;
  sbs_required : sb_required s = some_call is_required p;
  sbs_attype : sb_attype s = nonempty (picks w_attype p);
  sbs_description : sb_description s = lasto (picks w_description p);
  sbs_descriptions : omatch (ml_declared Some) (lasto (picks w_descriptions p)) (sb_descriptions s);
  sbs_proxy : sb_proxy s = lasto (picks w_proxy p);
}.

Lemma says_eq p c t t' key : scheme_says p c t key -> t = t' -> scheme_says p c t' key.
Proof. intros; subst; auto. Qed.

Ltac says_snoc :=
  eapply says_eq; [econstructor; snoc; eauto; fail|snoc; auto; repeat f_equal; congruence].

Ltac sec_old H :=
  destruct H as (c & Hc & H); exists c; (split; [snoc; auto|]); inversion H; subst; clear H; simpl in *;
  says_snoc.

Lemma sec_steps p s : orun sec_step p sec_new = Some s -> sb_says p s.
Proof.
  revert p s. apply orun_inv.
  - constructor; simpl; auto 20.
  - intros p o s s' [h1 h2 h3 hn h4 h5 h6 h7 h8] H.
    destruct o; simpl in H; unfold sec_start, sec_known in H; inv.
    (* choice of the scheme *)
    1-10: destruct (sb_kind s) eqn:Ek; inv; simpl in *;
      destruct h1 as (e1 & e2 & e3 & e4 & e5 & e6 & e7 & e8 & e9 & e10 & e11 & e12 & e13);
      constructor; simpl; snoc; auto; rewrite ?e1, ?e2, ?e3, ?hn; simpl; auto;
      try (rewrite h3, h2; rewrite ?hn; reflexivity);
      try (eexists; split; [reflexivity|]; eapply says_eq; [econstructor|];
           snoc; rewrite ?e4, ?e5, ?e6, ?e7, ?e8, ?e9, ?e10, ?e11, ?e12, ?e13; reflexivity).
    (* calls that leave the scheme alone *)
    1-6: constructor; simpl; snoc; auto; try congruence;
      try (rewrite h5; apply opush_nonempty);
      try (constructor; apply ml_declared_mof);
      try (destruct (sb_kind s) as [| |t]; simpl in h1 |- *;
           [snoc; rewrite ?app_nil_r; tauto|snoc; rewrite ?app_nil_r; tauto|sec_old h1]);
      try (destruct (sb_kind s); auto; intros b; snoc; rewrite hn; reflexivity).
    (* calls on a scheme *)
    all: destruct (sb_kind s) as [| |[[]|]] eqn:Ek; simpl in H; inv.
    all: try match type of H with context [match ?c with COneOf _ => _ | CAllOf _ => _ end] => destruct c; simpl in H; inv end.
    all: simpl in h1, h2; constructor; simpl; rewrite ?Ek; snoc; auto;
      try (rewrite h3, h2; simpl; rewrite ?app_nil_r; reflexivity);
      try (rewrite h2; simpl; snoc; reflexivity);
      try tauto;
      try (destruct h1 as (e1 & e2 & e3); eexists; split; [exact e1|];
           eapply says_eq; [econstructor; snoc; rewrite e2; reflexivity|snoc; rewrite e3; reflexivity]);
      try (destruct h1 as (c & Hc & h1); exists c; split; [snoc; auto|]; inversion h1; subst; clear h1;
           simpl in *; eapply says_eq; [econstructor; snoc; rewrite ?app_nil_r; eauto|];
           snoc; rewrite ?opush_nonempty; reflexivity).
    + snoc. auto.
    + destruct h1 as (c' & Hc & h1). exists c'. split; [snoc; auto|].
      inversion h1; subst; eapply says_eq;
        ((apply says_all_of; snoc; rewrite ?app_nil_r; assumption)
         || (apply says_one_of; snoc; rewrite ?app_nil_r; assumption)
         || (snoc; rewrite ?app_nil_r; reflexivity)).
Qed.

Lemma sec_run_says p r : sec_run p = Some r -> sec_says Some p r.
Proof.
  unfold sec_run. destruct (orun sec_step p sec_new) as [s|] eqn:E; [|discriminate]. simpl.
  apply sec_steps in E as [h1 h2 h3 hn h4 h5 h6 h7 h8]. unfold sec_finish.
  destruct (sb_kind s) as [| |t] eqn:Ek; intros H; inv. simpl in h1. destruct h1 as (c & Hc & h1).
  constructor; simpl; auto. exists c, (sec_default_name t). split; [|split]; auto.
  rewrite h3. reflexivity.
Qed.

(** ** Forms *)

Section Forms.
  Variable E : env.
  Variable X : exts.
  Notation dsop := (dsop (pty (x_ds X)) (pty (x_as X)) (pty (x_os X))).

  Record fb_says (x : pty (x_f X)) (p : list (fop X)) (s : form_b X) : Prop := {
    fbs_op : fb_op s = match picks (@q_op X) p with [] => OpDefault | l => OpCustom l end;
    fbs_href : picks (@q_href X) p = otolist (fb_href s);
    fbs_ctype : fb_ctype s = lasto (picks (@q_ctype X) p);
    fbs_ccoding : fb_ccoding s = lasto (picks (@q_ccoding X) p);
    fbs_subprotocol : fb_subprotocol s = lasto (picks (@q_subprotocol X) p);
    fbs_security : fb_security s = nonempty (picks (@q_security X) p);
    fbs_scopes : fb_scopes s = nonempty (picks (@q_scope X) p);
    fbs_response : fb_response s = lasto (picks (@q_response X) p);
    fbs_additional : Forall2 resp_says (picks (@q_additional X) p) (fb_additional s);
    fbs_other : fb_other s = x;
  }.

  Lemma form_steps x p s : orun (@fstep X) p (form_new X x) = Some s -> fb_says x p s.
  Proof.
    revert p s. apply orun_inv.
    - constructor; simpl; auto.
    - intros p o s s' [h1 h2 h3 h4 h5 h6 h7 h8 h9 h10] H. destruct o; simpl in H; inv.
      1: destruct (fb_href s) eqn:Eh; inv.
      all: constructor; simpl; snoc; rewrite ?h2, ?Eh; simpl; auto; try congruence.
      + rewrite h1. destruct (picks (@q_op X) p); reflexivity.
      + apply Forall2_snoc; auto. apply resp_run_says.
  Qed.

  Lemma form_run_says x (p : list (fop X)) f : form_run x p = Some f -> form_says (x, p) f.
  Proof.
    unfold form_run. destruct (orun (@fstep X) p (form_new X x)) as [s|] eqn:Es; [|discriminate]. simpl.
    apply form_steps in Es as [h1 h2 h3 h4 h5 h6 h7 h8 h9 h10]. unfold form_build.
    destruct (fb_href s) as [h|] eqn:Eh; intros H; simpl in H; inv.
    constructor; simpl; auto. exists (fb_additional s). auto.
  Qed.

  (** ** Interactions *)

  Notation says := (@ds_says (pty (x_ds X)) (pty (x_as X)) (pty (x_os X)) Some).

  (** Maps of built schemas. *)
  Record dsmap_says (adds : list (string * list dsop)) (m : amap (dsx X)) : Prop := {
    dm_says : map_says says adds m;
    dm_wf : forall k d, In (k, d) m -> ds_wf d;
    dm_empty : adds = [] <-> m = [];
  }.

  Lemma minsert_not_nil A k (v : A) m : minsert k v m <> [].
  Proof. destruct m as [|[k' v'] m]; simpl; [discriminate|]. destruct (String.compare k k'); discriminate. Qed.

  Lemma minsert_In A k (v : A) m k' v' : In (k', v') (minsert k v m) -> (k' = k /\ v' = v) \/ In (k', v') m.
  Proof.
    induction m as [|[k0 v0] m IH]; simpl.
    - intros [H|[]]. inversion H; auto.
    - destruct (String.compare k k0); simpl; intros [H|H]; try (inversion H; subst; auto; fail); auto.
      apply IH in H as [?|?]; auto.
  Qed.

  Lemma dsmap_nil : dsmap_says [] [].
  Proof.
    constructor.
    - split; [exact I|]. intros k. constructor.
    - intros k d [].
    - tauto.
  Qed.

  Lemma map_says_insert P A (R : P -> A -> Prop) adds m k q a :
    map_says R adds m -> R q a -> map_says R (adds ++ [(k, q)]) (minsert k a m).
  Proof.
    intros [Hs H] Ha. split; [apply msorted_minsert; auto|].
    intros k'. rewrite llook_app, mlook_minsert; auto. simpl.
    destruct (String.eqb k' k); auto.
  Qed.

  Lemma dsmap_insert adds m k q d :
    dbuild q = Some d -> dsmap_says adds m -> dsmap_says (adds ++ [(k, q)]) (minsert k d m).
  Proof.
    intros Hd [h1 h2 h3]. constructor.
    - apply map_says_insert; auto. apply build_says; auto.
    - intros k' d' Hin. apply minsert_In in Hin as [[_ ->]|Hin]; eauto. eapply built_wf; eauto.
    - split; intros Hn.
      + destruct adds; discriminate.
      + apply minsert_not_nil in Hn. destruct Hn.
  Qed.

  Lemma dsmap_olist adds m : dsmap_says adds m -> omap_says says adds (nonempty m).
  Proof.
    intros [h1 h2 h3]. split.
    - destruct m; auto.
    - rewrite h3. destruct m; simpl; split; auto; discriminate.
  Qed.

  Record ib_says (x : pty (x_ia X)) (p : list (ia_op X)) (s : ia_b X) : Prop := {
    ibs_forms : Forall2 (@form_says X) (picks (@i_form X) p) (ib_forms s);
    ibs_uri : dsmap_says (picks (@i_uri X) p) (ib_uri s);
    ibs_other : ib_other s = x;
  }.

  Lemma ib_says_nil x : ib_says x [] (ia_new X x).
  Proof. constructor; simpl; auto. apply dsmap_nil. Qed.

  Lemma ib_says_step x p o s s' : ib_says x p s -> ia_step o s = Some s' -> ib_says x (p ++ [o]) s'.
  Proof.
    intros [h1 h2 h3] H. destruct o as [xf q|n q]; simpl in H.
    - destruct (form_run xf q) as [f|] eqn:Ef; simpl in H; inv.
      constructor; simpl; snoc; auto. apply Forall2_snoc; auto. apply form_run_says; auto.
    - destruct (dbuild q) as [d|] eqn:Ed; simpl in H; inv.
      constructor; simpl; snoc; auto. apply dsmap_insert; auto.
  Qed.

  (** The interaction a builder stands for. *)
  Definition ia_of (i : info) (s : ia_b X) : interaction X :=
    {| ia_info := i; ia_forms := ib_forms s; ia_uri := nonempty (ib_uri s); ia_other := ib_other s |}.

  Lemma ia_of_says x p i s : ib_says x p s -> ia_says Some x p (ia_of i s).
  Proof. intros [h1 h2 h3]. constructor; simpl; auto. apply dsmap_olist; auto. Qed.

  Definition ib_wf (s : ia_b X) : Prop := msorted (ib_uri s) /\ forall k d, In (k, d) (ib_uri s) -> ds_wf d.

  Lemma ib_says_wf x p s : ib_says x p s -> ib_wf s.
  Proof. intros [_ [h1 h2 _] _]. split; auto. apply h1. Qed.

  (** ** Properties *)

  Definition property_of (u : uproperty X) : property X :=
    {| pa_ia := ia_of (ds_info (up_ds u)) (up_ia u); pa_ds := up_ds u;
       pa_observable := up_observable u; pa_other := up_other u |}.

  Definition up_wf (u : uproperty X) : Prop := ib_wf (up_ia u) /\ ds_wf (up_ds u).

  Record pb_says xi xp (p : list (pop X)) (s : property_b X) : Prop := {
    pbs_ia : ib_says xi (picks (@p_ia X) p) (pb_ia s);
    pbs_ds : drun (picks (@p_ds X) p) dempty = Some (pb_ds s);
    pbs_observable : pb_observable s = lasto (picks (@p_observable X) p);
    pbs_other : pb_other s = xp;
  }.

  Lemma pb_steps xi xp p s :
    orun (@pstep X) p {| pb_ia := ia_new X xi; pb_ds := dempty; pb_observable := None; pb_other := xp |}
    = Some s -> pb_says xi xp p s.
  Proof.
    revert p s. apply orun_inv.
    - constructor; simpl; auto. apply ib_says_nil.
    - intros p o s s' [h1 h2 h3 h4] H. destruct o as [o|o|b]; simpl in H.
      + destruct (delegated X o); [|discriminate H].
        destruct (dstep o (pb_ds s)) as [d|] eqn:Ed; simpl in H; inv.
        constructor; simpl; snoc; auto. rewrite drun_app, h2. simpl. rewrite Ed. reflexivity.
      + destruct (ia_step o (pb_ia s)) as [i|] eqn:Ei; simpl in H; inv.
        constructor; simpl; snoc; auto. eapply ib_says_step; eauto.
      + inv. constructor; simpl; snoc; auto.
  Qed.

  Lemma prop_run_says xi xp p u :
    prop_run xi xp p = Some u -> property_says Some (xi, xp, p) (property_of u) /\ up_wf u.
  Proof.
    unfold prop_run. intros H.
    destruct (orun (@pstep X) p _) as [s|] eqn:Es in H; [|discriminate]. simpl in H.
    destruct (to_ds (pb_ds s)) as [d|] eqn:Ed; [|discriminate]. simpl in H. inv.
    apply pb_steps in Es as [h1 h2 h3 h4]. split.
    - constructor; simpl; auto.
      + apply ia_of_says; auto.
      + eapply run_says; eauto.
    - split; simpl; [eapply ib_says_wf; eauto|]. eapply built_wf. unfold dbuild. rewrite h2. exact Ed.
  Qed.

  (** ** Actions and events *)

  Definition action_of (a : action_b X) : action X :=
    {| aa_ia := ia_of (ab_info a) (ab_ia a); aa_input := ab_input a; aa_output := ab_output a;
       aa_safe := ab_safe a; aa_idempotent := ab_idempotent a; aa_synchronous := ab_synchronous a;
       aa_other := ab_other a |}.

  Definition event_of (e : event_b X) : event X :=
    {| ea_ia := ia_of (eb_info e) (eb_ia e); ea_subscription := eb_subscription e; ea_data := eb_data e;
       ea_data_response := eb_data_response e; ea_cancellation := eb_cancellation e;
       ea_other := eb_other e |}.

  Definition o_wf (o : option (dsx X)) : Prop := match o with Some d => ds_wf d | None => True end.

  Definition ab_wf (a : action_b X) : Prop :=
    info_wf (ab_info a) /\ ib_wf (ab_ia a) /\ o_wf (ab_input a) /\ o_wf (ab_output a).

  Definition eb_wf (e : event_b X) : Prop :=
    info_wf (eb_info e) /\ ib_wf (eb_ia e) /\ o_wf (eb_subscription e) /\ o_wf (eb_data e)
    /\ o_wf (eb_data_response e) /\ o_wf (eb_cancellation e).

  (** The last of several closures. *)
  Definition last_built (ps : list (list dsop)) (o : option (dsx X)) : Prop :=
    omatch (fun q d => dbuild q = Some d) (lasto ps) o.

  Lemma last_built_says ps o : last_built ps o -> omatch says (lasto ps) o /\ o_wf o.
  Proof.
    intros H. destruct H; [split; simpl; auto|]. split; [constructor; apply build_says; auto|].
    simpl. eapply built_wf; eauto.
  Qed.

  Record abs_says xi xa (p : list (aop X)) (a : action_b X) : Prop := {
    abs_ia : ib_says xi (picks (@a_ia X) p) (ab_ia a);
    abs_info : info_declared Some (picks (@a_info X) p) (ab_info a);
    abs_input : last_built (picks (@a_input X) p) (ab_input a);
    abs_output : last_built (picks (@a_output X) p) (ab_output a);
    abs_safe : ab_safe a = some_call (@is_safe X) p;
    abs_idempotent : ab_idempotent a = some_call (@is_idempotent X) p;
    abs_synchronous : ab_synchronous a = lasto (picks (@a_synchronous X) p);
    abs_other : ab_other a = xa;
  }.

  Lemma last_built_snoc ps q d : dbuild q = Some d -> last_built (ps ++ [q]) (Some d).
  Proof. intros H. unfold last_built. rewrite lasto_snoc. constructor; auto. Qed.

  Lemma ab_steps xi xa p s : action_run xi xa p = Some s -> abs_says xi xa p s.
  Proof.
    revert p s. apply orun_inv.
    - constructor; simpl; auto; try apply om_none; [apply ib_says_nil|apply info_declared_nil].
    - intros p o s s' [h1 h2 h3 h4 h5 h6 h7 h8] H. destruct o; simpl in H.
      + inv. constructor; simpl; snoc; auto. apply info_declared_snoc; auto.
      + destruct (ia_step o (ab_ia s)) as [i|] eqn:Ei; simpl in H; inv.
        constructor; simpl; snoc; auto. eapply ib_says_step; eauto.
      + destruct (dbuild p0) as [d|] eqn:Ed; simpl in H; inv.
        constructor; simpl; snoc; auto. apply last_built_snoc; auto.
      + destruct (dbuild p0) as [d|] eqn:Ed; simpl in H; inv.
        constructor; simpl; snoc; auto. apply last_built_snoc; auto.
      + inv. constructor; simpl; snoc; auto.
      + inv. constructor; simpl; snoc; auto.
      + inv. constructor; simpl; snoc; auto.
  Qed.

  Lemma action_run_says xi xa p a :
    action_run xi xa p = Some a -> action_says Some (xi, xa, p) (action_of a) /\ ab_wf a.
  Proof.
    intros H. apply ab_steps in H as [h1 h2 h3 h4 h5 h6 h7 h8].
    apply last_built_says in h3 as [h3 w3]. apply last_built_says in h4 as [h4 w4]. split.
    - constructor; simpl; auto. apply ia_of_says; auto.
    - split; [|split; [|split]]; auto; [eapply info_declared_wf; eauto|eapply ib_says_wf; eauto].
  Qed.

  Record ebs_says xi xe (p : list (eop X)) (a : event_b X) : Prop := {
    ebs_ia : ib_says xi (picks (@e_ia X) p) (eb_ia a);
    ebs_info : info_declared Some (picks (@e_info X) p) (eb_info a);
    ebs_subscription : last_built (picks (@e_subscription X) p) (eb_subscription a);
    ebs_data : last_built (picks (@e_data X) p) (eb_data a);
    ebs_data_response : last_built (picks (@e_data_response X) p) (eb_data_response a);
    ebs_cancellation : last_built (picks (@e_cancellation X) p) (eb_cancellation a);
    ebs_other : eb_other a = xe;
  }.

  Lemma eb_steps xi xe p s : event_run xi xe p = Some s -> ebs_says xi xe p s.
  Proof.
    revert p s. apply orun_inv.
    - constructor; simpl; auto; try apply om_none; [apply ib_says_nil|apply info_declared_nil].
    - intros p o s s' [h1 h2 h3 h4 h5 h6 h7] H. destruct o; simpl in H.
      + inv. constructor; simpl; snoc; auto. apply info_declared_snoc; auto.
      + destruct (ia_step o (eb_ia s)) as [i|] eqn:Ei; simpl in H; inv.
        constructor; simpl; snoc; auto. eapply ib_says_step; eauto.
      + destruct (dbuild p0) as [d|] eqn:Ed; simpl in H; inv.
        constructor; simpl; snoc; auto. apply last_built_snoc; auto.
      + destruct (dbuild p0) as [d|] eqn:Ed; simpl in H; inv.
        constructor; simpl; snoc; auto. apply last_built_snoc; auto.
      + destruct (dbuild p0) as [d|] eqn:Ed; simpl in H; inv.
        constructor; simpl; snoc; auto. apply last_built_snoc; auto.
      + destruct (dbuild p0) as [d|] eqn:Ed; simpl in H; inv.
        constructor; simpl; snoc; auto. apply last_built_snoc; auto.
  Qed.

  Lemma event_run_says xi xe p a :
    event_run xi xe p = Some a -> event_says Some (xi, xe, p) (event_of a) /\ eb_wf a.
  Proof.
    intros H. apply eb_steps in H as [h1 h2 h3 h4 h5 h6 h7].
    apply last_built_says in h3 as [h3 w3]. apply last_built_says in h4 as [h4 w4].
    apply last_built_says in h5 as [h5 w5]. apply last_built_says in h6 as [h6 w6]. split.
    - constructor; simpl; auto. apply ia_of_says; auto.
    - split; [|split; [|split; [|split; [|split]]]]; auto; [eapply info_declared_wf; eauto|eapply ib_says_wf; eauto].
  Qed.

  (** ** The thing *)

  Definition context_call (c : string + list (string * string)) : context :=
    match c with inl s => CtxSimple s | inr l => CtxMap (mof l) end.

  Definition sec_wf (s : security_scheme) : Prop := forall m, ss_descriptions s = Some m -> msorted m.

  Definition named_of {A B} (f : A -> B) (kv : string * A) : string * B := (fst kv, f (snd kv)).

  (** What a state holds. *)
  Definition body_of (s : tstate E X) : body X :=
    {| y_secdefs := tb_secdefs s; y_schemas := tb_schemas s; y_forms := olist (tb_forms s);
       y_uris := olist (tb_uri s); y_properties := map (named_of property_of) (tb_properties s);
       y_actions := map (named_of action_of) (tb_actions s);
       y_events := map (named_of event_of) (tb_events s);
       y_links := map link_of (olist (tb_links s)); y_titles := olist (tb_titles s);
       y_descriptions := olist (tb_descriptions s) |}.

  Record tb_wf (s : tstate E X) : Prop := {
    tw_schemas : msorted (tb_schemas s) /\ forall k d, In (k, d) (tb_schemas s) -> ds_wf d;
    tw_uri : forall m, tb_uri s = Some m -> msorted m /\ forall k d, In (k, d) m -> ds_wf d;
    tw_secdefs : forall k c, In (k, c) (tb_secdefs s) -> sec_wf c;
    tw_properties : forall k u, In (k, u) (tb_properties s) -> up_wf u;
    tw_actions : forall k u, In (k, u) (tb_actions s) -> ab_wf u;
    tw_events : forall k u, In (k, u) (tb_events s) -> eb_wf u;
    tw_links : forall l, In l (olist (tb_links s)) -> lb_href l <> None;
    tw_titles : forall m, tb_titles s = Some m -> msorted m;
    tw_descriptions : forall m, tb_descriptions s = Some m -> msorted m;
    tw_context : exists cs, tb_context s = CtxSimple TD_CONTEXT_11 :: cs;
  }.

  Record tb_says title x (p : list (top E X)) (s : tstate E X) : Prop := {
    tbs_context : tb_context s = CtxSimple TD_CONTEXT_11 :: map context_call (picks (@t_of_context E X) p);
    tbs_id : tb_id s = lasto (picks (@t_of_id E X) p);
    tbs_attype : tb_attype s = nonempty (picks (@t_of_attype E X) p);
    tbs_title : tb_title s = title;
    tbs_titles : omatch (ml_declared Some) (lasto (picks (@t_of_titles E X) p)) (tb_titles s);
    tbs_description : tb_description s = lasto (picks (@t_of_description E X) p);
    tbs_descriptions : omatch (ml_declared Some) (lasto (picks (@t_of_descriptions E X) p)) (tb_descriptions s);
    tbs_version : tb_version s = lasto (picks (@t_of_version E X) p);
    tbs_created : tb_created s = lasto (picks (@t_of_created E X) p);
    tbs_modified : tb_modified s = lasto (picks (@t_of_modified E X) p);
    tbs_support : tb_support s = lasto (picks (@t_of_support E X) p);
    tbs_base : tb_base s = lasto (picks (@t_of_base E X) p);
    tbs_properties : Forall2 (named (fun c u => property_says Some c (property_of u) /\ up_wf u))
                       (picks (@t_of_property E X) p) (tb_properties s);
    tbs_actions : Forall2 (named (fun c u => action_says Some c (action_of u) /\ ab_wf u))
                    (picks (@t_of_action E X) p) (tb_actions s);
    tbs_events : Forall2 (named (fun c u => event_says Some c (event_of u) /\ eb_wf u))
                   (picks (@t_of_event E X) p) (tb_events s);
    tbs_links : exists ls, Forall2 (fun c l => link_says Some c (link_of l) /\ lb_href l <> None)
                             (picks (@t_of_link E X) p) ls /\ tb_links s = nonempty ls;
    tbs_forms : exists fs, Forall2 (@form_says X) (picks (@t_of_form E X) p) fs
                           /\ tb_forms s = nonempty fs;
    tbs_uri : exists m, dsmap_says (picks (@t_of_uri E X) p) m /\ tb_uri s = nonempty m;
    tbs_security : exists rs, Forall2 (sec_says Some) (picks (@t_of_security E X) p) rs
                     /\ tb_security s = map (fun r => fst (fst r)) (filter (fun r => snd (fst r)) rs)
                     /\ tb_secdefs s = map (fun r => (fst (fst r), snd r)) rs;
    tbs_profile : tb_profile s = picks (@t_of_profile E X) p;
    tbs_schemas : dsmap_says (picks (@t_of_schema E X) p) (tb_schemas s);
    tbs_other : tb_other s = x;
  }.

  Lemma link_says_href h : link_says Some [LHref h] (link_of (set_lb_href link_new (Some h))).
  Proof. constructor; try reflexivity. exists []. split; [constructor|reflexivity]. Qed.

  Lemma tb_says_nil title x : tb_says title x [] (thing_new E X title x).
  Proof.
    constructor; simpl; auto; try (exists []; simpl; auto; fail).
    - exists []. split; [apply dsmap_nil|reflexivity].
    - apply dsmap_nil.
  Qed.

  Lemma tb_says_step title x p o s s' :
    tb_says title x p s -> tstep o s = Some s' -> tb_says title x (p ++ [o]) s'.
  Proof.
    intros [h1 h2 h3 h4 h5 h6 h7 h8 h9 h10 h11 h12 h13 h14 h15 h16 h17 h18 h19 h20 h21 h22] H.
    destruct o; cbn [tstep] in H; unfold when_extended in H;
      try (destruct (tb_extended s); [|discriminate]); inv.
    (* single valued members *)
    1-7: constructor; simpl; snoc; rewrite ?app_nil_r; auto; congruence.
    (* context *)
    1:{ destruct (String.eqb s0 TD_CONTEXT_11) eqn:Es; inv; constructor; simpl; snoc; rewrite ?Es; simpl;
          rewrite ?app_nil_r; auto. rewrite map_app, h1. reflexivity. }
    1:{ constructor; simpl; snoc; auto. rewrite map_app, h1. reflexivity. }
    1:{ constructor; simpl; snoc; auto. congruence. }
    1-2: constructor; simpl; snoc; auto; constructor; apply ml_declared_mof.
    (* links *)
    1:{ constructor; simpl; snoc; auto. destruct h16 as (ls & Hls & ->). rewrite opush_nonempty.
        eexists; split; [|reflexivity]. apply Forall2_snoc; auto. split; [apply link_says_href|discriminate]. }
    1:{ destruct (link_run p0) as [l|] eqn:El; simpl in H; inv.
        constructor; simpl; snoc; auto. destruct h16 as (ls & Hls & ->). rewrite opush_nonempty.
        eexists; split; [|reflexivity]. apply Forall2_snoc; auto. apply link_run_says; auto. }
    (* security *)
    1:{ destruct (sec_run p0) as [[[n b] sc]|] eqn:Er; simpl in H; inv.
        apply sec_run_says in Er. destruct h19 as (rs & Hrs & E1 & E2).
        assert (Hsn : exists r, r = (n, b, sc)) by eauto. destruct Hsn as (r & Hr).
        destruct b; constructor; simpl; snoc; auto; exists (rs ++ [r]); subst r;
          (split; [apply Forall2_snoc; eauto|]); rewrite filter_app, !map_app, E1, E2; simpl;
          rewrite ?app_nil_r; auto. }
    1:{ constructor; simpl; snoc; auto. congruence. }
    1:{ destruct (tb_extended s); inv. constructor; simpl; snoc; rewrite ?app_nil_r; auto. }
    (* forms, schemas, affordances *)
    - destruct (form_run x0 p0) as [f|] eqn:Ef; simpl in H; inv. constructor; simpl; snoc; auto.
      destruct h17 as (fs & Hfs & ->). rewrite opush_nonempty. eexists; split; [|reflexivity].
      apply Forall2_snoc; auto. apply form_run_says; auto.
    - destruct (dbuild p0) as [d|] eqn:Ed; simpl in H; inv. constructor; simpl; snoc; auto.
      destruct h18 as (m & Hm & ->). exists (minsert name d m). split; [apply dsmap_insert; auto|].
      assert (Hne : forall A (l : list A), l <> [] -> Some l = nonempty l) by (intros A [|]; simpl; intros Hn; [destruct Hn|]; reflexivity).
      transitivity (Some (minsert name d m)); [destruct m; reflexivity|apply Hne, minsert_not_nil].
    - destruct (prop_run xi xp p0) as [u|] eqn:Eu; simpl in H; inv. constructor; simpl; snoc; auto.
      apply Forall2_snoc; auto. split; auto. apply prop_run_says; auto.
    - destruct (action_run xi xa p0) as [u|] eqn:Eu; simpl in H; inv. constructor; simpl; snoc; auto.
      apply Forall2_snoc; auto. split; auto. apply action_run_says; auto.
    - destruct (event_run xi xe p0) as [u|] eqn:Eu; simpl in H; inv. constructor; simpl; snoc; auto.
      apply Forall2_snoc; auto. split; auto. apply event_run_says; auto.
    - destruct (dbuild p0) as [d|] eqn:Ed; simpl in H; inv. constructor; simpl; snoc; auto.
      apply dsmap_insert; auto.
  Qed.

  Lemma trun_says title x p s : trun p (thing_new E X title x) = Some s -> tb_says title x p s.
  Proof.
    revert p s. apply orun_inv; [apply tb_says_nil|intros; eapply tb_says_step; eauto].
  Qed.

  (** ** Consequences *)

  Lemma olist_nonempty A (l : list A) : olist (nonempty l) = l.
  Proof. destruct l; reflexivity. Qed.

  Lemma Forall2_right A B (R : A -> B -> Prop) (P : B -> Prop) l l' b :
    Forall2 R l l' -> (forall a b, R a b -> P b) -> In b l' -> P b.
  Proof. intros F H. induction F; simpl; intros []; subst; eauto. Qed.

  Lemma Forall2_map_r A B C (R : A -> C -> Prop) (f : B -> C) l l' :
    Forall2 R l (map f l') <-> Forall2 (fun a b => R a (f b)) l l'.
  Proof.
    split.
    - revert l. induction l' as [|b l' IH]; simpl; intros l F; inversion F; subst; constructor; auto.
    - intros F. induction F; simpl; constructor; auto.
  Qed.

  Lemma sec_says_wf p r : sec_says Some p r -> sec_wf (snd r).
  Proof. intros [_ _ _ _ h _] m Em. rewrite Em in h. inversion h; subst. apply H1. Qed.

  Lemma tb_says_wf title x p s : tb_says title x p s -> tb_wf s.
  Proof.
    intros [h1 h2 h3 h4 h5 h6 h7 h8 h9 h10 h11 h12 h13 h14 h15 h16 h17 h18 h19 h20 h21 h22].
    constructor.
    - destruct h21 as [g1 g2 g3]. split; auto. apply g1.
    - destruct h18 as (m & [g1 g2 g3] & Em). intros m' Em'. rewrite Em in Em'.
      apply nonempty_Some in Em' as [<- _]. split; auto. apply g1.
    - destruct h19 as (rs & Hrs & _ & Es). intros k c Hin. rewrite Es in Hin.
      apply in_map_iff in Hin as (r & Er & Hin). inversion Er; subst.
      eapply Forall2_right in Hin; [|eauto|apply sec_says_wf]. auto.
    - intros k u Hin. apply (Forall2_right (fun ku => up_wf (snd ku)) _ h13) in Hin; auto.
      intros a b [_ [_ Hw]]. auto.
    - intros k u Hin. apply (Forall2_right (fun ku => ab_wf (snd ku)) _ h14) in Hin; auto.
      intros a b [_ [_ Hw]]. auto.
    - intros k u Hin. apply (Forall2_right (fun ku => eb_wf (snd ku)) _ h15) in Hin; auto.
      intros a b [_ [_ Hw]]. auto.
    - destruct h16 as (ls & Hls & El). intros l Hin. rewrite El, olist_nonempty in Hin.
      apply (Forall2_right (fun l => lb_href l <> None) _ Hls) in Hin; auto. tauto.
    - intros m Em. rewrite Em in h5. inversion h5; subst. apply H1.
    - intros m Em. rewrite Em in h7. inversion h7; subst. apply H1.
    - eauto.
  Qed.

  Lemma ml_declared_olist o m :
    omatch (ml_declared Some) o m -> ml_declared Some (olist o) (olist m).
  Proof. intros H. destruct H; simpl; auto. apply (ml_declared_mof []). Qed.

  Lemma tb_says_declares title x p s : tb_says title x p s -> declares p (body_of s).
  Proof.
    intros [h1 h2 h3 h4 h5 h6 h7 h8 h9 h10 h11 h12 h13 h14 h15 h16 h17 h18 h19 h20 h21 h22].
    constructor; simpl.
    - destruct h19 as (rs & Hrs & _ & Es). eauto.
    - apply h21.
    - destruct h17 as (fs & Hfs & ->). rewrite olist_nonempty. auto.
    - destruct h18 as (m & [g _ _] & ->). rewrite olist_nonempty. auto.
    - apply Forall2_map_r. eapply Forall2_mono; [|exact h13]. intros a b _ [e [g _]]. split; auto.
    - apply Forall2_map_r. eapply Forall2_mono; [|exact h14]. intros a b _ [e [g _]]. split; auto.
    - apply Forall2_map_r. eapply Forall2_mono; [|exact h15]. intros a b _ [e [g _]]. split; auto.
    - destruct h16 as (ls & Hls & ->). rewrite olist_nonempty. apply Forall2_map_r.
      eapply Forall2_mono; [|exact Hls]. intros a b _ [g _]. auto.
    - apply ml_declared_olist; auto.
    - apply ml_declared_olist; auto.
  Qed.
End Forms.
