(** * Facts about assembling extensions *)

From Coq Require Import String Bool ZArith List.
From Verif Require Import Base MinMax Json Serde Types DsBuilder Builder HList Extend SpecExt.
Import ListNotations.
Set Implicit Arguments.
Local Open Scope string_scope.
Local Open Scope list_scope.

Lemma calls_app C D (l l' : list (call C D)) : calls (l ++ l') = calls l ++ calls l'.
Proof. induction l as [|[c|d] l IH]; simpl; auto. f_equal; auto. Qed.

Lemma added_app C D (l l' : list (call C D)) : added (l ++ l') = added l ++ added l'.
Proof. induction l as [|[c|d] l IH]; simpl; auto. f_equal; auto. Qed.

Lemma orun_snoc O S (step : O -> S -> option S) p o s :
  orun step (p ++ [o]) s = let? s' := orun step p s in step o s'.
Proof.
  revert s. induction p as [|a p IH]; intros s; simpl.
  - destruct (step o s); reflexivity.
  - destruct (step a s); simpl; auto.
Qed.

Lemma lefts_snoc_l A B (l : list (A + B)) a : lefts (l ++ [inl a]) = lefts l ++ [a].
Proof. unfold lefts. rewrite flat_map_app. reflexivity. Qed.
Lemma lefts_snoc_r A B (l : list (A + B)) b : lefts (l ++ [inr b]) = lefts l.
Proof. unfold lefts. rewrite flat_map_app. simpl. apply app_nil_r. Qed.
Lemma rights_snoc_l A B (l : list (A + B)) a : rights (l ++ [inl a]) = rights l.
Proof. unfold rights. rewrite flat_map_app. simpl. apply app_nil_r. Qed.
Lemma rights_snoc_r A B (l : list (A + B)) b : rights (l ++ [inr b]) = rights l ++ [b].
Proof. unfold rights. rewrite flat_map_app. reflexivity. Qed.

(** ** Forms *)

Lemma form_call_other X O (o : fop X) (s s' : open_form X O) :
  form_call o s = Some s' -> of_other s' = of_other s.
Proof.
  destruct o; simpl; try (intros H; injection H as <-; reflexivity).
  destruct (of_href s); [discriminate|]. intros H; injection H as <-; reflexivity.
Qed.

Lemma form_call_step X O (conv : O -> pty (x_f X)) (o : fop X) s s' :
  form_call o s = Some s' -> fstep o (form_close conv s) = Some (form_close conv s').
Proof.
  destruct o; simpl; try (intros H; injection H as <-; reflexivity).
  destruct (of_href s); [discriminate|]. intros H; injection H as <-; reflexivity.
Qed.

Lemma form_assembled X cs ts (s : open_form X (hl ts)) :
  form_reached cs ts s ->
  elems ts (of_other s) = rev (added cs)
  /\ forall conv, orun (@fstep X) (calls cs) (form_new X (conv (of_other s)))
                  = Some (form_close conv s).
Proof.
  induction 1 as [|cs ts s o s' H [IH1 IH2] Hc|cs ts s T v H [IH1 IH2]].
  - split; reflexivity.
  - rewrite calls_app, added_app, app_nil_r. rewrite (form_call_other o s Hc). split; auto.
    intros conv. simpl. rewrite orun_snoc, IH2. simpl. apply form_call_step; auto.
  - rewrite calls_app, added_app, app_nil_r. split.
    + cbn [added]. rewrite rev_app_distr. simpl. f_equal. exact IH1.
    + intros conv. exact (IH2 (fun l => conv (v, l))).
Qed.

(** ** Affordances *)

Lemma ia_call_other X O (o : ia_op X) (s s' : open_ia X O) :
  ia_call o s = Some s' -> oi_other s' = oi_other s.
Proof.
  destruct o; simpl; intros H.
  - destruct (form_run x p); simpl in H; [|discriminate]. injection H as <-; reflexivity.
  - destruct (dbuild p); simpl in H; [|discriminate]. injection H as <-; reflexivity.
Qed.

Lemma ia_call_step X O (conv : O -> pty (x_ia X)) (o : ia_op X) s s' :
  ia_call o s = Some s' -> ia_step o (ia_close conv s) = Some (ia_close conv s').
Proof.
  destruct o; simpl; intros H.
  - destruct (form_run x p); simpl in *; [|discriminate]. injection H as <-; reflexivity.
  - destruct (dbuild p); simpl in *; [|discriminate]. injection H as <-; reflexivity.
Qed.

Lemma property_call_others X I O (o : pop X) s s' :
  @property_call X I O o s = Some s' ->
  oi_other (op_ia s') = oi_other (op_ia s) /\ op_other s' = op_other s.
Proof.
  destruct o; simpl; intros H.
  - destruct (if delegated X o then dstep o (op_ds s) else None); simpl in H; [|discriminate].
    injection H as <-; auto.
  - destruct (ia_call o (op_ia s)) eqn:Ei; simpl in H; [|discriminate]. injection H as <-. simpl.
    split; auto. eapply ia_call_other; eauto.
  - injection H as <-; auto.
Qed.

Lemma property_call_step X I O ci co (o : pop X) s s' :
  @property_call X I O o s = Some s' ->
  pstep o (property_close ci co s) = Some (property_close ci co s').
Proof.
  destruct o; simpl; intros H.
  - destruct (if delegated X o then dstep o (op_ds s) else None); simpl in *; [|discriminate].
    injection H as <-; auto.
  - destruct (ia_call o (op_ia s)) eqn:Ei; simpl in H; [|discriminate]. injection H as <-.
    apply (ia_call_step ci) in Ei. rewrite Ei. reflexivity.
  - injection H as <-; auto.
Qed.

Lemma property_assembled X cs ti to s :
  @property_reached X cs ti to s ->
  elems ti (oi_other (op_ia s)) = rev (lefts (added cs))
  /\ elems to (op_other s) = rev (rights (added cs))
  /\ forall ci co,
      orun (@pstep X) (calls cs) (property_start X (ci (oi_other (op_ia s))) (co (op_other s)))
      = Some (property_close ci co s).
Proof.
  induction 1 as [|cs ti to s o s' H (IH1 & IH2 & IH3) Hc|cs ti to s T v H (IH1 & IH2 & IH3)
                  |cs ti to s T v H (IH1 & IH2 & IH3)].
  - repeat split.
  - rewrite calls_app, added_app, app_nil_r.
    destruct (property_call_others o s Hc) as [E1 E2]. rewrite E1, E2.
    split; auto. split; auto. intros ci co. simpl. rewrite orun_snoc, IH3. simpl.
    apply property_call_step; auto.
  - rewrite calls_app, added_app, app_nil_r. cbn [added]. split; [|split].
    + rewrite lefts_snoc_l, rev_app_distr. simpl. f_equal. exact IH1.
    + rewrite rights_snoc_l. exact IH2.
    + intros ci co. exact (IH3 (fun l => ci (v, l)) co).
  - rewrite calls_app, added_app, app_nil_r. cbn [added]. split; [|split].
    + rewrite lefts_snoc_r. exact IH1.
    + rewrite rights_snoc_r, rev_app_distr. simpl. f_equal. exact IH2.
    + intros ci co. exact (IH3 ci (fun l => co (v, l))).
Qed.

Lemma action_call_others X I O (o : aop X) (s s' : open_action X I O) :
  action_call o s = Some s' ->
  oi_other (oa_ia s') = oi_other (oa_ia s) /\ oa_other s' = oa_other s.
Proof.
  destruct o; cbn [action_call]; intros H; try (injection H as <-; split; reflexivity).
  - destruct (ia_call o (oa_ia s)) eqn:Ei; simpl in H; [|discriminate]. injection H as <-. simpl.
    split; auto. eapply ia_call_other; eauto.
  - destruct (dbuild p); simpl in H; [|discriminate]. injection H as <-; auto.
  - destruct (dbuild p); simpl in H; [|discriminate]. injection H as <-; auto.
Qed.

Lemma action_call_step X I O ci co (o : aop X) (s s' : open_action X I O) :
  action_call o s = Some s' ->
  astep o (action_close ci co s) = Some (action_close ci co s').
Proof.
  destruct o; cbn [action_call astep]; intros H; try (injection H as <-; reflexivity).
  - destruct (ia_call o (oa_ia s)) eqn:Ei; simpl in H; [|discriminate]. injection H as <-.
    apply (ia_call_step ci) in Ei. simpl. rewrite Ei. reflexivity.
  - destruct (dbuild p); simpl in *; [|discriminate]. injection H as <-; auto.
  - destruct (dbuild p); simpl in *; [|discriminate]. injection H as <-; auto.
Qed.

Lemma action_assembled X cs ti to s :
  @action_reached X cs ti to s ->
  elems ti (oi_other (oa_ia s)) = rev (lefts (added cs))
  /\ elems to (oa_other s) = rev (rights (added cs))
  /\ forall ci co,
      action_run (ci (oi_other (oa_ia s))) (co (oa_other s)) (calls cs)
      = Some (action_close ci co s).
Proof.
  unfold action_run.
  induction 1 as [|cs ti to s o s' H (IH1 & IH2 & IH3) Hc|cs ti to s T v H (IH1 & IH2 & IH3)
                  |cs ti to s T v H (IH1 & IH2 & IH3)].
  - repeat split.
  - rewrite calls_app, added_app, app_nil_r.
    destruct (action_call_others o s Hc) as [E1 E2]. rewrite E1, E2.
    split; auto. split; auto. intros ci co. simpl. rewrite orun_snoc, IH3. simpl.
    apply action_call_step; auto.
  - rewrite calls_app, added_app, app_nil_r. cbn [added]. split; [|split].
    + rewrite lefts_snoc_l, rev_app_distr. simpl. f_equal. exact IH1.
    + rewrite rights_snoc_l. exact IH2.
    + intros ci co. exact (IH3 (fun l => ci (v, l)) co).
  - rewrite calls_app, added_app, app_nil_r. cbn [added]. split; [|split].
    + rewrite lefts_snoc_r. exact IH1.
    + rewrite rights_snoc_r, rev_app_distr. simpl. f_equal. exact IH2.
    + intros ci co. exact (IH3 ci (fun l => co (v, l))).
Qed.

Lemma event_call_others X I O (o : eop X) (s s' : open_event X I O) :
  event_call o s = Some s' ->
  oi_other (oe_ia s') = oi_other (oe_ia s) /\ oe_other s' = oe_other s.
Proof.
  destruct o; cbn [event_call]; intros H; try (injection H as <-; split; reflexivity);
    try (destruct (dbuild p); simpl in H; [|discriminate]; injection H as <-; auto; fail).
  destruct (ia_call o (oe_ia s)) eqn:Ei; simpl in H; [|discriminate]. injection H as <-. simpl.
  split; auto. eapply ia_call_other; eauto.
Qed.

Lemma event_call_step X I O ci co (o : eop X) (s s' : open_event X I O) :
  event_call o s = Some s' ->
  estep o (event_close ci co s) = Some (event_close ci co s').
Proof.
  destruct o; cbn [event_call estep]; intros H; try (injection H as <-; reflexivity);
    try (destruct (dbuild p); simpl in *; [|discriminate]; injection H as <-; auto; fail).
  destruct (ia_call o (oe_ia s)) eqn:Ei; simpl in H; [|discriminate]. injection H as <-.
  apply (ia_call_step ci) in Ei. simpl. rewrite Ei. reflexivity.
Qed.

Lemma event_assembled X cs ti to s :
  @event_reached X cs ti to s ->
  elems ti (oi_other (oe_ia s)) = rev (lefts (added cs))
  /\ elems to (oe_other s) = rev (rights (added cs))
  /\ forall ci co,
      event_run (ci (oi_other (oe_ia s))) (co (oe_other s)) (calls cs)
      = Some (event_close ci co s).
Proof.
  unfold event_run.
  induction 1 as [|cs ti to s o s' H (IH1 & IH2 & IH3) Hc|cs ti to s T v H (IH1 & IH2 & IH3)
                  |cs ti to s T v H (IH1 & IH2 & IH3)].
  - repeat split.
  - rewrite calls_app, added_app, app_nil_r.
    destruct (event_call_others o s Hc) as [E1 E2]. rewrite E1, E2.
    split; auto. split; auto. intros ci co. simpl. rewrite orun_snoc, IH3. simpl.
    apply event_call_step; auto.
  - rewrite calls_app, added_app, app_nil_r. cbn [added]. split; [|split].
    + rewrite lefts_snoc_l, rev_app_distr. simpl. f_equal. exact IH1.
    + rewrite rights_snoc_l. exact IH2.
    + intros ci co. exact (IH3 (fun l => ci (v, l)) co).
  - rewrite calls_app, added_app, app_nil_r. cbn [added]. split; [|split].
    + rewrite lefts_snoc_r. exact IH1.
    + rewrite rights_snoc_r, rev_app_distr. simpl. f_equal. exact IH2.
    + intros ci co. exact (IH3 ci (fun l => co (v, l))).
Qed.

(** ** Data schemas *)

Lemma drun_app DS AS OS (p q : list (dsop DS AS OS)) s :
  drun (p ++ q) s = let? s' := drun p s in drun q s'.
Proof.
  revert s. induction p as [|o p IH]; intros s; simpl; auto.
  destruct (dstep o s); simpl; auto.
Qed.

Lemma ds_assembled AS OS cs ts (s : open_ds (hl ts) AS OS) :
  ds_reached cs ts s ->
  od_one_of s = []
  /\ elems ts (od_other s) = rev (added cs)
  /\ forall DS, drun (map (ds_late DS AS OS) (calls cs)) (@dempty DS AS OS)
      = Some {| b_info := od_info s; b_const := od_const s; b_default := od_default s;
                b_unit := od_unit s; b_one_of := []; b_enum := od_enum s; b_ro := od_ro s;
                b_wo := od_wo s; b_format := od_format s; b_other := None;
                b_kind := @KBase DS AS OS; b_wrap := WNone |}.
Proof.
  induction 1 as [|cs ts s o H (IH1 & IH2 & IH3)|cs ts s T v H (IH1 & IH2 & IH3)].
  - repeat split.
  - rewrite calls_app, added_app, app_nil_r. split; [|split].
    + destruct o; exact IH1.
    + destruct o; exact IH2.
    + intros DS. rewrite map_app, drun_app, IH3. destruct o; reflexivity.
  - rewrite calls_app, added_app, app_nil_r. split; [reflexivity|split].
    + cbn [added]. rewrite rev_app_distr. simpl. f_equal. exact IH2.
    + intros DS. rewrite IH3. reflexivity.
Qed.

Lemma ds_finish_assembled AS OS cs ts (s : open_ds (hl ts) AS OS) :
  ds_reached cs ts s ->
  drun (map (ds_late (hl ts) AS OS) (calls cs) ++ [DFinish (od_other s)]) (@dempty (hl ts) AS OS)
  = Some (ds_finish s).
Proof.
  intros H. apply ds_assembled in H as (H1 & _ & H3). rewrite drun_app, H3. simpl.
  unfold ds_finish. rewrite H1. reflexivity.
Qed.

(** ** Things *)

Lemma tstep_early_other E X (o : thing_early E) (s s' : tstate E X) :
  tstep (thing_late X o) s = Some s' -> tb_other s' = tb_other s.
Proof.
  destruct o; cbn [thing_late tstep]; intros H; try (injection H as <-; reflexivity).
  - destruct (String.eqb s0 _); injection H as <-; reflexivity.
  - destruct (link_run p); simpl in H; [|discriminate]. injection H as <-; reflexivity.
  - destruct (sec_run p) as [[[n r] d]|]; simpl in H; [|discriminate].
    destruct r; injection H as <-; reflexivity.
Qed.

Lemma tstep_early_bare E X (o : thing_early E) (s s' : tstate E X) :
  tstep (thing_late X o) s = Some s' -> thing_bare s -> thing_bare s'.
Proof.
  unfold thing_bare.
  destruct o; cbn [thing_late tstep]; intros H Hb; try (injection H as <-; exact Hb).
  - destruct (String.eqb s0 _); injection H as <-; exact Hb.
  - destruct (link_run p); simpl in H; [|discriminate]. injection H as <-; exact Hb.
  - destruct (sec_run p) as [[[n r] d]|]; simpl in H; [|discriminate].
    destruct r; injection H as <-; exact Hb.
Qed.

Lemma tstep_early_ext E X A v (o : thing_early E) (s s' : tstate E X) :
  tstep (thing_late X o) s = Some s' ->
  tstep (thing_late (cons_exts A X) o) (thing_ext A v s) = Some (thing_ext A v s').
Proof.
  destruct o; cbn [thing_late tstep]; intros H; try (injection H as <-; reflexivity).
  - destruct (String.eqb s0 _); injection H as <-; reflexivity.
  - destruct (link_run p); simpl in *; [|discriminate]. injection H as <-; reflexivity.
  - destruct (sec_run p) as [[[n r] d]|]; simpl in *; [|discriminate].
    destruct r; injection H as <-; reflexivity.
Qed.

Lemma trun_early_ext E X A v (l : list (thing_early E)) (s s' : tstate E X) :
  trun (map (thing_late X) l) s = Some s' ->
  trun (map (thing_late (cons_exts A X)) l) (thing_ext A v s) = Some (thing_ext A v s').
Proof.
  unfold trun. revert s. induction l as [|o l IH]; intros s H; simpl in *.
  - injection H as <-. reflexivity.
  - destruct (tstep (thing_late X o) s) eqn:Eo; simpl in H; [|discriminate].
    apply (tstep_early_ext A v) in Eo. rewrite Eo. simpl. auto.
Qed.

Lemma thing_assembled E title cs l (s : tstate E (all_exts l)) :
  thing_reached title cs l s ->
  thing_bare s
  /\ thing_elems l (tb_other s) = rev (added cs)
  /\ trun (map (thing_late (all_exts l)) (calls cs)) (thing_new E (all_exts l) title (tb_other s))
     = Some s.
Proof.
  induction 1 as [|cs l s o s' H (IH1 & IH2 & IH3) Hc|cs l s A v H (IH1 & IH2 & IH3)].
  - repeat split.
  - rewrite calls_app, added_app, app_nil_r. split; [|split].
    + eapply tstep_early_bare; eauto.
    + rewrite (tstep_early_other o s Hc). exact IH2.
    + rewrite (tstep_early_other o s Hc), map_app. unfold trun in *. simpl.
      rewrite orun_snoc, IH3. exact Hc.
  - rewrite calls_app, added_app, app_nil_r. split; [|split].
    + repeat split. exact (proj2 (proj2 (proj2 (proj2 (proj2 (proj2 IH1)))))).
    + cbn [added]. rewrite rev_app_distr. simpl. f_equal. exact IH2.
    + exact (trun_early_ext A v _ _ IH3).
Qed.

Lemma thing_assembled_then E title cs l (s : tstate E (all_exts l)) q :
  thing_reached title cs l s ->
  trun (map (thing_late (all_exts l)) (calls cs) ++ q) (thing_new E (all_exts l) title (tb_other s))
  = trun q s.
Proof.
  intros H. apply thing_assembled in H as (_ & _ & H). revert H.
  unfold trun. generalize (map (thing_late (all_exts l)) (calls cs)) as p,
    (thing_new E (all_exts l) title (tb_other s)) as s0.
  induction p as [|o p IH]; intros s0 H; simpl in *.
  - injection H as ->. reflexivity.
  - destruct (tstep o s0); simpl in *; [auto|discriminate].
Qed.
