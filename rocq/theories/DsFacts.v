(** * Facts about the data schema builder, its conversions and checks *)

From Coq Require Import String Bool ZArith Permutation Lia List.
From Coq Require Import Floats.SpecFloat.
From Verif Require Import Base MinMax Json Serde Types DsBuilder Spec.
Import ListNotations.
Set Implicit Arguments.
Local Open Scope string_scope.
Local Open Scope list_scope.

Section Facts.
  Variables DS AS OS : Type.
  Notation ds := (ds DS AS OS).
  Notation dsub := (dsub DS AS OS).
  Notation dsop := (dsop DS AS OS).
  Notation dstate := (dstate DS AS OS).

  (** ** Occurrence *)

  Lemma sub_child (e c d : ds) : In c (ds_children d) -> sub_ds e c -> sub_ds e d.
  Proof.
    destruct d as [i m o s x]. unfold ds_children; simpl. intros H Hs.
    apply in_app_or in H as [H|H].
    - destruct o as [l|]; [|destruct H]. eapply sub_one_of; simpl; eauto.
    - destruct s as [[[[c'|l]|] mn mx a| | | |[ps|] r a| | ]|]; simpl in H;
        try contradiction.
      + destruct H as [->|[]]. eapply sub_item; simpl; eauto.
      + eapply sub_items; simpl; eauto.
      + eapply in_map_iff in H as ([k c'] & E & H). simpl in E; subst.
        eapply sub_prop; simpl; eauto.
  Qed.

  Lemma sub_inv (e d : ds) : sub_ds e d -> e = d \/ exists c, In c (ds_children d) /\ sub_ds e c.
  Proof.
    intros H. destruct H; auto; right; exists c; split; auto; unfold ds_children.
    - rewrite H. apply in_or_app; auto.
    - rewrite H. apply in_or_app. right. simpl; auto.
    - rewrite H. apply in_or_app. right. simpl; auto.
    - rewrite H. apply in_or_app. right. simpl. apply in_map_iff. exists (k, c); auto.
  Qed.

  Lemma sub_trans (a b c : ds) : sub_ds a b -> sub_ds b c -> sub_ds a c.
  Proof. intros H1 H2. induction H2; eauto using sub_one_of, sub_item, sub_items, sub_prop. Qed.

  (** Properties of all occurring schemas. *)
  Definition everywhere (P : ds -> Prop) (d : ds) : Prop := forall e, sub_ds e d -> P e.

  Lemma everywhere_intro (P : ds -> Prop) d :
    P d -> (forall c, In c (ds_children d) -> everywhere P c) -> everywhere P d.
  Proof.
    intros H1 H2 e He. apply sub_inv in He as [->|(c & Hc & He)]; auto.
    eapply H2; eauto.
  Qed.

  Lemma everywhere_elim (P : ds -> Prop) d :
    everywhere P d -> P d /\ (forall c, In c (ds_children d) -> everywhere P c).
  Proof.
    intros H. split; [apply H; constructor|]. intros c Hc e He. apply H. eapply sub_child; eauto.
  Qed.

  (** ** Steps of the builder: calls with and without a closure *)

  Definition child_of (o : dsop) : option (list dsop) :=
    match o with
    | DOneOf p | DAppend p | DSetItem p | DProperty _ _ p => Some p
    | _ => None
    end.

  (** The effect of a call whose closure produced [d]. *)
  Definition dapply (o : dsop) (d : ds) (s : dstate) : option dstate :=
    match o with
    | DOneOf _ =>
        match b_kind s with
        | KBase => let? s' := specialize KOneOf s in Some (set_one_of s' (b_one_of s ++ [d]))
        | KOneOf => Some (set_one_of s (b_one_of s ++ [d]))
        | _ => None
        end
    | DAppend _ =>
        match b_kind s with
        | KTuple items x => Some (set_kind s (KTuple (items ++ [d]) x))
        | _ => None
        end
    | DSetItem _ =>
        match b_kind s with
        | KVec _ mn mx x => Some (set_kind s (KVec (Some d) mn mx x))
        | _ => None
        end
    | DProperty name required _ =>
        match b_kind s with
        | KObject ps req x =>
            Some (set_kind s (KObject (ps ++ [(name, d)]) (if required then req ++ [name] else req) x))
        | _ => None
        end
    | _ => None
    end.

  Lemma inner_run (p : list dsop) (s : dstate) :
    (fix run (p : list dsop) (s : dstate) : option dstate :=
       match p with
       | [] => Some s
       | o :: p' => let? s' := dstep o s in run p' s'
       end) p s = drun p s.
  Proof.
    revert s. induction p as [|o p IH]; intros s; simpl; auto.
  Qed.

  Lemma dstep_child o p s :
    child_of o = Some p -> dstep o s = let? d := dbuild p in dapply o d s.
  Proof.
    destruct o; simpl; intros H; inversion H; subst; unfold dbuild; rewrite inner_run;
      destruct (drun _ _); reflexivity.
  Qed.

  (** Nested induction over calls. *)
  Section Ind.
    Variable P : dsop -> Prop.
    Hypothesis Hleaf : forall o, child_of o = None -> P o.
    Hypothesis Hchild : forall o p, child_of o = Some p -> Forall P p -> P o.

    Fixpoint dsop_ind' (o : dsop) : P o :=
      let go := fix go (p : list dsop) : Forall P p :=
                  match p with
                  | [] => Forall_nil P
                  | o' :: p' => Forall_cons o' (dsop_ind' o') (go p')
                  end in
      match o with
      | DOneOf p => @Hchild (DOneOf p) p eq_refl (go p)
      | DAppend p => @Hchild (DAppend p) p eq_refl (go p)
      | DSetItem p => @Hchild (DSetItem p) p eq_refl (go p)
      | DProperty n r p => @Hchild (DProperty n r p) p eq_refl (go p)
      | o => Hleaf o eq_refl
      end.
  End Ind.

  (** A property [Q] of built schemas holds if some invariant [I] of builder values
      implies it and is kept by every call whose closures produce schemas with [Q]. *)
  Section Invariant.
    Variable I : dstate -> Prop.
    Variable Q : ds -> Prop.
    Hypothesis I_empty : I dempty.
    Hypothesis I_done : forall s d, I s -> to_ds s = Some d -> Q d.
    Hypothesis I_leaf : forall o s s', child_of o = None -> I s -> dstep o s = Some s' -> I s'.
    Hypothesis I_child : forall o p d s s',
      child_of o = Some p -> Q d -> I s -> dapply o d s = Some s' -> I s'.

    Let keeps (o : dsop) := forall s s', I s -> dstep o s = Some s' -> I s'.

    Lemma run_keeps p : Forall keeps p -> forall s s', I s -> drun p s = Some s' -> I s'.
    Proof.
      induction 1 as [|o p Ho _ IH]; simpl; intros s s' Hs H.
      - inversion H; subst; auto.
      - destruct (dstep o s) as [s1|] eqn:E; [|discriminate]. eapply IH; [|exact H].
        eapply Ho; eauto.
    Qed.

    Lemma step_invariant o : keeps o.
    Proof.
      induction o as [o Ho|o p Ho IH] using dsop_ind'; intros s s' Hs H.
      - eapply I_leaf; eauto.
      - rewrite (dstep_child _ _ Ho) in H. unfold dbuild in H.
        destruct (drun p _) as [s1|] eqn:E; [|discriminate]. simpl in H.
        destruct (to_ds s1) as [d|] eqn:Ed; [|discriminate]. simpl in H.
        apply (@I_child o p d s s'); auto. apply (@I_done s1); auto.
        apply (run_keeps IH I_empty E).
    Qed.

    Lemma run_invariant p s s' : I s -> drun p s = Some s' -> I s'.
    Proof. apply run_keeps. apply Forall_forall. intros o _. apply step_invariant. Qed.

    Lemma build_invariant p d : dbuild p = Some d -> Q d.
    Proof.
      unfold dbuild. destruct (drun p _) as [s|] eqn:E; [|discriminate]. simpl.
      intros H. eapply I_done; [|exact H]. eapply run_invariant; eauto.
    Qed.
  End Invariant.
End Facts.
