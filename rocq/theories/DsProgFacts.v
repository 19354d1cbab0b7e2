(** * Facts about data schema builder programs *)

From Coq Require Import String Bool ZArith Permutation Lia List.
From Verif Require Import Base MinMax Json Serde Types DsBuilder Spec DsFacts ConvFacts SpecCalls.
Import ListNotations.
Set Implicit Arguments.
Local Open Scope string_scope.
Local Open Scope list_scope.

(** ** picks, lasto, maps *)

Lemma picks_app O B (f : O -> option B) p q : picks f (p ++ q) = picks f p ++ picks f q.
Proof. unfold picks. apply flat_map_app. Qed.

Lemma picks_one O B (f : O -> option B) o : picks f [o] = otolist (f o).
Proof. unfold picks. simpl. apply app_nil_r. Qed.

Lemma lasto_snoc A (l : list A) a : lasto (l ++ [a]) = Some a.
Proof. induction l as [|b l IH]; simpl; auto. rewrite IH. auto. Qed.

Lemma nonempty_snoc A (l : list A) a : nonempty (l ++ [a]) = Some (l ++ [a]).
Proof. destruct l; reflexivity. Qed.

Lemma opush_nonempty A (l : list A) a : opush (nonempty l) a = nonempty (l ++ [a]).
Proof. destruct l; reflexivity. Qed.

Lemma nonempty_inj A (l l' : list A) : nonempty l = nonempty l' -> l = l'.
Proof. destruct l, l'; simpl; congruence. Qed.

Lemma mof_snoc A (l : list (string * A)) k v : mof (l ++ [(k, v)]) = minsert k v (mof l).
Proof. unfold mof. rewrite fold_left_app. reflexivity. Qed.

Lemma llook_app A k (l l' : list (string * A)) :
  llook k (l ++ l') = match llook k l' with Some v => Some v | None => llook k l end.
Proof.
  induction l as [|[k0 v0] l IH]; simpl; [destruct (llook k l'); auto|].
  rewrite IH. destruct (llook k l'); auto.
Qed.

Lemma ml_declared_Some l m :
  ml_declared Some l m <-> msorted m /\ forall k, mlook k m = llook k l.
Proof.
  split.
  - intros [Hs Hk Ho]. split; auto. intros k.
    destruct (mlook k m) as [v|] eqn:E.
    + apply mlook_Some_In in E. destruct (Ho _ _ E) as (k0 & E0 & H). inversion E0; subst; auto.
    + destruct (llook k l) as [v|] eqn:E'; auto.
      destruct (Hk _ _ E') as (k0 & E0 & H). inversion E0; subst.
      apply mlook_None in E. contradiction.
  - intros [Hs Hl]. split; auto.
    + intros k v H. exists k. split; auto. rewrite <- Hl in H. apply mlook_Some_In in H.
      unfold mkeys. apply in_map_iff. exists (k, v); auto.
    + intros k v H. exists k. split; auto. rewrite <- Hl. apply In_mlook; auto. apply msorted_NoDup; auto.
Qed.

Lemma ml_declared_mof l : ml_declared Some l (mof l).
Proof. apply ml_declared_Some. split; [apply msorted_mof|intros; apply mlook_mof]. Qed.

Lemma nonempty_Some A (l : list A) l' : nonempty l = Some l' -> l = l' /\ l <> [].
Proof. destruct l; simpl; intros H; inversion H; subst; split; auto; discriminate. Qed.

Local Hint Constructors omatch : core.

(** ** Human readable information *)

Lemma info_declared_nil : info_declared Some [] no_info.
Proof. constructor; simpl; auto. Qed.

Lemma info_declared_snoc p i o : info_declared Some p i -> info_declared Some (p ++ [o]) (info_step o i).
Proof.
  intros H. destruct H. destruct o; constructor; simpl; rewrite ?picks_app, ?picks_one; simpl;
    rewrite ?app_nil_r, ?lasto_snoc, <- ?opush_nonempty; auto; simpl; try congruence;
    constructor; apply ml_declared_mof.
Qed.

Lemma info_declared_wf p i : info_declared Some p i -> info_wf i.
Proof.
  intros H. destruct H. split; intros m E.
  - rewrite E in id_titles. inversion id_titles as [|a b Hm]; subst. apply Hm.
  - rewrite E in id_descriptions. inversion id_descriptions as [|a b Hm]; subst. apply Hm.
Qed.

Lemma omatch_None A B (R : A -> B -> Prop) (a : option A) : omatch R a None -> a = None.
Proof. intros H; inversion H; auto. Qed.

Lemma omatch_mono A B (R R' : A -> B -> Prop) a b :
  (forall x y, a = Some x -> R x y -> R' x y) -> omatch R a b -> omatch R' a b.
Proof. intros H Hm. destruct Hm; constructor; auto. Qed.

Section Facts.
  Variables DS AS OS : Type.
  Notation ds := (ds DS AS OS).
  Notation dsub := (dsub DS AS OS).
  Notation dsop := (dsop DS AS OS).
  Notation dstate := (dstate DS AS OS).

  Lemma drun_app (p q : list dsop) (s : dstate) :
    drun (p ++ q) s = let? s' := drun p s in drun q s'.
  Proof.
    revert s. induction p as [|o p IH]; intros s; simpl; auto.
    destruct (dstep o s); simpl; auto.
  Qed.

  (** The type specific part of a builder value. *)
  Definition ksub (k : dkind DS AS OS) : option dsub :=
    match k with
    | KBase | KEnum | KOneOf => None
    | KStateless ty => option_map (@stateless_sub DS AS OS) ty
    | KTuple items o => Some (SArray (Some (BVec items)) None None o)
    | KVec item mn mx o => Some (SArray (option_map (fun d => BElem d) item) mn mx o)
    | KNumber n => Some (SNumber n)
    | KInteger n => Some (SInteger n)
    | KObject ps req o => Some (SObject (option_map (@mof ds) (nonempty ps)) (nonempty req) o)
    | KString t => Some (SString t)
    end.

  Definition is_base (k : dkind DS AS OS) : bool := match k with KBase => true | _ => false end.

  (** Members are set only in the states that keep them. *)
  Record shape (s : dstate) : Prop := {
    sh_base : match b_kind s with KBase => b_wrap s = WNone | _ => b_other s <> None end;
    sh_const : match b_kind s with
               | KStateless None => b_const s <> None /\ b_wrap s = WRO
               | _ => b_const s = None
               end;
    sh_enum : match b_kind s with KEnum => b_enum s <> [] | _ => b_enum s = [] end;
    sh_one_of : match b_kind s with KOneOf => b_one_of s <> [] | _ => b_one_of s = [] end;
    sh_wrap : match b_wrap s with
              | WNone => b_ro s = false /\ b_wo s = false
              | WRO => b_wo s = false
              | WWO => b_ro s = false /\ b_wo s = true
              end;
  }.

  Lemma shape_empty : shape dempty.
  Proof. constructor; simpl; auto. Qed.

  Lemma snoc_not_nil A (l : list A) a : l ++ [a] <> [].
  Proof. destruct l; discriminate. Qed.

  Ltac inv := repeat match goal with
    | H : Some _ = Some _ |- _ => inversion H; clear H; subst
    | H : None = Some _ |- _ => discriminate H
    | H : Some _ = None |- _ => discriminate H
    end.

  Lemma specialize_inv k s (s' : dstate) :
    specialize k s = Some s' ->
    b_kind s = KBase /\ b_wrap s = WNone /\ (exists x, b_other s = Some x) /\ s' = set_kind s k.
  Proof.
    unfold specialize. destruct (b_kind s), (b_other s) eqn:?, (b_wrap s) eqn:?; intros H; inv; eauto 6;
      try discriminate.
  Qed.

  Ltac spec H :=
    apply specialize_inv in H as (?Hk & ?Hw & (?x & ?Ho) & ->).

  Lemma shape_leaf o s s' : child_of o = None -> shape s -> dstep o s = Some s' -> shape s'.
  Proof.
    intros Hc Hs H. destruct Hs as [h1 h2 h3 h4 h5].
    destruct o; simpl in Hc; try discriminate; simpl in H;
      unfold specialize, can_rw, on_number, on_integer, on_string in H;
      try (inv; constructor; simpl; auto; fail);
      destruct (b_kind s) eqn:Ek; try discriminate;
      try (destruct (b_other s) eqn:Eo; try discriminate);
      try (destruct (b_wrap s) eqn:Ew; try discriminate);
      simpl in H; inv;
      constructor; simpl; rewrite ?Ek, ?Ew, ?Eo; auto using snoc_not_nil; try congruence; try tauto;
      try (split; congruence);
      try (destruct ty; intuition congruence).
  Qed.

  Lemma shape_apply o d s s' : shape s -> dapply o d s = Some s' -> shape s'.
  Proof.
    intros Hs H. destruct Hs as [h1 h2 h3 h4 h5].
    destruct o; simpl in H; try discriminate; unfold specialize in H;
      destruct (b_kind s) eqn:Ek; try discriminate;
      try (destruct (b_other s) eqn:Eo; try discriminate);
      try (destruct (b_wrap s) eqn:Ew; try discriminate);
      simpl in H; inv;
      constructor; simpl; rewrite ?Ek, ?Ew, ?Eo; auto using snoc_not_nil; try congruence; try tauto.
  Qed.

  Lemma shape_run p s s' : shape s -> drun p s = Some s' -> shape s'.
  Proof.
    apply run_invariant with (Q := fun _ => True); auto using shape_empty.
    - apply shape_leaf.
    - intros o q d s0 s0' _ _ Hs H. eapply shape_apply; eauto.
  Qed.

  (** What [to_ds] makes of a well-shaped builder value. *)
  Lemma to_ds_eq s (d : ds) :
    shape s -> to_ds s = Some d ->
    ds_info d = b_info s
    /\ m_const (ds_misc d) = b_const s
    /\ m_default (ds_misc d) = b_default s
    /\ m_unit (ds_misc d) = b_unit s
    /\ m_enum (ds_misc d) = nonempty (b_enum s)
    /\ m_format (ds_misc d) = b_format s
    /\ ds_one_of d = nonempty (b_one_of s)
    /\ m_ro (ds_misc d) = match b_wrap s with WRO => true | _ => false end
    /\ m_wo (ds_misc d) = match b_wrap s with WWO => true | _ => false end
    /\ Some (ds_other d) = b_other s
    /\ ds_sub d = ksub (b_kind s)
    /\ b_kind s <> KBase.
  Proof.
    intros Hs H. destruct Hs as [h1 h2 h3 h4 h5].
    unfold to_ds, kind_to_ds in H.
    destruct (b_other s) as [x|] eqn:Eo; [|destruct (b_wrap s); discriminate].
    destruct (b_kind s) eqn:Ek; try (destruct (b_wrap s); discriminate);
      destruct (b_wrap s) eqn:Ew; simpl in H; inv; simpl;
      rewrite ?h2, ?h3, ?h4; simpl;
      repeat split; auto; try congruence; try tauto; try (destruct ty; intuition congruence).
    all: try (destruct (b_enum s); [congruence|reflexivity]).
    all: try (destruct (b_one_of s); [congruence|reflexivity]).
  Qed.

  (** ** Properties of every nested schema *)

  Definition kind_children (k : dkind DS AS OS) : list ds :=
    match k with
    | KTuple items _ => items
    | KVec (Some d) _ _ _ => [d]
    | KObject ps _ _ => map snd ps
    | _ => []
    end.

  Definition state_children (s : dstate) : list ds := b_one_of s ++ kind_children (b_kind s).

  Lemma ksub_children k c :
    In c (match ksub k with Some s => sub_children s | None => [] end) -> In c (kind_children k).
  Proof.
    destruct k as [|[[]|]|items x|[d|] mn mx x|n|n|ps r x|t| |]; simpl; auto.
    destruct ps as [|kv ps]; [intros []|]. simpl option_map.
    set (l := kv :: ps). intros H. apply in_map_iff in H as ([k c'] & <- & H).
    apply In_mof in H. apply in_map_iff. exists (k, c'); auto.
  Qed.

  Lemma to_ds_children s d c :
    shape s -> to_ds s = Some d -> In c (ds_children d) -> In c (state_children s).
  Proof.
    intros Hs H Hc. apply to_ds_eq in H as (_ & _ & _ & _ & _ & _ & Ho & _ & _ & _ & Hsub & _); auto.
    unfold ds_children in Hc. rewrite Ho, Hsub in Hc. unfold state_children.
    apply in_app_or in Hc. apply in_or_app. destruct Hc as [Hc|Hc].
    - left. destruct (b_one_of s); auto.
    - right. apply ksub_children; auto.
  Qed.

  Lemma leaf_children o s s' c :
    child_of o = None -> dstep o s = Some s' -> In c (state_children s') -> In c (state_children s).
  Proof.
    intros Hc H. destruct o; simpl in Hc; try discriminate; simpl in H;
      unfold on_number, on_integer, on_string in H;
      try (inv; auto; fail);
      try (spec H; unfold state_children; simpl; rewrite Hk; auto; fail);
      try (destruct (b_kind s) eqn:Ek; try discriminate; try (destruct (b_wrap s); try discriminate); inv;
           unfold state_children; simpl; rewrite ?Ek; auto; fail).
    - destruct (b_kind s) eqn:Ek; try discriminate. destruct (b_other s); try discriminate. inv. auto.
    - destruct (specialize _ s) as [s1|] eqn:E; simpl in H; [|discriminate]. inv. spec E.
      unfold state_children; simpl; rewrite Hk; auto.
    - destruct (b_kind s) eqn:Ek; try discriminate.
      + destruct (specialize _ s) as [s1|] eqn:E; simpl in H; [|discriminate]. inv. spec E.
        unfold state_children; simpl; rewrite Hk; auto.
      + inv. auto.
    - destruct (can_rw s); inv; auto; discriminate.
    - destruct (can_rw s); inv; auto; discriminate.
  Qed.

  Lemma apply_children o d s s' c :
    dapply o d s = Some s' -> In c (state_children s') -> c = d \/ In c (state_children s).
  Proof.
    intros H Hc. destruct o; simpl in H; try discriminate; unfold state_children in *.
    - destruct (b_kind s) eqn:Ek; try discriminate.
      + destruct (specialize _ s) as [s1|] eqn:E; simpl in H; [|discriminate]. inv. spec E.
        simpl in Hc. rewrite !in_app_iff in *. simpl in *. intuition.
      + inv. simpl in Hc. rewrite Ek in Hc. rewrite !in_app_iff in *. simpl in *. intuition.
    - destruct (b_kind s) eqn:Ek; try discriminate. inv. simpl in Hc.
      rewrite !in_app_iff in *. simpl in *. intuition.
    - destruct (b_kind s) eqn:Ek; try discriminate. inv. simpl in Hc.
      rewrite !in_app_iff in *. simpl in *. intuition.
    - destruct (b_kind s) eqn:Ek; try discriminate. inv. simpl in Hc.
      rewrite map_app in Hc. rewrite !in_app_iff in *. simpl in *. intuition.
  Qed.

  (** If [J] is kept by all calls and gives [P], all schemas nested in what a
      program produces satisfy [P]. *)
  Section Everywhere.
    Variable J : dstate -> Prop.
    Variable P : ds -> Prop.
    Hypothesis J_empty : J dempty.
    Hypothesis J_done : forall s d, shape s -> J s -> to_ds s = Some d -> P d.
    Hypothesis J_leaf : forall o s s', child_of o = None -> shape s -> J s -> dstep o s = Some s' -> J s'.
    Hypothesis J_child : forall o d s s', shape s -> J s -> dapply o d s = Some s' -> J s'.

    Let I s := shape s /\ J s /\ forall c, In c (state_children s) -> everywhere P c.

    Lemma I_ok : I dempty
      /\ (forall s d, I s -> to_ds s = Some d -> everywhere P d)
      /\ (forall o s s', child_of o = None -> I s -> dstep o s = Some s' -> I s')
      /\ (forall o p d s s', child_of o = Some p -> everywhere P d -> I s -> dapply o d s = Some s' -> I s').
    Proof.
      split; [|split; [|split]].
      - split; [apply shape_empty|split; auto]. intros c [].
      - intros s d (Hs & Hj & Hc) H. apply everywhere_intro; [eapply J_done; eauto|].
        intros c Hin. apply Hc. eapply to_ds_children; eauto.
      - intros o s s' Ho (Hs & Hj & Hc) H. split; [|split].
        + eapply shape_leaf; eauto.
        + eapply J_leaf; eauto.
        + intros c Hin. apply Hc. eapply leaf_children; eauto.
      - intros o p d s s' Ho Hd (Hs & Hj & Hc) H. split; [|split].
        + eapply shape_apply; eauto.
        + eapply J_child; eauto.
        + intros c Hin. eapply apply_children in Hin; [|eauto]. destruct Hin as [->|Hin]; auto.
    Qed.

    Lemma build_everywhere p d : dbuild p = Some d -> everywhere P d.
    Proof.
      destruct I_ok as (H1 & H2 & H3 & H4). intros H.
      apply (@build_invariant DS AS OS I (everywhere P) H1 H2 H3 H4 p d H).
    Qed.

    (** Also for a builder run that is part of something larger. *)
    Lemma run_everywhere p s d : drun p dempty = Some s -> to_ds s = Some d -> everywhere P d.
    Proof.
      intros H Hd. apply (@build_everywhere p). unfold dbuild. rewrite H. exact Hd.
    Qed.
  End Everywhere.

  (** ** Declared content *)

  Definition gives (q : list dsop) (c : ds) : Prop := dbuild q = Some c.
  Notation sub_declared := (@sub_declared DS AS OS gives).
  Notation ds_declared := (@ds_declared DS AS OS Some gives).

  Record st_declared (p : list dsop) (s : dstate) : Prop := {
    st_info : info_declared Some (picks (@d_info _ _ _) p) (b_info s);
    st_const : b_const s = lasto (picks (@d_constant _ _ _) p);
    st_default : b_default s = lasto (picks (@d_default _ _ _) p);
    st_unit : b_unit s = lasto (picks (@d_unit _ _ _) p);
    st_format : b_format s = lasto (picks (@d_format _ _ _) p);
    st_enum : b_enum s = picks (@d_enum _ _ _) p;
    st_one_of : Forall2 gives (picks (@d_one_of _ _ _) p) (b_one_of s);
    st_wrap : b_wrap s = if some_call (@is_read_only _ _ _) p then WRO
                         else if some_call (@is_write_only _ _ _) p then WWO else WNone;
    st_rw : some_call (@is_read_only _ _ _) p = true -> some_call (@is_write_only _ _ _) p = false;
    st_other : picks (@d_finish _ _ _) p = otolist (b_other s);
    st_sub : sub_declared p (ksub (b_kind s));
  }.

  Lemma some_call_app O (f : O -> bool) p q : some_call f (p ++ q) = some_call f p || some_call f q.
  Proof. apply existsb_app. Qed.

  Lemma sub_declared_nil : sub_declared [] (None : option dsub).
  Proof. constructor; simpl; auto. Qed.

  Lemma st_declared_nil : st_declared [] dempty.
  Proof.
    constructor; simpl; auto.
    - apply info_declared_nil.
    - apply sub_declared_nil.
  Qed.

  Ltac snoc := rewrite ?picks_app, ?picks_one, ?some_call_app; simpl;
               rewrite ?app_nil_r, ?orb_false_r, ?lasto_snoc.

  (** Calls that do not concern the type specific part. *)
  Lemma sub_declared_skip p o k :
    is_tuple o = false -> is_property o = false -> d_type o = None -> d_array o = None -> d_object o = None -> d_append o = None ->
    d_set_item o = None -> d_min_items o = None -> d_max_items o = None -> d_nmin o = None ->
    d_nmax o = None -> d_nmult o = None -> d_zmin o = None -> d_zmax o = None -> d_zmult o = None ->
    d_property o = None -> d_required o = None -> d_smin o = None -> d_smax o = None ->
    d_pattern o = None -> d_encoding o = None -> d_media o = None ->
    sub_declared p k -> sub_declared (p ++ [o]) (k : option dsub).
  Proof.
    intros. destruct H21. constructor; rewrite ?picks_app, ?picks_one, ?some_call_app; simpl;
      repeat match goal with H : _ o = _ |- _ => rewrite H; clear H end; simpl;
      rewrite ?app_nil_r, ?orb_false_r; auto.
  Qed.

  Lemma lasto_None A (l : list A) : lasto l = None -> l = [].
  Proof. destruct l as [|a l]; auto. simpl. destruct (lasto l); discriminate. Qed.

  (** Specialising the base builder. *)
  Lemma sub_declared_base p o k :
    sub_declared p None ->
    sub_is_tuple k = is_tuple o -> is_property o = false -> sub_has_props k = false ->
    sub_type k = d_type o -> sub_as k = d_array o -> sub_os k = d_object o ->
    d_append o = None -> sub_tuple k = [] -> d_set_item o = None -> sub_elem k = None ->
    d_min_items o = None -> sub_min_items k = None -> d_max_items o = None -> sub_max_items k = None ->
    d_nmin o = None -> sub_nmin k = None -> d_nmax o = None -> sub_nmax k = None ->
    d_nmult o = None -> sub_nmult k = None ->
    d_zmin o = None -> sub_zmin k = None -> d_zmax o = None -> sub_zmax k = None ->
    d_zmult o = None -> sub_zmult k = None ->
    d_property o = None -> sub_props k = [] -> d_required o = None -> sub_required k = None ->
    d_smin o = None -> sub_smin k = None -> d_smax o = None -> sub_smax k = None ->
    d_pattern o = None -> sub_pattern k = None -> d_encoding o = None -> sub_encoding k = None ->
    d_media o = None -> sub_media k = None ->
    sub_declared (p ++ [o]) (k : option dsub).
  Proof.
    intros Hd. intros. destruct Hd. simpl in *.
    assert (Hnil : forall B (f : dsop -> option B), None = lasto (picks f p) -> picks f p = []).
    { intros B f E. apply lasto_None; auto. }
    constructor; rewrite ?picks_app, ?picks_one, ?some_call_app; simpl;
      repeat match goal with
      | H : ?f o = None |- context [?f o] => rewrite H
      | H : ?f o = false |- context [?f o] => rewrite H
      | H : _ k = _ |- _ => rewrite H
      | H : false = some_call _ p |- _ => rewrite <- H
      end; simpl; rewrite ?app_nil_r, ?orb_false_r; auto;
      rewrite Hnil by assumption.
    - destruct (d_type o); reflexivity.
    - destruct (d_array o); reflexivity.
    - destruct (d_object o); reflexivity.
  Qed.

  Lemma st_declared_leaf p s o s' :
    child_of o = None -> shape s -> st_declared p s -> dstep o s = Some s' -> st_declared (p ++ [o]) s'.
  Proof.
    intros Hc Hs Hp H. destruct Hp as [Hst_info Hst_const Hst_default Hst_unit Hst_format Hst_enum Hst_one_of Hst_wrap Hst_rw Hst_other Hst_sub].
    destruct o; simpl in Hc; try discriminate; simpl in H.
    - inv. constructor; simpl; snoc; auto; [apply info_declared_snoc; auto|].
      apply sub_declared_skip; auto.
    - inv. constructor; simpl; snoc; auto. apply sub_declared_skip; auto.
    - inv. constructor; simpl; snoc; auto. apply sub_declared_skip; auto.
    - inv. constructor; simpl; snoc; auto. apply sub_declared_skip; auto.
    - destruct (b_kind s) eqn:Ek; try discriminate. destruct (b_other s) eqn:Eo; try discriminate. inv.
      constructor; simpl; snoc; auto.
      + rewrite Hst_other. reflexivity.
      + rewrite Ek. apply sub_declared_skip; auto.
    - spec H. rewrite Hk in *. constructor; simpl; snoc; auto. apply sub_declared_base; auto.
    - spec H. rewrite Hk in *. constructor; simpl; snoc; auto. apply sub_declared_base; auto.
    - spec H. rewrite Hk in *. constructor; simpl; snoc; auto. apply sub_declared_base; auto.
    - spec H. rewrite Hk in *. constructor; simpl; snoc; auto. apply sub_declared_base; auto.
    - spec H. rewrite Hk in *. constructor; simpl; snoc; auto. apply sub_declared_base; auto.
    - spec H. rewrite Hk in *. constructor; simpl; snoc; auto. apply sub_declared_base; auto.
    - spec H. rewrite Hk in *. constructor; simpl; snoc; auto. apply sub_declared_base; auto.
    - spec H. rewrite Hk in *. constructor; simpl; snoc; auto. apply sub_declared_base; auto.
    - (* constant *)
      destruct (specialize _ s) as [s1|] eqn:E; simpl in H; [|discriminate]. inv. spec E.
      rewrite Hk in *. rewrite Hw in *. constructor; simpl; snoc; auto.
      + rewrite orb_true_r. auto.
      + intros _. destruct (some_call (@is_read_only _ _ _) p); [discriminate|].
        destruct (some_call (@is_write_only _ _ _) p); auto; discriminate.
      + apply sub_declared_skip; auto.
    - (* enum *)
      destruct (b_kind s) eqn:Ek; try discriminate.
      + destruct (specialize _ s) as [s1|] eqn:E; simpl in H; [|discriminate]. inv. spec E.
        constructor; simpl; snoc; auto; [congruence|]. apply sub_declared_skip; auto.
      + inv. constructor; simpl; snoc; auto; [congruence|]. rewrite Ek. apply sub_declared_skip; auto.
    - (* read only *)
      destruct (can_rw s) eqn:Er; [|discriminate]. inv. unfold can_rw in Er.
      destruct (b_wrap s) eqn:Ew; try discriminate.
      constructor; simpl; snoc; auto.
      + rewrite orb_true_r. auto.
      + intros _. destruct (some_call (@is_read_only _ _ _) p); [discriminate|].
        destruct (some_call (@is_write_only _ _ _) p); auto; discriminate.
      + apply sub_declared_skip; auto.
    - (* write only *)
      destruct (can_rw s) eqn:Er; [|discriminate]. inv. unfold can_rw in Er.
      destruct (b_wrap s) eqn:Ew; try discriminate.
      constructor; simpl; snoc; auto.
      + rewrite orb_true_r. destruct (some_call (@is_read_only _ _ _) p); [discriminate|]. auto.
      + destruct (some_call (@is_read_only _ _ _) p); [discriminate|]. simpl. discriminate.
      + apply sub_declared_skip; auto.
    - destruct (b_kind s) eqn:Ek; try discriminate; inv.
      constructor; simpl; snoc; auto. destruct Hst_sub as [Hsd_type Hsd_as Hsd_os Hsd_is_tuple Hsd_tuple Hsd_elem Hsd_min_items Hsd_max_items Hsd_nmin Hsd_nmax Hsd_nmult Hsd_zmin Hsd_zmax Hsd_zmult Hsd_has_props Hsd_props Hsd_required Hsd_smin Hsd_smax Hsd_pattern Hsd_encoding Hsd_media]. constructor; simpl in *; snoc; auto.
    - destruct (b_kind s) eqn:Ek; try discriminate; inv.
      constructor; simpl; snoc; auto. destruct Hst_sub as [Hsd_type Hsd_as Hsd_os Hsd_is_tuple Hsd_tuple Hsd_elem Hsd_min_items Hsd_max_items Hsd_nmin Hsd_nmax Hsd_nmult Hsd_zmin Hsd_zmax Hsd_zmult Hsd_has_props Hsd_props Hsd_required Hsd_smin Hsd_smax Hsd_pattern Hsd_encoding Hsd_media]. constructor; simpl in *; snoc; auto.
    - unfold on_number in H. destruct (b_kind s) eqn:Ek; try discriminate; inv.
      constructor; simpl; snoc; auto. destruct Hst_sub as [Hsd_type Hsd_as Hsd_os Hsd_is_tuple Hsd_tuple Hsd_elem Hsd_min_items Hsd_max_items Hsd_nmin Hsd_nmax Hsd_nmult Hsd_zmin Hsd_zmax Hsd_zmult Hsd_has_props Hsd_props Hsd_required Hsd_smin Hsd_smax Hsd_pattern Hsd_encoding Hsd_media]. constructor; simpl in *; snoc; auto.
    - unfold on_number in H. destruct (b_kind s) eqn:Ek; try discriminate; inv.
      constructor; simpl; snoc; auto. destruct Hst_sub as [Hsd_type Hsd_as Hsd_os Hsd_is_tuple Hsd_tuple Hsd_elem Hsd_min_items Hsd_max_items Hsd_nmin Hsd_nmax Hsd_nmult Hsd_zmin Hsd_zmax Hsd_zmult Hsd_has_props Hsd_props Hsd_required Hsd_smin Hsd_smax Hsd_pattern Hsd_encoding Hsd_media]. constructor; simpl in *; snoc; auto.
    - unfold on_number in H. destruct (b_kind s) eqn:Ek; try discriminate; inv.
      constructor; simpl; snoc; auto. destruct Hst_sub as [Hsd_type Hsd_as Hsd_os Hsd_is_tuple Hsd_tuple Hsd_elem Hsd_min_items Hsd_max_items Hsd_nmin Hsd_nmax Hsd_nmult Hsd_zmin Hsd_zmax Hsd_zmult Hsd_has_props Hsd_props Hsd_required Hsd_smin Hsd_smax Hsd_pattern Hsd_encoding Hsd_media]. constructor; simpl in *; snoc; auto.
    - unfold on_integer in H. destruct (b_kind s) eqn:Ek; try discriminate; inv.
      constructor; simpl; snoc; auto. destruct Hst_sub as [Hsd_type Hsd_as Hsd_os Hsd_is_tuple Hsd_tuple Hsd_elem Hsd_min_items Hsd_max_items Hsd_nmin Hsd_nmax Hsd_nmult Hsd_zmin Hsd_zmax Hsd_zmult Hsd_has_props Hsd_props Hsd_required Hsd_smin Hsd_smax Hsd_pattern Hsd_encoding Hsd_media]. constructor; simpl in *; snoc; auto.
    - unfold on_integer in H. destruct (b_kind s) eqn:Ek; try discriminate; inv.
      constructor; simpl; snoc; auto. destruct Hst_sub as [Hsd_type Hsd_as Hsd_os Hsd_is_tuple Hsd_tuple Hsd_elem Hsd_min_items Hsd_max_items Hsd_nmin Hsd_nmax Hsd_nmult Hsd_zmin Hsd_zmax Hsd_zmult Hsd_has_props Hsd_props Hsd_required Hsd_smin Hsd_smax Hsd_pattern Hsd_encoding Hsd_media]. constructor; simpl in *; snoc; auto.
    - unfold on_integer in H. destruct (b_kind s) eqn:Ek; try discriminate; inv.
      constructor; simpl; snoc; auto. destruct Hst_sub as [Hsd_type Hsd_as Hsd_os Hsd_is_tuple Hsd_tuple Hsd_elem Hsd_min_items Hsd_max_items Hsd_nmin Hsd_nmax Hsd_nmult Hsd_zmin Hsd_zmax Hsd_zmult Hsd_has_props Hsd_props Hsd_required Hsd_smin Hsd_smax Hsd_pattern Hsd_encoding Hsd_media]. constructor; simpl in *; snoc; auto.
    - unfold on_string in H. destruct (b_kind s) eqn:Ek; try discriminate.
      destruct (b_wrap s) eqn:Ew; try discriminate; inv.
      constructor; simpl; snoc; rewrite ?Ew; auto. destruct Hst_sub as [Hsd_type Hsd_as Hsd_os Hsd_is_tuple Hsd_tuple Hsd_elem Hsd_min_items Hsd_max_items Hsd_nmin Hsd_nmax Hsd_nmult Hsd_zmin Hsd_zmax Hsd_zmult Hsd_has_props Hsd_props Hsd_required Hsd_smin Hsd_smax Hsd_pattern Hsd_encoding Hsd_media]. constructor; simpl in *; snoc; auto.
    - unfold on_string in H. destruct (b_kind s) eqn:Ek; try discriminate.
      destruct (b_wrap s) eqn:Ew; try discriminate; inv.
      constructor; simpl; snoc; rewrite ?Ew; auto. destruct Hst_sub as [Hsd_type Hsd_as Hsd_os Hsd_is_tuple Hsd_tuple Hsd_elem Hsd_min_items Hsd_max_items Hsd_nmin Hsd_nmax Hsd_nmult Hsd_zmin Hsd_zmax Hsd_zmult Hsd_has_props Hsd_props Hsd_required Hsd_smin Hsd_smax Hsd_pattern Hsd_encoding Hsd_media]. constructor; simpl in *; snoc; auto.
    - unfold on_string in H. destruct (b_kind s) eqn:Ek; try discriminate.
      destruct (b_wrap s) eqn:Ew; try discriminate; inv.
      constructor; simpl; snoc; rewrite ?Ew; auto. destruct Hst_sub as [Hsd_type Hsd_as Hsd_os Hsd_is_tuple Hsd_tuple Hsd_elem Hsd_min_items Hsd_max_items Hsd_nmin Hsd_nmax Hsd_nmult Hsd_zmin Hsd_zmax Hsd_zmult Hsd_has_props Hsd_props Hsd_required Hsd_smin Hsd_smax Hsd_pattern Hsd_encoding Hsd_media]. constructor; simpl in *; snoc; auto.
    - unfold on_string in H. destruct (b_kind s) eqn:Ek; try discriminate.
      destruct (b_wrap s) eqn:Ew; try discriminate; inv.
      constructor; simpl; snoc; rewrite ?Ew; auto. destruct Hst_sub as [Hsd_type Hsd_as Hsd_os Hsd_is_tuple Hsd_tuple Hsd_elem Hsd_min_items Hsd_max_items Hsd_nmin Hsd_nmax Hsd_nmult Hsd_zmin Hsd_zmax Hsd_zmult Hsd_has_props Hsd_props Hsd_required Hsd_smin Hsd_smax Hsd_pattern Hsd_encoding Hsd_media]. constructor; simpl in *; snoc; auto.
    - unfold on_string in H. destruct (b_kind s) eqn:Ek; try discriminate.
      destruct (b_wrap s) eqn:Ew; try discriminate; inv.
      constructor; simpl; snoc; rewrite ?Ew; auto. destruct Hst_sub as [Hsd_type Hsd_as Hsd_os Hsd_is_tuple Hsd_tuple Hsd_elem Hsd_min_items Hsd_max_items Hsd_nmin Hsd_nmax Hsd_nmult Hsd_zmin Hsd_zmax Hsd_zmult Hsd_has_props Hsd_props Hsd_required Hsd_smin Hsd_smax Hsd_pattern Hsd_encoding Hsd_media]. constructor; simpl in *; snoc; auto.
  Qed.

  Lemma Forall2_snoc A B (R : A -> B -> Prop) l l' a b :
    Forall2 R l l' -> R a b -> Forall2 R (l ++ [a]) (l' ++ [b]).
  Proof. intros. apply Forall2_app; auto. Qed.

  Lemma st_declared_child p s o q d s' :
    child_of o = Some q -> dbuild q = Some d -> st_declared p s -> dapply o d s = Some s' ->
    st_declared (p ++ [o]) s'.
  Proof.
    intros Hc Hq Hp H. destruct Hp as [Hst_info Hst_const Hst_default Hst_unit Hst_format Hst_enum Hst_one_of Hst_wrap Hst_rw Hst_other Hst_sub].
    destruct o; simpl in Hc; try discriminate; inv; simpl in H.
    - destruct (b_kind s) eqn:Ek; try discriminate.
      + destruct (specialize _ s) as [s1|] eqn:E; simpl in H; [|discriminate]. inv. spec E.
        constructor; simpl; snoc; auto.
        * apply Forall2_snoc; auto.
        * apply sub_declared_skip; auto.
      + inv. constructor; simpl; snoc; auto.
        * apply Forall2_snoc; auto.
        * rewrite Ek. apply sub_declared_skip; auto.
    - destruct (b_kind s) eqn:Ek; try discriminate. inv.
      constructor; simpl; snoc; auto. destruct Hst_sub as [Hsd_type Hsd_as Hsd_os Hsd_is_tuple Hsd_tuple Hsd_elem Hsd_min_items Hsd_max_items Hsd_nmin Hsd_nmax Hsd_nmult Hsd_zmin Hsd_zmax Hsd_zmult Hsd_has_props Hsd_props Hsd_required Hsd_smin Hsd_smax Hsd_pattern Hsd_encoding Hsd_media]. constructor; simpl in *; snoc; auto.
      apply Forall2_snoc; auto.
    - destruct (b_kind s) eqn:Ek; try discriminate. inv.
      constructor; simpl; snoc; auto. destruct Hst_sub as [Hsd_type Hsd_as Hsd_os Hsd_is_tuple Hsd_tuple Hsd_elem Hsd_min_items Hsd_max_items Hsd_nmin Hsd_nmax Hsd_nmult Hsd_zmin Hsd_zmax Hsd_zmult Hsd_has_props Hsd_props Hsd_required Hsd_smin Hsd_smax Hsd_pattern Hsd_encoding Hsd_media]. constructor; simpl in *; snoc; auto.
      all: destruct item; auto.
    - destruct (b_kind s) eqn:Ek; try discriminate. inv.
      constructor; simpl; snoc; auto. destruct Hst_sub as [Hsd_type Hsd_as Hsd_os Hsd_is_tuple Hsd_tuple Hsd_elem Hsd_min_items Hsd_max_items Hsd_nmin Hsd_nmax Hsd_nmult Hsd_zmin Hsd_zmax Hsd_zmult Hsd_has_props Hsd_props Hsd_required Hsd_smin Hsd_smax Hsd_pattern Hsd_encoding Hsd_media]. constructor; simpl in *; snoc; auto.
      + rewrite nonempty_snoc, orb_true_r. reflexivity.
      + rewrite nonempty_snoc. simpl. split; [apply msorted_mof|]. intros k.
        rewrite mlook_mof, !llook_app. simpl.
        destruct (String.eqb k name); [constructor; exact Hq|].
        destruct Hsd_props as [_ Hps]. specialize (Hps k).
        destruct props as [|kv props]; simpl in Hps |- *; auto.
        rewrite mlook_mof in Hps. exact Hps.
      + destruct required; simpl; rewrite ?app_nil_r; auto.
        apply nonempty_inj in Hsd_required. rewrite <- Hsd_required. reflexivity.
  Qed.

  Lemma st_declared_run (p : list dsop) s : drun p dempty = Some s -> shape s /\ st_declared p s.
  Proof.
    revert s. induction p as [|o p IH] using rev_ind; intros s H.
    - simpl in H. inv. split; [apply shape_empty|apply st_declared_nil].
    - rewrite drun_app in H. destruct (drun p dempty) as [s1|] eqn:E; [|discriminate]. simpl in H.
      destruct (dstep o s1) as [s2|] eqn:E2; [|discriminate]. simpl in H. inv.
      destruct (IH _ eq_refl) as [Hs Hd]. destruct (child_of o) as [q|] eqn:Ec.
      + rewrite (dstep_child _ _ Ec) in E2. destruct (dbuild q) as [d|] eqn:Eq; [|discriminate].
        simpl in E2. split; [eapply shape_apply; eauto|eapply st_declared_child; eauto].
      + split; [eapply shape_leaf; eauto|eapply st_declared_leaf; eauto].
  Qed.

  Lemma ds_declared_of (p : list dsop) s d :
    drun p dempty = Some s -> to_ds s = Some d -> ds_declared p d.
  Proof.
    intros Hr Hd. apply st_declared_run in Hr as [Hs Hp].
    apply to_ds_eq in Hd as (E1 & E2 & E3 & E4 & E5 & E6 & E7 & E8 & E9 & E10 & E11 & _); auto.
    destruct Hp as [Hst_info Hst_const Hst_default Hst_unit Hst_format Hst_enum Hst_one_of Hst_wrap Hst_rw Hst_other Hst_sub]. constructor.
    - rewrite E1; auto.
    - rewrite E2; auto.
    - rewrite E3; auto.
    - rewrite E4; auto.
    - rewrite E6; auto.
    - rewrite E5, Hst_enum; auto.
    - exists (b_one_of s); auto.
    - rewrite E8, Hst_wrap. destruct (some_call (@is_read_only _ _ _) p); auto.
      destruct (some_call (@is_write_only _ _ _) p); auto.
    - rewrite E9, Hst_wrap. destruct (some_call (@is_read_only _ _ _) p); auto.
      + rewrite Hst_rw; auto.
      + destruct (some_call (@is_write_only _ _ _) p); auto.
    - rewrite Hst_other, <- E10; auto.
    - rewrite E11; auto.
  Qed.

  Lemma build_declared (p : list dsop) d : dbuild p = Some d -> ds_declared p d.
  Proof.
    unfold dbuild. destruct (drun p dempty) as [s|] eqn:E; [|discriminate]. simpl.
    intros H. eapply ds_declared_of; eauto.
  Qed.

  (** ** The declared content determines the schema *)

  Fixpoint op_size (o : dsop) : nat :=
    let sz := fix sz (p : list dsop) : nat := match p with [] => 0 | o :: p' => op_size o + sz p' end in
    S match o with
      | DOneOf p | DAppend p | DSetItem p | DProperty _ _ p => sz p
      | _ => 0
      end.

  Fixpoint prog_size (p : list dsop) : nat :=
    match p with [] => 0 | o :: p' => op_size o + prog_size p' end.

  Lemma op_size_eq o : op_size o = S match child_of o with Some q => prog_size q | None => 0 end.
  Proof.
    assert (H : forall q, (fix sz (p : list dsop) : nat :=
              match p with [] => 0 | o :: p' => op_size o + sz p' end) q = prog_size q).
    { induction q as [|a q IH]; simpl; auto. }
    destruct o; simpl; rewrite ?H; auto.
  Qed.

  Definition child (p q : list dsop) : Prop := exists o, In o p /\ child_of o = Some q.

  Lemma child_size p q : child p q -> prog_size q < prog_size p.
  Proof.
    intros (o & Hin & Ho). induction p as [|a p IH]; [destruct Hin|]. simpl.
    destruct Hin as [->|Hin].
    - rewrite op_size_eq, Ho. lia.
    - specialize (IH Hin). lia.
  Qed.

  Lemma picks_In O B (f : O -> option B) p b : In b (picks f p) <-> exists o, In o p /\ f o = Some b.
  Proof.
    unfold picks. rewrite in_flat_map. split.
    - intros (o & Hin & H). exists o. split; auto. destruct (f o); simpl in H; [|contradiction].
      destruct H as [->|[]]. auto.
    - intros (o & Hin & H). exists o. split; auto. rewrite H. simpl; auto.
  Qed.

  Lemma lasto_In A (l : list A) a : lasto l = Some a -> In a l.
  Proof.
    induction l as [|b l IH]; simpl; [discriminate|].
    destruct (lasto l); intros E; inversion E; subst; auto.
  Qed.

  Lemma llook_In A k (l : list (string * A)) v : llook k l = Some v -> In (k, v) l.
  Proof.
    induction l as [|[k' v'] l IH]; simpl; [discriminate|].
    destruct (llook k l) eqn:E; [intros H; inversion H; subst; auto|].
    destruct (String.eqb_spec k k'); intros H; inversion H; subst; auto.
  Qed.

  Lemma child_one_of p q : In q (picks (@d_one_of _ _ _) p) -> child p q.
  Proof. rewrite picks_In. intros (o & Hin & H). exists o. split; auto. destruct o; inversion H; auto. Qed.
  Lemma child_append p q : In q (picks (@d_append _ _ _) p) -> child p q.
  Proof. rewrite picks_In. intros (o & Hin & H). exists o. split; auto. destruct o; inversion H; auto. Qed.
  Lemma child_set_item p q : lasto (picks (@d_set_item _ _ _) p) = Some q -> child p q.
  Proof.
    intros H. apply lasto_In in H. rewrite picks_In in H. destruct H as (o & Hin & H).
    exists o. split; auto. destruct o; inversion H; auto.
  Qed.
  Lemma child_property p k q : llook k (picks (@d_property _ _ _) p) = Some q -> child p q.
  Proof.
    intros H. apply llook_In in H. rewrite picks_In in H. destruct H as (o & Hin & H).
    exists o. split; auto. destruct o; inversion H; auto.
  Qed.

  Lemma Forall2_mono A B (R R' : A -> B -> Prop) l l' :
    (forall x y, In x l -> R x y -> R' x y) -> Forall2 R l l' -> Forall2 R' l l'.
  Proof. intros H F. induction F; constructor; simpl in *; auto. Qed.

  Lemma declared_mono (R R' : list dsop -> ds -> Prop) p d :
    (forall q c, child p q -> R q c -> R' q c) ->
    SpecCalls.ds_declared Some R p d -> SpecCalls.ds_declared Some R' p d.
  Proof.
    intros H Hd. destruct Hd as [h1 h2 h3 h4 h5 h6 (cs & h7 & h7') h8 h9 h10 h11].
    constructor; auto.
    - exists cs. split; auto. eapply Forall2_mono; [|exact h7]. intros q c Hq. apply H, child_one_of, Hq.
    - destruct h11. constructor; auto.
      + eapply Forall2_mono; [|eassumption]. intros q c Hq. apply H, child_append, Hq.
      + eapply omatch_mono; [|eassumption]. intros q c Hq. apply H, child_set_item, Hq.
      + destruct sd_props as [hs hl]. split; auto. intros k. eapply omatch_mono; [|apply hl].
        intros q c Hq. apply H. eapply child_property, Hq.
  Qed.

  Lemma build_says (p : list dsop) d : dbuild p = Some d -> ds_says Some p d.
  Proof.
    assert (Hn : forall n p d, prog_size p < n -> dbuild p = Some d -> ds_says Some p d).
    { induction n as [|n IH]; [intros; lia|]. clear p d. intros p d Hsz Hb. constructor.
      eapply declared_mono; [|apply build_declared; exact Hb].
      intros q c Hq Hc. apply IH; auto. apply child_size in Hq. lia. }
    apply (Hn (S (prog_size p))). lia.
  Qed.

  Lemma run_says (p : list dsop) s d : drun p dempty = Some s -> to_ds s = Some d -> ds_says Some p d.
  Proof. intros H Hd. apply build_says. unfold dbuild. rewrite H. exact Hd. Qed.

  (** A program declares one schema only, when no two tags are recorded as the same. *)
  Section Unique.
  Variable tg : string -> option string.
  Hypothesis tg_inj : forall k k' t, tg k = Some t -> tg k' = Some t -> k = k'.

  Lemma ml_declared_incl l m m' : ml_declared tg l m -> ml_declared tg l m' ->
    forall k v, mlook k m = Some v -> mlook k m' = Some v.
  Proof.
    intros [h1 h2 h3] [g1 g2 g3] k v H. apply mlook_Some_In in H. apply h3 in H as (k0 & E0 & H).
    destruct (g2 _ _ H) as (k1 & E1 & Hin). assert (k1 = k) by congruence. subst k1.
    unfold mkeys in Hin. apply in_map_iff in Hin as ([k1 v'] & Ek & Hin). simpl in Ek. subst k1.
    destruct (g3 _ _ Hin) as (k2 & E2 & H2). assert (k2 = k0) by eauto. subst k2.
    assert (v' = v) by congruence. subst v'. apply In_mlook; auto. apply msorted_NoDup; auto.
  Qed.

  Lemma ml_declared_fun l m m' : ml_declared tg l m -> ml_declared tg l m' -> m = m'.
  Proof.
    intros H H'. apply mext; [apply H|apply H'|]. intros k.
    destruct (mlook k m) as [v|] eqn:E1.
    - symmetry. eapply ml_declared_incl; [exact H| |]; eauto.
    - destruct (mlook k m') as [v|] eqn:E2; auto.
      rewrite (ml_declared_incl H' H k E2) in E1. discriminate.
  Qed.

  Lemma omatch_fun A B (R : A -> B -> Prop) a b b' :
    (forall x y y', a = Some x -> R x y -> R x y' -> y = y') ->
    omatch R a b -> omatch R a b' -> b = b'.
  Proof. intros H Hb Hb'. destruct Hb; inversion Hb'; subst; auto. f_equal. eapply H; eauto. Qed.

  Lemma Forall2_fun A B (R : A -> B -> Prop) l : forall l1 l2,
    (forall x y y', In x l -> R x y -> R x y' -> y = y') ->
    Forall2 R l l1 -> Forall2 R l l2 -> l1 = l2.
  Proof.
    induction l as [|x l IH]; intros l1 l2 H F1 F2; inversion F1; inversion F2; subst; auto.
    f_equal; [eapply H; simpl; eauto|]. apply IH; auto. intros; eapply H; simpl; eauto.
  Qed.

  Lemma info_declared_fun p i i' : info_declared tg p i -> info_declared tg p i' -> i = i'.
  Proof.
    intros [h1 h2 h3 h4 h5] [g1 g2 g3 g4 g5]. destruct i, i'; simpl in *. subst.
    f_equal; eapply omatch_fun; eauto; intros; eapply ml_declared_fun; eauto.
  Qed.

  Lemma ds_says_fun (p : list dsop) : forall d d', ds_says tg p d -> ds_says tg p d' -> d = d'.
  Proof.
    assert (Hn : forall n p d d', prog_size p < n -> ds_says tg p d -> ds_says tg p d' -> d = d').
    { induction n as [|n IH]; [intros; lia|]. clear p. intros p d d' Hsz [H] [H'].
      assert (Hc : forall q c c', child p q -> ds_says tg q c -> ds_says tg q c' -> c = c').
      { intros q c c' Hq. apply IH. apply child_size in Hq. lia. }
      destruct H as [h1 h2 h3 h4 h5 h6 (cs & h7 & h7') h8 h9 h10 h11].
      destruct H' as [g1 g2 g3 g4 g5 g6 (cs' & g7 & g7') g8 g9 g10 g11].
      assert (cs = cs').
      { eapply Forall2_fun; [|exact h7|exact g7]. intros q c c' Hq. apply Hc, child_one_of, Hq. }
      subst cs'.
      destruct d as [i m o s x], d' as [i' m' o' s' x']. simpl in *.
      assert (i = i') by (eapply info_declared_fun; eauto). subst i'.
      assert (x = x') by congruence. subst x'. subst o o'.
      assert (m = m').
      { destruct m, m'; simpl in *. congruence. }
      subst m'. f_equal.
      destruct h11 as [k1 k2 k3 k4 k5 k6 k7 k8 k9 k10 k11 k12 k13 k14 k15 [k16 k16'] k17 k18 k19 k20 k21 k22].
      destruct g11 as [l1 l2 l3 l4 l5 l6 l7 l8 l9 l10 l11 l12 l13 l14 l15 [l16 l16'] l17 l18 l19 l20 l21 l22].
      rewrite <- k1 in l1. clear k1.
      assert (Ht : sub_tuple s = sub_tuple s').
      { eapply Forall2_fun; [|exact k5|exact l5]. intros q c c' Hq. apply Hc, child_append, Hq. }
      assert (He : sub_elem s = sub_elem s').
      { eapply omatch_fun; [|exact k6|exact l6]. intros q c c' Hq. apply Hc, child_set_item, Hq. }
      assert (Hp : sub_props s = sub_props s').
      { apply mext; auto. intros k. eapply omatch_fun; [|apply k16'|apply l16'].
        intros q c c' Hq. apply Hc. eapply child_property, Hq. }
      rewrite <- l2 in k2; rewrite <- l3 in k3; rewrite <- l4 in k4; rewrite <- l7 in k7;
      rewrite <- l8 in k8; rewrite <- l9 in k9; rewrite <- l10 in k10; rewrite <- l11 in k11;
      rewrite <- l12 in k12; rewrite <- l13 in k13; rewrite <- l14 in k14; rewrite <- l15 in k15;
      rewrite <- l17 in k17; rewrite <- l18 in k18; rewrite <- l19 in k19; rewrite <- l20 in k20;
      rewrite <- l21 in k21; rewrite <- l22 in k22.
      clear -l1 k2 k3 k4 k7 k8 k9 k10 k11 k12 k13 k14 k15 k17 k18 k19 k20 k21 k22 Ht He Hp.
      destruct s as [[it mn mx a| |[]|[]|[ps|] r a|[]| ]|], s' as [[it' mn' mx' a'| |[]|[]|[ps'|] r' a'|[]| ]|];
        simpl in *; try discriminate; try reflexivity; try congruence.
      destruct it as [[e|l]|], it' as [[e'|l']|]; simpl in *; congruence. }
    intros d d'. apply (Hn (S (prog_size p))). lia.
  Qed.
  End Unique.

  (** ** Invariants of every schema a program builds *)

  Lemma built_wf (p : list dsop) d : dbuild p = Some d -> ds_wf d.
  Proof.
    apply (@build_everywhere (fun s => info_wf (b_info s))).
    - split; discriminate.
    - intros s e Hs Hi He. apply to_ds_eq in He as (E1 & _ & _ & _ & _ & _ & _ & _ & _ & _ & E11 & _); auto.
      split; [rewrite E1; auto|]. intros ps r o. rewrite E11.
      destruct (b_kind s) as [|[[]|]|items x|[d0|] mn mx x|n|n|pr rq x|t| |]; simpl; try discriminate.
      destruct (nonempty pr); simpl; intros E; inversion E; subst. apply msorted_mof.
    - intros o s s' Ho Hs Hi H.
      destruct o; simpl in Ho; try discriminate; simpl in H;
        unfold specialize, on_number, on_integer, on_string in H;
        repeat match goal with
        | H : (match ?x with _ => _ end) = Some _ |- _ => destruct x; try discriminate
        | H : obind (match ?x with _ => _ end) _ = Some _ |- _ => destruct x; simpl in H; try discriminate
        end; inv; simpl; auto.
      destruct Hi as [H1 H2].
      destruct o; split; simpl; auto; intros m E; inversion E; subst; apply msorted_mof.
    - intros o e s s' Hs Hi H.
      destruct o; simpl in H; try discriminate; unfold specialize in H;
        repeat match goal with
        | H : (match ?x with _ => _ end) = Some _ |- _ => destruct x; try discriminate
        | H : obind (match ?x with _ => _ end) _ = Some _ |- _ => destruct x; simpl in H; try discriminate
        end; inv; simpl; auto.
  Qed.
End Facts.
