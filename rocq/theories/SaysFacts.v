(** * The declarations determine the content *)

From Coq Require Import String Bool ZArith Permutation Lia List.
From Verif Require Import Base MinMax Json Serde Types DsBuilder Builder Spec SpecCalls SpecThing
  DsFacts ConvFacts DsProgFacts ProgFacts.
Import ListNotations.
Set Implicit Arguments.
Local Open Scope string_scope.
Local Open Scope list_scope.

Section Unique.
Variable tg : string -> option string.
Hypothesis tg_inj : forall k k' t, tg k = Some t -> tg k' = Some t -> k = k'.

Lemma link_says_fun p l l' : link_says tg p l -> link_says tg p l' -> l = l'.
Proof.
  intros [h1 h2 h3 h4 h5 (hs & h6 & h6')] [g1 g2 g3 g4 g5 (hs' & g6 & g6')].
  assert (hs = hs') by (eapply Forall2_fun; eauto; simpl; congruence). subst hs'.
  destruct l, l'; simpl in *.
  rewrite h1 in g1. inversion g1. congruence.
Qed.

Lemma resp_says_fun p l l' : resp_says p l -> resp_says p l' -> l = l'.
Proof. intros [h1 h2 h3] [g1 g2 g3]. destruct l, l'; simpl in *. congruence. Qed.

Lemma scheme_says_fun p c t t' k k' :
  scheme_says p c t k -> scheme_says p c t' k' -> t = t' /\ k = k'.
Proof. intros H H'. destruct H; inversion H'; subst; split; congruence. Qed.

Lemma sec_says_fun p r r' : sec_says tg p r -> sec_says tg p r' -> r = r'.
Proof.
  intros [(c & k & h1 & h2 & h3) h4 h5 h6 h7 h8] [(c' & k' & g1 & g2 & g3) g4 g5 g6 g7 g8].
  destruct r as [[n b] s], r' as [[n' b'] s']; destruct s, s'; simpl in *.
  assert (c = c') by congruence. subst c'.
  destruct (scheme_says_fun h2 g2) as [-> ->].
  assert (ss_descriptions = ss_descriptions0) by (eapply omatch_fun; eauto; intros; eapply ml_declared_fun; eauto).
  congruence.
Qed.

Lemma map_says_fun P A (R : P -> A -> Prop) adds m m' :
  (forall k x y y', llook k adds = Some x -> R x y -> R x y' -> y = y') ->
  map_says R adds m -> map_says R adds m' -> m = m'.
Proof.
  intros H [h1 h2] [g1 g2]. apply mext; auto. intros k. eapply omatch_fun; eauto.
Qed.

Lemma omap_says_fun P A (R : P -> A -> Prop) adds m m' :
  (forall k x y y', llook k adds = Some x -> R x y -> R x y' -> y = y') ->
  omap_says R adds m -> omap_says R adds m' -> m = m'.
Proof.
  intros H [h1 h2] [g1 g2]. assert (E : olist m = olist m') by (eapply map_says_fun; eauto).
  destruct m, m'; simpl in *; subst; auto.
  - destruct g2 as [g2 _]. rewrite g2 in h2 by auto. destruct h2 as [_ h2]. specialize (h2 eq_refl). discriminate.
  - destruct h2 as [h2 _]. rewrite h2 in g2 by auto. destruct g2 as [_ g2]. specialize (g2 eq_refl). discriminate.
Qed.

  Variable X : exts.

  Lemma form_says_fun c (f f' : form X) : form_says c f -> form_says c f' -> f = f'.
  Proof.
    intros [h1 h2 h3 h4 h5 h6 h7 h8 (l & h9 & h10) h11] [g1 g2 g3 g4 g5 g6 g7 g8 (l' & g9 & g10) g11].
    assert (l = l') by (eapply Forall2_fun; eauto; intros; eapply resp_says_fun; eauto). subst l'.
    destruct f, f'; simpl in *. rewrite h2 in g2. inversion g2. congruence.
  Qed.

  Lemma ds_map_fun adds m m' :
    omap_says (@ds_says (pty (x_ds X)) (pty (x_as X)) (pty (x_os X)) tg) adds m ->
    omap_says (@ds_says _ _ _ tg) adds m' -> m = m'.
  Proof. apply omap_says_fun. intros. eapply ds_says_fun; eauto. Qed.

  Lemma ia_says_fun x p (i i' : interaction X) :
    ia_info i = ia_info i' -> ia_says tg x p i -> ia_says tg x p i' -> i = i'.
  Proof.
    intros Ei [h1 h2 h3] [g1 g2 g3].
    assert (ia_forms i = ia_forms i') by (eapply Forall2_fun; eauto; intros; eapply form_says_fun; eauto).
    assert (ia_uri i = ia_uri i') by (eapply ds_map_fun; eauto).
    destruct i, i'; simpl in *. congruence.
  Qed.

  Lemma property_says_fun c (a a' : property X) : property_says tg c a -> property_says tg c a' -> a = a'.
  Proof.
    intros [h1 h2 h3 h4 h5] [g1 g2 g3 g4 g5].
    assert (pa_ds a = pa_ds a') by (eapply ds_says_fun; eauto).
    assert (pa_ia a = pa_ia a') by (eapply ia_says_fun; eauto; congruence).
    destruct a, a'; simpl in *. congruence.
  Qed.

  Lemma ods_says_fun o (d d' : option (dsx X)) :
    omatch (@ds_says _ _ _ tg) o d -> omatch (@ds_says _ _ _ tg) o d' -> d = d'.
  Proof. apply omatch_fun. intros. eapply ds_says_fun; eauto. Qed.

  Lemma action_says_fun c (a a' : action X) : action_says tg c a -> action_says tg c a' -> a = a'.
  Proof.
    intros [h1 h2 h3 h4 h5 h6 h7 h8] [g1 g2 g3 g4 g5 g6 g7 g8].
    assert (aa_ia a = aa_ia a') by (eapply ia_says_fun; eauto; eapply info_declared_fun; eauto).
    assert (aa_input a = aa_input a') by (eapply ods_says_fun; eauto).
    assert (aa_output a = aa_output a') by (eapply ods_says_fun; eauto).
    destruct a, a'; simpl in *. congruence.
  Qed.

  Lemma event_says_fun c (a a' : event X) : event_says tg c a -> event_says tg c a' -> a = a'.
  Proof.
    intros [h1 h2 h3 h4 h5 h6 h7] [g1 g2 g3 g4 g5 g6 g7].
    assert (ea_ia a = ea_ia a') by (eapply ia_says_fun; eauto; eapply info_declared_fun; eauto).
    assert (ea_subscription a = ea_subscription a') by (eapply ods_says_fun; eauto).
    assert (ea_data a = ea_data a') by (eapply ods_says_fun; eauto).
    assert (ea_data_response a = ea_data_response a') by (eapply ods_says_fun; eauto).
    assert (ea_cancellation a = ea_cancellation a') by (eapply ods_says_fun; eauto).
    destruct a, a'; simpl in *. congruence.
  Qed.

  Lemma named_fun P A (R : P -> A -> Prop) l l1 l2 :
    (forall x y y', R x y -> R x y' -> y = y') ->
    Forall2 (named R) l l1 -> Forall2 (named R) l l2 -> l1 = l2.
  Proof.
    intros H. apply Forall2_fun. intros [k x] [k1 y] [k2 y'] _ [e1 h1] [e2 h2]. simpl in *.
    f_equal; [congruence|eauto].
  Qed.

  Lemma ml_omatch_fun o m m' : omatch (ml_declared tg) o m -> omatch (ml_declared tg) o m' -> m = m'.
  Proof. apply omatch_fun. intros. eapply ml_declared_fun; eauto. Qed.

End Unique.

Section Fun.
  Variable E : env.
  Variable X : exts.

  Lemma some_inj (k k' t : string) : Some k = Some t -> Some k' = Some t -> k = k'.
  Proof. congruence. Qed.
  Local Hint Resolve some_inj : core.

  (** A program declares one description. *)
  Lemma declares_fun (p : list (top E X)) y y' : declares p y -> declares p y' -> y = y'.
  Proof.
    intros [(rs & h1 & h1') h2 h3 h4 h5 h6 h7 h8 h9 h10] [(rs' & g1 & g1') g2 g3 g4 g5 g6 g7 g8 g9 g10].
    assert (rs = rs') by (eapply Forall2_fun; eauto; intros; eapply sec_says_fun; eauto). subst rs'.
    assert (y_schemas y = y_schemas y') by (eapply map_says_fun; eauto; intros; eapply ds_says_fun; eauto).
    assert (y_forms y = y_forms y') by (eapply Forall2_fun; eauto; intros; eapply form_says_fun; eauto).
    assert (y_uris y = y_uris y') by (eapply map_says_fun; eauto; intros; eapply ds_says_fun; eauto).
    assert (y_properties y = y_properties y') by (eapply named_fun; eauto; intros; eapply property_says_fun; eauto).
    assert (y_actions y = y_actions y') by (eapply named_fun; eauto; intros; eapply action_says_fun; eauto).
    assert (y_events y = y_events y') by (eapply named_fun; eauto; intros; eapply event_says_fun; eauto).
    assert (y_links y = y_links y') by (eapply Forall2_fun; eauto; intros; eapply link_says_fun; eauto).
    assert (y_titles y = y_titles y') by (eapply ml_declared_fun; eauto).
    assert (y_descriptions y = y_descriptions y') by (eapply ml_declared_fun; eauto).
    destruct y, y'; simpl in *. congruence.
  Qed.

  Lemma context_is_fun c j j' : context_is c j -> context_is c j' -> j = j'.
  Proof.
    intros H H'. destruct H; inversion H'; subst; auto. f_equal. eapply map_says_fun; eauto.
    simpl. congruence.
  Qed.

  (** .. and at most one Thing. *)
  Lemma thing_says_fun title x (p : list (top E X)) t t' :
    (forall k k' t, tag_parse E k = Some t -> tag_parse E k' = Some t -> k = k') ->
    thing_says title x p t -> thing_says title x p t' -> t = t'.
  Proof.
    intros Hi
           [h1 h2 h3 h4 h5 h6 h7 h8 h9 h10 h11 h12 h13 h14 h15 (ls & h16 & h16')
            (fs & h17 & h17') (rs & h18 & h18a & h18b & h18c & h18d) h19 h20 h21 h22]
           [g1 g2 g3 g4 g5 g6 g7 g8 g9 g10 g11 g12 g13 g14 g15 (ls' & g16 & g16')
            (fs' & g17 & g17') (rs' & g18 & g18a & g18b & g18c & g18d) g19 g20 g21 g22].
    assert (ls = ls') by (eapply Forall2_fun; eauto; intros; eapply link_says_fun; eauto). subst ls'.
    assert (fs = fs') by (eapply Forall2_fun; eauto; intros; eapply form_says_fun; eauto). subst fs'.
    assert (rs = rs') by (eapply Forall2_fun; eauto; intros; eapply sec_says_fun; eauto). subst rs'.
    assert (t_context t = t_context t').
    { unfold context_says in *. destruct (picks _ p); [congruence|].
      destruct h1 as (js & h1 & ->), g1 as (js' & g1 & ->). do 2 f_equal.
      eapply Forall2_fun; eauto; intros; eapply context_is_fun; eauto. }
    assert (t_titles t = t_titles t') by (eapply ml_omatch_fun; eauto).
    assert (t_descriptions t = t_descriptions t') by (eapply ml_omatch_fun; eauto).
    assert (t_properties t = t_properties t') by (eapply omap_says_fun; eauto; intros; eapply property_says_fun; eauto).
    assert (t_actions t = t_actions t') by (eapply omap_says_fun; eauto; intros; eapply action_says_fun; eauto).
    assert (t_events t = t_events t') by (eapply omap_says_fun; eauto; intros; eapply event_says_fun; eauto).
    assert (t_uri t = t_uri t') by (eapply ds_map_fun; eauto).
    assert (t_schemas t = t_schemas t') by (eapply ds_map_fun; eauto).
    assert (t_secdefs t = t_secdefs t').
    { apply mext; auto. intros k.
      destruct (mlook k (t_secdefs t)) as [s|] eqn:E1.
      - apply mlook_Some_In in E1. apply h18d, g18d in E1. symmetry.
        apply In_mlook; auto using msorted_NoDup.
      - apply mlook_None in E1. symmetry. apply mlook_None. intros Hin. apply E1.
        unfold mkeys in *. apply in_map_iff in Hin as ([k' s] & <- & Hin).
        apply g18d, h18d in Hin. apply in_map_iff. exists (k', s); auto. }
    destruct t, t'; simpl in *. subst. reflexivity.
  Qed.
End Fun.
