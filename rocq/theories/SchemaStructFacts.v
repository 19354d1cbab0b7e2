(** * The structs of [SchemaStructs.v] against the merged record of [DsBuilder.v] *)

From Coq Require Import String Bool ZArith List.
From Verif Require Import Base MinMax Json Serde Types DsBuilder Builder Spec DsFacts ConvFacts SchemaStructs.
Import ListNotations.
Set Implicit Arguments.
Local Open Scope string_scope.
Local Open Scope list_scope.

Section Facts.
  Variables DS AS OS : Type.
  Notation ds := (ds DS AS OS).
  Notation dsub := (dsub DS AS OS).
  Notation dsop := (dsop DS AS OS).
  Notation dstate := (dstate DS AS OS).
  Notation pbuilder := (pbuilder DS AS OS).
  Notation dbuilder := (dbuilder DS AS OS).
  Notation base := (base DS AS OS).
  Notation struct := (struct DS AS OS).
  Notation wrapped := (wrapped DS AS OS).
  Notation partial_ds := (partial_ds DS AS OS).

  (** ** The merged record of a struct *)

  Definition inner_of I (s : struct I) : I :=
    match s with
    | UBase _ _ _ b => b | UTuple b => tu_inner b | UVec b => ve_inner b | UNumber _ _ _ b => nu_inner b
    | UInteger _ _ _ b => in_inner b | UObject b => ob_inner b | UString _ _ _ b => st_inner b
    | UEnum _ _ _ b => en_inner b | UOneOf _ _ _ b => oo_inner b | UStateless _ _ _ b => sl_inner b
    end.

  Definition kind_of I (s : struct I) : dkind DS AS OS :=
    match s with
    | UBase _ _ _ b => KBase
    | UTuple b => KTuple (tu_items b) (tu_other b)
    | UVec b => KVec (ve_item b) (ve_min b) (ve_max b) (ve_other b)
    | UNumber _ _ _ b => KNumber {| n_max := nu_max b; n_min := nu_min b; n_mult := nu_mult b |}
    | UInteger _ _ _ b => KInteger {| z_max := in_max b; z_min := in_min b; z_mult := in_mult b |}
    | UObject b => KObject (ob_properties b) (ob_required b) (ob_other b)
    | UString _ _ _ b => KString {| s_min := st_min b; s_max := st_max b; s_pattern := st_pattern b;
                              s_encoding := st_encoding b; s_media := st_media b |}
    | UEnum _ _ _ b => KEnum
    | UOneOf _ _ _ b => KOneOf
    | UStateless _ _ _ b => KStateless (sl_ty b)
    end.

  Definition unwrap I (w : wrapped I) : struct I :=
    match w with Bare s | ReadOnlyOf s | WriteOnlyOf s => s end.
  Definition wrap_of I (w : wrapped I) : wrap :=
    match w with Bare _ => WNone | ReadOnlyOf _ => WRO | WriteOnlyOf _ => WWO end.

  Definition merged (i : info) (p : pbuilder) (k : dkind DS AS OS) (w : wrap) : dstate :=
    {| b_info := i; b_const := q_const p; b_default := q_default p; b_unit := q_unit p;
       b_one_of := q_one_of p; b_enum := q_enum p; b_ro := q_ro p; b_wo := q_wo p;
       b_format := q_format p; b_other := q_other p; b_kind := k; b_wrap := w |}.

  Definition merge_with I (L : base I) (get_info : I -> info) (w : wrapped I) : dstate :=
    merged (get_info (inner_of (unwrap w))) (get_partial L (inner_of (unwrap w))) (kind_of (unwrap w)) (wrap_of w).

  (** [ReadOnly] and [WriteOnly] are never around a base builder. *)
  Definition wrapped_ok I (w : wrapped I) : bool :=
    match w with
    | ReadOnlyOf (UBase _ _ _ _) | WriteOnlyOf (UBase _ _ _ _) => false
    | _ => true
    end.

  Definition base_ok I (L : base I) (get_info : I -> info) : Prop :=
    (forall f b, get_partial L (on_partial L f b) = f (get_partial L b))
    /\ (forall f b, get_info (on_partial L f b) = get_info b)
    /\ (forall g, on_info L = Some g -> forall f b,
          get_info (g f b) = f (get_info b) /\ get_partial L (g f b) = get_partial L b).

  Lemma call_merge I (L : base I) get_info child o w :
    base_ok L get_info -> wrapped_ok w = true -> (forall p, child_of o = Some p -> child p = dbuild p) ->
    match o with DInfo _ => on_info L <> None | _ => True end ->
    option_map (merge_with L get_info) (call L child o w) = dstep o (merge_with L get_info w)
    /\ forall w', call L child o w = Some w' -> wrapped_ok w' = true.
  Proof.
    intros (H1 & H2 & H3) Hw Hc Ho.
    destruct (child_of o) as [p|] eqn:Eo.
    - rewrite (dstep_child _ _ Eo). specialize (Hc p eq_refl). clear Ho.
      destruct o; cbn in Eo; try discriminate Eo; injection Eo as ->; unfold call; rewrite Hc;
        (destruct (dbuild p) as [d|]; [|split; [reflexivity|discriminate]]);
        destruct w as [s|s|s]; destruct s as [b|b|b|b|b|b|b|b|b|b]; try discriminate Hw;
        cbn; unfold specialize, merge_with, merged; cbn;
        try (destruct (q_other (get_partial L b)) eqn:Eq; cbn);
        try (split; [|intros w' E; inversion E; reflexivity]);
        rewrite ?H1, ?H2, ?Eq; cbn; rewrite ?Eq; try reflexivity.
    - clear Hc.
      destruct o as [io| | | | | | | | | | | | | | | | | | | | | | | | | | | | | | | | |]; cbn in Eo;
        try discriminate Eo.
      1: { destruct (on_info L) as [g|] eqn:Eg; [|congruence]. specialize (H3 _ eq_refl).
           unfold call. rewrite Eg. cbn [obind]. split.
           - destruct w as [s|s|s]; destruct s; cbn; unfold merge_with, merged; cbn;
               rewrite ?(proj1 (H3 _ _)), ?(proj2 (H3 _ _)); reflexivity.
           - destruct w as [s|s|s]; destruct s; try discriminate Hw; intros w' E; inversion E; reflexivity. }
      all: clear Ho; destruct w as [st|st|st]; destruct st as [b|b|b|b|b|b|b|b|b|b]; try discriminate Hw;
        cbn; unfold specialize, on_string, on_number, on_integer, can_rw, merge_with, merged; cbn;
        try (destruct (q_other (get_partial L b)) eqn:Eq; cbn);
        try (split; [|intros w' E; inversion E; reflexivity]);
        rewrite ?H1, ?H2, ?Eq; cbn; rewrite ?Eq; try reflexivity.
  Qed.

  (** ** Schemas standing on their own *)

  Lemma d_base_ok : base_ok (d_base DS AS OS) (@q_info DS AS OS).
  Proof.
    split; [|split]; [reflexivity|reflexivity|]. intros g Hg f b. injection Hg as <-. split; reflexivity.
  Qed.
  Lemma p_base_ok i : base_ok (p_base DS AS OS) (fun _ => i).
  Proof. split; [|split]; [reflexivity|reflexivity|]. intros g Hg. discriminate Hg. Qed.

  Notation mergeD := (merge_with (d_base DS AS OS) (@q_info DS AS OS)).

  Lemma unchecked_merge w : unchecked w = to_ds (mergeD w).
  Proof.
    destruct w as [s|s|s]; destruct s; cbn;
      unfold unchecked_tuple, unchecked_vec, unchecked_number, unchecked_integer, unchecked_object,
        unchecked_string, unchecked_enum, unchecked_one_of, unchecked_stateless, merge_with, merged, kind_to_ds; cbn;
      try (match goal with |- context [q_other ?p] => destruct (q_other p) end); reflexivity.
  Qed.

  Lemma dcall_inner_run p w :
    (fix run (p : list dsop) (w : wrapped dbuilder) : option (wrapped dbuilder) :=
       match p with
       | [] => Some w
       | o :: p' => let? w' := dcall o w in run p' w'
       end) p w = orun (@dcall DS AS OS) p w.
  Proof. revert w. induction p as [|o p IH]; intros w; simpl; auto. destruct (dcall o w); simpl; auto. Qed.

  Lemma call_child_ext I (L : base I) c1 c2 o w :
    (forall p, child_of o = Some p -> c1 p = c2 p) -> call L c1 o w = call L c2 o w.
  Proof. destruct o; cbn; intros H; try reflexivity; rewrite (H _ eq_refl); reflexivity. Qed.

  Lemma dcall_call o w : dcall o w = call (d_base DS AS OS) (@dbuild2 DS AS OS) o w.
  Proof.
    destruct o; try reflexivity; cbn [dcall]; unfold dbuild2; apply call_child_ext; intros q _;
      rewrite dcall_inner_run; reflexivity.
  Qed.

  Definition agrees (o : dsop) : Prop :=
    forall w, wrapped_ok w = true ->
      option_map mergeD (dcall o w) = dstep o (mergeD w)
      /\ forall w', dcall o w = Some w' -> wrapped_ok w' = true.

  Lemma run_agrees p : Forall agrees p -> forall w, wrapped_ok w = true ->
    option_map mergeD (orun (@dcall DS AS OS) p w) = drun p (mergeD w).
  Proof.
    induction 1 as [|o p Ho _ IH]; intros w Hw; [reflexivity|]. cbn [orun drun].
    destruct (Ho w Hw) as [H1 H2]. rewrite <- H1. destruct (dcall o w) as [w'|]; [|reflexivity]. cbn. auto.
  Qed.

  Lemma build_agrees p : Forall agrees p -> dbuild2 p = dbuild p.
  Proof.
    intros Hp. unfold dbuild2, dbuild.
    pose proof (run_agrees Hp (Bare (UBase DS AS OS (d_empty DS AS OS))) eq_refl) as H. cbn in H.
    change (mergeD (Bare (UBase DS AS OS (d_empty DS AS OS)))) with (@dempty DS AS OS) in H. rewrite <- H.
    destruct (orun _ p _) as [w|]; cbn; [|reflexivity]. apply unchecked_merge.
  Qed.

  Lemma all_agree o : agrees o.
  Proof.
    induction o as [o Ho|o p Ho IH] using dsop_ind'; intros w Hw; rewrite dcall_call;
      apply call_merge; auto using d_base_ok; try (destruct o; (exact I || discriminate)).
    intros q Hq. rewrite Ho in Hq. injection Hq as <-. apply build_agrees; auto.
  Qed.

  Lemma dbuild2_dbuild (p : list dsop) : dbuild2 p = dbuild p.
  Proof. apply build_agrees, Forall_forall. intros o _. apply all_agree. Qed.

  (** ** The schema of a property affordance *)

  Definition join (i : info) (r : partial_ds) : ds :=
    mkDs i {| m_const := r_const r; m_default := r_default r; m_unit := r_unit r; m_enum := r_enum r;
              m_ro := r_ro r; m_wo := r_wo r; m_format := r_format r |} (r_one_of r) (r_sub r) (r_other r).

  Definition mergeP (s : pschema DS AS OS) : dstate :=
    merge_with (p_base DS AS OS) (fun _ => v_info s) (v_schema s).

  Lemma partial_merge s : option_map (join (v_info s)) (partial (v_schema s)) = to_ds (mergeP s).
  Proof.
    unfold mergeP. destruct (v_schema s) as [t|t|t]; destruct t; cbn;
      unfold partial_tuple, partial_vec, partial_number, partial_integer, partial_object,
        partial_string, partial_enum, partial_one_of, partial_stateless, merge_with, merged, kind_to_ds; cbn;
      try (match goal with |- context [q_other ?p] => destruct (q_other p) end); reflexivity.
  Qed.

  Definition setter (o : dsop) : bool :=
    match o with
    | DMinLength _ | DMaxLength _ | DPattern _ | DEncoding _ | DMedia _ => true
    | _ => false
    end.

  Lemma pcall_merge o s : wrapped_ok (v_schema s) = true ->
    option_map mergeP (pcall o s) = (if setter o then None else dstep o (mergeP s))
    /\ forall s', pcall o s = Some s' -> wrapped_ok (v_schema s') = true.
  Proof.
    intros Hw.
    assert (Hd : match o with DInfo _ => False | _ => True end ->
      option_map mergeP (let? w := call (p_base DS AS OS) (@dbuild2 DS AS OS) o (v_schema s) in
                         Some {| v_info := v_info s; v_schema := w |}) = dstep o (mergeP s)
      /\ forall s', (let? w := call (p_base DS AS OS) (@dbuild2 DS AS OS) o (v_schema s) in
                      Some {| v_info := v_info s; v_schema := w |}) = Some s' -> wrapped_ok (v_schema s') = true).
    { intros Hi. destruct (@call_merge _ (p_base DS AS OS) (fun _ => v_info s) (@dbuild2 DS AS OS) o (v_schema s)
        (p_base_ok (v_info s)) Hw (fun p _ => dbuild2_dbuild p)) as [H1 H2].
      { destruct o; try exact I. destruct Hi. }
      unfold mergeP at 2. rewrite <- H1.
      destruct (call _ _ o (v_schema s)) as [w'|]; cbn; split; try reflexivity; try discriminate.
      intros s' E. injection E as <-. cbn. auto. }
    destruct o; cbn [pcall setter]; try (apply Hd; exact I); try (split; [reflexivity|discriminate]).
    split; [reflexivity|]. intros s' E. injection E as <-. exact Hw.
  Qed.

  Lemma prun_merge (p : list dsop) : forall s, wrapped_ok (v_schema s) = true ->
    option_map mergeP (orun (@pcall DS AS OS) p s) = if existsb setter p then None else drun p (mergeP s).
  Proof.
    induction p as [|o p IH]; intros s Hs; [reflexivity|]. cbn [orun existsb drun].
    destruct (@pcall_merge o s Hs) as [H1 H2]. destruct (setter o); cbn [orb].
    - destruct (pcall o s); [discriminate H1|]. reflexivity.
    - rewrite <- H1. destruct (pcall o s) as [s'|]; cbn; [auto|].
      destruct (existsb setter p); reflexivity.
  Qed.

  Lemma pbuild2_dbuild (p : list dsop) :
    option_map (fun ir => join (fst ir) (snd ir)) (pbuild2 p) = if existsb setter p then None else dbuild p.
  Proof.
    unfold pbuild2, dbuild. pose proof (@prun_merge p (pschema_empty DS AS OS) eq_refl) as H.
    change (mergeP (pschema_empty DS AS OS)) with (@dempty DS AS OS) in H.
    destruct (existsb setter p).
    - destruct (orun _ p _); [discriminate H|]. reflexivity.
    - rewrite <- H. destruct (orun _ p _) as [s|]; cbn; [|reflexivity].
      rewrite <- partial_merge. destruct (partial (v_schema s)); reflexivity.
  Qed.

  (** ** Checking and building *)

  Lemma size_list l :
    (fix go (l : list ds) : nat := match l with [] => 0 | d :: l' => ds_size d + go l' end) l
    = fold_right (fun d n => ds_size d + n) 0 l.
  Proof. induction l; cbn; auto. Qed.
  Lemma size_map l :
    (fix gom (l : list (string * ds)) : nat := match l with [] => 0 | (_, d) :: l' => ds_size d + gom l' end) l
    = fold_right (fun kd n => ds_size (snd kd) + n) 0 l.
  Proof. induction l as [|[k d] l IH]; cbn; auto. Qed.
  Lemma check_list ord l :
    (fix go (l : list ds) : result error unit :=
       match l with [] => Ok tt | d :: l' => let! _ := check ord d in go l' end) l
    = rfor_each (check ord) l.
  Proof. induction l as [|d l IH]; cbn; auto. rewrite IH. reflexivity. Qed.

  Lemma partial_check_join ord i r : partial_check ord r = check ord (join i r).
  Proof.
    unfold partial_check. cbn [check join ds_size].
    destruct (r_one_of r) as [l|]; rewrite ?size_list, ?check_list;
      (destruct (r_sub r) as [[[[d|l']|] mn mx a| | | |[ps|] req o| |]|]; rewrite ?size_list, ?size_map; reflexivity).
  Qed.

  Lemma ds_build_list ord tp l :
    (fix goL (l : list ds) : list (result error ds) :=
       match l with [] => [] | d :: l' => ds_build ord tp d :: goL l' end) l = map (ds_build ord tp) l.
  Proof. induction l; cbn; congruence. Qed.
  Lemma ds_build_map ord tp l :
    (fix goM (l : list (string * ds)) : list (string * result error ds) :=
       match l with [] => [] | (k, d) :: l' => (k, ds_build ord tp d) :: goM l' end) l
    = map (fun kd => (fst kd, ds_build ord tp (snd kd))) l.
  Proof. induction l as [|[k d] l IH]; cbn; congruence. Qed.
  Lemma rmap_all_id A B (f : A -> result error B) l : rmap_all (fun r => r) (map f l) = rmap_all f l.
  Proof. induction l as [|a l IH]; cbn; auto. destruct (f a); cbn; rewrite ?IH; auto. Qed.

  Lemma ds_build_join ord tp i r :
    ds_build ord tp (join i r) =
    let! i' := info_build ord tp i in
    let! o := ropt (rmap_all (ds_build ord tp)) (r_one_of r) in
    let! s := ropt (sub_build ord tp) (r_sub r) in
    Ok (mkDs i' {| m_const := r_const r; m_default := r_default r; m_unit := r_unit r; m_enum := r_enum r;
                   m_ro := r_ro r; m_wo := r_wo r; m_format := r_format r |} o s (r_other r)).
  Proof.
    unfold join. cbn [ds_build]. destruct (info_build ord tp i) as [i'|e]; [|reflexivity]. cbn [rbind].
    assert (Ho : forall o, ropt (fun l => rmap_all (fun r0 => r0)
        ((fix goL (l0 : list ds) : list (result error ds) :=
            match l0 with [] => [] | d :: l' => ds_build ord tp d :: goL l' end) l)) o
        = ropt (rmap_all (ds_build ord tp)) o).
    { intros [l|]; cbn; [|reflexivity]. rewrite ds_build_list, rmap_all_id. reflexivity. }
    rewrite Ho. destruct (ropt _ (r_one_of r)) as [o|e]; [|reflexivity]. cbn [rbind].
    destruct (r_sub r) as [[items mn mx a| | | |props req x| |]|]; try reflexivity.
    - destruct items as [[d|l]|]; cbn; [| |reflexivity].
      + destruct (ds_build ord tp d); reflexivity.
      + rewrite ds_build_list, rmap_all_id. destruct (rmap_all _ l); reflexivity.
    - destruct props as [ps|]; cbn; [|reflexivity]. rewrite ds_build_map.
      destruct (map_build _ _ _); reflexivity.
  Qed.
End Facts.

Section Properties.
  Variable E : env.
  Variable X : exts.

  Definition merge_property (u : uproperty2 X) : uproperty X :=
    {| up_ia := u_ia u; up_ds := join (u_info u) (u_schema u); up_observable := u_observable u;
       up_other := u_other u |}.

  Definition merge_builder (s : property_b2 X) : property_b X :=
    {| pb_ia := w_ia s; pb_ds := mergeP (w_schema s); pb_observable := w_observable s; pb_other := w_other s |}.

  Lemma delegated_setter o : delegated X o = negb (setter o).
  Proof. destruct o; reflexivity. Qed.

  Lemma pstep2_merge o s : wrapped_ok (v_schema (w_schema s)) = true ->
    option_map merge_builder (pstep2 o s) = pstep o (merge_builder s)
    /\ forall s', pstep2 o s = Some s' -> wrapped_ok (v_schema (w_schema s')) = true.
  Proof.
    intros Hw. destruct o as [o|o|b]; cbn.
    - destruct (pcall_merge o (w_schema s) Hw) as [H1 H2]. rewrite delegated_setter.
      destruct (pcall o (w_schema s)) as [d|]; cbn in *.
      + destruct (setter o); [discriminate H1|]. cbn. rewrite <- H1. cbn. split; [reflexivity|].
        intros s' E'. injection E' as <-. cbn. auto.
      + destruct (setter o); cbn; [|rewrite <- H1]; split; try reflexivity; discriminate.
    - destruct (ia_step o (w_ia s)); cbn; split; try reflexivity; try discriminate.
      intros s' E'. injection E' as <-. exact Hw.
    - split; [reflexivity|]. intros s' E'. injection E' as <-. exact Hw.
  Qed.

  Lemma prun2_merge p : forall s, wrapped_ok (v_schema (w_schema s)) = true ->
    option_map merge_builder (orun (@pstep2 X) p s) = orun (@pstep X) p (merge_builder s).
  Proof.
    induction p as [|o p IH]; intros s Hs; [reflexivity|]. cbn [orun].
    destruct (pstep2_merge o s Hs) as [H1 H2]. rewrite <- H1.
    destruct (pstep2 o s) as [s'|]; cbn; [auto|reflexivity].
  Qed.

  Lemma prop_run2_merge xi xp p : option_map merge_property (prop_run2 xi xp p) = prop_run xi xp p.
  Proof.
    unfold prop_run2, prop_run.
    pose proof (@prun2_merge p {| w_ia := ia_new X xi; w_schema := pschema_empty _ _ _;
                                  w_observable := None; w_other := xp |} eq_refl) as H.
    match type of H with _ = orun _ _ ?s => change s with
      {| pb_ia := ia_new X xi; pb_ds := dempty; pb_observable := None; pb_other := xp |} in H end.
    rewrite <- H. destruct (orun _ p _) as [s|]; cbn; [|reflexivity].
    rewrite <- partial_merge. destruct (partial _); reflexivity.
  Qed.

  Lemma property_build2_merge ord u :
    property_build2 E ord u = property_build E ord (merge_property u).
  Proof.
    unfold property_build2, property_build, ia_build. cbn [merge_property up_ds up_ia up_observable up_other].
    rewrite ds_build_join. cbn [ds_info join]. unfold info_build.
    destruct (ropt _ (i_titles (u_info u))) as [ts|e]; [|reflexivity]. cbn [rbind].
    destruct (ropt _ (i_descriptions (u_info u))) as [dcs|e]; [|reflexivity]. cbn [rbind].
    destruct (ia_uri_build _ _ _) as [uri|e]; [|reflexivity]. cbn [rbind].
    destruct (ropt _ (r_one_of (u_schema u))) as [o|e]; [|reflexivity]. cbn [rbind].
    destruct (ropt _ (r_sub (u_schema u))) as [s|e]; reflexivity.
  Qed.

  Lemma properties_fold2_merge ord defs l : forall acc,
    properties_fold2 E ord defs l acc
    = affordances_fold ord defs AProperty (@up_ia X) (fun p => [Some (up_ds p)]) (property_build E ord)
        (map (fun nu => (fst nu, merge_property (snd nu))) l) acc.
  Proof.
    induction l as [|[n u] l IH]; intros acc; [reflexivity|].
    cbn [properties_fold2 affordances_fold map fst snd]. cbn [merge_property up_ia].
    destruct (ia_check _ _ _ _) as [[]|e]; [|reflexivity]. cbn [rbind rfor_each].
    rewrite (partial_check_join ord (u_info u)). unfold merge_property at 1. cbn [up_ds].
    destruct (check _ _) as [[]|e]; [|reflexivity]. cbn [rbind].
    destruct (mhas n acc); [reflexivity|]. rewrite property_build2_merge.
    destruct (property_build _ _ _); [|reflexivity]. cbn [rbind]. apply IH.
  Qed.

  Lemma properties_build2_merge ord defs l :
    properties_build2 E ord defs l
    = affordances_build ord defs AProperty (@up_ia X) (fun p => [Some (up_ds p)]) (property_build E ord)
        (map (fun nu => (fst nu, merge_property (snd nu))) l).
  Proof.
    destruct l as [|nu l]; [reflexivity|]. unfold properties_build2, affordances_build.
    rewrite properties_fold2_merge. reflexivity.
  Qed.
End Properties.
