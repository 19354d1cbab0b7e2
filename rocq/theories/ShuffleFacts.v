(** * Shuffled documents are read alike *)

From Coq Require Import String Bool ZArith Lia List.
From Verif Require Import Base MinMax Json Serde Types HList Protocol De SpecDoc SpecShuffle CanonFacts RoundTrip Samples DocSamples.
Import ListNotations.
Set Implicit Arguments.
Local Open Scope string_scope.
Local Open Scope list_scope.

(** ** Objects and arrays *)

Inductive sim : entries -> entries -> Prop :=
| sim_refl es : sim es es
| sim_trans a b c : sim a b -> sim b c -> sim a c
| sim_swap es1 kv kv' es2 : may_swap kv kv' -> sim (es1 ++ kv :: kv' :: es2) (es1 ++ kv' :: kv :: es2)
| sim_member es1 k v v' es2 : shuffled v v' -> sim (es1 ++ (k, v) :: es2) (es1 ++ (k, v') :: es2).

Lemma sim_shuffled es es' : sim es es' -> shuffled (JObj es) (JObj es').
Proof.
  induction 1.
  - apply sh_refl.
  - eapply sh_trans; eauto.
  - apply sh_swap. assumption.
  - apply sh_member. assumption.
Qed.

Lemma Forall2_same A (R : A -> A -> Prop) l : (forall a, R a a) -> Forall2 R l l.
Proof. intros H. induction l; constructor; auto. Qed.

Lemma Forall2_trans A (R : A -> A -> Prop) a b c :
  (forall x y z, R x y -> R y z -> R x z) -> Forall2 R a b -> Forall2 R b c -> Forall2 R a c.
Proof.
  intros HR H. revert c. induction H; intros c Hc; inversion Hc; subst; constructor; eauto.
Qed.

Lemma shuffled_inv j j' : shuffled j j' ->
  match j with
  | JObj es => exists es', j' = JObj es' /\ sim es es'
  | JArr l => exists l', j' = JArr l' /\ Forall2 shuffled l l'
  | _ => j' = j
  end.
Proof.
  induction 1 as [j|j1 j2 j3 H1 IH1 H2 IH2|es1 kv kv' es2 Hr|es1 k v v' es2 H IH|l1 v v' l2 H IH].
  - destruct j; try reflexivity.
    + exists l. split; [reflexivity|]. apply Forall2_same. apply sh_refl.
    + exists es. split; [reflexivity|apply sim_refl].
  - destruct j1; try (subst j2; exact IH2).
    + destruct IH1 as (l2 & -> & F). destruct IH2 as (l3 & -> & F'). exists l3. split; [reflexivity|].
      eapply Forall2_trans; eauto using sh_trans.
    + destruct IH1 as (e2 & -> & F). destruct IH2 as (e3 & -> & F'). exists e3. split; [reflexivity|].
      eapply sim_trans; eauto.
  - eexists. split; [reflexivity|]. apply sim_swap. exact Hr.
  - eexists. split; [reflexivity|]. apply sim_member. exact H.
  - eexists. split; [reflexivity|]. apply Forall2_app; [apply Forall2_same, sh_refl|].
    constructor; [exact H|apply Forall2_same, sh_refl].
Qed.

Lemma shuffled_obj es es' : shuffled (JObj es) (JObj es') -> sim es es'.
Proof. intros H. destruct (shuffled_inv H) as (e & E & S). injection E as <-. exact S. Qed.

Lemma rivals_refl k : rivals k k.
Proof. left. reflexivity. Qed.

Lemma unrelated kv kv' : ~ rivals (fst kv) (fst kv') -> may_swap kv kv'.
Proof. intros H. split; [intros Q; apply H; rewrite Q; apply rivals_refl|intros Q; destruct (H Q)]. Qed.

Lemma sim_get es es' k : sim es es' -> Forall2 shuffled (get k es) (get k es').
Proof.
  induction 1 as [es|a b c H1 IH1 H2 IH2|es1 [k1 v1] [k2 v2] es2 Hr|es1 k1 v v' es2 H].
  - apply Forall2_same, sh_refl.
  - eapply Forall2_trans; eauto using sh_trans.
  - rewrite !get_app, !get_cons.
    destruct (String.eqb_spec k k1), (String.eqb_spec k k2); try (apply Forall2_same, sh_refl).
    subst. destruct Hr as [Hr _]. destruct (Hr eq_refl).
  - rewrite !get_app, !get_cons. apply Forall2_app; [apply Forall2_same, sh_refl|].
    destruct (String.eqb k k1); [|apply Forall2_same, sh_refl].
    constructor; [exact H|apply Forall2_same, sh_refl].
Qed.

Lemma without_app ks a b : without ks (a ++ b) = without ks a ++ without ks b.
Proof. apply filter_app. Qed.

Lemma sim_without ks es es' : sim es es' -> sim (without ks es) (without ks es').
Proof.
  induction 1 as [es|a b c H1 IH1 H2 IH2|es1 kv kv' es2 Hr|es1 k1 v v' es2 H].
  - apply sim_refl.
  - eapply sim_trans; eauto.
  - rewrite !without_app. cbn. destruct (negb (smem (fst kv) ks)), (negb (smem (fst kv') ks));
      try apply sim_refl. apply sim_swap. exact Hr.
  - rewrite !without_app. cbn. destruct (negb (smem k1 ks)); [|apply sim_refl]. apply sim_member. exact H.
Qed.

(** ** Readers *)

Definition inv A (d : json -> option A) : Prop := forall j j', shuffled j j' -> d j = d j'.
Definition einv A (f : entries -> option A) : Prop := forall es es', sim es es' -> f es = f es'.

Lemma bind_cong A B (a a' : option A) (f f' : A -> option B) :
  a = a' -> (forall x, f x = f' x) -> obind a f = obind a' f'.
Proof. intros -> H. destruct a'; cbn; auto. Qed.

Lemma null_inv j j' : shuffled j j' -> j = JNull <-> j' = JNull.
Proof.
  intros H. apply shuffled_inv in H. destruct j; try (subst j'; tauto).
  - destruct H as (l' & -> & _). split; discriminate.
  - destruct H as (e' & -> & _). split; discriminate.
Qed.

Lemma req_inv A k (d : json -> option A) : inv d -> einv (req k d).
Proof.
  intros Hd es es' H. apply (sim_get k) in H. unfold req.
  destruct H as [|v v' l l' Hv Hl]; [reflexivity|]. destruct Hl; [apply Hd; exact Hv|reflexivity].
Qed.

Lemma dflt_inv A k a (d : json -> option A) : inv d -> einv (dflt k a d).
Proof.
  intros Hd es es' H. apply (sim_get k) in H. unfold dflt.
  destruct H as [|v v' l l' Hv Hl]; [reflexivity|]. destruct Hl; [apply Hd; exact Hv|reflexivity].
Qed.

Lemma opt_one A (d : json -> option A) (l : list json) :
  match l with [] => Some None | [JNull] => Some None | [v] => option_map Some (d v) | _ => None end
  = match l with
    | [] => Some None
    | [v] => match v with JNull => Some None | _ => option_map Some (d v) end
    | _ => None
    end.
Proof. destruct l as [|[] [|]]; reflexivity. Qed.

Lemma nullable B (x : B) (f g : json -> B) (j j' : json) :
  shuffled j j' -> f j = g j' ->
  match j with JNull => x | _ => f j end = match j' with JNull => x | _ => g j' end.
Proof.
  intros H E. pose proof (null_inv H) as [N N'].
  destruct j; destruct j'; try reflexivity; try exact E;
    first [specialize (N' eq_refl); discriminate|specialize (N eq_refl); discriminate].
Qed.

Lemma opt_inv A k (d : json -> option A) : inv d -> einv (opt k d).
Proof.
  intros Hd es es' H. apply (sim_get k) in H. unfold opt. rewrite !opt_one.
  destruct H as [|v v' l l' Hv Hl]; [reflexivity|]. destruct Hl; [|reflexivity].
  apply (@nullable _ (Some None) (fun v => option_map Some (d v)) (fun v => option_map Some (d v)) v v' Hv).
  rewrite (Hd v v' Hv). reflexivity.
Qed.

(** Values without members *)
Ltac leaf :=
  let j := fresh "j" in let j' := fresh "j'" in let H := fresh "H" in
  intros j j' H; apply shuffled_inv in H;
  destruct j; try (subst j'; reflexivity); destruct H as (? & -> & _); reflexivity.

Lemma str_inv : inv d_str. Proof. leaf. Qed.
Lemma bool_inv : inv d_bool. Proof. leaf. Qed.
Lemma int_inv lo hi : inv (d_int lo hi). Proof. leaf. Qed.
Lemma f64_inv : inv d_f64. Proof. leaf. Qed.
Lemma tag_inv A (tbl : list (string * A)) : inv (d_tag tbl). Proof. leaf. Qed.
Lemma langtag_inv E : inv (d_langtag E). Proof. leaf. Qed.
Lemma date_inv E : inv (d_date E). Proof. leaf. Qed.

Lemma sim_length es es' : sim es es' -> length es = length es'.
Proof. induction 1; [reflexivity|congruence|rewrite !app_length; reflexivity|rewrite !app_length; reflexivity]. Qed.

(** An object with a single member *)
Lemma sim_single k v es : sim [(k, v)] es -> exists v', es = [(k, v')] /\ shuffled v v'.
Proof.
  intros H. pose proof (sim_length H) as L. pose proof (sim_get k H) as G.
  destruct es as [|[k' v'] [|]]; try discriminate.
  rewrite !get_cons in G. cbn in G. rewrite String.eqb_refl in G.
  destruct (String.eqb_spec k k') as [->|_].
  - inversion G; subst. exists v'. split; [reflexivity|assumption].
  - inversion G.
Qed.

Lemma single_cases (es es' : entries) : sim es es' ->
  (exists k v v', es = [(k, v)] /\ es' = [(k, v')] /\ shuffled v v')
  \/ ((forall k v, es <> [(k, v)]) /\ forall k v, es' <> [(k, v)]).
Proof.
  intros H. pose proof (sim_length H) as L.
  destruct es as [|[k v] [|]].
  - right. destruct es'; [|discriminate]. split; discriminate.
  - left. destruct (sim_single H) as (v' & -> & S). exists k, v, v'. auto.
  - right. destruct es' as [|? [|]]; try discriminate. split; discriminate.
Qed.

Lemma variant_inv A (tbl : list (string * A)) : inv (d_variant tbl).
Proof.
  intros j j' H. apply shuffled_inv in H. destruct j; try (subst j'; reflexivity).
  - destruct H as (? & -> & _); reflexivity.
  - destruct H as (es' & -> & S). destruct (single_cases S) as [(k & v & v' & -> & -> & Hv)|[N N']].
    + cbn. pose proof (null_inv Hv) as [A1 A2].
      destruct v; destruct v'; try reflexivity; first [specialize (A1 eq_refl); discriminate|specialize (A2 eq_refl); discriminate].
    + cbn. destruct es as [|[k v] [|]]; [|destruct (N k v eq_refl)|];
        (destruct es' as [|[k' v'] [|]]; [|destruct (N' k' v' eq_refl)|]); try reflexivity;
        repeat match goal with |- context [match ?v with JNull => _ | _ => _ end] => destruct v end; reflexivity.
Qed.

(** Lists *)
Lemma omap_all_inv A (d : json -> option A) l l' : inv d -> Forall2 shuffled l l' -> omap_all d l = omap_all d l'.
Proof.
  intros Hd. induction 1 as [|v v' l l' Hv Hl IH]; cbn; [reflexivity|]. rewrite (Hd v v' Hv), IH. reflexivity.
Qed.

Lemma list_inv A (d : json -> option A) : inv d -> inv (d_list d).
Proof.
  intros Hd j j' H. apply shuffled_inv in H. destruct j; try (subst j'; reflexivity).
  - destruct H as (l' & -> & F). cbn. apply omap_all_inv; assumption.
  - destruct H as (e' & -> & _). reflexivity.
Qed.

Lemma oom_inv A (d : json -> option A) : inv d -> inv (d_oom d).
Proof. intros Hd j j' H. unfold d_oom. rewrite (Hd j j' H), (list_inv Hd H). reflexivity. Qed.

(** Maps *)
Lemma llook_swap A k (l1 l2 : list (string * A)) x y :
  fst x <> fst y -> llook k (l1 ++ x :: y :: l2) = llook k (l1 ++ y :: x :: l2).
Proof.
  intros Hn. induction l1 as [|[k0 v0] l1 IH]; cbn [app].
  - destruct x as [kx x], y as [ky y]. cbn [llook fst] in *. destruct (llook k l2); [reflexivity|].
    destruct (String.eqb_spec k kx), (String.eqb_spec k ky); subst; try reflexivity. destruct Hn. reflexivity.
  - cbn [llook]. rewrite IH. reflexivity.
Qed.

Lemma mof_swap A (l1 l2 : list (string * A)) x y :
  fst x <> fst y -> mof (l1 ++ x :: y :: l2) = mof (l1 ++ y :: x :: l2).
Proof.
  intros Hn. apply mext; try apply msorted_mof. intros k. rewrite !mlook_mof. apply llook_swap. exact Hn.
Qed.

Lemma omap_all_app A B (f : A -> option B) a b :
  omap_all f (a ++ b) = let? x := omap_all f a in let? y := omap_all f b in Some (x ++ y).
Proof.
  induction a as [|a0 a IH]; cbn.
  - destruct (omap_all f b); reflexivity.
  - destruct (f a0); cbn; [|reflexivity]. rewrite IH. destruct (omap_all f a); cbn; [|reflexivity].
    destruct (omap_all f b); reflexivity.
Qed.

Lemma entries_inv A (d : string -> json -> option A) :
  (forall k, inv (d k)) ->
  einv (fun es => option_map mof (omap_all (fun kv => option_map (fun a => (fst kv, a)) (d (fst kv) (snd kv))) es)).
Proof.
  intros Hd es es' H. induction H as [es|a b c H1 IH1 H2 IH2|es1 [k v] [k' v'] es2 Hr|es1 k v v' es2 H].
  - reflexivity.
  - congruence.
  - destruct Hr as [Hr _]. rewrite !omap_all_app. cbn [omap_all fst snd].
    destruct (omap_all _ es1) as [l1|]; [|reflexivity]. cbn [obind].
    destruct (d k v) as [x|], (d k' v') as [y|]; cbn [option_map]; try reflexivity.
    destruct (omap_all _ es2) as [l2|]; [|reflexivity]. cbn [obind option_map]. f_equal. apply mof_swap. exact Hr.
  - rewrite !omap_all_app. cbn [omap_all fst snd]. rewrite (Hd k v v' H). reflexivity.
Qed.

Lemma map_inv A (d : json -> option A) : inv d -> inv (d_map d).
Proof.
  intros Hd j j' H. apply shuffled_inv in H. destruct j; try (subst j'; reflexivity).
  - destruct H as (l' & -> & F). reflexivity.
  - destruct H as (e' & -> & S). exact (@entries_inv A (fun _ => d) (fun _ => Hd) _ _ S).
Qed.

Lemma multilang_inv E : inv (d_multilang E).
Proof.
  intros j j' H. apply shuffled_inv in H. destruct j; try (subst j'; reflexivity).
  - destruct H as (l' & -> & F). reflexivity.
  - destruct H as (e' & -> & S).
    assert (Hd : forall k, inv (fun v => if tag_ok E k then d_str v else None)).
    { intros k v v' Hv. destruct (tag_ok E k); [apply str_inv; exact Hv|reflexivity]. }
    pose proof (@entries_inv _ (fun k v => if tag_ok E k then d_str v else None) Hd _ _ S) as Hm. cbn in Hm. cbn.
    assert (X : forall l, omap_all (fun kv => if tag_ok E (fst kv) then option_map (fun s => (fst kv, s)) (d_str (snd kv)) else None) l
                = omap_all (fun kv => option_map (fun a => (fst kv, a)) (if tag_ok E (fst kv) then d_str (snd kv) else None)) l).
    { intros l. apply omap_all_ext. intros kv _. destruct (tag_ok E (fst kv)); reflexivity. }
    rewrite !X. exact Hm.
Qed.

(** Values *)
Lemma canon_shuffled j j' : shuffled j j' -> canon j = canon j'.
Proof.
  induction 1 as [j|j1 j2 j3 H1 IH1 H2 IH2|es1 kv kv' es2 Hr|es1 k v v' es2 H IH|l1 v v' l2 H IH].
  - reflexivity.
  - congruence.
  - cbn. rewrite !map_app. cbn. f_equal. apply mof_swap. cbn. exact (proj1 Hr).
  - cbn. rewrite !map_app. cbn. rewrite IH. reflexivity.
  - cbn. rewrite !map_app. cbn. rewrite IH. reflexivity.
Qed.

Lemma value_inv : inv d_value.
Proof. intros j j' H. unfold d_value. rewrite (canon_shuffled H). reflexivity. Qed.

Lemma depth_shuffled j j' : shuffled j j' -> jdepth j = jdepth j'.
Proof.
  induction 1 as [j|j1 j2 j3 H1 IH1 H2 IH2|es1 kv kv' es2 Hr|es1 k v v' es2 H IH|l1 v v' l2 H IH].
  - reflexivity.
  - congruence.
  - cbn. rewrite !fold_right_app. cbn. do 2 f_equal. lia.
  - cbn. rewrite !fold_right_app. cbn. rewrite IH. reflexivity.
  - cbn. rewrite !fold_right_app. cbn. rewrite IH. reflexivity.
Qed.

(** Structs *)
Lemma flat_inv A (f : entries -> option A) : einv f -> inv (d_flat f).
Proof.
  intros Hf j j' H. apply shuffled_inv in H. destruct j; try (subst j'; reflexivity).
  - destruct H as (l' & -> & F). reflexivity.
  - destruct H as (e' & -> & S). apply Hf. exact S.
Qed.

Definition sinv A (f : list json -> option A) : Prop := forall l l', Forall2 shuffled l l' -> f l = f l'.

Lemma Forall2_len A B (R : A -> B -> Prop) l l' : Forall2 R l l' -> length l = length l'.
Proof. induction 1; cbn; congruence. Qed.

Lemma struct_inv A n (f : entries -> option A) g : einv f -> sinv g -> inv (d_struct n f g).
Proof.
  intros Hf Hg j j' H. apply shuffled_inv in H. destruct j; try (subst j'; reflexivity).
  - destruct H as (l' & -> & F). cbn. rewrite (Forall2_len F), (Hg _ _ F). reflexivity.
  - destruct H as (e' & -> & S). apply Hf. exact S.
Qed.

Lemma nth_shuffled l l' i : Forall2 shuffled l l' ->
  match nth_error l i, nth_error l' i with
  | Some v, Some v' => shuffled v v'
  | None, None => True
  | _, _ => False
  end.
Proof.
  intros H. revert i. induction H as [|v v' l l' Hv Hl IH]; intros [|i]; cbn; try exact I; try exact Hv. apply IH.
Qed.

Lemma sq_req_inv A i (d : json -> option A) : inv d -> sinv (sq_req i d).
Proof.
  intros Hd l l' H. unfold sq_req. pose proof (nth_shuffled i H) as N.
  destruct (nth_error l i), (nth_error l' i); try contradiction; auto.
Qed.

Lemma sq_dflt_inv A i a (d : json -> option A) : inv d -> sinv (sq_dflt i a d).
Proof.
  intros Hd l l' H. unfold sq_dflt. pose proof (nth_shuffled i H) as N.
  destruct (nth_error l i), (nth_error l' i); try contradiction; auto.
Qed.

Lemma sq_opt_inv A i (d : json -> option A) : inv d -> sinv (sq_opt i d).
Proof.
  intros Hd l l' H. unfold sq_opt. pose proof (nth_shuffled i H) as N.
  destruct (nth_error l i) as [v|], (nth_error l' i) as [v'|]; try contradiction; auto.
  apply (@nullable _ (Some None) (fun v => option_map Some (d v)) (fun v => option_map Some (d v)) v v' N).
  rewrite (Hd v v' N). reflexivity.
Qed.

Lemma sq_optd_inv A i (d : json -> option A) : inv d -> sinv (sq_optd i d).
Proof.
  intros Hd l l' H. unfold sq_optd. pose proof (nth_shuffled i H) as N.
  destruct (nth_error l i) as [v|], (nth_error l' i) as [v'|]; try contradiction; auto.
  apply (@nullable _ (Some None) (fun v => option_map Some (d v)) (fun v => option_map Some (d v)) v v' N).
  rewrite (Hd v v' N). reflexivity.
Qed.

(** ** The readers of the crate *)

Lemma numeric_inv j j' : shuffled j j' -> numeric j <-> numeric j'.
Proof.
  intros H. apply shuffled_inv in H. destruct j; try (subst j'; tauto).
  - destruct H as (l' & -> & _). cbn. tauto.
  - destruct H as (e' & -> & _). cbn. tauto.
Qed.

Lemma first_sim es es' ks :
  sim es es' -> (forall k k', In k ks -> In k' ks -> rivals k k') ->
  match first_of ks es, first_of ks es' with
  | Some (k, v), Some (k', v') => k = k' /\ shuffled v v' \/ ~ numeric v /\ ~ numeric v'
  | None, None => True
  | _, _ => False
  end.
Proof.
  intros H Hks. unfold first_of.
  induction H as [es|a b c H1 IH1 H2 IH2|es1 kv kv' es2 Hr|es1 k v v' es2 H].
  - destruct (find _ es) as [[k v]|]; [left; split; [reflexivity|apply sh_refl]|exact I].
  - destruct (find _ a) as [[k v]|], (find _ b) as [[k' v']|], (find _ c) as [[k'' v'']|]; try tauto.
    destruct IH1 as [[-> S]|[N N']], IH2 as [[-> S']|[M M']].
    + left. split; [reflexivity|]. eapply sh_trans; eauto.
    + right. split; [rewrite (numeric_inv S); exact M|exact M'].
    + right. split; [exact N|rewrite <- (numeric_inv S'); exact N'].
    + right. split; assumption.
  - induction es1 as [|e es1 IH]; cbn [find app].
    + destruct (smem (fst kv) ks) eqn:E1, (smem (fst kv') ks) eqn:E2.
      * apply smem_In in E1. apply smem_In in E2. destruct Hr as [_ Hr].
        destruct kv, kv'. right. apply Hr. apply Hks; assumption.
      * destruct kv; left; split; [reflexivity|apply sh_refl].
      * destruct kv'; left; split; [reflexivity|apply sh_refl].
      * destruct (find _ es2) as [[k v]|]; [left; split; [reflexivity|apply sh_refl]|exact I].
    + destruct (smem (fst e) ks); [|exact IH]. destruct e; left; split; [reflexivity|apply sh_refl].
  - induction es1 as [|e es1 IH]; cbn [find app fst].
    + destruct (smem k ks); [left; split; [reflexivity|exact H]|].
      destruct (find _ es2) as [[k' w]|]; [left; split; [reflexivity|apply sh_refl]|exact I].
    + destruct (smem (fst e) ks); [|exact IH]. destruct e; left; split; [reflexivity|apply sh_refl].
Qed.

(** Readers of numbers *)
Definition numbers_only A (d : json -> option A) : Prop := forall j, ~ numeric j -> d j = None.

Lemma f64_numbers : numbers_only d_f64.
Proof. intros [] H; cbn in *; try reflexivity; destruct (H I). Qed.

Lemma int_numbers lo hi : numbers_only (d_int lo hi).
Proof. intros [] H; cbn in *; try reflexivity; destruct (H I). Qed.

Lemma max_inv A (d : json -> option A) es es' : inv d -> numbers_only d -> sim es es' -> d_max d es = d_max d es'.
Proof.
  intros Hd Hnum H. unfold d_max.
  assert (N := @first_sim _ _ ["maximum"; "exclusiveMaximum"] H (fun k k' h h' => or_intror (or_introl (conj h h')))).
  destruct (first_of _ es) as [[k v]|], (first_of _ es') as [[k' v']|]; try contradiction; [|reflexivity].
  destruct N as [[<- S]|[N N']]; [rewrite (Hd v v' S); reflexivity|].
  rewrite (Hnum v N), (Hnum v' N'). destruct (String.eqb k _), (String.eqb k' _); reflexivity.
Qed.

Lemma min_inv A (d : json -> option A) es es' : inv d -> numbers_only d -> sim es es' -> d_min d es = d_min d es'.
Proof.
  intros Hd Hnum H. unfold d_min.
  assert (N := @first_sim _ _ ["minimum"; "exclusiveMinimum"] H (fun k k' h h' => or_intror (or_intror (conj h h')))).
  destruct (first_of _ es) as [[k v]|], (first_of _ es') as [[k' v']|]; try contradiction; [|reflexivity].
  destruct N as [[<- S]|[N N']]; [rewrite (Hd v v' S); reflexivity|].
  rewrite (Hnum v N), (Hnum v' N'). destruct (String.eqb k _), (String.eqb k' _); reflexivity.
Qed.

Ltac reader :=
  repeat first
    [ assumption
    | exact str_inv | exact bool_inv | exact f64_inv | apply int_inv | apply variant_inv | apply tag_inv
    | exact value_inv | apply langtag_inv | apply date_inv | apply multilang_inv
    | apply list_inv | apply oom_inv | apply map_inv ].

Ltac member :=
  first [ apply req_inv; [solve [reader]|assumption]
        | apply opt_inv; [solve [reader]|assumption]
        | apply dflt_inv; [solve [reader]|assumption]
        | apply sq_req_inv; [solve [reader]|assumption]
        | apply sq_opt_inv; [solve [reader]|assumption]
        | apply sq_optd_inv; [solve [reader]|assumption]
        | apply sq_dflt_inv; [solve [reader]|assumption] ].

Ltac members := repeat (apply bind_cong; [member|intros ?]); try reflexivity.

Lemma number_inv : einv d_number.
Proof.
  intros es es' H. unfold d_number. members. rewrite (max_inv f64_inv f64_numbers H), (min_inv f64_inv f64_numbers H). reflexivity.
Qed.

Lemma integer_inv : einv d_integer.
Proof.
  intros es es' H. unfold d_integer, d_i64, d_nz_u64. members.
  rewrite (max_inv (@int_inv _ _) (@int_numbers _ _) H), (min_inv (@int_inv _ _) (@int_numbers _ _) H). reflexivity.
Qed.

Lemma string_inv : einv d_string.
Proof. intros es es' H. unfold d_string, d_u32. members. Qed.

Lemma loc_name_inv l : einv (d_loc_name l).
Proof. intros es es' H. unfold d_loc_name, d_loc. members. Qed.

Lemma bearer_inv : einv d_bearer.
Proof. intros es es' H. unfold d_bearer, d_loc. members. Qed.

Lemma oauth2_inv : einv d_oauth2.
Proof. intros es es' H. unfold d_oauth2. members. Qed.

Lemma combo_inv : einv d_combo.
Proof.
  intros es es' H. destruct (single_cases H) as [(k & v & v' & -> & -> & Hv)|[N N']].
  - cbn. rewrite (oom_inv str_inv Hv). reflexivity.
  - destruct es as [|[k v] [|]]; [|destruct (N k v eq_refl)|];
      (destruct es' as [|[k' v'] [|]]; [|destruct (N' k' v' eq_refl)|]); try reflexivity.
    all: cbn; repeat match goal with p : string * json |- _ => destruct p end; reflexivity.
Qed.

Lemma known_inv : einv d_known.
Proof.
  intros es es' H. unfold d_known. apply bind_cong; [member|intros k].
  pose proof (sim_without ["scheme"] H) as W. destruct k; try reflexivity.
  - rewrite (combo_inv W). reflexivity.
  - rewrite (loc_name_inv LHeader W). reflexivity.
  - apply bind_cong; [member|]. intros q. rewrite (loc_name_inv LHeader W). reflexivity.
  - rewrite (bearer_inv W). reflexivity.
  - rewrite (opt_inv "identity" str_inv W). reflexivity.
  - rewrite (oauth2_inv W). reflexivity.
  - rewrite (loc_name_inv LQuery W). reflexivity.
Qed.

Lemma subtype_inv : einv d_subtype.
Proof.
  intros es es' H. unfold d_subtype. rewrite (known_inv H). destruct (d_known es'); [reflexivity|].
  unfold d_unknown. apply bind_cong; [member|]. intros s.
  rewrite (canon_shuffled (sim_shuffled (sim_without ["scheme"] H))). reflexivity.
Qed.

Lemma ops_inv : inv d_ops.
Proof.
  intros j j' H. unfold d_ops, d_op.
  apply (@nullable _ (Some OpDefault) (fun j => option_map OpCustom (d_oom (d_variant op_names) j))
           (fun j => option_map OpCustom (d_oom (d_variant op_names) j)) j j' H).
  rewrite (oom_inv (variant_inv op_names) H). reflexivity.
Qed.

Lemma add_resp_inv : inv d_add_resp.
Proof. apply struct_inv; intros es es' H; cbn beta; members. Qed.

Lemma version_inv : inv d_version.
Proof. apply struct_inv; intros es es' H; cbn beta; members. Qed.

Section Readers.
  Variable E : env.
  Variable X : exts.
  Hypothesis HX : exts_shuffle_free X.

  Lemma free_inv p : shuffle_free p -> einv (p_de p).
  Proof. intros Hp es es' H. apply Hp, sim_shuffled, H. Qed.

  Ltac ext := solve [ apply free_inv; [first [apply (sf_t HX)|apply (sf_ia HX)|apply (sf_pa HX)|apply (sf_aa HX)
    |apply (sf_ea HX)|apply (sf_f HX)|apply (sf_er HX)|apply (sf_ds HX)|apply (sf_os HX)|apply (sf_as HX)]
    |first [assumption|apply sim_without; assumption]] ].

  Lemma info_inv : einv (d_info E).
  Proof. intros es es' H. unfold d_info. members. Qed.

  Lemma misc_inv : einv d_misc.
  Proof. intros es es' H. unfold d_misc. members. Qed.

  Lemma boxed_inv rec : inv rec -> inv (@d_boxed X rec).
  Proof. intros Hr j j' H. unfold d_boxed. rewrite (Hr j j' H), (list_inv Hr H). reflexivity. Qed.

  Lemma sub_inv rec : inv rec -> einv (@sub_body X rec).
  Proof.
    intros Hr es es' H. unfold sub_body. apply bind_cong; [member|intros k].
    pose proof (sim_without ["type"] H) as W.
    destruct k; try reflexivity.
    - apply bind_cong; [apply opt_inv; [apply boxed_inv; exact Hr|exact W]|intros i]. unfold d_u32.
      apply bind_cong; [member|intros ?]. apply bind_cong; [member|intros ?]. apply bind_cong; [ext|reflexivity].
    - rewrite (number_inv W). reflexivity.
    - rewrite (integer_inv W). reflexivity.
    - apply bind_cong; [member|intros ?]. apply bind_cong; [member|intros ?]. apply bind_cong; [ext|reflexivity].
    - rewrite (string_inv W). reflexivity.
  Qed.

  Lemma ds_body_inv rec : inv rec -> einv (@ds_body E X rec).
  Proof.
    intros Hr es es' H. unfold ds_body. apply bind_cong; [apply info_inv; exact H|intros i].
    apply bind_cong; [apply misc_inv; exact H|intros m]. apply bind_cong; [member|intros l].
    apply bind_cong; [ext|intros o]. rewrite (sub_inv Hr (sim_without ds_keys H)). reflexivity.
  Qed.

  Lemma ds_n_inv n : inv (@d_ds_n E X n).
  Proof.
    induction n as [|n IH]; [intros j j' _; reflexivity|]. cbn [d_ds_n]. apply flat_inv, ds_body_inv, IH.
  Qed.

  Lemma ds_inv : inv (@d_ds E X).
  Proof. intros j j' H. unfold d_ds. rewrite (depth_shuffled H). apply ds_n_inv. exact H. Qed.

  Lemma dsmap_inv : inv (@d_dsmap E X).
  Proof. apply map_inv, ds_inv. Qed.

  Lemma security_inv : inv (d_security E).
  Proof.
    apply flat_inv. intros es es' H. unfold security_body. members.
    apply bind_cong; [apply subtype_inv, sim_without, H|reflexivity].
  Qed.

  Lemma link_inv : inv (d_link E).
  Proof. apply struct_inv; intros es es' H; cbn beta; members. Qed.

  Lemma exp_resp_inv : inv (d_exp_resp X).
  Proof.
    apply flat_inv. intros es es' H. unfold exp_resp_body. members. apply bind_cong; [ext|reflexivity].
  Qed.

  Lemma form_inv : inv (d_form X).
  Proof.
    apply flat_inv. intros es es' H. unfold form_body.
    apply bind_cong; [apply dflt_inv; [exact ops_inv|exact H]|intros ?].
    do 6 (apply bind_cong; [member|intros ?]).
    apply bind_cong; [apply opt_inv; [exact exp_resp_inv|exact H]|intros ?].
    apply bind_cong; [apply opt_inv; [apply oom_inv, add_resp_inv|exact H]|intros ?].
    apply bind_cong; [ext|reflexivity].
  Qed.

  Lemma interaction_inv : einv (@interaction_body E X).
  Proof.
    intros es es' H. unfold interaction_body. apply bind_cong; [apply info_inv; exact H|intros ?].
    apply bind_cong; [apply req_inv; [apply list_inv, form_inv|exact H]|intros ?].
    apply bind_cong; [apply opt_inv; [exact dsmap_inv|exact H]|intros ?]. apply bind_cong; [ext|reflexivity].
  Qed.

  Lemma property_inv : inv (@d_property E X).
  Proof.
    apply flat_inv. intros es es' H. unfold property_body. members.
    pose proof (sim_without property_keys H) as W.
    apply bind_cong; [apply interaction_inv; exact W|intros ?].
    apply bind_cong; [apply ds_inv, sim_shuffled, W|intros ?]. apply bind_cong; [ext|reflexivity].
  Qed.

  Lemma action_inv : inv (@d_action E X).
  Proof.
    apply flat_inv. intros es es' H. unfold action_body.
    do 2 (apply bind_cong; [apply opt_inv; [exact ds_inv|exact H]|intros ?]). members.
    pose proof (sim_without action_keys H) as W.
    apply bind_cong; [apply interaction_inv; exact W|intros ?]. apply bind_cong; [ext|reflexivity].
  Qed.

  Lemma event_inv : inv (@d_event E X).
  Proof.
    apply flat_inv. intros es es' H. unfold event_body.
    do 4 (apply bind_cong; [apply opt_inv; [exact ds_inv|exact H]|intros ?]).
    pose proof (sim_without event_keys H) as W.
    apply bind_cong; [apply interaction_inv; exact W|intros ?]. apply bind_cong; [ext|reflexivity].
  Qed.

  Lemma thing_inv : inv (@d_thing E X).
  Proof.
    apply flat_inv. intros es es' H. unfold thing_body.
    repeat (apply bind_cong; [first [member
      |apply opt_inv; [first [exact version_inv|exact dsmap_inv|apply map_inv; first [exact property_inv|exact action_inv|exact event_inv]
                             |apply list_inv; first [exact link_inv|exact form_inv]]|exact H]
      |apply req_inv; [apply map_inv, security_inv|exact H]
      |ext]|intros ?]).
    reflexivity.
  Qed.
End Readers.

(** ** The bindings *)

Lemma const_shuffle T s a t : shuffle_free {| pty := T; p_ser := s; p_de := fun _ => Some a; p_take := t |}.
Proof. intros es es' _. reflexivity. Qed.

Lemma cons_shuffle p q : shuffle_free p -> shuffle_free q -> shuffle_free (cons_piece p q).
Proof.
  intros Hp Hq es es' H. cbn. apply bind_cong; [apply Hp; exact H|intros a].
  apply bind_cong; [|reflexivity]. apply Hq, sim_shuffled, sim_without, shuffled_obj, H.
Qed.

Lemma both_shuffle X X' : exts_shuffle_free X -> exts_shuffle_free X' -> exts_shuffle_free (cons_exts X X').
Proof. intros [] []. constructor; apply cons_shuffle; assumption. Qed.

Lemma http_shuffle : exts_shuffle_free http_exts.
Proof.
  constructor; try apply const_shuffle; intros es es' H; apply shuffled_obj in H; cbn; unfold d_u64.
  - members.
  - apply bind_cong; [apply req_inv; [apply list_inv, struct_inv; intros l l' Hl; cbn beta; members|exact H]|intros ?].
    members.
Qed.

Lemma block_inv : inv d_block.
Proof. intros j j' H. unfold d_block. rewrite (@int_inv _ _ j j' H : d_u16 j = d_u16 j'). reflexivity. Qed.

Lemma blockwise_inv : inv d_blockwise.
Proof.
  apply struct_inv; intros l l' Hl; cbn beta.
  - do 2 (apply bind_cong; [apply opt_inv; [exact block_inv|exact Hl]|intros ?]). reflexivity.
  - do 2 (apply bind_cong; [apply sq_opt_inv; [exact block_inv|exact Hl]|intros ?]). reflexivity.
Qed.

Lemma coap_shuffle : exts_shuffle_free coap_exts.
Proof.
  constructor; try apply const_shuffle; intros es es' H; apply shuffled_obj in H; cbn; unfold d_u16, d_u8; [|members].
  apply bind_cong; [member|intros ?].
  do 2 (apply bind_cong; [apply opt_inv; [exact blockwise_inv|exact H]|intros ?]).
  members.
Qed.

Lemma mqtt_shuffle : exts_shuffle_free mqtt_exts.
Proof.
  constructor; try apply const_shuffle; intros es es' H; apply shuffled_obj in H; cbn. members.
Qed.

(** ** Rivals *)

Lemma nodup_right A (a b : list A) : NoDup (a ++ b) -> NoDup b.
Proof. induction a as [|x a IH]; cbn; [auto|]. intros H. inversion H. auto. Qed.

Lemma reordered_shuffled j j' : reordered j j' -> no_repeats j -> one_bound_each j -> shuffled j j'.
Proof.
  assert (K : forall j j', reordered j j' -> no_repeats j -> one_bound_each j ->
                shuffled j j' /\ no_repeats j' /\ one_bound_each j').
  { clear j j'. induction 1 as [j|j1 j2 j3 H1 IH1 H2 IH2|es1 kv kv' es2|es1 k v v' es2 H IH|l1 v v' l2 H IH]; intros Hn Ho.
    - split; [apply sh_refl|split; assumption].
    - destruct (IH1 Hn Ho) as (S1 & N2 & O2). destruct (IH2 N2 O2) as (S2 & N3 & O3).
      split; [eapply sh_trans; eauto|split; assumption].
    - inversion Hn as [? _ N|?|? N1 N2]; subst; [destruct (N _ eq_refl)|].
      inversion Ho as [? _ N|?|? O1 O2 O3]; subst; [destruct (N _ eq_refl)|].
      assert (Pm : Permutation.Permutation (es1 ++ kv :: kv' :: es2) (es1 ++ kv' :: kv :: es2)).
      { apply Permutation.Permutation_app_head. constructor. }
      assert (Pk := Permutation.Permutation_map fst Pm).
      split; [apply sh_swap, unrelated|split].
      + rewrite map_app in N1. cbn in N1. apply nodup_right in N1.
        inversion N1 as [|? ? Hnin _]; subst.
        assert (I1 : In (fst kv) (map fst (es1 ++ kv :: kv' :: es2))) by (rewrite map_app; apply in_or_app; right; left; reflexivity).
        assert (I2 : In (fst kv') (map fst (es1 ++ kv :: kv' :: es2))) by (rewrite map_app; apply in_or_app; right; right; left; reflexivity).
        intros [Q|[[Q1 Q2]|[Q1 Q2]]].
        * apply Hnin. left. symmetry. exact Q.
        * destruct Q1 as [Q1|[Q1|[]]], Q2 as [Q2|[Q2|[]]]; rewrite <- Q1 in I1, Hnin; rewrite <- Q2 in I2, Hnin.
          -- apply Hnin. left. reflexivity.
          -- exact (O1 I1 I2).
          -- exact (O1 I2 I1).
          -- apply Hnin. left. reflexivity.
        * destruct Q1 as [Q1|[Q1|[]]], Q2 as [Q2|[Q2|[]]]; rewrite <- Q1 in I1, Hnin; rewrite <- Q2 in I2, Hnin.
          -- apply Hnin. left. reflexivity.
          -- exact (O2 I1 I2).
          -- exact (O2 I2 I1).
          -- apply Hnin. left. reflexivity.
      + apply nr_obj; [exact (Permutation.Permutation_NoDup Pk N1)|].
        intros k j Hin. apply (N2 k j). apply (Permutation.Permutation_in _ (Permutation.Permutation_sym Pm)). exact Hin.
      + apply ob_obj.
        * intros A B. apply (O1 (Permutation.Permutation_in _ (Permutation.Permutation_sym Pk) A)).
          exact (Permutation.Permutation_in _ (Permutation.Permutation_sym Pk) B).
        * intros A B. apply (O2 (Permutation.Permutation_in _ (Permutation.Permutation_sym Pk) A)).
          exact (Permutation.Permutation_in _ (Permutation.Permutation_sym Pk) B).
        * intros k j Hin. apply (O3 k j). apply (Permutation.Permutation_in _ (Permutation.Permutation_sym Pm)). exact Hin.
    - inversion Hn as [? _ N|?|? N1 N2]; subst; [destruct (N _ eq_refl)|].
      inversion Ho as [? _ N|?|? O1 O2 O3]; subst; [destruct (N _ eq_refl)|].
      assert (Hin : In (k, v) (es1 ++ (k, v) :: es2)) by (apply in_or_app; right; left; reflexivity).
      destruct (IH (N2 _ _ Hin) (O3 _ _ Hin)) as (S & N' & O').
      assert (Ek : map fst (es1 ++ (k, v') :: es2) = map fst (es1 ++ (k, v) :: es2)) by (rewrite !map_app; reflexivity).
      assert (Hc : forall k0 j, In (k0, j) (es1 ++ (k, v') :: es2) -> j = v' \/ In (k0, j) (es1 ++ (k, v) :: es2)).
      { intros k0 j Hi. apply in_app_or in Hi as [Hi|[Hi|Hi]].
        - right. apply in_or_app. left. exact Hi.
        - left. congruence.
        - right. apply in_or_app. right. right. exact Hi. }
      split; [apply sh_member; exact S|split].
      + apply nr_obj; [rewrite Ek; exact N1|]. intros k0 j Hi. destruct (Hc k0 j Hi) as [->|Hi']; eauto.
      + apply ob_obj; rewrite ?Ek; auto. intros k0 j Hi. destruct (Hc k0 j Hi) as [->|Hi']; eauto.
    - inversion Hn as [? N _|? N2|?]; subst; [destruct (N _ eq_refl)|].
      inversion Ho as [? N _|? O3|?]; subst; [destruct (N _ eq_refl)|].
      assert (Hin : In v (l1 ++ v :: l2)) by (apply in_or_app; right; left; reflexivity).
      destruct (IH (N2 _ Hin) (O3 _ Hin)) as (S & N' & O').
      assert (Hc : forall j, In j (l1 ++ v' :: l2) -> j = v' \/ In j (l1 ++ v :: l2)).
      { intros j Hi. apply in_app_or in Hi as [Hi|[Hi|Hi]].
        - right. apply in_or_app. left. exact Hi.
        - left. congruence.
        - right. apply in_or_app. right. right. exact Hi. }
      split; [apply sh_item; exact S|split].
      + apply nr_arr. intros j Hi. destruct (Hc j Hi) as [->|Hi']; eauto.
      + apply ob_arr. intros j Hi. destruct (Hc j Hi) as [->|Hi']; eauto. }
  intros H Hn Ho. apply (K j j' H Hn Ho).
Qed.

Lemma first_here ks es1 k v es2 :
  (forall k0, In k0 ks -> ~ In k0 (map fst es1)) -> In k ks -> first_of ks (es1 ++ (k, v) :: es2) = Some (k, v).
Proof.
  intros Hn Hk. unfold first_of. induction es1 as [|[k1 v1] es1 IH]; cbn.
  - apply smem_In in Hk. rewrite Hk. reflexivity.
  - destruct (smem k1 ks) eqn:E1.
    + apply smem_In in E1. destruct (Hn k1 E1). left. reflexivity.
    + apply IH. intros k0 H0 Hin. apply (Hn k0 H0). right. exact Hin.
Qed.

Lemma without_split ks es1 k v es2 : smem k ks = false ->
  without ks (es1 ++ (k, v) :: es2) = without ks es1 ++ (k, v) :: without ks es2.
Proof. intros H. rewrite without_app. cbn. rewrite H. reflexivity. Qed.

Lemma without_keys ks (es : entries) k : In k (map fst (without ks es)) -> In k (map fst es).
Proof.
  intros H. apply in_map_iff in H as (kv & <- & H). apply filter_In in H as [H _]. apply in_map. exact H.
Qed.

Lemma obind_some A B (o : option A) (f : A -> option B) b : obind o f = Some b -> exists a, o = Some a /\ f a = Some b.
Proof. destruct o as [a|]; cbn; [intros H; exists a; auto|discriminate]. Qed.

(** What a schema keeps of its bounds *)
Definition kept_bounds X (d : dsx X) (es : entries) : Prop :=
  match ds_sub d with
  | Some (SInteger n) => z_max n = d_max d_i64 es /\ z_min n = d_min d_i64 es
  | Some (SNumber n) => n_max n = d_max d_f64 es /\ n_min n = d_min d_f64 es
  | _ => True
  end.

Lemma bounds_kept E X es d : d_ds E X (JObj es) = Some d -> kept_bounds d (without ["type"] (without ds_keys es)).
Proof.
  rewrite d_ds_obj. unfold ds_body. intros H.
  apply obind_some in H as (i & _ & H). apply obind_some in H as (m & _ & H).
  apply obind_some in H as (l & _ & H). apply obind_some in H as (o & _ & H). injection H as <-.
  unfold kept_bounds. cbn [ds_sub]. destruct (sub_body _ _) as [s|] eqn:Es; [|exact I].
  unfold sub_body in Es. apply obind_some in Es as (k & _ & Es).
  destruct k.
  - repeat (let x := fresh in apply obind_some in Es as (x & _ & Es)). injection Es as <-. exact I.
  - injection Es as <-. exact I.
  - destruct (d_number _) as [n|] eqn:En; [|discriminate]. injection Es as <-.
    unfold d_number in En. apply obind_some in En as (x & _ & En). injection En as <-. split; reflexivity.
  - destruct (d_integer _) as [n|] eqn:En; [|discriminate]. injection Es as <-.
    unfold d_integer in En. apply obind_some in En as (x & _ & En). injection En as <-. split; reflexivity.
  - repeat (let x := fresh in apply obind_some in Es as (x & _ & Es)). injection Es as <-. exact I.
  - destruct (d_string _) as [n|]; [|discriminate]. injection Es as <-. exact I.
  - injection Es as <-. exact I.
Qed.

Lemma first_left es1 k v es2 ks :
  smem k ds_keys = false -> smem k ["type"] = false ->
  (forall k0, In k0 ks -> ~ In k0 (map fst es1)) -> In k ks ->
  first_of ks (without ["type"] (without ds_keys (es1 ++ (k, v) :: es2))) = Some (k, v).
Proof.
  intros H1 H2 Hn Hk. rewrite without_split by exact H1. rewrite without_split by exact H2.
  apply first_here; [|exact Hk]. intros k0 H0 Hin. apply (Hn k0 H0). apply without_keys in Hin. apply without_keys in Hin. exact Hin.
Qed.

Lemma rivals_matter E X es1 k k' z v es2 d :
  rivals k k' -> k <> k' -> (forall k0, rivals k k0 -> ~ In k0 (map fst es1)) -> (- 2 ^ 63 <= z < 2 ^ 63)%Z ->
  d_ds E X (JObj (es1 ++ (k, JInt z) :: (k', v) :: es2)) = Some d ->
  (exists n, ds_sub d = Some (SInteger n)) \/ (exists n, ds_sub d = Some (SNumber n)) ->
  d_ds E X (JObj (es1 ++ (k', v) :: (k, JInt z) :: es2)) <> Some d.
Proof.
  intros Hr Hne Hn Hz H Hs H'. apply bounds_kept in H. apply bounds_kept in H'.
  assert (Hz' : d_i64 (JInt z) = Some z).
  { cbn [d_i64]. unfold d_i64, d_int. rewrite (proj2 (Z.leb_le _ _)) by lia. rewrite (proj2 (Z.leb_le _ _)) by lia. reflexivity. }
  destruct Hr as [Q|[[Q Q']|[Q Q']]]; [contradiction| |].
  - assert (Hn' : forall k0, In k0 ["maximum"; "exclusiveMaximum"] -> ~ In k0 (map fst es1)).
    { intros k0 H0. apply Hn. right. left. split; assumption. }
    assert (F : first_of ["maximum"; "exclusiveMaximum"]
                  (without ["type"] (without ds_keys (es1 ++ (k, JInt z) :: (k', v) :: es2))) = Some (k, JInt z)).
    { apply first_left; auto; destruct Q as [<-|[<-|[]]]; reflexivity. }
    assert (F' : first_of ["maximum"; "exclusiveMaximum"]
                  (without ["type"] (without ds_keys (es1 ++ (k', v) :: (k, JInt z) :: es2))) = Some (k', v)).
    { apply first_left; auto; destruct Q' as [<-|[<-|[]]]; reflexivity. }
    destruct Hs as [[n Hs]|[n Hs]]; unfold kept_bounds in H, H'; rewrite Hs in H, H';
      destruct H as [H _]; destruct H' as [H' _]; rewrite H in H'; unfold d_max in H'; rewrite F, F' in H';
      destruct Q as [<-|[<-|[]]], Q' as [<-|[<-|[]]]; try contradiction; cbn [String.eqb Ascii.eqb Bool.eqb] in H';
      rewrite ?Hz' in H'; cbn [option_map d_f64] in H'; revert H'; match goal with |- _ = option_map _ ?o -> _ => destruct o end; discriminate.
  - assert (Hn' : forall k0, In k0 ["minimum"; "exclusiveMinimum"] -> ~ In k0 (map fst es1)).
    { intros k0 H0. apply Hn. right. right. split; assumption. }
    assert (F : first_of ["minimum"; "exclusiveMinimum"]
                  (without ["type"] (without ds_keys (es1 ++ (k, JInt z) :: (k', v) :: es2))) = Some (k, JInt z)).
    { apply first_left; auto; destruct Q as [<-|[<-|[]]]; reflexivity. }
    assert (F' : first_of ["minimum"; "exclusiveMinimum"]
                  (without ["type"] (without ds_keys (es1 ++ (k', v) :: (k, JInt z) :: es2))) = Some (k', v)).
    { apply first_left; auto; destruct Q' as [<-|[<-|[]]]; reflexivity. }
    destruct Hs as [[n Hs]|[n Hs]]; unfold kept_bounds in H, H'; rewrite Hs in H, H';
      destruct H as [_ H]; destruct H' as [_ H']; rewrite H in H'; unfold d_min in H'; rewrite F, F' in H';
      destruct Q as [<-|[<-|[]]], Q' as [<-|[<-|[]]]; try contradiction; cbn [String.eqb Ascii.eqb Bool.eqb] in H';
      rewrite ?Hz' in H'; cbn [option_map d_f64] in H'; revert H'; match goal with |- _ = option_map _ ?o -> _ => destruct o end; discriminate.
Qed.

(** ** Examples *)

Definition rival_doc : json :=
  JObj [("type", JStr "integer"); ("maximum", JInt 10); ("title", JStr "a"); ("exclusiveMaximum", JInt 5); ("maximum", JInt 7)].
Definition rival_doc' : json :=
  JObj [("maximum", JInt 10); ("type", JStr "integer"); ("exclusiveMaximum", JInt 5); ("title", JStr "a"); ("maximum", JInt 7)].

Lemma rival_docs :
  shuffled rival_doc rival_doc' /\ ~ one_bound_each rival_doc /\ ~ no_repeats rival_doc
  /\ is_some (d_ds sample_env http_exts rival_doc) = true /\ rival_doc <> rival_doc'.
Proof.
  assert (N : forall k k', smem k ["maximum"; "exclusiveMaximum"; "minimum"; "exclusiveMinimum"] = false -> k <> k' -> ~ rivals k k').
  { intros k k' H Hk [->|[[Q _]|[Q _]]]; [apply Hk; reflexivity| |];
      destruct Q as [<-|[<-|[]]]; cbn in H; discriminate. }
  split; [|split; [|split; [|split]]].
  - eapply sh_trans.
    + apply (@sh_swap [] ("type", JStr "integer") ("maximum", JInt 10)). apply unrelated, N; [reflexivity|discriminate].
    + apply (@sh_swap [("maximum", JInt 10); ("type", JStr "integer")] ("title", JStr "a") ("exclusiveMaximum", JInt 5)).
      apply unrelated, N; [reflexivity|discriminate].
  - intros H. inversion H as [j _ N'| |es H1 _ _]; [apply (N' _ eq_refl)|]. apply H1; cbn; auto 10.
  - intros H. inversion H as [j _ N'| |es H1 _]; [apply (N' _ eq_refl)|]. cbn in H1. inversion H1 as [|? ? _ Q1].
    inversion Q1 as [|? ? Q2 _]. apply Q2. cbn. auto 10.
  - vm_compute. reflexivity.
  - discriminate.
Qed.

Lemma rival_bounds :
  rivals "minimum" "exclusiveMinimum" /\ (forall k0, rivals "minimum" k0 -> ~ In k0 (map fst [("type", JStr "number")]))
  /\ exists d n, d_ds sample_env http_exts (JObj ([("type", JStr "number")] ++ [("minimum", JInt 3); ("exclusiveMinimum", JInt 4)])) = Some d
     /\ ds_sub d = Some (SNumber n).
Proof.
  split; [|split].
  - right. right. split; cbn; auto.
  - intros k0 H [<-|[]]. destruct H as [Q|[[_ Q]|[_ Q]]]; [discriminate| |]; destruct Q as [Q|[Q|[]]]; discriminate.
  - eexists. eexists. split; vm_compute; reflexivity.
Qed.
