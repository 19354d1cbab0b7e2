(** * Exactly which data schemas can be made *)

From Coq Require Import String Bool ZArith Lia Permutation List.
From Verif Require Import Base MinMax Json Serde Types DsBuilder Builder Spec SpecCalls SpecThing SpecMade SpecGrammar
  DsFacts DsProgFacts ProgramProps SaysFacts SchemaFacts OrderFacts CleanFacts ArgFacts GrammarFacts DsExamples.
Import ListNotations.
Set Implicit Arguments.
Local Open Scope string_scope.
Local Open Scope list_scope.

(** A call made only when its argument is there *)
Definition call A B (f : A -> B) (o : option A) : list B := match o with Some a => [f a] | None => [] end.

Definition info_calls (i : info) : list info_op :=
  map IAttype (olist (i_attype i)) ++ call ITitle (i_title i) ++ call ITitles (i_titles i)
  ++ call IDescription (i_description i) ++ call IDescriptions (i_descriptions i).

Definition info_run (p : list info_op) (i : info) : info := fold_left (fun i o => info_step o i) p i.

Lemma info_run_app p q i : info_run (p ++ q) i = info_run q (info_run p i).
Proof. apply fold_left_app. Qed.

Lemma attypes_run l i : i_attype i = nonempty (olist (i_attype i)) ->
  info_run (map IAttype l) i
  = {| i_attype := nonempty (olist (i_attype i) ++ l); i_title := i_title i; i_titles := i_titles i;
       i_description := i_description i; i_descriptions := i_descriptions i |}.
Proof.
  revert i. induction l as [|a l IH]; intros i Hi.
  - rewrite app_nil_r, <- Hi. destruct i; reflexivity.
  - change (info_run (map IAttype (a :: l)) i) with (info_run (map IAttype l) (info_step (IAttype a) i)).
    assert (i_attype (info_step (IAttype a) i) = Some (olist (i_attype i) ++ [a])) as Ha
      by (cbn; destruct (i_attype i); reflexivity).
    rewrite IH; rewrite Ha.
    + cbn [olist]. rewrite <- app_assoc. reflexivity.
    + cbn [olist]. symmetry. apply nonempty_snoc.
Qed.

Lemma info_calls_run rec i : info_made rec i -> info_run (info_calls i) no_info = i.
Proof.
  intros [Ha Hm]. unfold info_calls. rewrite !info_run_app. rewrite attypes_run by reflexivity.
  assert (nonempty (olist (i_attype no_info) ++ olist (i_attype i)) = i_attype i) as ->
    by (clear Hm; revert Ha; destruct (i_attype i) as [[|]|]; cbn; congruence).
  assert (forall m, info_map i m -> ml_of m = m) as Hs by (intros m H; apply mof_sorted, Hm, H).
  destruct i as [a t [ts|] d [dd|]], t, d; cbn in *; rewrite ?Hs by (unfold info_map; cbn; auto); reflexivity.
Qed.

Section Ds.
  Variables DS AS OS : Type.
  Notation ds := (ds DS AS OS).
  Notation dsub := (dsub DS AS OS).
  Notation dsop := (dsop DS AS OS).
  Notation dstate := (dstate DS AS OS).

  (** ** Only these *)

  Lemma child_built (p : list dsop) (d c : ds) : dbuild p = Some d -> In c (ds_children d) ->
    exists q, dbuild q = Some c.
  Proof.
    intros Hp Hc. pose proof (build_says _ Hp) as Hs.
    assert (schema_chain p) as Hg by (apply schema_grammar; eauto).
    destruct Hg as [_ Hg].
    assert (exists o q, In o p /\ SpecGrammar.closure o = Some q /\ ds_says Some q c) as (o & q & Ho & Hq & Hqc).
    { destruct Hs as [[_ _ _ _ _ _ (cs & Hcs & Hone) _ _ _ Hsub]]. unfold ds_children in Hc.
      apply in_app_or in Hc as [Hc|Hc].
      - rewrite Hone in Hc. unfold nonempty in Hc.
        assert (In c cs) as Hin by (destruct cs; [destruct Hc|exact Hc]).
        destruct (from_call Hcs Hin) as (q & Hq & Hs).
        apply picks_In in Hq as (o & Ho & Hoq). exists o, q. split; auto. split; auto.
        destruct o; try discriminate Hoq. exact Hoq.
      - destruct (ds_sub d) as [s|] eqn:Hs; [|destruct Hc]. destruct Hsub.
        destruct s as [[[e|l]|] mn mx o| | | |[ps|] r o| |]; cbn in Hc; try destruct Hc as [<-|[]]; try destruct Hc.
        + cbn in sd_elem. apply omatch_r in sd_elem as (q & Hq & Hqe).
          apply last_pick in Hq as (x & Hx & Hxq). exists x, q. split; auto. split; auto.
          destruct x; try discriminate Hxq. exact Hxq.
        + cbn in sd_tuple. destruct (from_call sd_tuple Hc) as (q & Hq & Hqe).
          apply picks_In in Hq as (x & Hx & Hxq). exists x, q. split; auto. split; auto.
          destruct x; try discriminate Hxq. exact Hxq.
        + apply in_map_iff in Hc as ([k c'] & <- & Hin). destruct sd_props as [Hsort Hl]. cbn in Hsort, Hl.
          specialize (Hl k). rewrite (at_key Hsort Hin) in Hl. apply omatch_r in Hl as (q & Hq & Hqe).
          apply DsProgFacts.llook_In, picks_In in Hq as (x & Hx & Hxq). exists x, q. split; auto. split; auto.
          destruct x; try discriminate Hxq. injection Hxq as _ <-. reflexivity. }
    exists q. destruct (proj2 (schema_grammar q) (Hg _ _ Ho Hq)) as [c' Hc']. rewrite Hc'. f_equal.
    eapply DsExamples.says_unique; eauto. apply build_says, Hc'.
  Qed.

  Lemma sub_built (p : list dsop) (d e : ds) : dbuild p = Some d -> sub_ds e d -> exists q, dbuild q = Some e.
  Proof.
    revert p. induction d as [d IH] using children_ind. intros p Hp He.
    apply sub_inv in He as [->|(c & Hc & He)]; eauto.
    destruct (child_built _ _ Hp Hc) as [q Hq]. eapply IH; eauto.
  Qed.

  Lemma union_step o (s s' : dstate) : (b_kind s = KOneOf -> b_wrap s = WNone) -> shape s ->
    dstep o s = Some s' -> b_kind s' = KOneOf -> b_wrap s' = WNone.
  Proof.
    intros Hs Hsh H. destruct (child_of o) as [q|] eqn:Eo.
    - rewrite (dstep_child _ _ Eo) in H. destruct (dbuild q) as [d|]; [|discriminate]. simpl in H.
      destruct o; simpl in Eo; try discriminate Eo; simpl in H; unfold specialize in H;
        destruct (b_kind s) eqn:Ek; try discriminate H; try (injection H as <-; cbn; try discriminate; auto).
      destruct (b_other s), (b_wrap s) eqn:Ew; try discriminate H. injection H as <-. cbn. auto.
    - destruct o; simpl in Eo; try discriminate Eo; simpl in H;
        unfold specialize, on_number, on_integer, on_string, can_rw in H;
        try (injection H as <-; cbn; auto; fail);
        destruct (b_kind s) eqn:Ek; try discriminate H;
        try (destruct (b_other s); try discriminate H);
        try (destruct (b_wrap s) eqn:Ew; try discriminate H);
        simpl in H; try discriminate H; injection H as <-; cbn; rewrite ?Ek, ?Ew; try discriminate; auto.
  Qed.

  Lemma union_run p : forall (s s' : dstate), (b_kind s = KOneOf -> b_wrap s = WNone) -> shape s ->
    drun p s = Some s' -> b_kind s' = KOneOf -> b_wrap s' = WNone.
  Proof.
    induction p as [|o p IH]; cbn [drun]; intros s s' Hs Hsh H.
    - injection H as <-. exact Hs.
    - destruct (dstep o s) as [s1|] eqn:E; [|discriminate]. cbn [obind] in H.
      eapply IH; [| |exact H].
      + eapply union_step; eauto.
      + eapply (@shape_run _ _ _ [o]); [exact Hsh|]. cbn. rewrite E. reflexivity.
  Qed.

  Lemma mof_not_nil A (a : string * A) l : mof (a :: l) <> [].
  Proof.
    intros H. assert (In (fst a) (mkeys (mof (a :: l)))) as Hk by (apply mkeys_mof; left; reflexivity).
    rewrite H in Hk. destruct Hk.
  Qed.

  Lemma node_only (p : list dsop) (d : ds) : dbuild p = Some d -> node_made any_tag d.
  Proof.
    intros Hp. pose proof (build_says _ Hp) as [[Hi _ _ _ _ He (cs & _ & Ho) _ _ _ _]].
    pose proof Hp as Hr. unfold dbuild in Hr. destruct (drun p dempty) as [s|] eqn:Es; [|discriminate]. cbn [obind] in Hr.
    assert (shape s) as Hsh by (eapply shape_run; [apply shape_empty|exact Es]).
    assert (b_kind s = KOneOf -> b_wrap s = WNone) as Hu
      by (eapply union_run; [| |exact Es]; [discriminate|apply shape_empty]).
    pose proof (to_ds_eq Hsh Hr) as (_ & _ & _ & _ & _ & _ & Eo & Er & Ew & _ & Esub & _).
    constructor.
    - apply (built_specialized _ Hp). apply sub_self.
    - apply (built_rw _ Hp). apply sub_self.
    - apply (const_read_only _ Hp). apply sub_self.
    - intros Hone. rewrite Er, Ew, Hu; [split; reflexivity|].
      pose proof (sh_one_of Hsh) as H. rewrite Eo in Hone.
      destruct (b_kind s); try reflexivity; rewrite H in Hone; contradiction Hone; reflexivity.
    - rewrite He. apply nonempty_not_nil.
    - rewrite Ho. apply nonempty_not_nil.
    - intros ps r o Hs. rewrite Esub in Hs. destruct (b_kind s) as [|[[]|]|? ?|? ? ? ?|?|?|ps0 r0 o0|?| |]; try discriminate Hs.
      injection Hs as <- <- <-. split; [|apply nonempty_not_nil].
      destruct ps0; cbn; [discriminate|]. intros F. injection F. apply mof_not_nil.
    - apply (built_required _ Hp). apply sub_self.
    - intros l mn mx o Hs. rewrite Esub in Hs.
      destruct (b_kind s) as [|[[]|]|? ?|[?|] ? ? ?|?|?|ps0 r0 o0|?| |]; try discriminate Hs.
      injection Hs as _ <- <- _. auto.
    - constructor.
      + rewrite (id_attype Hi). apply nonempty_not_nil.
      + intros m Hm. destruct (info_declared_wf Hi) as [H1 H2]. split; [|intros; exact I].
        destruct Hm; auto.
    - intros m r o Hs. rewrite Esub in Hs. destruct (b_kind s) as [|[[]|]|? ?|? ? ? ?|?|?|ps0 r0 o0|?| |]; try discriminate Hs.
      injection Hs as Hm <- <-. destruct (nonempty ps0); [|discriminate Hm]. injection Hm as <-. apply msorted_mof.
  Qed.

  Lemma built_made (p : list dsop) (d : ds) : dbuild p = Some d -> schema_made any_tag d.
  Proof. intros Hp e He. destruct (sub_built _ Hp He) as [q Hq]. eapply node_only; eauto. Qed.

  (** ** All of these *)

  (** The state in front of the choice of a kind *)
  Definition based (d : ds) : dstate :=
    {| b_info := ds_info d; b_const := None; b_default := m_default (ds_misc d); b_unit := m_unit (ds_misc d);
       b_one_of := []; b_enum := []; b_ro := false; b_wo := false; b_format := m_format (ds_misc d);
       b_other := Some (ds_other d); b_kind := KBase; b_wrap := WNone |}.

  Definition base_calls (d : ds) : list dsop :=
    map (fun o => DInfo o) (info_calls (ds_info d))
    ++ call (fun v => DUnit v) (m_unit (ds_misc d)) ++ call (fun v => DFormat v) (m_format (ds_misc d))
    ++ call (fun v => DDefault v) (m_default (ds_misc d)) ++ [DFinish (ds_other d)].

  Lemma infos_run l : forall s : dstate,
    drun (map (fun o => DInfo o) l) s = Some (set_info s (info_run l (b_info s))).
  Proof.
    induction l as [|o l IH]; intros s.
    - destruct s; reflexivity.
    - cbn [map drun dstep obind]. rewrite IH. destruct s; reflexivity.
  Qed.

  Lemma base_run rec (d : ds) : info_made rec (ds_info d) -> drun (base_calls d) dempty = Some (based d).
  Proof.
    intros Hi. unfold base_calls. rewrite drun_app, infos_run. cbn [obind b_info dempty].
    rewrite (info_calls_run Hi). unfold based. destruct d as [i [c df u e ro wo f] o s x]. cbn.
    destruct u, f, df; reflexivity.
  Qed.

  Definition mark_calls (d : ds) : list dsop :=
    if m_ro (ds_misc d) then [DReadOnly] else if m_wo (ds_misc d) then [DWriteOnly] else [].

  (** The kind [k] is chosen, with the values [e] of an enumeration. *)
  Definition kinded (d : ds) e k : dstate :=
    {| b_info := ds_info d; b_const := None; b_default := m_default (ds_misc d); b_unit := m_unit (ds_misc d);
       b_one_of := []; b_enum := e; b_ro := false; b_wo := false; b_format := m_format (ds_misc d);
       b_other := Some (ds_other d); b_kind := k; b_wrap := WNone |}.

  Lemma mark_run (d : ds) e k : can_rw (kinded d e k) = true ->
    m_const (ds_misc d) = None -> ds_one_of d = None ->
    m_enum (ds_misc d) = match k with KEnum => Some e | _ => None end -> ds_sub d = ksub k ->
    ~ (m_ro (ds_misc d) = true /\ m_wo (ds_misc d) = true) ->
    (let? s := drun (mark_calls d) (kinded d e k) in to_ds s) = Some d.
  Proof.
    destruct d as [i [c df u en ro wo f] o s x]. unfold mark_calls, kinded. cbn. intros Hk -> -> -> -> Hrw.
    destruct k; try discriminate Hk; destruct ro, wo; try (contradiction Hrw; split; reflexivity); reflexivity.
  Qed.

  Lemma chain_built rec (d : ds) e k K : node_made rec d ->
    drun K (based d) = Some (kinded d e k) -> can_rw (kinded d e k) = true ->
    m_const (ds_misc d) = None -> ds_one_of d = None ->
    m_enum (ds_misc d) = match k with KEnum => Some e | _ => None end -> ds_sub d = ksub k ->
    exists p, dbuild p = Some d.
  Proof.
    intros Hn HK Hc H1 H2 H3 H4. exists (base_calls d ++ K ++ mark_calls d).
    unfold dbuild. rewrite drun_app, (base_run _ (nm_info Hn)). cbn [obind]. rewrite drun_app, HK. cbn [obind].
    apply mark_run; auto. apply Hn.
  Qed.

  Lemma programs (l : list ds) : (forall c, In c l -> exists q, dbuild q = Some c) ->
    exists qs, Forall2 (fun (q : list dsop) c => dbuild q = Some c) qs l.
  Proof.
    induction l as [|c l IH]; intros H.
    - exists []. constructor.
    - destruct (H c) as [q Hq]; [left; reflexivity|]. destruct IH as [qs Hqs]; [intros c' Hc'; apply H; right; auto|].
      exists (q :: qs). constructor; auto.
  Qed.

  Lemma appends_run (d : ds) x l qs : Forall2 (fun (q : list dsop) c => dbuild q = Some c) qs l -> forall pre,
    drun (map (fun q => DAppend q) qs) (kinded d [] (KTuple pre x)) = Some (kinded d [] (KTuple (pre ++ l) x)).
  Proof.
    induction 1 as [|q c qs l Hq _ IH]; intros pre.
    - rewrite app_nil_r. reflexivity.
    - cbn [map drun]. rewrite (@dstep_child _ _ _ (DAppend q) q) by reflexivity. rewrite Hq. cbn [obind dapply kinded b_kind].
      change (set_kind _ _) with (kinded d [] (KTuple (pre ++ [c]) x)).
      rewrite IH. rewrite <- app_assoc. reflexivity.
  Qed.

  Lemma enums_run (d : ds) l : forall pre,
    drun (map (fun v => DEnum v) l) (kinded d pre KEnum) = Some (kinded d (pre ++ l) KEnum).
  Proof.
    induction l as [|v l IH]; intros pre.
    - rewrite app_nil_r. reflexivity.
    - cbn [map drun dstep kinded b_kind obind b_enum].
      change (set_enum _ _) with (kinded d (pre ++ [v]) KEnum).
      rewrite IH. rewrite <- app_assoc. reflexivity.
  Qed.

  Definition united (d : ds) l : dstate :=
    {| b_info := ds_info d; b_const := None; b_default := m_default (ds_misc d); b_unit := m_unit (ds_misc d);
       b_one_of := l; b_enum := []; b_ro := false; b_wo := false; b_format := m_format (ds_misc d);
       b_other := Some (ds_other d); b_kind := KOneOf; b_wrap := WNone |}.

  Lemma unions_run (d : ds) l qs : Forall2 (fun (q : list dsop) c => dbuild q = Some c) qs l -> forall pre,
    drun (map (fun q => DOneOf q) qs) (united d pre) = Some (united d (pre ++ l)).
  Proof.
    induction 1 as [|q c qs l Hq _ IH]; intros pre.
    - rewrite app_nil_r. reflexivity.
    - cbn [map drun]. rewrite (@dstep_child _ _ _ (DOneOf q) q) by reflexivity. rewrite Hq. cbn [obind dapply united b_kind].
      change (set_one_of _ _) with (united d (pre ++ [c])).
      rewrite IH. rewrite <- app_assoc. reflexivity.
  Qed.

  Lemma properties_run (d : ds) x b l qs : Forall2 (fun (nq : string * list dsop) nc =>
      fst nq = fst nc /\ dbuild (snd nq) = Some (snd nc)) qs l -> forall ps req,
    drun (map (fun nq => DProperty (fst nq) b (snd nq)) qs) (kinded d [] (KObject ps req x))
    = Some (kinded d [] (KObject (ps ++ l) (if b then req ++ map fst l else req) x)).
  Proof.
    induction 1 as [|[n q] [n' c] qs l [E Hq] _ IH]; intros ps req.
    - cbn. rewrite !app_nil_r. destruct b; reflexivity.
    - cbn in E, Hq. subst n'. cbn [map drun fst snd].
      rewrite (@dstep_child _ _ _ (DProperty n b q) q) by reflexivity. rewrite Hq. cbn [obind dapply kinded b_kind].
      change (set_kind _ _) with (kinded d [] (KObject (ps ++ [(n, c)]) (if b then req ++ [n] else req) x)).
      rewrite IH. rewrite <- !app_assoc. cbn [app]. destruct b; [rewrite <- app_assoc|]; reflexivity.
  Qed.

  Lemma named_programs (l : list (string * ds)) : (forall n c, In (n, c) l -> exists q, dbuild q = Some c) ->
    exists qs, Forall2 (fun (nq : string * list dsop) nc => fst nq = fst nc /\ dbuild (snd nq) = Some (snd nc)) qs l.
  Proof.
    induction l as [|[n c] l IH]; intros H.
    - exists []. constructor.
    - destruct (H n c) as [q Hq]; [left; reflexivity|].
      destruct IH as [qs Hqs]; [intros n' c' Hc'; eapply H; right; eauto|].
      exists ((n, q) :: qs). constructor; auto.
  Qed.

  Lemma mof_again A (l m : list (string * A)) : msorted m -> (forall n a, In (n, a) l -> In (n, a) m) -> mof (l ++ m) = m.
  Proof.
    intros Hs Hl. apply mext; auto using msorted_mof. intros k. rewrite mlook_mof.
    destruct (llook k (l ++ m)) as [v|] eqn:Ek.
    - apply DsProgFacts.llook_In in Ek. symmetry. apply at_key; auto. apply in_app_or in Ek as [H|H]; auto.
    - apply llook_None in Ek. symmetry. destruct (mlook k m) as [v|] eqn:Em; auto.
      contradiction Ek. apply in_map_iff. exists (k, v). split; auto. apply in_or_app. right.
      apply mlook_Some_In. exact Em.
  Qed.

  Lemma required_entries A (m : list (string * A)) r : (forall k, In k r -> exists c, In (k, c) m) ->
    exists l, map fst l = r /\ forall n a, In (n, a) l -> In (n, a) m.
  Proof.
    induction r as [|k r IH]; intros H.
    - exists []. split; auto. intros n a [].
    - destruct (H k) as [c Hc]; [left; auto|]. destruct IH as (l & E & Hl); [intros k' Hk'; apply H; right; auto|].
      exists ((k, c) :: l). split; [cbn; congruence|]. intros n a [F|F]; auto. injection F as <- <-. auto.
  Qed.

  Lemma all_made (d : ds) rec : schema_made rec d -> exists p, dbuild p = Some d.
  Proof.
    revert rec. induction d as [d IH] using children_ind. intros rec Hd.
    assert (forall c, In c (ds_children d) -> exists q, dbuild q = Some c) as Hch.
    { intros c Hc. apply (IH c Hc rec). intros e He. apply Hd. eapply sub_child; eauto. }
    clear IH. pose proof (Hd d (sub_self _)) as Hn. clear Hd.
    pose proof (nm_one Hn) as H1. unfold specializations in H1.
    unfold ds_children in Hch.
    destruct (ds_sub d) as [s|] eqn:Es; [|destruct (ds_one_of d) as [l|] eqn:Eo; [|destruct (m_const (ds_misc d)) as [v|] eqn:Ec]].
    - (* a type *)
      cbn [present] in H1. destruct (m_const (ds_misc d)) eqn:Ec; [discriminate H1|].
      destruct (m_enum (ds_misc d)) eqn:Ee; [discriminate H1|]. destruct (ds_one_of d) eqn:Eo; [discriminate H1|]. clear H1.
      cbn [app] in Hch.
      destruct s as [[[c|l]|] mn mx x| |n|n|ps r x|t|]; cbn in Hch.
      + destruct (Hch c) as [q Hq]; [left; auto|].
        eapply (@chain_built rec d [] (KVec (Some c) mn mx x)
                  (DVec x :: DSetItem q :: call (fun v => DMinItems v) mn ++ call (fun v => DMaxItems v) mx)); auto.
        change (drun (DSetItem q :: call (fun v => DMinItems v) mn ++ call (fun v => DMaxItems v) mx)
                  (kinded d [] (KVec None None None x)) = Some (kinded d [] (KVec (Some c) mn mx x))).
        cbn [drun]. rewrite (@dstep_child _ _ _ (DSetItem q) q) by reflexivity. rewrite Hq. destruct mn, mx; reflexivity.
      + destruct (nm_tuple Hn Es) as [-> ->]. destruct (programs _ Hch) as [qs Hqs].
        eapply (@chain_built rec d [] (KTuple l x) (DTuple x :: map (fun q => DAppend q) qs)); auto.
        exact (appends_run d x Hqs []).
      + eapply (@chain_built rec d [] (KVec None mn mx x)
                  (DVec x :: call (fun v => DMinItems v) mn ++ call (fun v => DMaxItems v) mx)); auto.
        destruct mn, mx; reflexivity.
      + eapply (@chain_built rec d [] (KStateless (Some StBoolean)) [DBool]); auto.
      + destruct n as [mx mn ml].
        eapply (@chain_built rec d [] (KNumber {| n_max := mx; n_min := mn; n_mult := ml |})
                  (DNumber :: call (fun v => DNumMin v) mn ++ call (fun v => DNumMax v) mx ++ call (fun v => DNumMult v) ml)); auto.
        destruct mn, mx, ml; reflexivity.
      + destruct n as [mx mn ml].
        eapply (@chain_built rec d [] (KInteger {| z_max := mx; z_min := mn; z_mult := ml |})
                  (DInteger :: call (fun v => DIntMin v) mn ++ call (fun v => DIntMax v) mx ++ call (fun v => DIntMult v) ml)); auto.
        destruct mn, mx, ml; reflexivity.
      + destruct (nm_props Hn Es) as [Hp Hr]. pose proof (nm_required Hn) as Hq. unfold required_declared in Hq.
        destruct ps as [m|].
        * pose proof (nm_sorted Hn Es) as Hs.
          assert (exists l, map fst l = olist r /\ forall n a, In (n, a) l -> In (n, a) m) as (l & El & Hl).
          { apply required_entries. intros k Hk. destruct r as [r|]; [|destruct Hk].
            destruct (Hq _ _ _ _ Es Hk) as (m' & c & E & Hc). injection E as <-. eauto. }
          assert (forall n c, In (n, c) m -> exists q, dbuild q = Some c) as Hm.
          { intros n c Hc. apply Hch. apply (in_map snd) in Hc. exact Hc. }
          destruct (named_programs _ Hm) as [qs Hqs].
          destruct (named_programs l) as [rs Hrs]; [intros n c Hc; eapply Hm; eauto|].
          eapply (@chain_built rec d [] (KObject (l ++ m) (olist r) x)
                    (DObject x :: map (fun nq => DProperty (fst nq) true (snd nq)) rs
                       ++ map (fun nq => DProperty (fst nq) false (snd nq)) qs)); auto.
          -- change (drun (map (fun nq => DProperty (fst nq) true (snd nq)) rs
                       ++ map (fun nq => DProperty (fst nq) false (snd nq)) qs) (kinded d [] (KObject [] [] x))
                     = Some (kinded d [] (KObject (l ++ m) (olist r) x))).
             rewrite drun_app. pose proof (properties_run d x true Hrs [] []) as H. cbn [app] in H. rewrite El in H.
             rewrite H. cbn [obind].
             exact (properties_run d x false Hqs _ _).
          -- rewrite Es. cbn [ksub].
             assert (nonempty (l ++ m) = Some (l ++ m)) as ->
               by (destruct l; [destruct m; [contradiction Hp|]|]; reflexivity).
             cbn [option_map]. rewrite (mof_again _ _ Hs Hl).
             assert (nonempty (olist r) = r) as -> by (destruct r as [[|]|]; [contradiction Hr| |]; reflexivity).
             reflexivity.
        * eapply (@chain_built rec d [] (KObject [] [] x) [DObject x]); auto.
          rewrite Es. cbn. destruct r as [[|k r]|]; [contradiction Hr; reflexivity| |reflexivity].
          destruct (Hq _ _ _ k Es (or_introl eq_refl)) as (m & c & F & _). discriminate F.
      + destruct t as [a b p e md].
        eapply (@chain_built rec d [] (KString {| s_min := a; s_max := b; s_pattern := p; s_encoding := e; s_media := md |})
                  (DString :: call (fun v => DMinLength v) a ++ call (fun v => DMaxLength v) b ++ call (fun v => DPattern v) p
                     ++ call (fun v => DEncoding v) e ++ call (fun v => DMedia v) md)); auto.
        destruct a, b, p, e, md; reflexivity.
      + eapply (@chain_built rec d [] (KStateless (Some StNull)) [DNull]); auto.
    - (* alternatives *)
      destruct (m_const (ds_misc d)) eqn:Ec, (m_enum (ds_misc d)) eqn:Ee; try discriminate H1. clear H1.
      rewrite app_nil_r in Hch. destruct (programs _ Hch) as [qs Hqs].
      destruct l as [|c l]; [contradiction (nm_one_of Hn)|].
      destruct qs as [|q qs]; [inversion Hqs|]. inversion Hqs as [|? ? ? ? Hq Hqs']; subst.
      exists (base_calls d ++ DOneOf q :: map (fun q => DOneOf q) qs).
      unfold dbuild. rewrite drun_app, (base_run _ (nm_info Hn)). cbn [obind drun].
      rewrite (@dstep_child _ _ _ (DOneOf q) q) by reflexivity. rewrite Hq. cbn [obind].
      change (dapply (DOneOf q) c (based d)) with (Some (united d [c])). cbn [obind].
      rewrite (unions_run d Hqs'). cbn [obind app].
      destruct (nm_union Hn) as [Hr Hw]; [congruence|].
      destruct d as [i [cc df u en ro wo f] o s x]. cbn in *. subst. reflexivity.
    - (* a constant *)
      cbn [present] in H1. destruct (m_enum (ds_misc d)) eqn:Ee; [discriminate H1|]. clear H1 Hch.
      exists (base_calls d ++ [DConstant v]).
      unfold dbuild. rewrite drun_app, (base_run _ (nm_info Hn)). cbn [obind].
      assert (m_ro (ds_misc d) = true) as Hr by (apply Hn; congruence).
      assert (m_wo (ds_misc d) = false) as Hw
        by (pose proof (nm_rw Hn) as H; destruct (m_wo (ds_misc d)); [contradiction H; auto|reflexivity]).
      destruct d as [i [cc df u en ro wo f] o s x]. cbn in *. subst. reflexivity.
    - (* an enumeration *)
      cbn [present] in H1. destruct (m_enum (ds_misc d)) as [[|v l]|] eqn:Ee;
        [contradiction (nm_enum Hn)| |discriminate H1]. clear H1 Hch.
      eapply (@chain_built rec d (v :: l) KEnum (map (fun v => DEnum v) (v :: l))); auto.
      exact (enums_run d l [v]).
  Qed.

  Lemma made_exact (d : ds) : (exists p : list dsop, dbuild p = Some d) <-> schema_made any_tag d.
  Proof. split; [intros [p Hp]; eapply built_made; eauto|apply all_made]. Qed.
End Ds.

(** Values for the examples *)
Definition plain_misc : dmisc :=
  {| m_const := None; m_default := None; m_unit := None; m_enum := None; m_ro := false; m_wo := false; m_format := None |}.
Definition schema_of (m : dmisc) (o : option (list (ds unit unit unit))) s : ds unit unit unit :=
  mkDs no_info m o s tt.
Definition flag := schema_of plain_misc None (Some SBoolean).
