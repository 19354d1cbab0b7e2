(** * Proofs about the grammar of call chains *)

From Coq Require Import String Bool ZArith List.
From Verif Require Import Base MinMax Json Serde Types DsBuilder Builder DsFacts SpecGrammar.
Import ListNotations.
Set Implicit Arguments.
Local Open Scope string_scope.
Local Open Scope list_scope.

Lemma all_nil A (f : A -> bool) : all f [].
Proof. intros a []. Qed.

Lemma all_cons A (f : A -> bool) a l : all f (a :: l) <-> f a = true /\ all f l.
Proof.
  split.
  - intros H. split; [apply H; left; reflexivity|]. intros b Hb. apply H. right. exact Hb.
  - intros [H1 H2] b [<-|Hb]; auto.
Qed.

Lemma def_bind A B (x : option A) (f : A -> option B) :
  (exists b, (let? a := x in f a) = Some b) <-> exists a, x = Some a /\ exists b, f a = Some b.
Proof.
  split.
  - destruct x as [a|]; intros [b H]; [|discriminate]. exists a. split; [reflexivity|]. exists b. exact H.
  - intros (a & -> & b & H). exists b. exact H.
Qed.

(** ** Data schemas *)

Section Schemas.
  Variables DS AS OS : Type.
  Notation dsop := (dsop DS AS OS).
  Notation dstate := (dstate DS AS OS).

  Inductive phase := P0 | P1 | P2 (k : schema_choice) | P3 (k : schema_choice).

  Definition advance (ph : phase) (o : dsop) : option phase :=
    if plain o then Some ph
    else match ph with
         | P0 => match o with DFinish _ => Some P1 | _ => None end
         | P1 => match chooses o with Some k => Some (P2 k) | None => None end
         | P2 k => if belongs k o then Some (P2 k)
                   else if marks o && markable k then Some (P3 k) else None
         | P3 k => if late_setter k o then Some (P3 k) else None
         end.

  Definition final (ph : phase) : bool := match ph with P2 _ | P3 _ => true | _ => false end.

  Fixpoint accepts (ph : phase) (p : list dsop) : Prop :=
    match p with
    | [] => final ph = true
    | o :: p' => match advance ph o with Some ph' => accepts ph' p' | None => False end
    end.

  (** What is left to be called in each phase *)
  Definition L3 (k : schema_choice) (p : list dsop) : Prop := all (late_setter k) p.
  Definition L2 (k : schema_choice) (p : list dsop) : Prop :=
    all (setter k) p
    \/ exists post m late, p = post ++ m :: late /\ all (setter k) post /\ markable k = true
                           /\ marks m = true /\ L3 k late.
  Definition L1 (p : list dsop) : Prop :=
    exists mid c k post, p = mid ++ c :: post /\ all (@plain _ _ _) mid /\ chooses c = Some k /\ L2 k post.
  Definition L0 (p : list dsop) : Prop :=
    exists pre x post, p = pre ++ DFinish x :: post /\ all (@plain _ _ _) pre /\ L1 post.

  Lemma L3_ok k p : accepts (P3 k) p <-> L3 k p.
  Proof.
    induction p as [|o p IH]; cbn.
    - split; [intros _; apply all_nil|reflexivity].
    - unfold L3. rewrite all_cons. unfold advance, late_setter. destruct (plain o); cbn.
      + rewrite IH. tauto.
      + destruct (belongs k o && _).
        * rewrite IH. tauto.
        * split; [tauto|]. intros [H _]. discriminate.
  Qed.

  Lemma L2_ok k p : accepts (P2 k) p <-> L2 k p.
  Proof.
    induction p as [|o p IH].
    - split; [intros _; left; apply all_nil|reflexivity].
    - cbn. assert (Hgo : setter k o = true -> (accepts (P2 k) p <-> L2 k (o :: p))).
      { intros Ho. rewrite IH. split.
        - intros [H|(post & m & late & -> & Hs & H)].
          + left. apply all_cons. auto.
          + right. exists (o :: post), m, late. split; [reflexivity|]. split; [apply all_cons; auto|exact H].
        - intros [H|(post & m & late & E & Hs & Hk & Hm & H)].
          + left. apply all_cons in H. tauto.
          + destruct post as [|o' post]; cbn in E; injection E as -> ->.
            * exfalso. clear - Ho Hm. destruct m; cbn in Hm; try discriminate; unfold setter in Ho; cbn in Ho;
                destruct k; discriminate.
            * apply all_cons in Hs. right. exists post, m, late. tauto. }
      unfold advance. unfold setter in Hgo. destruct (plain o) eqn:Ep; [apply Hgo; reflexivity|].
      destruct (belongs k o) eqn:Eb; [apply Hgo; reflexivity|].
      destruct (marks o && markable k) eqn:Em.
      + apply andb_prop in Em as [Em Ek]. rewrite L3_ok. split.
        * intros H. right. exists [], o, p. split; [reflexivity|]. split; [apply all_nil|]. auto.
        * intros [H|(post & m & late & E & Hs & Hk & Hm & H)].
          -- apply all_cons in H as [H _]. unfold setter in H. rewrite Ep, Eb in H. discriminate.
          -- destruct post as [|o' post]; cbn in E; injection E as -> ->; [exact H|].
             apply all_cons in Hs as [Hs _]. unfold setter in Hs. rewrite Ep, Eb in Hs. discriminate.
      + split; [intros []|]. intros [H|(post & m & late & E & Hs & Hk & Hm & H)].
        * apply all_cons in H as [H _]. unfold setter in H. rewrite Ep, Eb in H. discriminate.
        * destruct post as [|o' post]; cbn in E; injection E as -> ->.
          -- rewrite Hm, Hk in Em. discriminate.
          -- apply all_cons in Hs as [Hs _]. unfold setter in Hs. rewrite Ep, Eb in Hs. discriminate.
  Qed.

  Lemma L1_ok p : accepts P1 p <-> L1 p.
  Proof.
    induction p as [|o p IH].
    - split; [discriminate|]. intros (mid & c & k & post & E & _). destruct mid; discriminate.
    - cbn. unfold advance. destruct (plain o) eqn:Ep.
      + rewrite IH. split.
        * intros (mid & c & k & post & -> & Hm & H). exists (o :: mid), c, k, post.
          split; [reflexivity|]. split; [apply all_cons; auto|exact H].
        * intros (mid & c & k & post & E & Hm & Hc & H). destruct mid as [|o' mid]; cbn in E; injection E as -> ->.
          -- destruct c; discriminate.
          -- apply all_cons in Hm. exists mid, c, k, post. tauto.
      + destruct (chooses o) as [k|] eqn:Ec.
        * rewrite L2_ok. split.
          -- intros H. exists [], o, k, p. split; [reflexivity|]. split; [apply all_nil|auto].
          -- intros (mid & c & k' & post & E & Hm & Hc & H). destruct mid as [|o' mid]; cbn in E; injection E as -> ->.
             ++ congruence.
             ++ apply all_cons in Hm as [Hm _]. congruence.
        * split; [intros []|]. intros (mid & c & k' & post & E & Hm & Hc & H).
          destruct mid as [|o' mid]; cbn in E; injection E as -> ->; [congruence|].
          apply all_cons in Hm as [Hm _]. congruence.
  Qed.

  Lemma L0_ok p : accepts P0 p <-> L0 p.
  Proof.
    induction p as [|o p IH].
    - split; [discriminate|]. intros (pre & x & post & E & _). destruct pre; discriminate.
    - cbn. unfold advance. destruct (plain o) eqn:Ep.
      + rewrite IH. split.
        * intros (pre & x & post & -> & Hm & H). exists (o :: pre), x, post.
          split; [reflexivity|]. split; [apply all_cons; auto|exact H].
        * intros (pre & x & post & E & Hm & H). destruct pre as [|o' pre]; cbn in E; injection E as -> ->.
          -- discriminate.
          -- apply all_cons in Hm. exists pre, x, post. tauto.
      + assert (Hno : forall pre x post, o :: p = pre ++ DFinish x :: post -> all (@plain _ _ _) pre ->
                                         o = DFinish x /\ p = post).
        { intros [|o' pre] x post E Hm; cbn in E; injection E as -> ->; [split; reflexivity|].
          apply all_cons in Hm as [Hm _]. congruence. }
        split.
        * destruct o; try (intros []; fail). rewrite L1_ok. intros H. exists [], o, p. split; [reflexivity|].
          split; [apply all_nil|exact H].
        * intros (pre & x & post & E & Hm & H). destruct (Hno _ _ _ E Hm) as [-> ->]. apply L1_ok. exact H.
  Qed.

  Lemma shape_ok p : accepts P0 p <-> schema_shape p.
  Proof.
    rewrite L0_ok. split.
    - intros (pre & x & p1 & -> & Hpre & mid & c & k & p2 & -> & Hmid & Hc & [H|(post & m & late & -> & H1 & H2 & H3 & H4)]).
      + eapply sh_bare; eauto.
      + eapply sh_marked; eauto.
    - intros [pre x mid c k post H1 H2 H3 H4|pre x mid c k post m late H1 H2 H3 H4 H5 H6 H7].
      + exists pre, x, (mid ++ c :: post). split; [reflexivity|]. split; [exact H1|].
        exists mid, c, k, post. split; [reflexivity|]. split; [exact H2|]. split; [exact H3|]. left. exact H4.
      + exists pre, x, (mid ++ c :: post ++ m :: late). split; [reflexivity|]. split; [exact H1|].
        exists mid, c, k, (post ++ m :: late). split; [reflexivity|]. split; [exact H2|]. split; [exact H3|].
        right. exists post, m, late. split; [reflexivity|]. auto.
  Qed.

  (** *** Builder values and phases *)

  Definition kind_is (k : schema_choice) (d : dkind DS AS OS) : bool :=
    match k, d with
    | (CBoolean | CNull), KStateless (Some _) | CConstant, KStateless None | CTuple, KTuple _ _
    | CVec, KVec _ _ _ _ | CNumber, KNumber _ | CInteger, KInteger _ | CObject, KObject _ _ _
    | CString, KString _ | CEnum, KEnum | CUnion, KOneOf => true
    | _, _ => false
    end.

  Definition is_some A (o : option A) : bool := match o with Some _ => true | None => false end.
  Definition unwrapped (w : wrap) : bool := match w with WNone => true | _ => false end.

  Definition in_phase (ph : phase) (s : dstate) : Prop :=
    match ph with
    | P0 => b_kind s = KBase /\ b_other s = None /\ b_wrap s = WNone
    | P1 => b_kind s = KBase /\ is_some (b_other s) = true /\ b_wrap s = WNone
    | P2 k => kind_is k (b_kind s) = true /\ is_some (b_other s) = true
              /\ unwrapped (b_wrap s) = match k with CConstant => false | _ => true end
    | P3 k => kind_is k (b_kind s) = true /\ is_some (b_other s) = true
              /\ unwrapped (b_wrap s) = false /\ markable k = true
    end.

  Definition moved (ph : phase) (o : dsop) (r : option dstate) : Prop :=
    match advance ph o with
    | Some ph' => exists s', r = Some s' /\ in_phase ph' s'
    | None => r = None
    end.

  Ltac solve_moved :=
    repeat match goal with
           | H : false = true |- _ => discriminate
           | H : true = false |- _ => discriminate
           | H : Some _ = None |- _ => discriminate
           | H : None = Some _ |- _ => discriminate
           | H : _ /\ _ |- _ => destruct H
           end;
    try reflexivity;
    try (eexists; split; [reflexivity|]; cbn; repeat split; auto; fail).

  Lemma leaf_moved ph o s :
    child_of o = None -> in_phase ph s -> moved ph o (dstep o s).
  Proof.
    destruct s as [i c df u oo en ro wo fm ot kd wr]. unfold moved, advance. intros Hc H.
    destruct ph as [| |k|k]; cbn in H.
    - destruct H as (-> & -> & ->).
      destruct o; cbn in Hc; try discriminate; cbn; solve_moved.
    - destruct H as (-> & Ho & ->). destruct ot as [x|]; [|discriminate].
      destruct o; cbn in Hc; try discriminate; cbn; solve_moved.
    - destruct H as (Hk & Ho & Hw). destruct ot as [x|]; [|discriminate].
      destruct k, kd; cbn in Hk; try discriminate; try (destruct ty as [ty|]; try discriminate);
        destruct wr; cbn in Hw; try discriminate;
        destruct o; cbn in Hc; try discriminate; cbn; solve_moved.
    - destruct H as (Hk & Ho & Hw & Hm). destruct ot as [x|]; [|discriminate].
      destruct k, kd; cbn in Hk, Hm; try discriminate; try (destruct ty as [ty|]; try discriminate);
        destruct wr; cbn in Hw; try discriminate;
        destruct o; cbn in Hc; try discriminate; cbn; solve_moved.
  Qed.

  Lemma child_moved ph o q d s :
    child_of o = Some q -> in_phase ph s -> moved ph o (dapply o d s).
  Proof.
    destruct s as [i c df u oo en ro wo fm ot kd wr]. unfold moved, advance. intros Hc H.
    destruct ph as [| |k|k]; cbn in H.
    - destruct H as (-> & -> & ->).
      destruct o; cbn in Hc; try discriminate; cbn; solve_moved.
    - destruct H as (-> & Ho & ->). destruct ot as [x|]; [|discriminate].
      destruct o; cbn in Hc; try discriminate; cbn; solve_moved.
    - destruct H as (Hk & Ho & Hw). destruct ot as [x|]; [|discriminate].
      destruct k, kd; cbn in Hk; try discriminate; try (destruct ty as [ty|]; try discriminate);
        destruct wr; cbn in Hw; try discriminate;
        destruct o; cbn in Hc; try discriminate; cbn; solve_moved.
    - destruct H as (Hk & Ho & Hw & Hm). destruct ot as [x|]; [|discriminate].
      destruct k, kd; cbn in Hk, Hm; try discriminate; try (destruct ty as [ty|]; try discriminate);
        destruct wr; cbn in Hw; try discriminate;
        destruct o; cbn in Hc; try discriminate; cbn; solve_moved.
  Qed.

  Lemma step_moved ph o s :
    (forall q, child_of o = Some q -> exists d, dbuild q = Some d) -> in_phase ph s -> moved ph o (dstep o s).
  Proof.
    intros Hc H. destruct (child_of o) as [q|] eqn:Eo.
    - rewrite (dstep_child _ _ Eo). destruct (Hc q eq_refl) as [d ->]. cbn. eapply child_moved; eauto.
    - apply leaf_moved; auto.
  Qed.

  Lemma done_phase ph s : in_phase ph s -> ((exists d, to_ds s = Some d) <-> final ph = true).
  Proof.
    destruct s as [i c df u oo en ro wo fm ot kd wr].
    destruct ph as [| |k|k]; cbn; intros H.
    - destruct H as (-> & -> & ->). cbn. split; [intros [d H]; discriminate|discriminate].
    - destruct H as (-> & Ho & ->). destruct ot; cbn; split; try discriminate; intros [d0 H]; discriminate.
    - split; [reflexivity|]. intros _. destruct H as (Hk & Ho & Hw). destruct ot as [x|]; [|discriminate].
      destruct k, kd; cbn in Hk; try discriminate; destruct wr; cbn; eexists; reflexivity.
    - split; [reflexivity|]. intros _. destruct H as (Hk & Ho & Hw & _). destruct ot as [x|]; [|discriminate].
      destruct k, kd; cbn in Hk; try discriminate; destruct wr; cbn; eexists; reflexivity.
  Qed.

  Definition kids_build (p : list dsop) : Prop :=
    forall o q, In o p -> child_of o = Some q -> exists d, dbuild q = Some d.

  Lemma run_moved p : forall ph s, in_phase ph s ->
    ((exists d, (let? s' := drun p s in to_ds s') = Some d) <-> accepts ph p /\ kids_build p).
  Proof.
    induction p as [|o p IH]; intros ph s Hs.
    - cbn. rewrite (done_phase _ _ Hs). split; [intros H; split; [exact H|intros ? ? []]|tauto].
    - cbn [drun accepts]. split.
      + intros [d H]. destruct (dstep o s) as [s1|] eqn:E1; [|discriminate]. cbn in H.
        assert (Ho : forall q, child_of o = Some q -> exists d, dbuild q = Some d).
        { intros q Hq. rewrite (dstep_child _ _ Hq) in E1. destruct (dbuild q) as [d'|]; [eauto|discriminate]. }
        pose proof (step_moved ph o s Ho Hs) as Hm. unfold moved in Hm. rewrite E1 in Hm.
        destruct (advance ph o) as [ph'|]; [|discriminate].
        destruct Hm as (s' & Es & Hs'). injection Es as <-.
        destruct (proj1 (IH ph' s1 Hs') (ex_intro _ d H)) as [Ha Hk]. split; [exact Ha|].
        intros o' q [<-|Hin] Hq; eauto.
      + intros [Ha Hk]. assert (Ho : forall q, child_of o = Some q -> exists d, dbuild q = Some d).
        { intros q. apply Hk. left. reflexivity. }
        pose proof (step_moved ph o s Ho Hs) as Hm. unfold moved in Hm.
        destruct (advance ph o) as [ph'|]; [|destruct Ha].
        destruct Hm as (s' & -> & Hs'). cbn. apply (IH ph' s' Hs'). split; [exact Ha|].
        intros o' q Hin. apply Hk. right. exact Hin.
  Qed.

  Lemma empty_phase : in_phase P0 dempty.
  Proof. cbn. auto. Qed.

  Lemma dbuild_kids p : (exists d, dbuild p = Some d) <-> schema_shape p /\ kids_build p.
  Proof. unfold dbuild. rewrite (run_moved p P0 _ empty_phase), shape_ok. reflexivity. Qed.

  Lemma closure_child (o : dsop) : closure o = child_of o.
  Proof. destruct o; reflexivity. Qed.

  Let op_ok (o : dsop) := forall q, closure o = Some q -> ((exists d, dbuild q = Some d) <-> schema_chain q).

  Lemma ops_ok_list p : Forall op_ok p -> ((exists d, dbuild p = Some d) <-> schema_chain p).
  Proof.
    intros H. rewrite Forall_forall in H. rewrite dbuild_kids. split.
    - intros [Hs Hk]. constructor; [exact Hs|]. intros o q Hin Hq. apply (H o Hin q Hq).
      apply (Hk o q Hin). rewrite <- closure_child. exact Hq.
    - intros [Hs Hk]. split; [exact Hs|]. intros o q Hin Hq. rewrite <- closure_child in Hq.
      apply (H o Hin q Hq). eapply Hk; eauto.
  Qed.

  Lemma op_is_ok o : op_ok o.
  Proof.
    induction o as [o Ho|o p Ho IH] using dsop_ind'; intros q Hq; rewrite closure_child in Hq.
    - congruence.
    - replace q with p by congruence. apply ops_ok_list. exact IH.
  Qed.

  Lemma schema_grammar (p : list dsop) : (exists d, dbuild p = Some d) <-> schema_chain p.
  Proof. apply ops_ok_list. apply Forall_forall. intros o _. apply op_is_ok. Qed.
End Schemas.

(** ** Links *)

Lemma link_step_href o s :
  link_step o s
  = (if is_href o then match lb_href s with Some _ => None | None => link_step o s end else link_step o s).
Proof. destruct o; cbn; try reflexivity. destruct (lb_href s); reflexivity. Qed.

Lemma link_run_from p : forall s,
  (exists l, (let? l := orun link_step p s in match lb_href l with Some _ => Some l | None => None end) = Some l)
  <-> match lb_href s with
      | Some _ => filter is_href p = []
      | None => exists h, filter is_href p = [LHref h]
      end.
Proof.
  induction p as [|o p IH]; intros s.
  - cbn. destruct (lb_href s); split; eauto.
    + intros [l H]. discriminate.
    + intros [h H]. discriminate.
  - destruct o as [v|v|v|v|v|v]; cbn; try (rewrite IH; cbn; reflexivity).
    destruct (lb_href s) as [h|] eqn:E; cbn.
    + split; [intros [l H]; discriminate|discriminate].
    + rewrite IH. cbn. split.
      * intros ->. exists v. reflexivity.
      * intros [h H]. injection H as _ H. exact H.
Qed.

Lemma link_grammar p : (exists l, link_run p = Some l) <-> link_chain p.
Proof. unfold link_run. rewrite link_run_from. reflexivity. Qed.

(** ** Security schemes *)

Inductive sphase := S0 | S1 (k : scheme_choice) | SC0 | SC1.

Definition s_advance (ph : sphase) (o : sec_op) : option sphase :=
  if sec_common o then Some ph
  else match ph with
       | S0 => match o with SCombo => Some SC0
                       | _ => match sec_chooses o with Some k => Some (S1 k) | None => None end end
       | S1 k => if sec_belongs k o then Some (S1 k) else None
       | SC0 => if combo_name o then Some SC0 else if combo_choice o then Some SC1 else None
       | SC1 => if combo_name o || combo_grows o then Some SC1 else None
       end.

Definition s_final (ph : sphase) : bool := match ph with S1 _ | SC1 => true | _ => false end.

Definition known_is (k : scheme_choice) (t : sec_subtype) : bool :=
  match k, t with
  | ENoSec, Known KNoSec | EAuto, Known KAuto | EBasic, Known (KBasic _) | EDigest, Known (KDigest _ _)
  | EBearer, Known (KBearer _) | EPsk, Known (KPsk _) | EOAuth2, Known (KOAuth2 _)
  | EApiKey, Known (KApiKey _) | ECustom, Unknown _ _ => true
  | _, _ => false
  end.

Definition s_in (ph : sphase) (s : sec_b) : Prop :=
  match ph, sb_kind s with
  | S0, SKNone => True
  | S1 k, SKSub t => known_is k t = true
  | SC0, SKEmptyCombo => True
  | SC1, SKSub (Known (KCombo _)) => True
  | _, _ => False
  end.

Lemma s_moved ph o s :
  s_in ph s ->
  match s_advance ph o with
  | Some ph' => exists s', sec_step o s = Some s' /\ s_in ph' s'
  | None => sec_step o s = None
  end.
Proof.
  destruct s as [a d ds px nm kd rq]. unfold s_in, s_advance.
  destruct ph as [|k| |]; destruct kd as [| |t]; cbn; try (intros []; fail).
  - intros _. destruct o; cbn; try reflexivity; (eexists; split; [reflexivity|]; cbn; auto).
  - destruct t as [[]|]; destruct k; cbn; try (intros; discriminate); intros _;
      destruct o; cbn; try reflexivity; (eexists; split; [reflexivity|]; cbn; auto).
  - intros _. destruct o; cbn; try reflexivity; (eexists; split; [reflexivity|]; cbn; auto).
  - destruct t as [[| |[]| | | | | |]|]; cbn; try (intros []; fail); intros _;
      destruct o; cbn; try reflexivity; (eexists; split; [reflexivity|]; cbn; auto).
Qed.

Fixpoint s_accepts (ph : sphase) (p : list sec_op) : Prop :=
  match p with
  | [] => s_final ph = true
  | o :: p' => match s_advance ph o with Some ph' => s_accepts ph' p' | None => False end
  end.

Lemma s_run_moved p : forall ph s, s_in ph s ->
  ((exists d, (let? s' := orun sec_step p s in sec_finish s') = Some d) <-> s_accepts ph p).
Proof.
  induction p as [|o p IH]; intros ph s Hs.
  - cbn. unfold s_in in Hs. unfold sec_finish. destruct ph, (sb_kind s) as [| |t]; cbn in *; try destruct Hs;
      (split; [first [reflexivity|intros [d H]; discriminate]|intros H; first [discriminate|eauto]]).
  - cbn [orun s_accepts]. pose proof (s_moved ph o s Hs) as Hm. destruct (s_advance ph o) as [ph'|].
    + destruct Hm as (s' & -> & Hs'). cbn. apply IH. exact Hs'.
    + rewrite Hm. cbn. split; [intros [d H]; discriminate|intros []].
Qed.

Lemma s1_ok k p : s_accepts (S1 k) p <-> all (fun o => sec_common o || sec_belongs k o) p.
Proof.
  induction p as [|o p IH]; cbn.
  - split; [intros _; apply all_nil|reflexivity].
  - rewrite all_cons. unfold s_advance. destruct (sec_common o); cbn; [rewrite IH; tauto|].
    destruct (sec_belongs k o); [rewrite IH; tauto|]. split; [intros []|intros [H _]; discriminate].
Qed.

Lemma sc1_ok p : s_accepts SC1 p <-> all (fun o => sec_common o || combo_name o || combo_grows o) p.
Proof.
  induction p as [|o p IH]; cbn.
  - split; [intros _; apply all_nil|reflexivity].
  - rewrite all_cons. unfold s_advance. destruct (sec_common o); cbn; [rewrite IH; tauto|].
    destruct (combo_name o || combo_grows o); [rewrite IH; tauto|]. split; [intros []|intros [H _]; discriminate].
Qed.

Lemma sc0_ok p :
  s_accepts SC0 p
  <-> exists mid c post, p = mid ++ c :: post /\ all (fun o => sec_common o || combo_name o) mid
                         /\ combo_choice c = true /\ s_accepts SC1 post.
Proof.
  induction p as [|o p IH].
  - split; [discriminate|]. intros (mid & c & post & E & _). destruct mid; discriminate.
  - cbn [s_accepts]. assert (Hgo : sec_common o || combo_name o = true ->
      (s_accepts SC0 p <-> exists mid c post, o :: p = mid ++ c :: post
         /\ all (fun o => sec_common o || combo_name o) mid /\ combo_choice c = true /\ s_accepts SC1 post)).
    { intros Ho. rewrite IH. split.
      - intros (mid & c & post & -> & Hm & H). exists (o :: mid), c, post. split; [reflexivity|].
        split; [apply all_cons; auto|exact H].
      - intros (mid & c & post & E & Hm & Hc & H). destruct mid as [|o' mid]; cbn in E; injection E as -> ->.
        + exfalso. destruct c; discriminate.
        + apply all_cons in Hm. exists mid, c, post. tauto. }
    unfold s_advance. destruct (sec_common o) eqn:E1; [apply Hgo; reflexivity|].
    destruct (combo_name o) eqn:E2; [apply Hgo; reflexivity|].
    assert (Hno : forall mid c post, o :: p = mid ++ c :: post -> all (fun o => sec_common o || combo_name o) mid ->
                                     o = c /\ p = post).
    { intros [|o' mid] c post E Hm; cbn in E; injection E as -> ->; [split; reflexivity|].
      apply all_cons in Hm as [Hm _]. rewrite E1, E2 in Hm. discriminate. }
    destruct (combo_choice o) eqn:E3.
    + split.
      * intros H. exists [], o, p. split; [reflexivity|]. split; [apply all_nil|auto].
      * intros (mid & c & post & E & Hm & Hc & H). destruct (Hno _ _ _ E Hm) as [-> ->]. exact H.
    + split; [intros []|]. intros (mid & c & post & E & Hm & Hc & H). destruct (Hno _ _ _ E Hm) as [-> ->].
      congruence.
Qed.

Lemma s0_ok p :
  s_accepts S0 p
  <-> (exists pre c k post, p = pre ++ c :: post /\ all sec_common pre /\ sec_chooses c = Some k
                            /\ s_accepts (S1 k) post)
      \/ exists pre post, p = pre ++ SCombo :: post /\ all sec_common pre /\ s_accepts SC0 post.
Proof.
  induction p as [|o p IH].
  - split; [discriminate|].
    intros [(pre & c & k & post & E & _)|(pre & post & E & _)]; destruct pre; discriminate.
  - cbn [s_accepts]. unfold s_advance. destruct (sec_common o) eqn:E1.
    + rewrite IH. split.
      * intros [(pre & c & k & post & -> & Hp & H)|(pre & post & -> & Hp & H)].
        -- left. exists (o :: pre), c, k, post. split; [reflexivity|]. split; [apply all_cons; auto|exact H].
        -- right. exists (o :: pre), post. split; [reflexivity|]. split; [apply all_cons; auto|exact H].
      * intros [(pre & c & k & post & E & Hp & Hc & H)|(pre & post & E & Hp & H)];
          destruct pre as [|o' pre]; cbn in E; injection E as -> ->.
        -- exfalso. destruct c; discriminate.
        -- left. apply all_cons in Hp. exists pre, c, k, post. tauto.
        -- discriminate.
        -- right. apply all_cons in Hp. exists pre, post. tauto.
    + assert (Hno : forall pre c post, o :: p = pre ++ c :: post -> all sec_common pre -> o = c /\ p = post).
      { intros [|o' pre] c post E Hp; cbn in E; injection E as -> ->; [split; reflexivity|].
        apply all_cons in Hp as [Hp _]. congruence. }
      split.
      * intros H. destruct (sec_chooses o) as [k|] eqn:E2.
        -- left. exists [], o, k, p. split; [reflexivity|]. split; [apply all_nil|]. split; [exact E2|].
           destruct o; try discriminate; exact H.
        -- destruct o; try (destruct H; fail); try discriminate. right. exists [], p. split; [reflexivity|].
           split; [apply all_nil|exact H].
      * intros [(pre & c & k & post & E & Hp & Hc & H)|(pre & post & E & Hp & H)];
          destruct (Hno _ _ _ E Hp) as [-> ->].
        -- destruct c; cbn in Hc; try discriminate; injection Hc as <-; exact H.
        -- exact H.
Qed.

Lemma security_grammar p : (exists d, sec_run p = Some d) <-> security_chain p.
Proof.
  unfold sec_run. rewrite (s_run_moved p S0 sec_new I), s0_ok. split.
  - intros [(pre & c & k & post & -> & Hp & Hc & H)|(pre & p1 & -> & Hp & H)].
    + apply s1_ok in H. eapply se_scheme; eauto.
    + apply sc0_ok in H as (mid & c & post & -> & Hm & Hc & H). apply sc1_ok in H. apply se_combo; auto.
  - intros [pre c k post H1 H2 H3|pre mid c post H1 H2 H3 H4].
    + left. exists pre, c, k, post. rewrite s1_ok. auto.
    + right. exists pre, (mid ++ c :: post). split; [reflexivity|]. split; [exact H1|].
      apply sc0_ok. exists mid, c, post. rewrite sc1_ok. auto.
Qed.

(** ** Forms, affordances, Things *)

(** Chains whose calls do not depend on the state: all of them have to be possible. *)
Lemma orun_each O S (step : O -> S -> option S) (fits : O -> Prop) :
  (forall o s, (exists s', step o s = Some s') <-> fits o) ->
  forall p s, (exists s', orun step p s = Some s') <-> forall o, In o p -> fits o.
Proof.
  intros Hs. induction p as [|o p IH]; intros s; cbn.
  - split; [intros _ ? []|eauto].
  - rewrite def_bind. split.
    + intros (s1 & E1 & H) o' [<-|Hin].
      * apply (Hs o s). eauto.
      * apply (proj1 (IH s1) H). exact Hin.
    + intros H. destruct (proj2 (Hs o s) (H o (or_introl eq_refl))) as [s1 E1].
      exists s1. split; [exact E1|]. apply IH. intros o' Hin. apply H. right. exact Hin.
Qed.

Lemma def_total A (x : A) (P : Prop) : P -> ((exists y, Some x = Some y) <-> P).
Proof. intros H. split; eauto. Qed.

Lemma def_map A B (x : option A) (f : A -> B) :
  (exists b, (let? a := x in Some (f a)) = Some b) <-> exists a, x = Some a.
Proof. rewrite def_bind. split; [intros (a & H & _); eauto|intros (a & H); exists a; eauto]. Qed.

Section Things.
  Variable E : env.
  Variable X : exts.

  Lemma form_run_from (p : list (fop X)) : forall s,
    (exists f, (let? s' := orun (@fstep X) p s in form_build s') = Some f)
    <-> match fb_href s with
        | Some _ => filter (@is_form_href X) p = []
        | None => exists h, filter (@is_form_href X) p = [FHref h]
        end.
  Proof.
    induction p as [|o p IH]; intros s.
    - cbn. unfold form_build. destruct (fb_href s); cbn; split; eauto.
      + intros [l H]. discriminate.
      + intros [h H]. discriminate.
    - destruct o as [v|v|v|v|v|v|v|c x|q]; cbn; try (rewrite IH; cbn; reflexivity).
      destruct (fb_href s) as [h|] eqn:Eh; cbn.
      + split; [intros [l H]; discriminate|discriminate].
      + rewrite IH. cbn. split.
        * intros ->. exists v. reflexivity.
        * intros [h H]. injection H as _ H. exact H.
  Qed.

  Lemma form_grammar x (p : list (fop X)) : (exists f, form_run x p = Some f) <-> form_chain p.
  Proof. unfold form_run. rewrite form_run_from. reflexivity. Qed.

  Lemma ia_grammar (o : ia_op X) s : (exists s', ia_step o s = Some s') <-> interaction_fits o.
  Proof.
    destruct o as [x p|n p]; cbn; rewrite def_map.
    - apply form_grammar.
    - apply schema_grammar.
  Qed.

  Lemma action_grammar xi xa (p : list (aop X)) :
    (exists a, action_run xi xa p = Some a) <-> forall o, In o p -> action_fits o.
  Proof.
    unfold action_run. apply orun_each. intros o s.
    destruct o as [o|o|q|q| | |b]; cbn; try (apply def_total; exact I); rewrite def_map.
    - apply ia_grammar.
    - apply schema_grammar.
    - apply schema_grammar.
  Qed.

  Lemma event_grammar xi xe (p : list (eop X)) :
    (exists a, event_run xi xe p = Some a) <-> forall o, In o p -> event_fits o.
  Proof.
    unfold event_run. apply orun_each. intros o s.
    destruct o as [o|o|q|q|q|q]; cbn; try (apply def_total; exact I); rewrite def_map.
    - apply ia_grammar.
    - apply schema_grammar.
    - apply schema_grammar.
    - apply schema_grammar.
    - apply schema_grammar.
  Qed.

  Lemma delegated_ok o : @delegated X o = negb (belongs CString o).
  Proof. destruct o; reflexivity. Qed.

  Lemma property_from (p : list (pop X)) : forall s,
    (exists u, (let? s' := orun (@pstep X) p s in
                let? d := to_ds (pb_ds s') in
                Some {| up_ia := pb_ia s'; up_ds := d; up_observable := pb_observable s'; up_other := pb_other s' |})
               = Some u)
    <-> (exists d, (let? d := drun (schema_calls p) (pb_ds s) in to_ds d) = Some d)
        /\ (forall o, In (PDs o) p -> belongs CString o = false)
        /\ (forall o, In (PIa o) p -> interaction_fits o).
  Proof.
    induction p as [|o p IH]; intros s.
    - cbn. rewrite def_map. split; [|tauto]. intros H. split; [exact H|]. split; intros ? [].
    - destruct o as [o|o|b]; cbn [orun pstep schema_calls flat_map].
      + rewrite delegated_ok. destruct (belongs CString o) eqn:Eb; cbn [negb].
        * split; [intros [u H]; discriminate|]. intros (_ & H & _).
          pose proof (H o (or_introl eq_refl)). congruence.
        * cbn [app drun]. destruct (dstep o (pb_ds s)) as [d|]; cbn.
          -- rewrite IH. cbn. split; intros (H1 & H2 & H3); (split; [exact H1|split]).
             ++ intros o' [Ho|Hin]; [injection Ho as <-; exact Eb|apply H2; exact Hin].
             ++ intros o' [Ho|Hin]; [discriminate|apply H3; exact Hin].
             ++ intros o' Hin. apply H2. right. exact Hin.
             ++ intros o' Hin. apply H3. right. exact Hin.
          -- split; [intros [u H]; discriminate|]. intros ([d H] & _). discriminate.
      + destruct (ia_step o (pb_ia s)) as [i|] eqn:Ei; cbn.
        * assert (Hf : interaction_fits o) by (apply (ia_grammar o (pb_ia s)); eauto).
          rewrite IH. cbn. split; intros (H1 & H2 & H3); (split; [exact H1|split]).
          -- intros o' [Ho|Hin]; [discriminate|apply H2; exact Hin].
          -- intros o' [Ho|Hin]; [injection Ho as <-; exact Hf|apply H3; exact Hin].
          -- intros o' Hin. apply H2. right. exact Hin.
          -- intros o' Hin. apply H3. right. exact Hin.
        * split; [intros [u H]; discriminate|]. intros (_ & _ & H).
          destruct (proj2 (ia_grammar o (pb_ia s)) (H o (or_introl eq_refl))) as [i Hi]. congruence.
      + cbn. rewrite IH. cbn. split; intros (H1 & H2 & H3); (split; [exact H1|split]).
        * intros o' [Ho|Hin]; [discriminate|apply H2; exact Hin].
        * intros o' [Ho|Hin]; [discriminate|apply H3; exact Hin].
        * intros o' Hin. apply H2. right. exact Hin.
        * intros o' Hin. apply H3. right. exact Hin.
  Qed.

  Lemma property_grammar xi xp (p : list (pop X)) :
    (exists u, prop_run xi xp p = Some u) <-> property_chain p.
  Proof.
    unfold prop_run. rewrite property_from. unfold property_chain. rewrite <- schema_grammar. reflexivity.
  Qed.

  (** One call on a Thing builder *)
  Lemma tstep_grammar (o : top E X) s :
    (exists s', tstep o s = Some s')
    <-> call_fits o /\ (needs_finish o = true -> tb_extended s = true)
        /\ (finishes o = true -> tb_extended s = false).
  Proof.
    destruct o; cbn;
      try (split; [intros _; split; [exact I|split; intros; discriminate]|intros _; eexists; reflexivity]).
    - destruct (String.eqb s0 TD_CONTEXT_11);
        (split; [intros _; split; [exact I|split; intros; discriminate]|intros _; eexists; reflexivity]).
    - rewrite def_map, link_grammar. split; [intros H; split; [exact H|split; intros; discriminate]|tauto].
    - rewrite <- security_grammar, def_bind. split.
      + intros (r & H & _). split; [eauto|split; intros; discriminate].
      + intros ([r H] & _). exists r. split; [exact H|]. destruct r as [[n q] sc]. destruct q; eauto.
    - destruct (tb_extended s); split; try (intros [s' H]; discriminate).
      + intros (_ & _ & H). discriminate (H eq_refl).
      + intros _. split; [exact I|]. split; [intros; discriminate|reflexivity].
      + eauto.
    - unfold when_extended. destruct (tb_extended s).
      + rewrite def_map, form_grammar. split; [intros H; split; [exact H|split; [reflexivity|intros; discriminate]]|tauto].
      + split; [intros [s' H]; discriminate|]. intros (_ & H & _). discriminate (H eq_refl).
    - unfold when_extended. destruct (tb_extended s).
      + rewrite def_map, schema_grammar. split; [intros H; split; [exact H|split; [reflexivity|intros; discriminate]]|tauto].
      + split; [intros [s' H]; discriminate|]. intros (_ & H & _). discriminate (H eq_refl).
    - unfold when_extended. destruct (tb_extended s).
      + rewrite def_map, property_grammar. split; [intros H; split; [exact H|split; [reflexivity|intros; discriminate]]|tauto].
      + split; [intros [s' H]; discriminate|]. intros (_ & H & _). discriminate (H eq_refl).
    - unfold when_extended. destruct (tb_extended s).
      + rewrite def_map, action_grammar. split; [intros H; split; [exact H|split; [reflexivity|intros; discriminate]]|tauto].
      + split; [intros [s' H]; discriminate|]. intros (_ & H & _). discriminate (H eq_refl).
    - unfold when_extended. destruct (tb_extended s).
      + rewrite def_map, event_grammar. split; [intros H; split; [exact H|split; [reflexivity|intros; discriminate]]|tauto].
      + split; [intros [s' H]; discriminate|]. intros (_ & H & _). discriminate (H eq_refl).
    - unfold when_extended. destruct (tb_extended s).
      + rewrite def_map, schema_grammar. split; [intros H; split; [exact H|split; [reflexivity|intros; discriminate]]|tauto].
      + split; [intros [s' H]; discriminate|]. intros (_ & H & _). discriminate (H eq_refl).
  Qed.

  Lemma tstep_extended (o : top E X) s s' :
    tstep o s = Some s' -> tb_extended s' = finishes o || tb_extended s.
  Proof.
    destruct o; cbn; unfold when_extended; intros H;
      try (injection H as <-; reflexivity);
      repeat match goal with
             | H : (if ?b then _ else _) = Some _ |- _ => destruct b eqn:?; try discriminate
             | H : obind ?x _ = Some _ |- _ => destruct x as [?|] eqn:?; cbn in H; try discriminate
             | p : (_ * _)%type |- _ => destruct p
             end;
      try (injection H as <-; cbn; try (match goal with |- context [if ?b then _ else _] => destruct b end); cbn; auto).
  Qed.

  Definition pre_call (o : top E X) : bool := negb (finishes o) && negb (needs_finish o).

  Lemma trun_grammar (p : list (top E X)) : forall s,
    (exists s', trun p s = Some s')
    <-> (if tb_extended s then all (fun o => negb (finishes o)) p else finished_once p)
        /\ forall o, In o p -> call_fits o.
  Proof.
    induction p as [|o p IH]; intros s.
    - cbn. split; [|eauto]. intros _. split; [|intros ? []].
      destruct (tb_extended s); [apply all_nil|left; apply all_nil].
    - cbn [trun orun]. rewrite def_bind. split.
      + intros (s1 & E1 & H). apply (IH s1) in H as [H1 H2].
        rewrite (tstep_extended _ _ E1) in H1.
        destruct (proj1 (tstep_grammar o s) (ex_intro _ s1 E1)) as (Hf & Hn & Hx).
        split; [|intros o' [<-|Hin]; auto].
        destruct (tb_extended s).
        * rewrite orb_true_r in H1. apply all_cons. split; [|exact H1].
          destruct (finishes o); [discriminate (Hx eq_refl)|reflexivity].
        * destruct (finishes o) eqn:Ef; cbn in H1.
          -- right. exists [], p. destruct o; try discriminate. split; [reflexivity|]. split; [apply all_nil|exact H1].
          -- destruct (needs_finish o) eqn:En; [discriminate (Hn eq_refl)|].
             destruct H1 as [H1|(pre & post & -> & Ha & Hb)].
             ++ left. apply all_cons. rewrite Ef, En. auto.
             ++ right. exists (o :: pre), post. split; [reflexivity|]. split; [|exact Hb].
                apply all_cons. rewrite Ef, En. auto.
      + intros [H1 H2].
        assert (Hx : (needs_finish o = true -> tb_extended s = true) /\ (finishes o = true -> tb_extended s = false)
                     /\ if finishes o || tb_extended s then all (fun o => negb (finishes o)) p else finished_once p).
        { destruct (tb_extended s).
          - apply all_cons in H1 as [Ho Hp]. destruct (finishes o); [discriminate|]. split; [auto|]. split; [discriminate|].
            exact Hp.
          - destruct H1 as [H1|(pre & post & Ep & Ha & Hb)].
            + apply all_cons in H1 as [Ho Hp]. apply andb_prop in Ho as [Hf Hn].
              destruct (finishes o); [discriminate|]. destruct (needs_finish o); [discriminate|].
              split; [discriminate|]. split; [discriminate|]. left. exact Hp.
            + destruct pre as [|o' pre]; cbn in Ep; injection Ep as -> ->; cbn.
              * split; [discriminate|]. split; [auto|]. exact Hb.
              * apply all_cons in Ha as [Ho Hp]. apply andb_prop in Ho as [Hf Hn].
                destruct (finishes o'); [discriminate|]. destruct (needs_finish o'); [discriminate|].
                split; [discriminate|]. split; [discriminate|]. right. exists pre, post. auto. }
        destruct Hx as (Hn & Hx & Hrest).
        destruct (proj2 (tstep_grammar o s) (conj (H2 o (or_introl eq_refl)) (conj Hn Hx))) as [s1 E1].
        exists s1. split; [exact E1|]. apply (IH s1). rewrite (tstep_extended _ _ E1). split; [exact Hrest|].
        intros o' Hin. apply H2. right. exact Hin.
  Qed.

  Lemma thing_grammar ord title x (p : list (top E X)) :
    (exists r, thing_program ord title x p = Some r) <-> thing_chain p.
  Proof.
    unfold thing_program. rewrite def_map, trun_grammar. reflexivity.
  Qed.
End Things.
