(** * Lemmas for the vocabularies of the bindings *)

From Coq Require Import String Bool ZArith Lia List.
From Verif Require Import Base Json Serde Types HList Ser De Protocol SpecSerde SpecExt SpecTyped SpecVocab SerdeFacts ExtFacts
  ProtocolFacts RoundTripDs RoundTripTd CleanFacts ExtTypedFacts ConformFacts ReadsFacts.
Import ListNotations.
Set Implicit Arguments.
Local Open Scope string_scope.
Local Open Scope list_scope.

(** ** Writing *)

Lemma mk_same mk es : json_writer mk -> NoDup (map fst es) ->
  exists es', mk es = JObj es' /\ NoDup (map fst es') /\ forall k v, In (k, v) es' <-> In (k, v) es.
Proof.
  intros [->| ->] Hn.
  - exists es. repeat split; auto.
  - exists (mof es). split; [reflexivity|]. split; [apply (msorted_NoDup _ (msorted_mof es))|]. intros k v.
    rewrite <- !get_In, get_mof. destruct (@nodup_get k es Hn) as [->|(w & -> & _)]; cbn; tauto.
Qed.

Lemma says_ofld A k (f : A -> json) o (R : A -> json -> Prop) : (forall a, o = Some a -> R a (f a)) -> says (ofld k f o) k o R.
Proof.
  intros H. destruct o as [a|]; split.
  - intros v [[= <-]|[]]. eauto.
  - intros _. exists (f a). left; reflexivity.
  - intros v [].
  - congruence.
Qed.

Lemma says_app_l A es es' k (o : option A) R : says es k o R -> ~ In k (map fst es') -> says (es ++ es') k o R.
Proof.
  intros [H1 H2] Hn. split.
  - intros v Hin. apply in_app_or in Hin as [Hin|Hin]; auto. exfalso. apply Hn. apply in_map_iff. exists (k, v). auto.
  - intros Ho. destruct (H2 Ho) as (v & Hv). exists v. apply in_or_app. auto.
Qed.

Lemma says_app_r A es es' k (o : option A) R : says es' k o R -> ~ In k (map fst es) -> says (es ++ es') k o R.
Proof.
  intros [H1 H2] Hn. split.
  - intros v Hin. apply in_app_or in Hin as [Hin|Hin]; auto. exfalso. apply Hn. apply in_map_iff. exists (k, v). auto.
  - intros Ho. destruct (H2 Ho) as (v & Hv). exists v. apply in_or_app. auto.
Qed.

Lemma says_same A es es' k (o : option A) R : (forall v, In (k, v) es' <-> In (k, v) es) -> says es k o R -> says es' k o R.
Proof.
  intros H [H1 H2]. split.
  - intros v Hin. apply H1, H, Hin.
  - intros Ho. destruct (H2 Ho) as (v & Hv). exists v. apply H, Hv.
Qed.

Lemma ofld_not A k k' (f : A -> json) o : k <> k' -> ~ In k (map fst (ofld k' f o)).
Proof. intros Hn. destruct o; cbn; intuition. Qed.

Lemma app_not k (es es' : entries) : ~ In k (map fst es) -> ~ In k (map fst es') -> ~ In k (map fst (es ++ es')).
Proof. rewrite map_app, in_app_iff. tauto. Qed.

Lemma if_not (b : bool) k k' j : k <> k' -> ~ In k (map fst (if b then fld k' j else [])).
Proof. intros Hn. destruct b; cbn; intuition. Qed.

Lemma list_not A k k' (g : list A -> json) l : k <> k' -> ~ In k (map fst (match l with [] => [] | a :: l0 => fld k' (g (a :: l0)) end)).
Proof. intros Hn. destruct l; cbn; intuition. Qed.

Ltac not_tac :=
  first [apply app_not; not_tac | apply ofld_not; discriminate | apply if_not; discriminate | apply list_not; discriminate
        | intros []].

Ltac says_tac :=
  first [apply says_ofld | apply says_app_l; [says_tac|not_tac] | apply says_app_r; [says_tac|not_tac]].

Lemma says_list A k (g : list A -> json) l (R : list A -> json -> Prop) : (l <> [] -> R l (g l)) ->
  says (match l with [] => [] | a :: l0 => fld k (g (a :: l0)) end) k (some_list l) R.
Proof.
  intros H. destruct l as [|a l]; split.
  - intros v [].
  - cbn. congruence.
  - intros v [[= <-]|[]]. exists (a :: l). split; [reflexivity|]. apply H. discriminate.
  - intros _. exists (g (a :: l)). left; reflexivity.
Qed.

Lemma text_said s : text s (JStr s).
Proof. reflexivity. Qed.

Lemma http_method_said m : term http_methods_said m (s_http_method m).
Proof. destruct m; eexists; (split; [|reflexivity]); cbn; tauto. Qed.
Lemma coap_method_said m : term coap_methods_said m (s_coap_method m).
Proof. destruct m; eexists; (split; [|reflexivity]); cbn; tauto. Qed.
Lemma packet_said m : term packets_said m (s_mqtt_packet m).
Proof. destruct m; eexists; (split; [|reflexivity]); cbn; tauto. Qed.
Lemma quality_said m : term qualities_said m (s_mqtt_qos m).
Proof. destruct m; eexists; (split; [|reflexivity]); cbn; tauto. Qed.
Lemma size_said b : size b (s_block b).
Proof. destruct b; eexists; (split; [|reflexivity]); cbn; tauto. Qed.

Lemma object_said (P : entries -> Prop) mk es : json_writer mk -> NoDup (map fst es) ->
  (forall es', (forall k v, In (k, v) es' <-> In (k, v) es) -> P es') -> object P (mk es).
Proof. intros Hw Hn HP. destruct (mk_same es Hw Hn) as (es' & -> & Hn' & Hs). exists es'. auto. Qed.

Lemma http_header_said mk h : json_writer mk -> object (fun es => http_header_says es h) (s_http_header mk h).
Proof.
  intros Hw. unfold s_http_header. apply object_said; auto.
  - destruct (hh_name h), (hh_value h); apply nodupb_ok; reflexivity.
  - intros es' Hs. split; (eapply says_same; [intros v; apply Hs|]); says_tac; reflexivity.
Qed.

Lemma http_form_said mk f : http_form_says (p_ser http_form_piece mk f) f.
Proof. apply says_ofld. intros m _. apply http_method_said. Qed.

Lemma http_response_said mk r : json_writer mk -> http_response_says (p_ser http_response_piece mk r) r.
Proof.
  intros Hw. unfold http_response_piece. cbn [p_ser]. split.
  - apply says_app_l; [|not_tac].
    apply (@says_list _ "htv:headers" (fun l => s_list (s_http_header mk) l)). intros _.
    exists (map (s_http_header mk) (hr_headers r)). split; [reflexivity|].
    induction (hr_headers r) as [|h l IH]; constructor; auto. apply http_header_said; auto.
  - apply says_app_r; [apply says_ofld; reflexivity|]. apply (@list_not _ _ "htv:headers" (fun l => s_list (s_http_header mk) l)). discriminate.
Qed.

Lemma blockwise_said mk b : json_writer mk -> object (fun es => blockwise_says es b) (s_blockwise mk b).
Proof.
  intros Hw. unfold s_blockwise. apply object_said; auto.
  - destruct (bw_2 b), (bw_1 b); apply nodupb_ok; reflexivity.
  - intros es' Hs. split; (eapply says_same; [intros v; apply Hs|]); says_tac; intros; apply size_said.
Qed.

Lemma coap_form_said mk f : json_writer mk -> coap_form_says (p_ser coap_form_piece mk f) f.
Proof.
  intros Hw. unfold coap_form_says, coap_form_piece. cbn [p_ser].
  repeat match goal with |- _ /\ _ => split end; says_tac; intros; try reflexivity.
  - apply coap_method_said.
  - apply blockwise_said; auto.
  - apply blockwise_said; auto.
Qed.

Lemma coap_response_said mk r : coap_response_says (p_ser coap_response_piece mk r) r.
Proof. apply says_ofld. reflexivity. Qed.

Lemma mqtt_form_said mk f : mqtt_form_says (p_ser mqtt_form_piece mk f) f.
Proof.
  unfold mqtt_form_says, mqtt_form_piece. cbn [p_ser].
  repeat match goal with |- _ /\ _ => split end.
  - apply says_app_l; [|repeat apply app_not; try (apply ofld_not; discriminate);
      apply (@list_not _ _ "mqv:filter" (s_oom JStr)); discriminate].
    destruct (mf_retain f); split.
    + intros v [[= <-]|[]]. eauto.
    + intros _. eexists. left; reflexivity.
    + intros v [].
    + congruence.
  - apply says_app_r; [|apply if_not; discriminate]. apply says_app_l; [apply says_ofld; intros; apply packet_said|].
    repeat apply app_not; try (apply ofld_not; discriminate); apply (@list_not _ _ "mqv:filter" (s_oom JStr)); discriminate.
  - apply says_app_r; [|apply if_not; discriminate]. apply says_app_r; [|not_tac].
    apply says_app_l; [apply says_ofld; intros; apply quality_said|].
    repeat apply app_not; try (apply ofld_not; discriminate); apply (@list_not _ _ "mqv:filter" (s_oom JStr)); discriminate.
  - apply says_app_r; [|apply if_not; discriminate]. do 2 (apply says_app_r; [|not_tac]).
    apply says_app_l; [apply says_ofld; reflexivity|]. apply (@list_not _ _ "mqv:filter" (s_oom JStr)); discriminate.
  - apply says_app_r; [|apply if_not; discriminate]. do 3 (apply says_app_r; [|not_tac]).
    apply (@says_list _ "mqv:filter" (s_oom JStr)). intros _. unfold one_or_many, s_oom.
    destruct (mf_filter f) as [|a [|b l]]; [exists []; auto|reflexivity|].
    exists (map JStr (a :: b :: l)). split; [reflexivity|].
    generalize (a :: b :: l). intros l'. induction l'; constructor; auto. reflexivity.
Qed.

(** ** Reading *)

Lemma said_opt A k (o : option A) R d es : NoDup (map fst es) -> says es k o R ->
  (forall a v, R a v -> o = Some a -> v <> JNull /\ d v = Some a) -> opt k d es = Some o.
Proof.
  intros Hn [H1 H2] Hd. unfold opt. destruct (@nodup_get k es Hn) as [Hg|(v & Hg & Hin)]; rewrite Hg.
  - destruct o as [a|]; [|reflexivity]. destruct H2 as (v & Hv); [discriminate|]. apply get_In in Hv. rewrite Hg in Hv. destruct Hv.
  - destruct (H1 v Hin) as (a & -> & HR). destruct (Hd a v HR eq_refl) as [Hz Hv]. destruct v; try (rewrite Hv; reflexivity). congruence.
Qed.

Lemma said_term A (l l' : list (string * A)) a v : (forall n b, In (n, b) l -> assoc_name n l' = Some b) -> term l a v ->
  v <> JNull /\ d_variant l' v = Some a.
Proof. intros H (n & Hin & ->). split; [discriminate|]. cbn. auto. Qed.

Ltac table_tac := let H := fresh in intros ? ? H; cbn in H; repeat destruct H as [[= <- <-]|H]; try destruct H; reflexivity.

Lemma http_form_heard es f : NoDup (map fst es) -> http_form_says es f -> p_de http_form_piece es = Some f.
Proof.
  intros Hn H. unfold http_form_piece. cbn [p_de].
  rewrite (said_opt (d_variant http_methods) Hn H); [destruct f; reflexivity|].
  intros a v HR _. revert HR. apply said_term. table_tac.
Qed.

Lemma said_text es k o : NoDup (map fst es) -> says es k o text -> opt k d_str es = Some o.
Proof. intros Hn H. eapply said_opt; eauto. intros a v -> _. split; [discriminate|reflexivity]. Qed.

Lemma said_number es k o lo hi : NoDup (map fst es) -> says es k o number ->
  (forall n, o = Some n -> (lo <= n <= hi)%Z) -> opt k (d_int lo hi) es = Some o.
Proof.
  intros Hn H Hr. eapply said_opt; eauto. intros a v -> Ha. split; [discriminate|]. specialize (Hr a Ha). cbn.
  destruct (Z.leb_spec lo a); [|lia]. destruct (Z.leb_spec a hi); [reflexivity|lia].
Qed.

Lemma http_header_heard h j : object (fun es => http_header_says es h) j -> d_http_header j = Some h.
Proof.
  intros (es & -> & Hn & H1 & H2). unfold d_http_header, d_struct. rewrite (said_text Hn H1), (said_text Hn H2).
  destruct h; reflexivity.
Qed.

Lemma list_heard A (R : A -> json -> Prop) d l js : (forall a j, R a j -> d j = Some a) -> Forall2 R l js -> omap_all d js = Some l.
Proof. intros Hd H. induction H as [|a j l js Ha _ IH]; [reflexivity|]. cbn. rewrite (Hd _ _ Ha), IH. reflexivity. Qed.

Lemma http_response_heard es r : NoDup (map fst es) -> hr_headers r <> [] -> all_some in_u64 (hr_status r) ->
  http_response_says es r -> p_de http_response_piece es = Some r.
Proof.
  intros Hn Hne Hu [[H1 H1'] H2]. unfold http_response_piece. cbn [p_de].
  assert (req "htv:headers" (d_list d_http_header) es = Some (hr_headers r)) as ->.
  { unfold req. destruct (@nodup_get "htv:headers" es Hn) as [Hg|(v & Hg & Hin)]; rewrite Hg.
    - destruct H1' as (v & Hv); [destruct (hr_headers r); cbn; congruence|]. apply get_In in Hv. rewrite Hg in Hv. destruct Hv.
    - destruct (H1 v Hin) as (l & Hl & js & -> & HF).
      assert (l = hr_headers r) as -> by (destruct (hr_headers r); cbn in Hl; congruence).
      cbn. eapply list_heard; [|exact HF]. intros a j. apply http_header_heard. }
  cbn [obind]. unfold d_u64. rewrite (said_number Hn H2); [destruct r; reflexivity|]. intros n Q. apply (Hu n Q).
Qed.

Lemma size_heard b v : size b v -> v <> JNull /\ d_block v = Some b.
Proof.
  intros (n & Hin & ->). split; [discriminate|]. cbn in Hin.
  repeat destruct Hin as [[= <- <-]|Hin]; try destruct Hin; reflexivity.
Qed.

Lemma blockwise_heard b j : object (fun es => blockwise_says es b) j -> d_blockwise j = Some b.
Proof.
  intros (es & -> & Hn & H1 & H2). unfold d_blockwise, d_struct.
  rewrite (said_opt (d_block) Hn H1) by (intros; apply size_heard; auto).
  rewrite (said_opt (d_block) Hn H2) by (intros; apply size_heard; auto). destruct b; reflexivity.
Qed.

Lemma blockwise_heard' b j : object (fun es => blockwise_says es b) j -> j <> JNull /\ d_blockwise j = Some b.
Proof. intros H. split; [destruct H as (es & -> & _); discriminate|apply blockwise_heard; auto]. Qed.

Lemma coap_form_heard es f : NoDup (map fst es) -> coap_form_ok f -> coap_form_says es f -> p_de coap_form_piece es = Some f.
Proof.
  intros Hn (R1 & R2 & R3) (H1 & H2 & H3 & H4 & H5 & H6). unfold coap_form_piece. cbn [p_de].
  rewrite (said_opt (d_variant coap_methods) Hn H1) by (intros a v HR _; revert HR; apply said_term; table_tac).
  rewrite (said_opt (d_blockwise) Hn H2) by (intros; apply blockwise_heard'; auto).
  rewrite (said_opt (d_blockwise) Hn H3) by (intros; apply blockwise_heard'; auto).
  unfold d_u8, d_u16. rewrite (said_number Hn H4) by exact R1. rewrite (said_number Hn H5) by exact R2.
  rewrite (said_number Hn H6) by exact R3. destruct f; reflexivity.
Qed.

Lemma coap_response_heard es r : NoDup (map fst es) -> coap_response_ok r -> coap_response_says es r ->
  p_de coap_response_piece es = Some r.
Proof.
  intros Hn R H. unfold coap_response_piece. cbn [p_de]. unfold d_u16. rewrite (said_number Hn H) by exact R.
  destruct r; reflexivity.
Qed.

Lemma said_dflt A k a0 (o : option A) R d es : NoDup (map fst es) -> says es k o R ->
  (forall a v, R a v -> o = Some a -> d v = Some a) ->
  dflt k a0 d es = Some (match o with Some a => a | None => a0 end).
Proof.
  intros Hn [H1 H2] Hd. unfold dflt. destruct (@nodup_get k es Hn) as [Hg|(v & Hg & Hin)]; rewrite Hg.
  - destruct o as [a|]; [|reflexivity]. destruct H2 as (v & Hv); [discriminate|]. apply get_In in Hv. rewrite Hg in Hv. destruct Hv.
  - destruct (H1 v Hin) as (a & -> & HR). apply (Hd a v HR eq_refl).
Qed.

Lemma texts_heard l j : one_or_many text l j -> l <> [] -> d_oom d_str j = Some l.
Proof.
  intros H Hl. destruct l as [|a [|b l]]; [congruence| |].
  - unfold one_or_many, text in H. subst j. reflexivity.
  - destruct H as (js & -> & HF). unfold d_oom. cbn [d_str].
    cbn. refine (list_heard d_str _ HF). intros c j Hc. unfold text in Hc. subst j. reflexivity.
Qed.

Lemma mqtt_form_heard es f : NoDup (map fst es) -> mqtt_form_says es f -> p_de mqtt_form_piece es = Some f.
Proof.
  intros Hn (H1 & H2 & H3 & H4 & H5). unfold mqtt_form_piece. cbn [p_de].
  rewrite (said_dflt false (d_bool) Hn H1) by (intros a v -> _; reflexivity).
  rewrite (said_opt (d_variant mqtt_packets) Hn H2) by (intros a v HR _; revert HR; apply said_term; table_tac).
  rewrite (said_opt (d_variant mqtt_qoss) Hn H3) by (intros a v HR _; revert HR; apply said_term; table_tac).
  rewrite (said_text Hn H4).
  rewrite (said_dflt [] (d_oom d_str) Hn H5).
  - destruct f as [[] ? ? ? []]; reflexivity.
  - intros l v HR Hl. apply texts_heard; auto. destruct (mf_filter f); cbn in Hl; congruence.
Qed.

(** ** Forms of a Thing *)

(** A saying that looks at the members [L] only *)
Definition looks_at {A} (L : list string) (P : entries -> A -> Prop) : Prop :=
  forall es es' a, (forall k v, In k L -> (In (k, v) es' <-> In (k, v) es)) -> P es a -> P es' a.

Lemma looks_says A B L k (o : B -> option A) R : In k L -> looks_at L (fun es b => says es k (o b) R).
Proof. intros Hk es es' a H. apply says_same. intros v. apply H, Hk. Qed.

Lemma looks_and A L (P Q : entries -> A -> Prop) : looks_at L P -> looks_at L Q -> looks_at L (fun es a => P es a /\ Q es a).
Proof. intros HP HQ es es' a H [H1 H2]. split; [apply (HP es)|apply (HQ es)]; auto. Qed.

Lemma http_form_looks : looks_at (p_take http_form_piece) http_form_says.
Proof. unfold http_form_says. apply (looks_says (B := http_form) _ hf_method). simpl; tauto. Qed.
Lemma http_response_looks : looks_at (p_take http_response_piece) http_response_says.
Proof.
  unfold http_response_says. apply looks_and;
    [apply (looks_says (B := http_response) _ (fun r => some_list (hr_headers r)))|apply (looks_says (B := http_response) _ hr_status)];
    simpl; tauto.
Qed.
Lemma coap_form_looks : looks_at (p_take coap_form_piece) coap_form_says.
Proof.
  unfold coap_form_says.
  apply looks_and; [apply (looks_says (B := coap_form) _ cf_method); simpl; tauto|].
  apply looks_and; [apply (looks_says (B := coap_form) _ cf_block); simpl; tauto|].
  apply looks_and; [apply (looks_says (B := coap_form) _ cf_qblock); simpl; tauto|].
  apply looks_and; [apply (looks_says (B := coap_form) _ cf_hop); simpl; tauto|].
  apply looks_and; [apply (looks_says (B := coap_form) _ cf_accept); simpl; tauto|].
  apply (looks_says (B := coap_form) _ cf_format); simpl; tauto.
Qed.
Lemma coap_response_looks : looks_at (p_take coap_response_piece) coap_response_says.
Proof. unfold coap_response_says. apply (looks_says (B := coap_response) _ cr_format). simpl; tauto. Qed.
Lemma mqtt_form_looks : looks_at (p_take mqtt_form_piece) mqtt_form_says.
Proof.
  unfold mqtt_form_says.
  apply looks_and; [apply (looks_says (B := mqtt_form) _ (fun f => if mf_retain f then Some true else None)); simpl; tauto|].
  apply looks_and; [apply (looks_says (B := mqtt_form) _ mf_packet); simpl; tauto|].
  apply looks_and; [apply (looks_says (B := mqtt_form) _ mf_qos); simpl; tauto|].
  apply looks_and; [apply (looks_says (B := mqtt_form) _ mf_topic); simpl; tauto|].
  apply (looks_says (B := mqtt_form) _ (fun f => some_list (mf_filter f))); simpl; tauto.
Qed.
Lemma nothing_looks : looks_at [] nothing_said.
Proof. intros es es' a _ _. exact I. Qed.

Section Forms.
  Variable X : exts.
  Variables (F : entries -> pty (x_f X) -> Prop) (R : entries -> pty (x_er X) -> Prop).
  Variables Lf Lr : list string.
  Hypothesis Hlf : looks_at Lf F.
  Hypothesis Hlr : looks_at Lr R.
  Hypothesis Naf : forall k, In k Lf -> ~ In k form_keys.
  Hypothesis Nar : forall k, In k Lr -> k <> "contentType".

  Lemma app_own own es L k v : within own L -> ~ In k L -> (In (k, v) (own ++ es) <-> In (k, v) es).
  Proof.
    intros Hw Hn. rewrite in_app_iff. split; [|auto]. intros [Hin|Hin]; auto.
    exfalso. apply Hn. apply (@within_In _ _ k Hw). apply in_map_iff. exists (k, v). auto.
  Qed.

  Lemma app_other (own es : entries) L k v : within es L -> ~ In k L -> (In (k, v) (own ++ es) <-> In (k, v) own).
  Proof.
    intros Hw Hn. rewrite in_app_iff. split; [|auto]. intros [Hin|Hin]; auto.
    exfalso. apply Hn. apply (@within_In _ _ k Hw). apply in_map_iff. exists (k, v). auto.
  Qed.

  Lemma apart_nodup own es L M : within own L -> NoDup L -> within es M -> NoDup M -> (forall k, In k M -> ~ In k L) ->
    NoDup (map fst (own ++ es)).
  Proof.
    intros H1 H2 H3 H4 H5. apply within_NoDup with (K := L ++ M); [apply within_app; auto|].
    clear - H2 H4 H5. induction L as [|k L IH]; cbn; auto. inversion_clear H2. constructor.
    - rewrite in_app_iff. intros [Q|Q]; auto. apply (H5 k Q). left; reflexivity.
    - apply IH; auto. intros k' Hk Hin. apply (H5 k' Hk). right; auto.
  Qed.

  Hypothesis Wf : forall mk a, within (p_ser (x_f X) mk a) Lf.
  Hypothesis Wr : forall mk a, within (p_ser (x_er X) mk a) Lr.
  Hypothesis Ndf : NoDup Lf.
  Hypothesis Ndr : NoDup Lr.
  Hypothesis Sf : forall mk a, json_writer mk -> F (p_ser (x_f X) mk a) a.
  Hypothesis Sr : forall mk a, json_writer mk -> R (p_ser (x_er X) mk a) a.

  Lemma exp_resp_said mk (r : exp_resp (pty (x_er X))) : json_writer mk ->
    object (fun es => says es "contentType" (Some (er_ctype r)) text /\ R es (er_other r)) (s_exp_resp X mk r).
  Proof.
    intros Hw. unfold s_exp_resp, exp_resp_es. apply object_said; auto.
    - eapply apart_nodup; [apply within_fld|repeat constructor; auto|apply Wr|auto|].
      intros k Hk [<-|[]]. apply (Nar Hk eq_refl).
    - intros es' Hs. split.
      + eapply says_same; [intros v; apply Hs|]. apply says_app_l.
        * split; [intros v [[= <-]|[]]; exists (er_ctype r); split; reflexivity|]. intros _. eexists. left; reflexivity.
        * intros Hin. apply (@within_In _ _ _ (Wr mk (er_other r))) in Hin. apply (Nar Hin eq_refl).
      + eapply (@Hlr (p_ser (x_er X) mk (er_other r))); [|auto]. intros k v Hk. rewrite (Hs k v).
        apply app_own with (L := ["contentType"]); [apply within_fld|]. intros [<-|[]]. apply (Nar Hk eq_refl).
  Qed.

  Lemma own_response mk (f : form X) (R' : exp_resp (pty (x_er X)) -> json -> Prop) :
    (forall r, f_response f = Some r -> R' r (s_exp_resp X mk r)) ->
    says (form_own mk f) "response" (f_response f) R'.
  Proof.
    intros H. unfold form_own.
    do 7 (apply says_app_r; [|first [apply ofld_not; discriminate | cbn; intuition discriminate
      | destruct (f_op f); cbn; intuition discriminate]]).
    apply says_app_l; [apply says_ofld; exact H|apply ofld_not; discriminate].
  Qed.

  Lemma form_said mk (f : form X) : json_writer mk -> object (form_says F R f) (s_form mk f).
  Proof.
    intros Hw. unfold s_form. rewrite form_own_eq. apply object_said; auto.
    - eapply apart_nodup; [apply form_own_within|apply nodupb_ok; reflexivity|apply Wf|auto|auto].
    - intros es' Hs. split.
      + eapply (@Hlf (p_ser (x_f X) mk (f_other f))); [|auto]. intros k v Hk. rewrite (Hs k v).
        apply app_own with (L := form_keys); [apply form_own_within|auto].
      + eapply says_same; [intros v; apply Hs|]. apply says_app_l.
        * apply own_response. intros r _. apply exp_resp_said; auto.
        * intros Hin. apply (@within_In _ _ _ (Wf mk (f_other f))) in Hin. apply (Naf Hin). simpl; tauto.
  Qed.

  Variables (Pf : pty (x_f X) -> Prop) (Pr : pty (x_er X) -> Prop).
  Hypothesis Hf : forall es a, NoDup (map fst es) -> Pf a -> F es a -> p_de (x_f X) es = Some a.
  Hypothesis Hr : forall es a, NoDup (map fst es) -> Pr a -> R es a -> p_de (x_er X) es = Some a.

  Lemma exp_resp_heard (r : exp_resp (pty (x_er X))) j : Pr (er_other r) ->
    object (fun es => says es "contentType" (Some (er_ctype r)) text /\ R es (er_other r)) j -> d_exp_resp X j = Some r.
  Proof.
    intros HP (es & -> & Hn & [H1 H1'] & H2). unfold d_exp_resp, d_flat, exp_resp_body.
    assert (req "contentType" d_str es = Some (er_ctype r)) as ->.
    { unfold req. destruct H1' as (v & Hv); [discriminate|]. destruct (H1 v Hv) as (c & [= <-] & Hc). unfold text in Hc. subst v.
      destruct (@nodup_get "contentType" es Hn) as [Hg|(v & Hg & Hin)]; rewrite Hg.
      - apply get_In in Hv. rewrite Hg in Hv. destruct Hv.
      - destruct (H1 v Hin) as (c & [= <-] & Hc). unfold text in Hc. subst v. reflexivity. }
    cbn [obind]. rewrite (Hr (a := er_other r)); auto.
    - destruct r; reflexivity.
    - apply without_NoDup; auto.
    - eapply (@Hlr (es)); auto. intros k v Hk. rewrite without_In. split; [intros []; auto|]. intros Hin. split; auto.
      intros [<-|[]]. apply (Nar Hk eq_refl).
  Qed.

  Lemma form_heard es (f g : form X) : NoDup (map fst es) -> Pf (f_other g) ->
    all_some (fun r => Pr (er_other r)) (f_response g) -> form_says F R g es ->
    d_form X (JObj es) = Some f -> f_other f = f_other g /\ f_response f = f_response g.
  Proof.
    intros Hn HP HQ [H1 H2] Hd. unfold d_form, d_flat, form_body in Hd.
    rewrite (said_opt (d_exp_resp X) Hn H2) in Hd.
    2:{ intros r v Hv Hs. split; [destruct Hv as (es' & -> & _); discriminate|]. apply exp_resp_heard; auto. }
    assert (p_de (x_f X) (without form_keys es) = Some (f_other g)) as E.
    { apply Hf; auto; [apply without_NoDup; auto|]. eapply (@Hlf (es)); auto.
      intros k v Hk. rewrite without_In. split; [intros []; auto|]. auto. }
    rewrite E in Hd. repeat (let Q := fresh "Q" in apply obind_inv in Hd as (? & Q & Hd)). apply some_inj in Hd as <-.
    cbn [f_other f_response]. split; symmetry; apply some_inj; assumption.
  Qed.
End Forms.

(** ** Terms outside the vocabularies *)

Lemma bad_opt A k v (d : json -> option A) es : NoDup (map fst es) -> In (k, v) es -> v <> JNull -> d v = None -> opt k d es = None.
Proof.
  intros Hn Hin Hz Hd. unfold opt. destruct (@nodup_get k es Hn) as [Hg|(w & Hg & Hw)]; rewrite Hg.
  - apply get_In in Hin. rewrite Hg in Hin. destruct Hin.
  - apply get_In in Hin. rewrite Hg in Hin. destruct Hin as [->|[]]. destruct v; try (rewrite Hd; reflexivity). congruence.
Qed.

Lemma bad_term A (l : list (string * A)) n : ~ In n (map fst l) -> d_variant l (JStr n) = None.
Proof.
  intros H. cbn. induction l as [|[m a] l IH]; [reflexivity|]. cbn. destruct (String.eqb_spec n m) as [->|].
  - exfalso. apply H. left; reflexivity.
  - apply IH. intros Hin. apply H. right; exact Hin.
Qed.

Lemma bad_block n : ~ In n (map fst block_sizes_said) -> d_block (JInt n) = None.
Proof.
  intros H. unfold d_block. destruct (d_u16 (JInt n)) as [m|] eqn:E; [|reflexivity].
  assert (m = n) as ->. { unfold d_u16, d_int in E. destruct (_ && _)%bool in E; congruence. }
  cbn [obind find]. cbn in H.
  repeat match goal with |- context [Z.eqb ?a ?b] => destruct (Z.eqb_spec a b) as [Q|_]; [exfalso; apply H; cbn in Q; rewrite Q; tauto|] end.
  reflexivity.
Qed.

Lemma bad_blockwise k n es : k = "cov:block2Size" \/ k = "cov:block1Size" -> NoDup (map fst es) ->
  In (k, JInt n) es -> ~ In n (map fst block_sizes_said) -> d_blockwise (JObj es) = None.
Proof.
  intros Hk Hn Hin H. unfold d_blockwise, d_struct.
  assert (opt k d_block es = None) as E by (eapply bad_opt; eauto; [discriminate|apply bad_block; auto]).
  destruct Hk as [->| ->]; rewrite E; [reflexivity|]. destruct (opt "cov:block2Size" d_block es); reflexivity.
Qed.

Lemma http_bad es n : NoDup (map fst es) -> In ("htv:methodName", JStr n) es ->
  ~ In n (map fst http_methods_said) -> p_de http_form_piece es = None.
Proof.
  intros Hn Hin H. unfold http_form_piece. cbn [p_de].
  rewrite (@bad_opt _ _ _ (d_variant http_methods) _ Hn Hin); [reflexivity|discriminate|apply bad_term; exact H].
Qed.


Lemma obind_None A B (o : option A) (f : A -> option B) : (forall a, f a = None) -> obind o f = None.
Proof. intros H. destruct o; cbn; auto. Qed.

Lemma coap_bad_method es n : NoDup (map fst es) -> In ("cov:method", JStr n) es ->
  ~ In n (map fst coap_methods_said) -> p_de coap_form_piece es = None.
Proof.
  intros Hn Hin H. unfold coap_form_piece. cbn [p_de].
  rewrite (@bad_opt _ _ _ (d_variant coap_methods) _ Hn Hin); [reflexivity|discriminate|apply bad_term; intros Q; apply H; cbn in *; tauto].
Qed.

Lemma coap_bad_block es k bs k' n : k = "cov:blockwise" \/ k = "cov:qblockwise" ->
  k' = "cov:block2Size" \/ k' = "cov:block1Size" ->
  NoDup (map fst es) -> In (k, JObj bs) es -> NoDup (map fst bs) -> In (k', JInt n) bs ->
  ~ In n (map fst block_sizes_said) -> p_de coap_form_piece es = None.
Proof.
  intros Hk Hk' Hn Hin Hn' Hin' H. unfold coap_form_piece. cbn [p_de].
  assert (opt k d_blockwise es = None) as E by (eapply bad_opt; eauto; [discriminate|eapply bad_blockwise; eauto]).
  destruct Hk as [->| ->]; apply obind_None; intros m.
  - rewrite E. reflexivity.
  - apply obind_None; intros b. rewrite E. reflexivity.
Qed.

Lemma mqtt_bad_packet es n : NoDup (map fst es) -> In ("mqv:controlPacket", JStr n) es ->
  ~ In n (map fst packets_said) -> p_de mqtt_form_piece es = None.
Proof.
  intros Hn Hin H. unfold mqtt_form_piece. cbn [p_de]. apply obind_None; intros r.
  rewrite (@bad_opt _ _ _ (d_variant mqtt_packets) _ Hn Hin); [reflexivity|discriminate|apply bad_term; exact H].
Qed.

Lemma mqtt_bad_qos es n : NoDup (map fst es) -> In ("mqv:qos", JStr n) es ->
  ~ In n (map fst qualities_said) -> p_de mqtt_form_piece es = None.
Proof.
  intros Hn Hin H. unfold mqtt_form_piece. cbn [p_de]. apply obind_None; intros r. apply obind_None; intros p.
  rewrite (@bad_opt _ _ _ (d_variant mqtt_qoss) _ Hn Hin); [reflexivity|discriminate|apply bad_term; exact H].
Qed.

(** ** The three bindings *)

Lemma http_whole_said mk (f : form http_exts) : json_writer mk ->
  object (form_says (X := http_exts) http_form_says http_response_says f) (s_form mk f).
Proof.
  apply (@form_said http_exts http_form_says http_response_says (p_take http_form_piece) (p_take http_response_piece)
    http_form_looks http_response_looks).
  - intros k [<-|[]]. cbn. intuition discriminate.
  - intros k [<-|[<-|[]]]; discriminate.
  - intros mk' a. apply within_ofld.
  - intros mk' a. cbn [p_ser p_take http_exts x_er http_response_piece].
    apply within_cons; [destruct (hr_headers a); [apply within_none|apply within_fld]|apply within_ofld].
  - apply nodupb_ok; reflexivity.
  - apply nodupb_ok; reflexivity.
  - intros mk' a _. apply http_form_said.
  - intros mk' a Hw. apply http_response_said, Hw.
Qed.

Lemma coap_whole_said mk (f : form coap_exts) : json_writer mk ->
  object (form_says (X := coap_exts) coap_form_says coap_response_says f) (s_form mk f).
Proof.
  apply (@form_said coap_exts coap_form_says coap_response_says (p_take coap_form_piece) (p_take coap_response_piece)
    coap_form_looks coap_response_looks).
  - intros k Hk Hk'. cbn in Hk, Hk'. repeat destruct Hk as [<-|Hk]; intuition discriminate.
  - intros k [<-|[]]; discriminate.
  - intros mk' a. cbn [p_ser p_take coap_exts x_f coap_form_piece]. repeat (apply within_cons; [apply within_ofld|]). apply within_ofld.
  - intros mk' a. apply within_ofld.
  - apply nodupb_ok; reflexivity.
  - apply nodupb_ok; reflexivity.
  - intros mk' a. apply coap_form_said.
  - intros mk' a _. apply coap_response_said.
Qed.

Lemma mqtt_whole_said mk (f : form mqtt_exts) : json_writer mk ->
  object (form_says (X := mqtt_exts) mqtt_form_says nothing_said f) (s_form mk f).
Proof.
  apply (@form_said mqtt_exts mqtt_form_says nothing_said (p_take mqtt_form_piece) [] mqtt_form_looks nothing_looks).
  - intros k Hk Hk'. cbn in Hk, Hk'. repeat destruct Hk as [<-|Hk]; intuition discriminate.
  - intros k [].
  - intros mk' a. cbn [p_ser p_take mqtt_exts x_f mqtt_form_piece].
    apply within_cons; [destruct (mf_retain a); [apply within_fld|apply within_none]|].
    do 3 (apply within_cons; [apply within_ofld|]). destruct (mf_filter a); [apply within_none|apply within_fld].
  - intros mk' a. apply within_none.
  - apply nodupb_ok; reflexivity.
  - apply nodupb_ok; reflexivity.
  - intros mk' a _. apply mqtt_form_said.
  - intros mk' a _. exact I.
Qed.

Lemma http_whole_heard es (f g : form http_exts) : NoDup (map fst es) ->
  all_some (fun r => http_response_ok (er_other r)) (f_response g) ->
  form_says (X := http_exts) http_form_says http_response_says g es ->
  d_form http_exts (JObj es) = Some f -> f_other f = f_other g /\ f_response f = f_response g.
Proof.
  intros Hn HP. apply (@form_heard http_exts http_form_says http_response_says (p_take http_form_piece) (p_take http_response_piece)
    http_form_looks http_response_looks) with (Pf := fun _ => True) (Pr := http_response_ok); auto.
  - intros k [<-|[]]. cbn. intuition discriminate.
  - intros k [<-|[<-|[]]]; discriminate.
  - intros es' a Hn' _. apply http_form_heard, Hn'.
  - intros es' a Hn' [H1 H2]. apply http_response_heard; auto.
Qed.

Lemma coap_whole_heard es (f g : form coap_exts) : NoDup (map fst es) -> coap_form_ok (f_other g) ->
  all_some (fun r => coap_response_ok (er_other r)) (f_response g) ->
  form_says (X := coap_exts) coap_form_says coap_response_says g es ->
  d_form coap_exts (JObj es) = Some f -> f_other f = f_other g /\ f_response f = f_response g.
Proof.
  intros Hn Hf HP. apply (@form_heard coap_exts coap_form_says coap_response_says (p_take coap_form_piece) (p_take coap_response_piece)
    coap_form_looks coap_response_looks) with (Pf := coap_form_ok) (Pr := coap_response_ok); auto.
  - intros k Hk Hk'. cbn in Hk, Hk'. repeat destruct Hk as [<-|Hk]; intuition discriminate.
  - intros k [<-|[]]; discriminate.
  - intros es' a. apply coap_form_heard.
  - intros es' a. apply coap_response_heard.
Qed.

Lemma mqtt_whole_heard es (f g : form mqtt_exts) : NoDup (map fst es) ->
  form_says (X := mqtt_exts) mqtt_form_says nothing_said g es ->
  d_form mqtt_exts (JObj es) = Some f -> f_other f = f_other g /\ f_response f = f_response g.
Proof.
  intros Hn. apply (@form_heard mqtt_exts mqtt_form_says nothing_said (p_take mqtt_form_piece) [] mqtt_form_looks nothing_looks)
    with (Pf := fun _ => True) (Pr := fun _ => True); auto.
  - intros k Hk Hk'. cbn in Hk, Hk'. repeat destruct Hk as [<-|Hk]; intuition discriminate.
  - intros es' a Hn' _ Ha. apply mqtt_form_heard; auto.
  - intros es' [] _ _ _. reflexivity.
  - intros r _. exact I.
Qed.
