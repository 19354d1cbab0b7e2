(** * Debug output tells values apart *)

From Coq Require Import String Bool ZArith List.
From Verif Require Import Base MinMax Json Serde Types HList Protocol Debug SpecDebug Samples.
Import ListNotations.
Set Implicit Arguments.
Local Open Scope string_scope.
Local Open Scope list_scope.

Lemma str_apart : tells_apart GStr. Proof. intros a b H. injection H. auto. Qed.
Lemma int_apart : tells_apart GInt. Proof. intros a b H. injection H. auto. Qed.
Lemma float_apart : tells_apart GFloat. Proof. intros a b H. injection H. auto. Qed.
Lemma bool_apart : tells_apart GBool. Proof. intros a b H. injection H. auto. Qed.
Lemma json_apart : tells_apart GJson. Proof. intros a b H. injection H. auto. Qed.

Lemma opt_apart_in A (f : A -> dbg) o o' :
  (forall a b, o = Some a -> f a = f b -> a = b) -> g_opt f o = g_opt f o' -> o = o'.
Proof. destruct o, o'; cbn; intros H Q; try discriminate; [|reflexivity]. injection Q as Q. f_equal. eauto. Qed.

Lemma opt_apart A (f : A -> dbg) : tells_apart f -> tells_apart (g_opt f).
Proof. intros H o o'. apply opt_apart_in. intros a b _. apply H. Qed.

Lemma map_apart_in A (f : A -> dbg) l : forall l',
  (forall a b, In a l -> f a = f b -> a = b) -> map f l = map f l' -> l = l'.
Proof.
  induction l as [|a l IH]; intros [|b l'] H Q; cbn in Q; try discriminate; [reflexivity|].
  injection Q as Q1 Q2. f_equal; [apply H; [left; reflexivity|exact Q1]|apply IH; [|exact Q2]].
  intros x y Hx. apply H. right. exact Hx.
Qed.

Lemma list_apart_in A (f : A -> dbg) l l' :
  (forall a b, In a l -> f a = f b -> a = b) -> g_list f l = g_list f l' -> l = l'.
Proof. intros H Q. injection Q as Q. eapply map_apart_in; eauto. Qed.

Lemma list_apart A (f : A -> dbg) : tells_apart f -> tells_apart (g_list f).
Proof. intros H l l'. apply list_apart_in. intros a b _. apply H. Qed.

Lemma hash_apart_in A (f : A -> dbg) : forall (m m' : amap A),
  (forall a b, In a (map snd m) -> f a = f b -> a = b) -> g_map f m = g_map f m' -> m = m'.
Proof.
  induction m as [|[k a] m IH]; intros [|[k' b] m'] H Q; cbn in Q; try discriminate; [reflexivity|].
  injection Q as Q0 Q1 Q2. f_equal; [f_equal; [exact Q0|apply H; [left; reflexivity|exact Q1]]|].
  apply IH; [|unfold g_map; f_equal; exact Q2]. intros x y Hx. apply H. right. exact Hx.
Qed.

Lemma hash_apart A (f : A -> dbg) : tells_apart f -> tells_apart (g_map f).
Proof. intros H l l'. apply hash_apart_in. intros a b _. apply H. Qed.

Lemma ostr_apart : tells_apart g_ostr. Proof. exact (opt_apart str_apart). Qed.
Lemma oint_apart : tells_apart g_oint. Proof. exact (opt_apart int_apart). Qed.
Lemma strs_apart : tells_apart g_strs. Proof. exact (opt_apart (list_apart str_apart)). Qed.
Lemma lang_apart : tells_apart g_lang. Proof. exact (opt_apart (hash_apart str_apart)). Qed.

Lemma max_apart A (f : A -> dbg) : tells_apart f -> tells_apart (g_maximum f).
Proof. intros H [a|a] [b|b] Q; try discriminate; injection Q as Q; f_equal; auto. Qed.
Lemma min_apart A (f : A -> dbg) : tells_apart f -> tells_apart (g_minimum f).
Proof. intros H [a|a] [b|b] Q; try discriminate; injection Q as Q; f_equal; auto. Qed.

Lemma struct_fields n n' fs fs' : GStruct n fs = GStruct n' fs' -> fs = fs'.
Proof. intros H. injection H. auto. Qed.

(** Fields one by one *)
Ltac fields Q :=
  repeat match type of Q with
         | (_, _) :: _ = (_, _) :: _ => let Q1 := fresh "F" in injection Q as Q1 Q
         end.

Lemma cons_field (k k' : string) (x x' : dbg) l l' : (k, x) :: l = (k', x') :: l' -> x = x' /\ l = l'.
Proof. intros H. injection H. auto. Qed.

Create HintDb apart.
#[export] Hint Resolve str_apart int_apart float_apart bool_apart json_apart opt_apart list_apart hash_apart
  ostr_apart oint_apart strs_apart lang_apart max_apart min_apart : apart.

(** [a = b] from the equations between their printed fields *)
Ltac open_fields Q :=
  repeat (let F := fresh "F" in apply cons_field in Q; destruct Q as [F Q]).
Ltac use_apart :=
  match goal with
  | F : ?f ?x = ?f ?y |- ?a = ?b =>
      unify x a; unify y b; exact ((ltac:(auto with apart) : tells_apart f) x y F)
  end.

Lemma number_apart : tells_apart g_number.
Proof.
  intros [a b c] [a' b' c'] Q. apply struct_fields in Q. open_fields Q.
  f_equal; use_apart.
Qed.

Lemma integer_apart : tells_apart g_integer.
Proof.
  intros [a b c] [a' b' c'] Q. apply struct_fields in Q. open_fields Q.
  f_equal; use_apart.
Qed.

Lemma string_apart : tells_apart g_string.
Proof.
  intros [a b c d e] [a' b' c' d' e'] Q. apply struct_fields in Q.
  open_fields Q. f_equal; use_apart.
Qed.

Lemma variant_name n n' l l' : GVariant n l = GVariant n' l' -> n = n'.
Proof. intros H. injection H. auto. Qed.

Lemma variant_arg n n' a a' : GVariant n [a] = GVariant n' [a'] -> a = a'.
Proof. intros H. injection H. auto. Qed.

Lemma location_apart : tells_apart g_location.
Proof. intros [] [] Q; apply variant_name in Q; try reflexivity; discriminate. Qed.

Lemma qop_apart : tells_apart g_qop.
Proof. intros [] [] Q; apply variant_name in Q; try reflexivity; discriminate. Qed.
#[export] Hint Resolve number_apart integer_apart string_apart location_apart qop_apart : apart.

Lemma loc_name_apart b b' : g_loc_name b = g_loc_name b' -> b = b'.
Proof. destruct b, b'. intros Q. open_fields Q. f_equal; use_apart. Qed.

Lemma known_apart : tells_apart g_known.
Proof.
  intros k k' Q.
  assert (N := Q). destruct k as [| |[l|l]|b|q b|b|i|o|b], k' as [| |[l'|l']|b'|q' b'|b'|i'|o'|b'];
    cbn [g_known] in N, Q; try (apply variant_name in N; discriminate N); clear N; try reflexivity;
    apply variant_arg in Q.
  - apply variant_arg in Q. do 2 f_equal. use_apart.
  - apply variant_name in Q. discriminate Q.
  - apply variant_name in Q. discriminate Q.
  - apply variant_arg in Q. do 2 f_equal. use_apart.
  - apply struct_fields, loc_name_apart in Q. f_equal. exact Q.
  - apply struct_fields, cons_field in Q as [Q1 Q2]. f_equal; [use_apart|apply loc_name_apart, Q2].
  - apply struct_fields in Q. destruct b, b'. open_fields Q. do 2 f_equal; use_apart.
  - apply struct_fields in Q. open_fields Q. f_equal. use_apart.
  - apply struct_fields in Q. destruct o, o'. open_fields Q. do 2 f_equal; use_apart.
  - apply struct_fields, loc_name_apart in Q. f_equal. exact Q.
Qed.

Lemma subtype_apart : tells_apart g_subtype.
Proof.
  intros [k|n d] [k'|n' d'] Q; cbn [g_subtype] in Q; try (apply variant_name in Q; discriminate Q); apply variant_arg in Q.
  - f_equal. apply known_apart, Q.
  - apply struct_fields in Q. open_fields Q. f_equal; use_apart.
Qed.
#[export] Hint Resolve subtype_apart : apart.

Lemma security_apart : tells_apart g_security.
Proof.
  intros [] [] Q. apply struct_fields in Q.
  open_fields Q. f_equal; use_apart.
Qed.

Lemma link_apart : tells_apart g_link.
Proof.
  intros [] [] Q. apply struct_fields in Q.
  open_fields Q. f_equal; use_apart.
Qed.

Lemma form_op_apart : tells_apart g_form_op.
Proof. intros [] [] Q; apply variant_name in Q; try reflexivity; discriminate. Qed.
#[export] Hint Resolve form_op_apart : apart.

Lemma form_ops_apart : tells_apart g_form_ops.
Proof.
  intros [|l] [|l'] Q; cbn [g_form_ops] in Q; try (apply variant_name in Q; discriminate Q); [reflexivity|].
  apply variant_arg in Q. f_equal. use_apart.
Qed.

Lemma add_resp_apart : tells_apart g_add_resp.
Proof.
  intros [] [] Q. apply struct_fields in Q. open_fields Q.
  f_equal; use_apart.
Qed.

Lemma version_apart : tells_apart g_version.
Proof.
  intros [] [] Q. apply struct_fields in Q. open_fields Q. f_equal; use_apart.
Qed.
#[export] Hint Resolve security_apart link_apart form_ops_apart add_resp_apart version_apart : apart.

Lemma info_fields i i' l l' : g_info i ++ l = g_info i' ++ l' -> i = i' /\ l = l'.
Proof.
  destruct i, i'. intros Q. open_fields Q. split; [f_equal; use_apart|exact Q].
Qed.

Section Apart.
  Variable E : env.
  Variable X : exts.
  Variable G : dbgs E X.
  Hypothesis HG : dbgs_exact G.

  Lemma schema_apart : tells_apart (g_schema G).
  Proof.
    intros d. induction d as [i m l s o Hl Hs] using ds_ind'. intros [i' m' l' s' o'] Q.
    apply struct_fields in Q. apply info_fields in Q as [<- Q]. destruct m, m'.
    open_fields Q.
    f_equal.
    - f_equal; use_apart.
    - eapply opt_apart_in; [|eassumption]. intros a b Ha. apply list_apart_in. intros x y Hx. eapply Hl; eauto.
    - eapply opt_apart_in; [|eassumption]. intros a b Ha Hab. specialize (Hs a). subst s. clear - HG Hs Hab.
      assert (Hs' : forall d, In d (sub_children a) -> forall b, g_schema G d = g_schema G b -> d = b) by auto. clear Hs.
      destruct a as [ia mna mxa oa| |n|n|pa ra oa|n|], b as [ib mnb mxb ob| |n'|n'|pb rb ob|n'|];
        cbn [g_sub] in Hab; try (apply variant_name in Hab; discriminate Hab); try reflexivity; apply variant_arg in Hab.
      + apply struct_fields in Hab. open_fields Hab. pose proof (ge_as HG) as HA.
        f_equal; [|use_apart|use_apart|apply HA; assumption].
        eapply opt_apart_in; [|eassumption]. intros [d|l] [d'|l'] -> Q; cbn [g_boxed] in Q;
          try (apply variant_name in Q; discriminate Q); apply variant_arg in Q; f_equal.
        * apply Hs'; [left; reflexivity|exact Q].
        * eapply list_apart_in; [|exact Q]. intros x y Hx. apply Hs'. exact Hx.
      + f_equal. use_apart.
      + f_equal. use_apart.
      + apply struct_fields in Hab. open_fields Hab. pose proof (ge_os HG) as HA.
        f_equal; [|use_apart|apply HA; assumption].
        eapply opt_apart_in; [|eassumption]. intros m m' -> Q. eapply hash_apart_in; [|exact Q].
        intros x y Hx. apply Hs'. exact Hx.
      + f_equal. use_apart.
    - apply (ge_ds HG). assumption.
  Qed.

  Lemma exp_resp_apart : tells_apart (g_exp_resp G).
  Proof.
    intros [] [] Q. apply struct_fields in Q. open_fields Q.
    f_equal; [use_apart|apply (ge_er HG); assumption].
  Qed.
  Hint Resolve schema_apart exp_resp_apart : apart.

  Lemma form_apart : tells_apart (g_form G).
  Proof.
    intros [] [] Q. apply struct_fields in Q.
    open_fields Q. f_equal; try use_apart. apply (ge_f HG). assumption.
  Qed.
  Hint Resolve form_apart : apart.

  Lemma interaction_apart : tells_apart (g_interaction G).
  Proof.
    intros [] [] Q. apply struct_fields in Q.
    apply info_fields in Q as [F0 Q]. open_fields Q. f_equal; try use_apart; [exact F0|]. apply (ge_ia HG). assumption.
  Qed.
  Hint Resolve interaction_apart : apart.

  Lemma property_apart : tells_apart (g_property G).
  Proof.
    intros [] [] Q. apply struct_fields in Q. open_fields Q. f_equal; try use_apart. apply (ge_pa HG). assumption.
  Qed.

  Lemma action_apart : tells_apart (g_action G).
  Proof.
    intros [] [] Q. apply struct_fields in Q.
    open_fields Q. f_equal; try use_apart. apply (ge_aa HG). assumption.
  Qed.

  Lemma event_apart : tells_apart (g_event G).
  Proof.
    intros [] [] Q. apply struct_fields in Q.
    open_fields Q. f_equal; try use_apart. apply (ge_ea HG). assumption.
  Qed.
  Hint Resolve property_apart action_apart event_apart : apart.

  Lemma thing_fieldwise (t t' : thing E X) :
    t_context t = t_context t' -> t_id t = t_id t' -> t_attype t = t_attype t' -> t_title t =
    t_title t' -> t_titles t = t_titles t' -> t_description t = t_description t' -> t_descriptions t
    = t_descriptions t' -> t_version t = t_version t' -> t_created t = t_created t' -> t_modified t
    = t_modified t' -> t_support t = t_support t' -> t_base t = t_base t' -> t_properties t =
    t_properties t' -> t_actions t = t_actions t' -> t_events t = t_events t' -> t_links t = t_links
    t' -> t_forms t = t_forms t' -> t_security t = t_security t' -> t_secdefs t = t_secdefs t' ->
    t_uri t = t_uri t' -> t_profile t = t_profile t' -> t_schemas t = t_schemas t' -> t_other t =
    t_other t' -> t = t'.
  Proof. destruct t, t'. cbn. intros. subst. reflexivity. Qed.

  Lemma thing_apart : tells_apart (g_thing G).
  Proof.
    pose proof (ge_date HG) as HD. pose proof (ge_t HG) as HT.
    intros t t' Q. apply struct_fields in Q. open_fields Q. apply thing_fieldwise; use_apart.
  Qed.

  Ltac each_field g :=
    let k := fresh "k" in let same := fresh "same" in let a := fresh "a" in let b := fresh "b" in let H := fresh "H" in
    let Q := fresh "Q" in
    split; [intros; split; reflexivity|]; intros k same a b H;
    repeat (destruct H as [H|H];
      [injection H as <- <-; cbv beta; unfold g, g_info, shown;
       cbn [app find fst snd String.eqb Ascii.eqb Bool.eqb option_map]; split; intros Q;
         [apply (f_equal (fun o => match o with Some x => x | None => GBool true end)) in Q; cbv beta iota in Q; use_apart
         |rewrite Q; reflexivity]|]);
    destruct H.

  Lemma thing_shows : shows "Thing" (g_thing G) (thing_fields E X).
  Proof. pose proof (ge_date HG) as HD. pose proof (ge_t HG) as HT. each_field g_thing. Qed.

  Lemma interaction_shows : shows "InteractionAffordance" (g_interaction G) (interaction_fields X).
  Proof. pose proof (ge_ia HG) as HT. each_field g_interaction. Qed.

  Lemma property_shows : shows "PropertyAffordance" (g_property G) (property_fields X).
  Proof. pose proof (ge_pa HG) as HT. each_field g_property. Qed.

  Lemma action_shows : shows "ActionAffordance" (g_action G) (action_fields X).
  Proof. pose proof (ge_aa HG) as HT. each_field g_action. Qed.

  Lemma event_shows : shows "EventAffordance" (g_event G) (event_fields X).
  Proof. pose proof (ge_ea HG) as HT. each_field g_event. Qed.
End Apart.

(** ** Bindings *)

Lemma unit_apart : tells_apart g_unit.
Proof. intros [] [] _. reflexivity. Qed.

Lemma http_method_apart : tells_apart g_http_method.
Proof. intros [] [] Q; apply variant_name in Q; try reflexivity; discriminate. Qed.
Lemma http_header_apart : tells_apart g_http_header.
Proof. intros [] [] Q. apply struct_fields in Q. open_fields Q. f_equal; use_apart. Qed.
Lemma coap_method_apart : tells_apart g_coap_method.
Proof. intros [] [] Q; apply variant_name in Q; try reflexivity; discriminate. Qed.
Lemma block_apart : tells_apart g_block.
Proof. intros [] [] Q; apply variant_name in Q; try reflexivity; discriminate. Qed.
#[export] Hint Resolve unit_apart http_method_apart http_header_apart coap_method_apart block_apart : apart.
Lemma blockwise_apart : tells_apart g_blockwise.
Proof. intros [] [] Q. apply struct_fields in Q. open_fields Q. f_equal; use_apart. Qed.
Lemma mqtt_packet_apart : tells_apart g_mqtt_packet.
Proof. intros [] [] Q; apply variant_name in Q; try reflexivity; discriminate. Qed.
Lemma mqtt_qos_apart : tells_apart g_mqtt_qos.
Proof. intros [] [] Q; apply variant_name in Q; try reflexivity; discriminate. Qed.
#[export] Hint Resolve blockwise_apart mqtt_packet_apart mqtt_qos_apart : apart.

Lemma http_form_apart : tells_apart g_http_form.
Proof. intros [] [] Q. apply struct_fields in Q. open_fields Q. f_equal; use_apart. Qed.
Lemma http_response_apart : tells_apart g_http_response.
Proof. intros [] [] Q. apply struct_fields in Q. open_fields Q. f_equal; use_apart. Qed.
Lemma coap_form_apart : tells_apart g_coap_form.
Proof. intros [] [] Q. apply struct_fields in Q. open_fields Q. f_equal; use_apart. Qed.
Lemma coap_response_apart : tells_apart g_coap_response.
Proof. intros [] [] Q. apply struct_fields in Q. open_fields Q. f_equal; use_apart. Qed.
Lemma mqtt_form_apart : tells_apart g_mqtt_form.
Proof. intros [] [] Q. apply struct_fields in Q. open_fields Q. f_equal; use_apart. Qed.

Lemma http_exact E (g : date E -> dbg) : tells_apart g -> dbgs_exact (http_dbgs E g).
Proof. intros H. constructor; try exact H; try exact unit_apart; [exact http_form_apart|exact http_response_apart]. Qed.
Lemma coap_exact E (g : date E -> dbg) : tells_apart g -> dbgs_exact (coap_dbgs E g).
Proof. intros H. constructor; try exact H; try exact unit_apart; [exact coap_form_apart|exact coap_response_apart]. Qed.
Lemma mqtt_exact E (g : date E -> dbg) : tells_apart g -> dbgs_exact (mqtt_dbgs E g).
Proof. intros H. constructor; try exact H; try exact unit_apart. exact mqtt_form_apart. Qed.

Lemma cons_apart A B (f : A -> dbg) (g : B -> dbg) : tells_apart f -> tells_apart g -> tells_apart (g_cons f g).
Proof.
  intros Hf Hg [a b] [a' b'] Q. apply struct_fields in Q. open_fields Q. f_equal; [apply Hf|apply Hg]; assumption.
Qed.

Lemma cons_exact E X X' (G : dbgs E X) (G' : dbgs E X') : dbgs_exact G -> dbgs_exact G' -> dbgs_exact (cons_dbgs G G').
Proof. intros [] []. constructor; try assumption; apply cons_apart; assumption. Qed.

(** ** Copies *)

Lemma clone_same X c_er c_f (f : form X) :
  (forall r, c_er r = r) -> (forall o, c_f o = o) -> clone_form c_er c_f f = f.
Proof.
  intros H1 H2. destruct f as [op h ct cc sp se sc r ar o]. unfold clone_form.
  cbn [f_op f_href f_ctype f_ccoding f_subprotocol f_security f_scopes f_response f_additional f_other].
  rewrite H2. f_equal. destruct r as [[c e]|]; [|reflexivity]. cbn. unfold clone_exp_resp. cbn. rewrite H1. reflexivity.
Qed.
