(** * Security schemes, links, forms, affordances, Things: writing and reading back *)

From Coq Require Import String Bool ZArith Permutation Lia List.
From Coq Require Import Floats.SpecFloat.
From Verif Require Import Base MinMax Json Serde Types Spec DsFacts SpecSerde Ser De SerdeFacts RoundTrip
  RoundTripDs.
Import ListNotations.
Set Implicit Arguments.
Local Open Scope string_scope.
Local Open Scope list_scope.

Ltac within_step :=
  first [apply within_fld | apply within_ofld
        | apply within_cons; [first [apply within_fld | apply within_ofld]|]].

Lemma without_app ks es es' : without ks (es ++ es') = without ks es ++ without ks es'.
Proof. apply filter_app. Qed.

Lemma without_perm ks es es' : Permutation es es' -> Permutation (without ks es) (without ks es').
Proof.
  unfold without. induction 1; simpl.
  - constructor.
  - destruct (negb _); auto.
  - destruct (negb _), (negb _); auto. apply perm_swap.
  - etransitivity; eauto.
Qed.

Lemma without_all es ks : (forall k, In k (map fst es) -> In k ks) -> without ks es = [].
Proof.
  induction es as [|[k v] es IH]; simpl; intros H; auto.
  rewrite (proj2 (smem_In k ks)) by auto. simpl. auto.
Qed.

Lemma without_none es ks : (forall k, In k (map fst es) -> ~ In k ks) -> without ks es = es.
Proof.
  induction es as [|[k v] es IH]; simpl; intros H; auto.
  rewrite (proj2 (smem_false k ks)) by auto. simpl. f_equal. auto.
Qed.

(** A struct with own members and one flattened extension. *)
Lemma struct_rt mk own oks p K ok a :
  json_writer mk -> within own oks -> NoDup oks -> incl oks td_names ->
  round_trips p K ok -> ok a -> disjoint K td_names ->
  exists es, mk (own ++ p_ser p mk a) = JObj es
    /\ (forall k, In k oks -> get k es = get k own)
    /\ p_de p (without oks es) = Some a.
Proof.
  intros Hw Hin Hn Hi Hp Ha Hd.
  destruct (@writer_get mk (own ++ p_ser p mk a) (oks ++ map fst (p_ser p mk a))) as (es & -> & Hg); auto.
  - apply within_app; auto. eapply piece_within; eauto.
  - apply disjoint_NoDup; auto.
    + eapply piece_nodup; eauto.
    + eapply piece_disjoint; eauto. intros k Hk Hk'. exact (Hd k Hk (Hi k Hk')).
  - exists es. split; [auto|]. split.
    + intros k Hk. rewrite Hg, get_app, (piece_get_nil Hw Hp), app_nil_r; auto.
      intros HK. exact (Hd k HK (Hi k Hk)).
    + apply (rt_read Hp Hw Ha). intros k Hk.
      assert (~ In k oks) as Hno by (intros F; exact (Hd k Hk (Hi k F))).
      rewrite get_without, (proj2 (smem_false k oks)), Hg, get_app by auto.
      rewrite (within_get_nil Hin) by auto. reflexivity.
Qed.

(** ** Variant names *)

Lemma d_loc_rt l : d_loc (s_loc l) = Some l.
Proof. destruct l; reflexivity. Qed.

Lemma d_qop_rt q : d_variant qops (s_qop q) = Some q.
Proof. destruct q; reflexivity. Qed.

Lemma d_op_rt o : d_op (s_op o) = Some o.
Proof. destruct o; reflexivity. Qed.

Lemma d_ops_rt o : o <> OpCustom [] -> d_ops (s_ops o) = Some o.
Proof.
  intros H. destruct o as [|l]; [reflexivity|].
  destruct l as [|a l]; [congruence|]. unfold s_ops, s_list, d_ops.
  set (v := map s_op (a :: l)).
  assert (d_oom d_op (JArr v) = Some (a :: l)) as ->; [|reflexivity].
  unfold d_oom. replace (d_op (JArr v)) with (@None form_op) by reflexivity.
  apply (@d_list_rt _ d_op s_op). intros x _. apply d_op_rt.
Qed.

(** ** Security *)

(** A custom scheme that is not read as a known one. *)
Definition told_apart (custom : string -> entries -> Prop) : Prop :=
  forall s des es, custom s des -> NoDup ("scheme" :: map fst des) ->
    Permutation (("scheme", JStr s) :: des) es -> d_known es = None.

Lemma assoc_name_None A s (tbl : list (string * A)) :
  ~ In s (map fst tbl) -> assoc_name s tbl = None.
Proof.
  induction tbl as [|[n a] tbl IH]; simpl; intros H; auto.
  destruct (String.eqb s n) eqn:He; auto. apply String.eqb_eq in He; subst. tauto.
Qed.

Lemma own_name_apart : told_apart own_name.
Proof.
  intros s des es Hs Hn Hp. unfold d_known, req.
  rewrite (get_Permutation_eq "scheme" Hp) by (apply get_length_NoDup; auto).
  rewrite get_cons. cbn [String.eqb Ascii.eqb Bool.eqb].
  inversion Hn; subst. rewrite (proj2 (get_nil_iff "scheme" des)) by auto.
  unfold d_tag. rewrite assoc_name_None; auto.
Qed.

Lemma ser_value_id mk j : json_writer mk -> value_ok j -> ser_value mk j = j.
Proof.
  intros Hw. induction 1; auto.
  - simpl. f_equal. rewrite <- (map_id l) at 2. apply map_ext_in. auto.
  - simpl. assert (map (fun kv => (fst kv, ser_value mk (snd kv))) es = es) as ->.
    { rewrite <- (map_id es) at 2. apply map_ext_in. intros [k v] Hin. simpl.
      erewrite H1; eauto. }
    destruct Hw as [->| ->]; [reflexivity|]. unfold mk_value. rewrite mof_sorted; auto.
Qed.

Section Sec.
  Variable E : env.
  Variable mk : entries -> json.
  Hypothesis Hw : json_writer mk.
  Variable custom : string -> entries -> Prop.
  Hypothesis Hcustom : told_apart custom.

  Definition known_keys : list string :=
    ["scheme"; "oneOf"; "allOf"; "qop"; "authorization"; "alg"; "format"; "in"; "name"; "identity";
     "token"; "refresh"; "scopes"; "flow"].

  Lemma known_nodup k : NoDup (map fst (known_es k)).
  Proof.
    destruct k as [| |[l|l]|[l n]|q [l n]|[a g f l n]|i|[a t r s f]|[l n]];
      unfold known_es, loc_name_es; simpl;
      repeat match goal with o : option _ |- _ => destruct o end;
      apply nodupb_ok; reflexivity.
  Qed.

  Lemma known_names k : incl (map fst (known_es k)) known_keys.
  Proof.
    destruct k as [| |[l|l]|[l n]|q [l n]|[a g f l n]|i|[a t r s f]|[l n]];
      unfold known_es, loc_name_es; simpl;
      repeat match goal with o : option _ |- _ => destruct o end;
      apply inclb_ok; reflexivity.
  Qed.

  Lemma known_rt k es : Permutation (known_es k) es -> d_known es = Some k.
  Proof.
    intros Hp.
    assert (forall x, In x known_keys -> get x es = get x (known_es k)) as HG.
    { intros x _. apply get_Permutation_eq; auto. apply get_length_NoDup, known_nodup. }
    assert (forall x, In x known_keys -> x <> "scheme" ->
              get x (without ["scheme"] es) = get x (known_es k)) as HC.
    { intros x Hx Hn. rewrite get_without. rewrite (proj2 (smem_false x ["scheme"])); auto.
      intros [F|[]]; congruence. }
    unfold d_known.
    Ltac sec_lookup HC :=
      rewrite HC by (try (apply smem_In; reflexivity); discriminate);
      unfold known_es, loc_name_es; gets; reflexivity.
    Ltac sec_tag HG :=
      erewrite obind_Some;
      [|eapply req_rt; [rewrite HG by (apply smem_In; reflexivity);
                        unfold known_es, loc_name_es; gets; reflexivity|reflexivity]].
    Ltac sec_ofield HC S O tac :=
      erewrite obind_Some; [|apply opt_rt with (s := S) (o := O);
        [sec_lookup HC|let a := fresh "x" in intros a _; tac]].
    Ltac sec_dfield HC tac := erewrite obind_Some; [|eapply dflt_rt; [sec_lookup HC|tac]].
    destruct k as [| |[l|l]|[l n]|q [l n]|[a g f l n]|i|[a t r s f]|[l n]].
    - sec_tag HG. reflexivity.
    - sec_tag HG. reflexivity.
    - sec_tag HG. cbn [assoc_name String.eqb Ascii.eqb Bool.eqb].
      apply (without_perm ["scheme"]) in Hp. simpl in Hp.
      apply Permutation_length_1_inv in Hp. rewrite Hp. unfold d_combo.
      cbn [String.eqb Ascii.eqb Bool.eqb]. destruct (d_oom_str l) as [-> _]. reflexivity.
    - sec_tag HG. cbn [assoc_name String.eqb Ascii.eqb Bool.eqb].
      apply (without_perm ["scheme"]) in Hp. simpl in Hp.
      apply Permutation_length_1_inv in Hp. rewrite Hp. unfold d_combo.
      cbn [String.eqb Ascii.eqb Bool.eqb]. destruct (d_oom_str l) as [-> _]. reflexivity.
    - sec_tag HG. cbn [assoc_name String.eqb Ascii.eqb Bool.eqb]. unfold d_loc_name.
      sec_dfield HC ltac:(apply (d_loc_rt l)).
      sec_ofield HC JStr n ltac:(apply d_str_rt). reflexivity.
    - sec_tag HG. cbn [assoc_name String.eqb Ascii.eqb Bool.eqb]. unfold d_loc_name.
      erewrite obind_Some; [|eapply req_rt; [sec_lookup HC|apply (d_qop_rt q)]].
      sec_dfield HC ltac:(apply (d_loc_rt l)).
      sec_ofield HC JStr n ltac:(apply d_str_rt). reflexivity.
    - sec_tag HG. cbn [assoc_name String.eqb Ascii.eqb Bool.eqb]. unfold d_bearer.
      sec_ofield HC JStr a ltac:(apply d_str_rt).
      sec_dfield HC ltac:(apply (d_str_rt g)).
      sec_dfield HC ltac:(apply (d_str_rt f)).
      sec_dfield HC ltac:(apply (d_loc_rt l)).
      sec_ofield HC JStr n ltac:(apply d_str_rt). reflexivity.
    - sec_tag HG. cbn [assoc_name String.eqb Ascii.eqb Bool.eqb].
      rewrite (@opt_rt _ "identity" d_str (without ["scheme"] es) JStr i); auto;
        [sec_lookup HC|intros; apply d_str_rt].
    - sec_tag HG. cbn [assoc_name String.eqb Ascii.eqb Bool.eqb]. unfold d_oauth2.
      sec_ofield HC JStr a ltac:(apply d_str_rt).
      sec_ofield HC JStr t ltac:(apply d_str_rt).
      sec_ofield HC JStr r ltac:(apply d_str_rt).
      sec_ofield HC (s_oom JStr) s ltac:(apply d_oom_str).
      erewrite obind_Some; [|eapply req_rt; [sec_lookup HC|apply (d_str_rt f)]]. reflexivity.
    - sec_tag HG. cbn [assoc_name String.eqb Ascii.eqb Bool.eqb]. unfold d_loc_name.
      sec_dfield HC ltac:(apply (d_loc_rt l)).
      sec_ofield HC JStr n ltac:(apply d_str_rt). reflexivity.
  Qed.

  Lemma canon_perm des es : value_ok (JObj des) -> Permutation des es ->
    canon (JObj es) = JObj des.
  Proof.
    intros Hv Hp. inversion Hv; subst. simpl. f_equal.
    assert (map (fun kv => (fst kv, canon (snd kv))) es = es) as ->.
    { rewrite <- (map_id es) at 2. apply map_ext_in. intros [k v] Hin. simpl. rewrite canon_ok; auto.
      apply (H1 k). eapply Permutation_in; [apply Permutation_sym|]; eauto. }
    apply mof_Permutation; auto. apply Permutation_sym; auto.
  Qed.

  Lemma subtype_rt s es' :
    (forall scheme data, s = Unknown scheme data -> custom_ok custom scheme data) ->
    exists es, subtype_es mk s = Some es /\ NoDup (map fst es)
      /\ disjoint (map fst es) security_keys
      /\ (Permutation es es' -> d_subtype es' = Some s).
  Proof.
    intros Hs. destruct s as [k|scheme data].
    - exists (known_es k). split; [reflexivity|]. split; [apply known_nodup|]. split.
      + intros x Hx Hk. apply known_names in Hx. revert Hk. apply smem_false.
        unfold known_keys in Hx. lit_cases Hx; reflexivity.
      + intros Hp. unfold d_subtype. rewrite (known_rt _ Hp). reflexivity.
    - destruct (Hs _ _ eq_refl) as (des & -> & Hv & Hcu & Hd).
      exists (("scheme", JStr scheme) :: des).
      assert (NoDup ("scheme" :: map fst des)) as HN.
      { constructor; [intros F; apply (Hd _ F); apply smem_In; reflexivity|].
        inversion Hv; subst. apply msorted_NoDup; auto. }
      split; [|split; [|split]]; auto.
      + unfold subtype_es. inversion Hv; subst.
        assert (map (fun kv => (fst kv, ser_value mk (snd kv))) des = des) as ->; [|reflexivity].
        rewrite <- (map_id des) at 2. apply map_ext_in. intros [k v] Hin. simpl.
        rewrite ser_value_id; auto. eapply H1; eauto.
      + intros k [<-|Hk] Hin.
        * revert Hin. apply smem_false. reflexivity.
        * apply (Hd k Hk). revert Hin. apply inclb_ok. reflexivity.
      + intros Hp. unfold d_subtype. rewrite (Hcustom Hcu HN Hp). unfold d_unknown.
        rewrite (obind_Some _ (a := scheme)).
        * rewrite (canon_perm (des := des)); auto.
          apply (without_perm ["scheme"]) in Hp. simpl in Hp. rewrite without_none in Hp; auto.
          intros k Hk Hin. apply (Hd k Hk). revert Hin. apply inclb_ok. reflexivity.
        * apply req_rt with (j := JStr scheme); [|reflexivity].
          rewrite (get_Permutation_eq "scheme" Hp) by (apply get_length_NoDup; auto).
          rewrite get_cons. cbn [String.eqb Ascii.eqb Bool.eqb]. f_equal.
          apply get_nil_iff. inversion HN; auto.
  Qed.

  Theorem security_rt s : security_ok E custom s ->
    exists j, s_security mk s = Some j /\ d_security E j = Some s /\ j <> JNull.
  Proof.
    intros [Ht Hs]. unfold s_security, security_es.
    destruct (@subtype_rt (ss_subtype s) [] Hs) as (sub & Hsub & Hn & Hd & _). rewrite Hsub. simpl.
    set (own := ofld "@type" (s_oom JStr) (ss_attype s) ++ ofld "description" JStr (ss_description s)
          ++ ofld "descriptions" (s_multilang mk) (ss_descriptions s) ++ ofld "proxy" JStr (ss_proxy s)).
    assert (within own security_keys) as Hin.
    { unfold own, security_keys. repeat within_step. }
    eexists. split; [reflexivity|]. split; [|apply writer_not_null; auto].
    match goal with |- context [mk ?e] => replace e with (own ++ sub) end.
    2: { unfold own. rewrite <- !app_assoc. reflexivity. }
    assert (NoDup (map fst (own ++ sub))) as HN.
    { rewrite map_app. apply disjoint_NoDup; auto.
      - eapply within_NoDup; [exact Hin|]. apply nodupb_ok. reflexivity.
      - intros k Hk F. apply (Hd k Hk). eapply within_In; eauto. }
    destruct (writer_keeps Hw HN) as (es & -> & Hp).
    assert (forall k, In k security_keys -> get k es = get k own) as HG.
    { intros k Hk. rewrite (get_Permutation_eq k Hp) by (apply get_length_NoDup; auto).
      rewrite get_app. rewrite (proj2 (get_nil_iff k sub)); [apply app_nil_r|].
      intros F. apply (Hd k F Hk). }
    unfold d_security, d_flat, security_body. unfold own in HG.
    ofield (s_oom JStr) (ss_attype s) ltac:(apply d_oom_str).
    ofield JStr (ss_description s) ltac:(apply d_str_rt).
    ofield (s_multilang mk) (ss_descriptions s) ltac:(apply multilang_rt, Ht; auto).
    ofield JStr (ss_proxy s) ltac:(apply d_str_rt).
    destruct (@subtype_rt (ss_subtype s) (without security_keys es) Hs) as (sub' & Hsub' & _ & _ & Hrt).
    rewrite Hsub in Hsub'. injection Hsub' as <-.
    rewrite (obind_Some _ (a := ss_subtype s)); [destruct s; reflexivity|].
    apply Hrt. apply (without_perm security_keys) in Hp. rewrite without_app in Hp.
    rewrite (@without_all own) in Hp by (intros k; apply within_In; auto).
    rewrite (@without_none sub) in Hp by auto. auto.
  Qed.
End Sec.

(** ** Links, responses, version *)

Section Td.
  Variable E : env.
  Variable X : exts.
  Variable K : xnames.
  Variable V : xvalues X.
  Variable mk : entries -> json.
  Hypothesis Hw : json_writer mk.
  Hypothesis HX : exts_round_trip K V.
  Hypothesis HK : names_apart K.

  Lemma langtag_oom l : Forall (fun s => tag_ok E s = true) l ->
    d_oom (d_langtag E) (s_oom JStr l) = Some l /\ s_oom JStr l <> JNull.
  Proof.
    intros H. rewrite Forall_forall in H. apply d_oom_rt; auto.
    intros a Ha. split; [|discriminate]. simpl. rewrite H; auto.
  Qed.

  Definition link_keys : list string := ["href"; "type"; "rel"; "anchor"; "sizes"; "hreflang"].

  Theorem link_rt l : link_ok E l -> d_link E (s_link mk l) = Some l.
  Proof.
    intros Hl. unfold s_link.
    destruct (@writer_get mk (link_es l) link_keys Hw) as (es & -> & HG).
    { unfold link_es, link_keys. repeat within_step. }
    { apply nodupb_ok; reflexivity. }
    assert (forall k, In k link_keys -> get k es = get k (link_es l)) as HG' by auto. clear HG.
    unfold d_link, d_struct. unfold link_es in HG'.
    rfield ltac:(apply (d_str_rt (l_href l))).
    ofield JStr (l_type l) ltac:(apply d_str_rt).
    ofield JStr (l_rel l) ltac:(apply d_str_rt).
    ofield JStr (l_anchor l) ltac:(apply d_str_rt).
    ofield JStr (l_sizes l) ltac:(apply d_str_rt).
    ofield (s_oom JStr) (l_hreflang l) ltac:(apply langtag_oom, Hl; auto).
    destruct l; reflexivity.
  Qed.

  Definition add_resp_keys : list string := ["success"; "contentType"; "schema"].

  Theorem add_resp_rt r : d_add_resp (s_add_resp mk r) = Some r /\ s_add_resp mk r <> JNull.
  Proof.
    split; [|apply writer_not_null; auto]. unfold s_add_resp.
    destruct (@writer_get mk (add_resp_es r) add_resp_keys Hw) as (es & -> & HG).
    { unfold add_resp_es, add_resp_keys. apply within_cons.
      - destruct (ar_success r); [apply within_fld|apply within_none].
      - repeat within_step. }
    { apply nodupb_ok; reflexivity. }
    assert (forall k, In k add_resp_keys -> get k es = get k (add_resp_es r)) as HG' by auto. clear HG.
    unfold d_add_resp, d_struct. unfold add_resp_es in HG'. destruct r as [[] c s]; cbn [ar_success ar_ctype ar_schema] in HG'.
    - erewrite obind_Some; [|eapply dflt_rt; [lookup|reflexivity]].
      erewrite obind_Some; [|apply opt_rt with (s := JStr) (o := c); [lookup|intros; apply d_str_rt]].
      erewrite obind_Some; [|apply opt_rt with (s := JStr) (o := s); [lookup|intros; apply d_str_rt]].
      reflexivity.
    - erewrite obind_Some; [|eapply dflt_absent; lookup].
      erewrite obind_Some; [|apply opt_rt with (s := JStr) (o := c); [lookup|intros; apply d_str_rt]].
      erewrite obind_Some; [|apply opt_rt with (s := JStr) (o := s); [lookup|intros; apply d_str_rt]].
      reflexivity.
  Qed.

  Lemma add_resp_arr l : length l <> 1 -> d_add_resp (JArr (map (s_add_resp mk) l)) = None.
  Proof.
    intros _. destruct l as [|a l]; [reflexivity|]. unfold d_add_resp, d_struct.
    destruct (Nat.leb _ 3); auto. unfold sq_dflt. cbn [map nth_error].
    unfold s_add_resp at 1. destruct (writer_obj (add_resp_es a) Hw) as [es ->]. reflexivity.
  Qed.

  Theorem version_rt v : d_version (s_version mk v) = Some v /\ s_version mk v <> JNull.
  Proof.
    split; [|apply writer_not_null; auto]. unfold s_version.
    destruct (@writer_get mk (version_es v) ["instance"; "model"] Hw) as (es & -> & HG).
    { unfold version_es. repeat within_step. }
    { apply nodupb_ok; reflexivity. }
    assert (forall k, In k ["instance"; "model"] -> get k es = get k (version_es v)) as HG' by auto. clear HG.
    unfold d_version, d_struct. unfold version_es in HG'. destruct v as [i m]; cbn [v_instance v_model] in HG'.
    rfield ltac:(apply (d_str_rt i)).
    unfold opt. rewrite HG' by (apply smem_In; reflexivity).
    destruct m; reflexivity.
  Qed.

  (** ** Forms *)

  Theorem exp_resp_rt r : v_er V (er_other r) ->
    d_exp_resp X (s_exp_resp X mk r) = Some r /\ s_exp_resp X mk r <> JNull.
  Proof.
    intros Hr. split; [|apply writer_not_null; auto]. unfold s_exp_resp, exp_resp_es.
    destruct (@struct_rt mk (fld "contentType" (JStr (er_ctype r))) ["contentType"] _ _ _ _ Hw
                (@within_fld _ _) ltac:(apply nodupb_ok; reflexivity) ltac:(apply incl_td; reflexivity)
                (xr_er HX) Hr (na_er HK)) as (es & -> & HG & Ho).
    unfold d_exp_resp, d_flat, exp_resp_body.
    rfield ltac:(apply (d_str_rt (er_ctype r))).
    rewrite Ho. destruct r; reflexivity.
  Qed.

  Lemma op_es_within o : within (op_es o) ["op"].
  Proof. destruct o; simpl; [apply within_none|apply within_fld]. Qed.

  Definition form_own (f : form X) : entries :=
    op_es (f_op f)
    ++ fld "href" (JStr (f_href f))
    ++ ofld "contentType" JStr (f_ctype f)
    ++ ofld "contentCoding" JStr (f_ccoding f)
    ++ ofld "subprotocol" JStr (f_subprotocol f)
    ++ ofld "security" (s_oom JStr) (f_security f)
    ++ ofld "scopes" (s_oom JStr) (f_scopes f)
    ++ ofld "response" (s_exp_resp X mk) (f_response f)
    ++ ofld "additionalResponses" (s_oom (s_add_resp mk)) (f_additional f).

  Theorem form_rt f : form_ok V f -> d_form X (s_form mk f) = Some f.
  Proof.
    intros (Hop & Hr & Ho). unfold s_form.
    replace (form_es mk f) with (form_own f ++ p_ser (x_f X) mk (f_other f))
      by (unfold form_own, form_es; rewrite <- !app_assoc; reflexivity).
    destruct (@struct_rt mk (form_own f) form_keys _ _ _ _ Hw
                ltac:(unfold form_own, form_keys; apply within_cons; [apply op_es_within|repeat within_step])
                ltac:(apply nodupb_ok; reflexivity) ltac:(apply incl_td; reflexivity)
                (xr_f HX) Ho (na_f HK)) as (es & -> & HG & Hde).
    unfold d_form, d_flat, form_body.
    assert (forall k, In k form_keys -> k <> "op" -> get k (op_es (f_op f)) = []) as Hno.
    { intros k _ Hk. eapply within_get_nil; [apply op_es_within|]. intros [F|[]]; congruence. }
    Ltac form_lookup HG Hno :=
      rewrite HG by (apply smem_In; reflexivity); unfold form_own; gets;
      rewrite Hno by (try (apply smem_In; reflexivity); discriminate); reflexivity.
    Ltac form_ofield HG Hno S O tac :=
      erewrite obind_Some; [|apply opt_rt with (s := S) (o := O);
        [form_lookup HG Hno|let a := fresh "x" in let Ha := fresh "Hx" in intros a Ha; tac]].
    rewrite (obind_Some _ (a := f_op f)).
    2: { destruct (f_op f) as [|l] eqn:Ef.
         - apply dflt_absent. rewrite HG by (apply smem_In; reflexivity). unfold form_own. rewrite Ef.
           gets. reflexivity.
         - eapply dflt_rt; [|apply d_ops_rt; eauto].
           rewrite HG by (apply smem_In; reflexivity). unfold form_own. rewrite Ef.
           unfold op_es. gets. reflexivity. }
    erewrite obind_Some; [|eapply req_rt; [form_lookup HG Hno|apply (d_str_rt (f_href f))]].
    form_ofield HG Hno JStr (f_ctype f) ltac:(apply d_str_rt).
    form_ofield HG Hno JStr (f_ccoding f) ltac:(apply d_str_rt).
    form_ofield HG Hno JStr (f_subprotocol f) ltac:(apply d_str_rt).
    form_ofield HG Hno (s_oom JStr) (f_security f) ltac:(apply d_oom_str).
    form_ofield HG Hno (s_oom JStr) (f_scopes f) ltac:(apply d_oom_str).
    form_ofield HG Hno (s_exp_resp X mk) (f_response f) ltac:(apply exp_resp_rt, Hr; auto).
    form_ofield HG Hno (s_oom (s_add_resp mk)) (f_additional f)
      ltac:(apply d_oom_rt; [intros a _; apply add_resp_rt|apply add_resp_arr]).
    rewrite Hde. destruct f; reflexivity.
  Qed.

  (** ** Affordances *)

  Definition ia_own (i : interaction X) : entries :=
    fld "forms" (s_list (s_form mk) (ia_forms i)) ++ ofld "uriVariables" (s_dsmap mk) (ia_uri i).

  Definition ia_own_keys : list string := ["forms"; "uriVariables"].

  Lemma ia_own_within i : within (ia_own i) ia_own_keys.
  Proof. unfold ia_own, ia_own_keys. repeat within_step. Qed.

  Lemma interaction_es_eq i :
    interaction_es mk i = (info_es mk (ia_info i) ++ ia_own i) ++ p_ser (x_ia X) mk (ia_other i).
  Proof. unfold interaction_es, ia_own. rewrite <- !app_assoc. reflexivity. Qed.

  Lemma interaction_rt i es : interaction_ok E V i ->
    (forall k, In k info_keys -> get k es = get k (info_es mk (ia_info i))) ->
    (forall k, In k ia_own_keys -> get k es = get k (ia_own i)) ->
    (forall k, In k (k_ia K) -> get k es = get k (p_ser (x_ia X) mk (ia_other i))) ->
    interaction_body E X es = Some i.
  Proof.
    intros (Hi & Hf & Hu & Ho) H1 H2 H3. unfold interaction_body.
    rewrite (obind_Some _ (a := ia_info i)) by (apply (info_rt Hw); auto).
    unfold ia_own in H2.
    erewrite obind_Some.
    2: { eapply req_rt; [rewrite H2 by (apply smem_In; reflexivity); gets; reflexivity|].
         apply (@d_list_rt _ (d_form X) (s_form mk)). intros f Hin. apply form_rt.
         rewrite Forall_forall in Hf. auto. }
    erewrite obind_Some.
    2: { apply opt_rt with (s := @s_dsmap X mk) (o := ia_uri i).
         - rewrite H2 by (apply smem_In; reflexivity). gets. reflexivity.
         - intros m Hm. apply (dsmap_rt Hw HX HK). auto. }
    rewrite (obind_Some _ (a := ia_other i)); [destruct i; reflexivity|].
    eapply (piece_rt Hw (xr_ia HX)) with (l := td_names); eauto; [apply (na_ia HK)|].
    apply incl_td. reflexivity.
  Qed.

  (** An interaction next to further members and a further extension. *)
  Lemma affordance_rt own oks p ks ok a i :
    interaction_ok E V i -> within own oks ->
    nodupb (interaction_keys ++ oks) = true -> inclb oks td_names = true ->
    round_trips p ks ok -> ok a -> disjoint ks td_names -> disjoint (k_ia K) ks ->
    exists es, mk (interaction_es mk i ++ own ++ p_ser p mk a) = JObj es
      /\ (forall k, In k oks -> get k es = get k own)
      /\ interaction_body E X (without oks es) = Some i
      /\ p_de p (without oks es) = Some a.
  Proof.
    intros Hi Hin Hn Hl Hp Ha Hd Hia. pose proof Hi as (_ & _ & _ & Ho).
    apply nodupb_ok in Hn. apply inclb_ok in Hl.
    assert (incl interaction_keys td_names) as Hl' by (apply incl_td; reflexivity).
    pose proof (rt_written (xr_ia HX) Hw Ho) as [Hn1 Hi1].
    pose proof (rt_written Hp Hw Ha) as [Hn2 Hi2].
    assert (within (info_es mk (ia_info i) ++ ia_own i) interaction_keys) as Hwi.
    { apply within_app; [apply info_within|apply ia_own_within]. }
    destruct (@writer_get mk (interaction_es mk i ++ own ++ p_ser p mk a)
                ((interaction_keys ++ oks) ++ map fst (p_ser (x_ia X) mk (ia_other i))
                 ++ map fst (p_ser p mk a)) Hw) as (es & -> & Hg).
    - rewrite interaction_es_eq.
      eapply within_weak.
      2: { apply within_app; [apply within_app; [exact Hwi|]|apply within_app; [exact Hin|]].
           - eapply piece_within; [exact Hw|apply (xr_ia HX)|auto].
           - eapply piece_within; eauto. }
      intros k. rewrite !count_occ_app. lia.
    - apply disjoint_NoDup; auto.
      + apply disjoint_NoDup; auto. intros k Hk Hk'. exact (Hia k (Hi1 k Hk') (Hi2 k Hk)).
      + intros k Hk Hk'.
        assert (In k td_names) as Ht by (apply in_app_or in Hk' as [Hk'|Hk']; auto).
        apply in_app_or in Hk as [Hk|Hk].
        * exact (na_ia HK (Hi1 k Hk) Ht).
        * exact (Hd k (Hi2 k Hk) Ht).
    - assert (forall k, In k td_names -> get k (p_ser (x_ia X) mk (ia_other i)) = []) as N1.
      { intros k Hk. apply (piece_get_nil Hw (xr_ia HX)); auto. intros F. exact (na_ia HK F Hk). }
      assert (forall k, In k td_names -> get k (p_ser p mk a) = []) as N2.
      { intros k Hk. apply (piece_get_nil Hw Hp); auto. intros F. exact (Hd k F Hk). }
      assert (forall k, In k interaction_keys -> ~ In k oks) as D.
      { intros k Hk F. apply (NoDup_count_occ string_dec) with (x := k) in Hn.
        rewrite count_occ_app in Hn. apply (count_occ_In string_dec) in Hk, F. lia. }
      exists es. split; [auto|]. rewrite interaction_es_eq in Hg. split; [|split].
      + intros k Hk. rewrite Hg, (get_app _ (_ ++ _)), (get_app _ (_ ++ _)), N1, (get_app _ own), N2 by auto.
        rewrite (within_get_nil Hwi), !app_nil_r by (intros F; exact (D k F Hk)). reflexivity.
      + assert (forall k, In k interaction_keys ->
                  get k (without oks es) = get k (info_es mk (ia_info i) ++ ia_own i)) as HI.
        { intros k Hk. rewrite get_without, (proj2 (smem_false k oks)) by auto.
          rewrite Hg, (get_app _ (_ ++ _)), (get_app _ (_ ++ _)), N1, (get_app _ own), N2 by auto.
          rewrite (within_get_nil Hin), !app_nil_r by auto. reflexivity. }
        apply interaction_rt; auto.
        * intros k Hk. rewrite HI by (apply in_or_app; auto). rewrite get_app.
          rewrite (within_get_nil (ia_own_within i)); [apply app_nil_r|].
          unfold info_keys in Hk. lit_cases Hk; apply smem_false; reflexivity.
        * intros k Hk. rewrite HI by (apply in_or_app; auto). rewrite get_app.
          rewrite (within_get_nil (info_within mk (ia_info i))); auto.
          unfold ia_own_keys in Hk. lit_cases Hk; apply smem_false; reflexivity.
        * intros k Hk. pose proof (na_ia HK Hk) as Ht.
          rewrite get_without, (proj2 (smem_false k oks)) by auto.
          rewrite Hg, (get_app _ (_ ++ _)), (get_app _ (_ ++ _)), (get_app _ own).
          rewrite (within_get_nil Hwi), (within_get_nil Hin) by auto.
          rewrite (piece_get_nil Hw Hp) by (auto; intros F; exact (Hia k Hk F)).
          rewrite !app_nil_r. reflexivity.
      + apply (rt_read Hp Hw Ha). intros k Hk. pose proof (Hd k Hk) as Ht.
        rewrite get_without, (proj2 (smem_false k oks)) by auto.
        rewrite Hg, (get_app _ (_ ++ _)), (get_app _ (_ ++ _)), (get_app _ own).
        rewrite (within_get_nil Hwi), (within_get_nil Hin) by auto.
        rewrite (piece_get_nil Hw (xr_ia HX)) by (auto; intros F; exact (Hia k F Hk)).
        reflexivity.
  Qed.

  Definition action_own (a : action X) : entries :=
    ofld "input" (s_ds mk) (aa_input a) ++ ofld "output" (s_ds mk) (aa_output a)
    ++ fld "safe" (JBool (aa_safe a)) ++ fld "idempotent" (JBool (aa_idempotent a))
    ++ ofld "synchronous" JBool (aa_synchronous a).

  Theorem action_rt a : action_ok E V a -> d_action E X (s_action mk a) = Some a.
  Proof.
    intros (Hi & H1 & H2 & Ho). unfold s_action.
    replace (action_es mk a)
      with (interaction_es mk (aa_ia a) ++ action_own a ++ p_ser (x_aa X) mk (aa_other a))
      by (unfold action_es, action_own; rewrite <- !app_assoc; reflexivity).
    destruct (@affordance_rt (action_own a) action_keys (x_aa X) (k_aa K) (v_aa V) (aa_other a) (aa_ia a))
      as (es & -> & HG & Hia & Hde); auto.
    { unfold action_own, action_keys. repeat within_step. }
    { apply (xr_aa HX). } { apply (na_aa HK). } { apply (na_ia_aa HK). }
    unfold d_action, d_flat, action_body. unfold action_own in HG.
    ofield (@s_ds X mk) (aa_input a) ltac:(apply (ds_rt Hw HX HK); auto).
    ofield (@s_ds X mk) (aa_output a) ltac:(apply (ds_rt Hw HX HK); auto).
    dfield ltac:(apply (d_bool_rt (aa_safe a))).
    dfield ltac:(apply (d_bool_rt (aa_idempotent a))).
    ofield JBool (aa_synchronous a) ltac:(apply d_bool_rt).
    rewrite Hia. cbn [obind]. rewrite Hde. destruct a; reflexivity.
  Qed.

  Definition event_own (e : event X) : entries :=
    ofld "subscription" (s_ds mk) (ea_subscription e) ++ ofld "data" (s_ds mk) (ea_data e)
    ++ ofld "data_response" (s_ds mk) (ea_data_response e)
    ++ ofld "cancellation" (s_ds mk) (ea_cancellation e).

  Theorem event_rt e : event_ok E V e -> d_event E X (s_event mk e) = Some e.
  Proof.
    intros (Hi & H1 & H2 & H3 & H4 & Ho). unfold s_event.
    replace (event_es mk e)
      with (interaction_es mk (ea_ia e) ++ event_own e ++ p_ser (x_ea X) mk (ea_other e))
      by (unfold event_es, event_own; rewrite <- !app_assoc; reflexivity).
    destruct (@affordance_rt (event_own e) event_keys (x_ea X) (k_ea K) (v_ea V) (ea_other e) (ea_ia e))
      as (es & -> & HG & Hia & Hde); auto.
    { unfold event_own, event_keys. repeat within_step. }
    { apply (xr_ea HX). } { apply (na_ea HK). } { apply (na_ia_ea HK). }
    unfold d_event, d_flat, event_body. unfold event_own in HG.
    ofield (@s_ds X mk) (ea_subscription e) ltac:(apply (ds_rt Hw HX HK); auto).
    ofield (@s_ds X mk) (ea_data e) ltac:(apply (ds_rt Hw HX HK); auto).
    ofield (@s_ds X mk) (ea_data_response e) ltac:(apply (ds_rt Hw HX HK); auto).
    ofield (@s_ds X mk) (ea_cancellation e) ltac:(apply (ds_rt Hw HX HK); auto).
    rewrite Hia. cbn [obind]. rewrite Hde. destruct e; reflexivity.
  Qed.

  (** The members of a property, those written twice counted once. *)
  Definition prop_once (p : property X) : entries :=
    ia_own (pa_ia p) ++ p_ser (x_ia X) mk (ia_other (pa_ia p)) ++ ds_es mk (pa_ds p)
    ++ ofld "observable" JBool (pa_observable p) ++ p_ser (x_pa X) mk (pa_other p).

  Lemma property_es_eq p :
    property_es mk p = info_es mk (ia_info (pa_ia p)) ++ prop_once p.
  Proof.
    unfold property_es, prop_once. rewrite interaction_es_eq, <- !app_assoc. reflexivity.
  Qed.

  Definition prop_written (p : property X) : list string :=
    (ia_own_keys ++ property_keys)
    ++ (map fst (p_ser (x_ia X) mk (ia_other (pa_ia p))) ++ map fst (p_ser (x_pa X) mk (pa_other p)))
    ++ ds_written mk (pa_ds p).

  Lemma prop_once_within p : property_ok E V p -> within (prop_once p) (prop_written p).
  Proof.
    intros ((_ & _ & _ & Ho) & Hd & _ & Hp). eapply within_weak.
    2: { unfold prop_once.
         apply within_app; [apply ia_own_within|].
         apply within_app; [eapply piece_within; [exact Hw|apply (xr_ia HX)|auto]|].
         apply within_app; [exact (ds_within Hw HX (Hd _ (sub_self _)))|].
         apply within_app; [apply within_ofld|eapply piece_within; [exact Hw|apply (xr_pa HX)|auto]]. }
    intros k. unfold prop_written, property_keys. rewrite !count_occ_app. lia.
  Qed.

  (** Names written by a schema. *)
  Lemma ds_written_In d k : node_ok E V d -> In k (ds_written mk d) ->
    In k ds_keys \/ In k schema_names \/ In k (k_as K) \/ In k (k_os K) \/ In k (k_ds K).
  Proof.
    intros (_ & _ & _ & _ & Hs & Ho) Hk. unfold ds_written in Hk.
    apply in_app_or in Hk as [Hk|Hk]; auto. right. apply in_app_or in Hk as [Hk|Hk].
    - destruct (subo_written_In Hw HX _ Hs Hk) as [F|[F|F]]; auto.
    - right; right; right. apply (rt_written (xr_ds HX) Hw Ho); auto.
  Qed.

  Lemma ds_written_other d k : node_ok E V d -> In k (ds_written mk d) ->
    ~ In k (k_ia K) /\ ~ In k (k_pa K).
  Proof.
    intros Hd Hk. destruct (ds_written_In Hd Hk) as [F|[F|[F|[F|F]]]].
    - apply ds_keys_td in F. split; intros G; [exact (na_ia HK G F)|exact (na_pa HK G F)].
    - apply schema_names_td in F. split; intros G; [exact (na_ia HK G F)|exact (na_pa HK G F)].
    - split; intros G; [exact (na_ia_as HK _ G F)|exact (na_pa_as HK _ G F)].
    - split; intros G; [exact (na_ia_os HK _ G F)|exact (na_pa_os HK _ G F)].
    - split; intros G; [exact (na_ia_ds HK _ G F)|exact (na_pa_ds HK _ G F)].
  Qed.

  Lemma ds_written_td d k : node_ok E V d -> In k (ds_written mk d) -> In k td_names ->
    In k ds_keys \/ In k schema_names.
  Proof.
    intros Hd Hk Ht. destruct (ds_written_In Hd Hk) as [F|[F|[F|[F|F]]]]; auto; exfalso.
    - exact (na_as HK F Ht).
    - exact (na_os HK F Ht).
    - exact (na_ds HK F Ht).
  Qed.

  (** Names of the property outside its schema. *)
  Definition prop_keys : list string := ["forms"; "uriVariables"; "observable"].

  Lemma prop_keys_td k : In k prop_keys -> In k td_names.
  Proof. apply incl_td. reflexivity. Qed.

  Lemma ds_written_prop d k : node_ok E V d -> In k prop_keys -> ~ In k (ds_written mk d).
  Proof.
    intros Hd Hk F. destruct (ds_written_td Hd F (prop_keys_td Hk)) as [G|G]; revert G;
      unfold prop_keys in Hk; apply smem_false; lit_cases Hk; reflexivity.
  Qed.

  Lemma prop_written_nodup p : property_ok E V p -> NoDup (prop_written p).
  Proof.
    intros ((_ & _ & _ & Ho) & Hd & _ & Hp). assert (node_ok E V (pa_ds p)) as Hn by (apply Hd, sub_self).
    pose proof (rt_written (xr_ia HX) Hw Ho) as [Hn1 Hi1].
    pose proof (rt_written (xr_pa HX) Hw Hp) as [Hn2 Hi2].
    unfold prop_written. apply disjoint_NoDup; [apply nodupb_ok; reflexivity| |].
    - apply disjoint_NoDup; [|exact (ds_written_nodup Hw HX HK Hn)|].
      + apply disjoint_NoDup; auto. intros k Hk Hk'. exact (na_ia_pa HK _ (Hi1 k Hk') (Hi2 k Hk)).
      + intros k Hk F. destruct (ds_written_other Hn Hk). apply in_app_or in F as [F|F]; auto.
    - intros k Hk F. apply in_app_or in Hk as [Hk|Hk].
      + assert (In k td_names) as Ht by (revert F; apply incl_td; reflexivity).
        apply in_app_or in Hk as [Hk|Hk]; [exact (na_ia HK (Hi1 k Hk) Ht)|exact (na_pa HK (Hi2 k Hk) Ht)].
      + exact (ds_written_prop Hn F Hk).
  Qed.

  Lemma prop_once_info p k : property_ok E V p -> In k info_keys ->
    get k (prop_once p) = get k (info_es mk (ds_info (pa_ds p))).
  Proof.
    intros ((_ & _ & _ & Ho) & Hd & _ & Hp) Hk.
    assert (In k td_names) as Ht by (revert Hk; apply incl_td; reflexivity).
    unfold prop_once. rewrite !get_app, get_ofld.
    rewrite (within_get_nil (ia_own_within (pa_ia p)))
      by (apply smem_false; unfold info_keys in Hk; lit_cases Hk; reflexivity).
    rewrite (piece_get_nil Hw (xr_ia HX)) by (auto; intros F; exact (na_ia HK F Ht)).
    rewrite (piece_get_nil Hw (xr_pa HX)) by (auto; intros F; exact (na_pa HK F Ht)).
    rewrite (ds_own_get Hw HX HK (Hd _ (sub_self _)) (info_keys_ds Hk)).
    unfold misc1_es, misc2_es. rewrite !get_app, !get_ofld, !get_fld.
    unfold info_keys in Hk. lit_cases Hk; cbn [String.eqb Ascii.eqb Bool.eqb app];
      rewrite ?app_nil_r; reflexivity.
  Qed.

  (** Both ways of assembling the object lead to an object in which every member occurs
      once, provided the repeated members agree, or there are none. *)
  Lemma property_obj p : property_ok E V p -> mk = mk_value \/ ds_info (pa_ds p) = no_info ->
    exists es, mk (property_es mk p) = JObj es /\ forall k, get k es = get k (prop_once p).
  Proof.
    intros Hp Hm. pose proof Hp as (_ & _ & Heq & _).
    pose proof (prop_once_within Hp) as Hin. pose proof (prop_written_nodup Hp) as Hn.
    rewrite property_es_eq, Heq.
    destruct Hm as [Hm|Hm].
    - assert (forall e, mk e = JObj (mof e)) as Hmk by (rewrite Hm; reflexivity).
      rewrite Hmk. eexists. split; [reflexivity|]. intros k. rewrite get_mof.
      rewrite get_app.
      destruct (in_dec string_dec k info_keys) as [Hk|Hk].
      + rewrite <- (prop_once_info Hp Hk).
        pose proof (within_le1 k Hin Hn) as Hl.
        destruct (get k (prop_once p)) as [|v [|w l]]; simpl in *; auto; lia.
      + rewrite (within_get_nil (info_within mk _)) by auto. apply lasto_single.
        eapply within_le1; eauto.
    - rewrite Hm. unfold info_es. cbn [no_info i_attype i_title i_titles i_description i_descriptions ofld app].
      destruct (writer_get Hw Hin Hn) as (es & -> & Hg). eauto.
  Qed.

  Theorem property_rt p : property_ok E V p -> mk = mk_value \/ ds_info (pa_ds p) = no_info ->
    d_property E X (s_property mk p) = Some p.
  Proof.
    intros Hp Hm. unfold s_property. destruct (property_obj Hp Hm) as (es & -> & Hg).
    pose proof Hp as (Hi & Hd & Heq & Ho). pose proof Hi as (_ & _ & _ & Hio).
    assert (node_ok E V (pa_ds p)) as Hn by (apply Hd, sub_self).
    assert (forall k, In k td_names -> get k (p_ser (x_ia X) mk (ia_other (pa_ia p))) = []) as N1.
    { intros k Hk. apply (piece_get_nil Hw (xr_ia HX)); auto. intros F. exact (na_ia HK F Hk). }
    assert (forall k, In k td_names -> get k (p_ser (x_pa X) mk (pa_other p)) = []) as N2.
    { intros k Hk. apply (piece_get_nil Hw (xr_pa HX)); auto. intros F. exact (na_pa HK F Hk). }
    assert (forall k, In k prop_keys -> get k (prop_once p)
              = get k (ia_own (pa_ia p)) ++ get k (ofld "observable" JBool (pa_observable p))) as HP.
    { intros k Hk. pose proof (prop_keys_td Hk) as Ht. unfold prop_once.
      rewrite !get_app, N1, N2 by auto.
      rewrite (within_get_nil (ds_within Hw HX Hn)) by (apply ds_written_prop; auto).
      rewrite app_nil_r. reflexivity. }
    unfold d_property, d_flat, property_body.
    rewrite (obind_Some _ (a := pa_observable p)).
    2: { apply opt_rt with (s := JBool).
         - rewrite Hg, HP by (apply smem_In; reflexivity). unfold ia_own. gets. reflexivity.
         - intros b _. apply d_bool_rt. }
    assert (forall k, k <> "observable" -> get k (without property_keys es) = get k (prop_once p)) as HR.
    { intros k Hk. rewrite get_without, (proj2 (smem_false k property_keys)); auto.
      intros [F|[]]. congruence. }
    assert (forall k, ~ In k td_names -> k <> "observable") as HO.
    { intros k Hk ->. apply Hk. apply smem_In. reflexivity. }
    rewrite (obind_Some _ (a := pa_ia p)).
    2: { apply interaction_rt; auto.
         - intros k Hk. rewrite HR by (unfold info_keys in Hk; lit_cases Hk; discriminate).
           rewrite prop_once_info by auto. rewrite Heq. auto.
         - intros k Hk. rewrite HR by (unfold ia_own_keys in Hk; lit_cases Hk; discriminate).
           rewrite HP by (revert Hk; apply inclb_ok; reflexivity).
           rewrite get_ofld. unfold ia_own_keys in Hk.
           lit_cases Hk; cbn [String.eqb Ascii.eqb Bool.eqb]; apply app_nil_r.
         - intros k Hk. pose proof (na_ia HK Hk) as Ht. rewrite HR by auto. unfold prop_once.
           rewrite !get_app.
           rewrite (within_get_nil (ia_own_within (pa_ia p)))
             by (intros F; apply Ht; revert F; apply incl_td; reflexivity).
           rewrite (within_get_nil (ds_within Hw HX Hn))
             by (intros F; destruct (ds_written_other Hn F); auto).
           rewrite get_ofld, (neq_lit Ht) by reflexivity.
           rewrite (piece_get_nil Hw (xr_pa HX)) by (auto; intros F; exact (na_ia_pa HK _ Hk F)).
           rewrite !app_nil_r. reflexivity. }
    rewrite (obind_Some _ (a := pa_ds p)).
    2: { apply (ds_rt_es Hw HX HK); auto. intros k Hk.
         assert (~ In k prop_keys /\ ~ In k (k_ia K) /\ ~ In k (k_pa K)) as (F1 & F2 & F3).
         { unfold ds_reads, sub_reads in Hk.
           apply in_app_or in Hk as [Hk|Hk]; [|apply in_app_or in Hk as [Hk|Hk]; [apply in_app_or in Hk as [Hk|Hk]|]].
           - pose proof (ds_keys_td Hk). repeat split; intros G.
             + revert Hk. apply smem_false. unfold prop_keys in G. lit_cases G; reflexivity.
             + exact (na_ia HK G H).
             + exact (na_pa HK G H).
           - pose proof (schema_names_td Hk). repeat split; intros G.
             + revert Hk. apply smem_false. unfold prop_keys in G. lit_cases G; reflexivity.
             + exact (na_ia HK G H).
             + exact (na_pa HK G H).
           - apply in_app_or in Hk as [Hk|Hk]; repeat split; intros G.
             + exact (na_as HK Hk (prop_keys_td G)).
             + exact (na_ia_as HK _ G Hk).
             + exact (na_pa_as HK _ G Hk).
             + exact (na_os HK Hk (prop_keys_td G)).
             + exact (na_ia_os HK _ G Hk).
             + exact (na_pa_os HK _ G Hk).
           - repeat split; intros G.
             + exact (na_ds HK Hk (prop_keys_td G)).
             + exact (na_ia_ds HK _ G Hk).
             + exact (na_pa_ds HK _ G Hk). }
         rewrite HR by (intros ->; apply F1, smem_In; reflexivity). unfold prop_once.
         rewrite !get_app.
         rewrite (within_get_nil (ia_own_within (pa_ia p)))
           by (intros F; apply F1; revert F; apply inclb_ok; reflexivity).
         rewrite (piece_get_nil Hw (xr_ia HX)), (piece_get_nil Hw (xr_pa HX)) by auto.
         rewrite get_ofld, (neq_lit F1) by reflexivity. rewrite !app_nil_r. reflexivity. }
    rewrite (obind_Some _ (a := pa_other p)); [destruct p; reflexivity|].
    apply (rt_read (xr_pa HX) Hw Ho). intros k Hk. pose proof (na_pa HK Hk) as Ht.
    rewrite HR by auto. unfold prop_once. rewrite !get_app.
    rewrite (within_get_nil (ia_own_within (pa_ia p)))
      by (intros F; apply Ht; revert F; apply incl_td; reflexivity).
    rewrite (within_get_nil (ds_within Hw HX Hn))
      by (intros F; destruct (ds_written_other Hn F); auto).
    rewrite get_ofld, (neq_lit Ht) by reflexivity.
    rewrite (piece_get_nil Hw (xr_ia HX)) by (auto; intros F; exact (na_ia_pa HK _ F Hk)).
    reflexivity.
  Qed.
End Td.
