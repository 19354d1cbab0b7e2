(** * Facts about extensions and heterogeneous lists *)

From Coq Require Import String Bool ZArith Permutation Lia List.
From Verif Require Import Base MinMax Json Serde Types HList Protocol Spec SpecSerde SpecExt Ser De
  SerdeFacts RoundTrip RoundTripDs RoundTripTd.
Import ListNotations.
Set Implicit Arguments.
Local Open Scope string_scope.
Local Open Scope list_scope.

(** ** Round trips *)

Lemma unit_round_trips : round_trips unit_piece [] (fun _ => True).
Proof.
  split; simpl.
  - intros. split; [constructor|apply incl_refl].
  - intros mk [] es _ _ _. reflexivity.
  - apply incl_refl.
Qed.

Lemma nil_round_trips : round_trips nil_piece [] (fun _ => True).
Proof. exact unit_round_trips. Qed.

Lemma cons_round_trips p q K K' ok ok' :
  round_trips p K ok -> round_trips q K' ok' -> disjoint K K' ->
  round_trips (cons_piece p q) (K ++ K') (fun v => ok (fst v) /\ ok' (snd v)).
Proof.
  intros Hp Hq Hd. split.
  - intros mk [a b] Hw [Ha Hb]. simpl in *. rewrite map_app.
    destruct (rt_written Hp Hw Ha) as [Hn Hi]. destruct (rt_written Hq Hw Hb) as [Hn' Hi'].
    split.
    + apply disjoint_NoDup; auto. intros k Hk Hk'. apply (Hd k); auto.
    + apply incl_app; [apply incl_appl|apply incl_appr]; auto.
  - intros mk [a b] es Hw [Ha Hb] H. simpl in *.
    assert (p_de p es = Some a) as ->.
    { apply (rt_read Hp Hw Ha). intros k Hk. rewrite H by (apply in_or_app; auto).
      rewrite get_app, (piece_get_nil Hw Hq) by (auto; intros F; exact (Hd k Hk F)).
      apply app_nil_r. }
    simpl.
    assert (p_de q (without (p_take p) es) = Some b) as ->; [|reflexivity].
    apply (rt_read Hq Hw Hb). intros k Hk. rewrite get_without.
    rewrite (proj2 (smem_false k (p_take p)))
      by (intros F; apply (rt_taken Hp) in F; exact (Hd k F Hk)).
    rewrite H by (apply in_or_app; auto).
    rewrite get_app, (piece_get_nil Hw Hp) by (auto; intros F; exact (Hd k F Hk)).
    reflexivity.
  - simpl. intros k [].
Qed.

Lemma apart_app l l' : apart (l ++ l') ->
  apart l /\ apart l' /\ forall a b, In a l -> In b l' -> disjoint (e_names a) (e_names b).
Proof.
  unfold apart. induction l as [|a l IH]; simpl; intros H.
  - split; [constructor|]. split; auto. intros a b [].
  - inversion H; subst. destruct (IH H3) as (H1 & H4 & H5).
    rewrite Forall_app in H2. destruct H2 as [H2 H6]. split; [|split]; auto.
    + constructor; auto.
    + intros x y [<-|Hx] Hy; auto. rewrite Forall_forall in H6. auto.
Qed.

Lemma tree_round_trips t :
  (forall e, In e (tree_exts t) -> round_trips (e_piece e) (e_names e) (e_ok e)) ->
  apart (tree_exts t) -> round_trips (tree_piece t) (tree_names t) (tree_ok t).
Proof.
  unfold tree_names. induction t as [|e|a IHa b IHb]; simpl; intros H Ha.
  - exact nil_round_trips.
  - rewrite app_nil_r. apply H; auto.
  - apply apart_app in Ha as (H1 & H2 & H3). rewrite map_app, concat_app.
    apply cons_round_trips.
    + apply IHa; auto. intros e He. apply H, in_or_app; auto.
    + apply IHb; auto. intros e He. apply H, in_or_app; auto.
    + intros k Hk Hk'. apply in_concat in Hk as (x & Hx & Hk), Hk' as (y & Hy & Hk').
      apply in_map_iff in Hx as (e & <- & He), Hy as (e' & <- & He').
      exact (H3 e e' He He' k Hk Hk').
Qed.

Lemma cons_exts_round_trip X X' K K' (V : xvalues X) (V' : xvalues X') :
  exts_round_trip K V -> exts_round_trip K' V' -> xdisjoint K K' ->
  exts_round_trip (both_names K K') (both_values V V').
Proof.
  intros H H' Hd.
  split; apply cons_round_trips; solve [apply H | apply H' | apply Hd].
Qed.

Lemma tree_members_concat mk t v : p_ser (tree_piece t) mk v = concat (tree_members mk t v).
Proof.
  induction t as [|e|a IHa b IHb]; simpl; auto.
  - rewrite app_nil_r. auto.
  - rewrite concat_app, IHa, IHb. auto.
Qed.

(** ** Protocol bindings *)

Lemma piece_written p mk a K :
  within (p_ser p mk a) K -> NoDup K ->
  NoDup (map fst (p_ser p mk a)) /\ incl (map fst (p_ser p mk a)) K.
Proof.
  intros H Hn. split; [eapply within_NoDup; eauto|]. intros k. eapply within_In; eauto.
Qed.

Lemma d_http_method_rt m :
  d_variant http_methods (s_http_method m) = Some m /\ s_http_method m <> JNull.
Proof. destruct m; split; (reflexivity || discriminate). Qed.

Lemma http_form_round_trips : round_trips http_form_piece (k_f http_names) (fun _ => True).
Proof.
  split.
  - intros mk a Hw _. apply piece_written; [|apply nodupb_ok; reflexivity].
    simpl. apply within_ofld.
  - intros mk a es Hw _ H. simpl in *.
    erewrite obind_Some.
    2: { apply opt_rt with (s := s_http_method) (o := hf_method a).
         - rewrite H by auto. gets. reflexivity.
         - intros. apply d_http_method_rt. }
    destruct a; reflexivity.
  - apply incl_refl.
Qed.

Lemma d_http_header_rt mk h : json_writer mk -> d_http_header (s_http_header mk h) = Some h.
Proof.
  intros Hw. unfold s_http_header.
  destruct (@writer_get mk (ofld "htv:fieldName" JStr (hh_name h) ++ ofld "htv:fieldValue" JStr (hh_value h))
              ["htv:fieldName"; "htv:fieldValue"] Hw) as (es & -> & HG).
  { repeat within_step. }
  { apply nodupb_ok; reflexivity. }
  unfold d_http_header, d_struct.
  erewrite obind_Some; [|apply opt_rt with (s := JStr) (o := hh_name h);
    [rewrite HG; gets; reflexivity|intros; apply d_str_rt]].
  erewrite obind_Some; [|apply opt_rt with (s := JStr) (o := hh_value h);
    [rewrite HG; gets; reflexivity|intros; apply d_str_rt]].
  destruct h; reflexivity.
Qed.

Lemma http_response_round_trips :
  round_trips http_response_piece (k_er http_names) http_response_ok.
Proof.
  split.
  - intros mk a Hw _. apply piece_written; [|apply nodupb_ok; reflexivity].
    simpl. apply within_cons; [|apply within_ofld].
    destruct (hr_headers a); [apply within_none|apply within_fld].
  - intros mk a es Hw [Hh Hs] H. simpl in *.
    destruct (hr_headers a) as [|h l] eqn:Eh; [congruence|].
    assert (get "htv:headers" es = [s_list (s_http_header mk) (h :: l)]) as G1.
    { rewrite H by auto. gets. reflexivity. }
    assert (get "htv:statusCodeValue" es = otolist (option_map JInt (hr_status a))) as G2.
    { rewrite H by auto. gets. reflexivity. }
    erewrite obind_Some.
    2: { eapply req_rt; [apply G1|]. apply d_list_rt. intros x _. apply d_http_header_rt; auto. }
    erewrite obind_Some.
    2: { apply opt_rt with (s := JInt) (o := hr_status a); [apply G2|].
         intros n Hn. apply d_int_rt, Hs; auto. }
    destruct a; simpl in *; subst; reflexivity.
  - apply incl_refl.
Qed.

Lemma http_exts_round_trip : exts_round_trip http_names http_values.
Proof.
  split; try exact unit_round_trips.
  - exact http_form_round_trips.
  - exact http_response_round_trips.
Qed.

Lemma disjoint_nil l : disjoint [] l.
Proof. intros k []. Qed.

Definition disjointb (l l' : list string) : bool := forallb (fun k => negb (smem k l')) l.

Lemma disjointb_ok l l' : disjointb l l' = true -> disjoint l l'.
Proof.
  unfold disjointb. rewrite forallb_forall. intros H k Hk. apply smem_false.
  specialize (H k Hk). destruct (smem k l'); auto.
Qed.

Lemma http_names_apart : names_apart http_names.
Proof. split; apply disjointb_ok; reflexivity. Qed.

Lemma coap_names_apart : names_apart coap_names.
Proof. split; apply disjointb_ok; reflexivity. Qed.

Lemma mqtt_names_apart : names_apart mqtt_names.
Proof. split; apply disjointb_ok; reflexivity. Qed.

Lemma d_coap_method_rt m :
  d_variant coap_methods (s_coap_method m) = Some m /\ s_coap_method m <> JNull.
Proof. destruct m; split; (reflexivity || discriminate). Qed.

Lemma d_block_rt b : d_block (s_block b) = Some b /\ s_block b <> JNull.
Proof. destruct b; split; (reflexivity || discriminate). Qed.

Lemma d_blockwise_rt mk b : json_writer mk ->
  d_blockwise (s_blockwise mk b) = Some b /\ s_blockwise mk b <> JNull.
Proof.
  intros Hw. split; [|apply writer_not_null; auto]. unfold s_blockwise.
  destruct (@writer_get mk (ofld "cov:block2Size" s_block (bw_2 b) ++ ofld "cov:block1Size" s_block (bw_1 b))
              ["cov:block2Size"; "cov:block1Size"] Hw) as (es & -> & HG).
  { repeat within_step. }
  { apply nodupb_ok; reflexivity. }
  unfold d_blockwise, d_struct.
  erewrite obind_Some; [|apply opt_rt with (s := s_block) (o := bw_2 b);
    [rewrite HG; gets; reflexivity|intros; apply d_block_rt]].
  erewrite obind_Some; [|apply opt_rt with (s := s_block) (o := bw_1 b);
    [rewrite HG; gets; reflexivity|intros; apply d_block_rt]].
  destruct b; reflexivity.
Qed.

Lemma coap_form_round_trips : round_trips coap_form_piece (k_f coap_names) coap_form_ok.
Proof.
  split.
  - intros mk a Hw _. apply piece_written; [|apply nodupb_ok; reflexivity].
    simpl. repeat within_step.
  - intros mk a es Hw (H1 & H2 & H3) H. cbn [p_ser p_de coap_form_piece] in *.
    ofield s_coap_method (cf_method a) ltac:(apply d_coap_method_rt).
    ofield (s_blockwise mk) (cf_block a) ltac:(apply d_blockwise_rt; auto).
    ofield (s_blockwise mk) (cf_qblock a) ltac:(apply d_blockwise_rt; auto).
    ofield JInt (cf_hop a) ltac:(apply d_int_rt, H1; auto).
    ofield JInt (cf_accept a) ltac:(apply d_int_rt, H2; auto).
    ofield JInt (cf_format a) ltac:(apply d_int_rt, H3; auto).
    destruct a; reflexivity.
  - apply incl_refl.
Qed.

Lemma coap_response_round_trips :
  round_trips coap_response_piece (k_er coap_names) coap_response_ok.
Proof.
  split.
  - intros mk a Hw _. apply piece_written; [|apply nodupb_ok; reflexivity].
    simpl. apply within_ofld.
  - intros mk a es Hw H1 H. cbn [p_ser p_de coap_response_piece] in *.
    ofield JInt (cr_format a) ltac:(apply d_int_rt, H1; auto).
    destruct a; reflexivity.
  - apply incl_refl.
Qed.

Lemma coap_exts_round_trip : exts_round_trip coap_names coap_values.
Proof.
  split; try exact unit_round_trips.
  - exact coap_form_round_trips.
  - exact coap_response_round_trips.
Qed.

Lemma d_mqtt_packet_rt m :
  d_variant mqtt_packets (s_mqtt_packet m) = Some m /\ s_mqtt_packet m <> JNull.
Proof. destruct m; split; (reflexivity || discriminate). Qed.

Lemma d_mqtt_qos_rt m : d_variant mqtt_qoss (s_mqtt_qos m) = Some m /\ s_mqtt_qos m <> JNull.
Proof. destruct m; split; (reflexivity || discriminate). Qed.

Lemma mqtt_form_round_trips : round_trips mqtt_form_piece (k_f mqtt_names) (fun _ => True).
Proof.
  split.
  - intros mk a Hw _. apply piece_written; [|apply nodupb_ok; reflexivity].
    simpl. apply within_cons; [destruct (mf_retain a); [apply within_fld|apply within_none]|].
    apply within_cons; [apply within_ofld|]. apply within_cons; [apply within_ofld|].
    apply within_cons; [apply within_ofld|].
    destruct (mf_filter a); [apply within_none|apply within_fld].
  - intros mk [r p q t f] es Hw _ H. cbn [p_ser p_de mqtt_form_piece mf_retain mf_packet mf_qos mf_topic mf_filter] in *.
    assert (get "mqv:retain" es = if r then [JBool true] else []) as G1.
    { rewrite H by (apply smem_In; reflexivity). destruct r, f; gets; reflexivity. }
    assert (get "mqv:controlPacket" es = otolist (option_map s_mqtt_packet p)) as G2.
    { rewrite H by (apply smem_In; reflexivity). destruct r, f; gets; reflexivity. }
    assert (get "mqv:qos" es = otolist (option_map s_mqtt_qos q)) as G3.
    { rewrite H by (apply smem_In; reflexivity). destruct r, f; gets; reflexivity. }
    assert (get "mqv:topic" es = otolist (option_map JStr t)) as G4.
    { rewrite H by (apply smem_In; reflexivity). destruct r, f; gets; reflexivity. }
    assert (get "mqv:filter" es = match f with [] => [] | _ => [s_oom JStr f] end) as G5.
    { rewrite H by (apply smem_In; reflexivity). destruct r, f; gets; reflexivity. }
    rewrite (obind_Some _ (a := r)) by (unfold dflt; rewrite G1; destruct r; reflexivity).
    rewrite (obind_Some _ (a := p)) by (eapply opt_rt; [apply G2|intros; apply d_mqtt_packet_rt]).
    rewrite (obind_Some _ (a := q)) by (eapply opt_rt; [apply G3|intros; apply d_mqtt_qos_rt]).
    rewrite (obind_Some _ (a := t)) by (eapply opt_rt; [apply G4|intros; apply d_str_rt]).
    rewrite (obind_Some _ (a := f)); [reflexivity|].
    unfold dflt. rewrite G5. destruct f as [|x f]; auto. apply d_oom_str.
  - apply incl_refl.
Qed.

Lemma mqtt_exts_round_trip : exts_round_trip mqtt_names mqtt_values.
Proof. split; try exact unit_round_trips. exact mqtt_form_round_trips. Qed.

(** ** Heterogeneous lists *)

Lemma split_last_elems ts T (l : hl (T :: ts)) :
  elems (T :: ts) l
  = elems (init_ty T ts) (snd (hsplit_last l)) ++ [any (fst (hsplit_last l))].
Proof.
  revert T l. induction ts as [|U ts IH]; intros T l.
  - destruct l as [v []]. reflexivity.
  - destruct l as [v l]. specialize (IH U l). cbn [hsplit_last snd fst].
    destruct (hsplit_last l) as [x i] eqn:E. cbn [fst snd] in *.
    change (elems (T :: U :: ts) (v, l)) with (any v :: elems (U :: ts) l).
    rewrite IH. reflexivity.
Qed.

Lemma length_elems ts (l : hl ts) : length (elems ts l) = length ts.
Proof. induction ts as [|T ts IH]; simpl; auto. Qed.

Lemma length_init T ts : length (init_ty T ts) = length ts.
Proof. revert T. induction ts as [|U ts IH]; intros T; simpl; auto. Qed.

Lemma reverse_elems n ts (l : hl ts) : length ts <= n ->
  elems _ (hreverse n ts l) = rev (elems ts l).
Proof.
  revert ts l. induction n as [|n IH]; intros ts l Hn.
  - destruct ts; simpl in *; [reflexivity|lia].
  - destruct ts as [|T ts]; [reflexivity|].
    rewrite (split_last_elems l). cbn [hreverse].
    destruct (hsplit_last l) as [x i]. cbn [fst snd].
    rewrite rev_app_distr. simpl. f_equal. apply IH. rewrite length_init. simpl in Hn. lia.
Qed.

Lemma length_rev_ty n ts : length (rev_ty n ts) = length ts.
Proof.
  revert ts. induction n as [|n IH]; intros ts; [reflexivity|].
  destruct ts as [|T ts]; [reflexivity|]. simpl. rewrite IH, length_init. auto.
Qed.

Lemma elems_types ts (l : hl ts) : map (@projT1 _ _) (elems ts l) = ts.
Proof. induction ts as [|T ts IH]; simpl; auto. f_equal. auto. Qed.

(** References into a list seen through a reference to the list. *)
Lemma ref_at_spec (S : Type) ts (r : ref S (hl ts)) n q :
  ref_at S ts n (hto_ref ts r) = Some q ->
  (forall s, nth_error (elems ts (r_get r s)) n = Some (any (r_get (projT2 q) s)))
  /\ exists u : projT1 q -> hl ts -> hl ts,
      (forall v s, r_set (projT2 q) v s = r_set r (u v (r_get r s)) s)
      /\ forall v l, elems ts (u v l) = update n (any v) (elems ts l).
Proof.
  revert r n q. induction ts as [|U ts IH]; intros r n q H; [discriminate|].
  destruct n as [|n]; simpl in H.
  - injection H as <-. split; [reflexivity|]. simpl.
    exists (fun v l => (v, snd l)). split; reflexivity.
  - apply IH in H. destruct H as [H1 (u & H2 & H3)]. split.
    + intros s. apply H1.
    + exists (fun v l => (fst l, u v (snd l))). split.
      * intros v s. rewrite H2. reflexivity.
      * intros v l. simpl. rewrite H3. reflexivity.
Qed.

Lemma to_ref_spec ts n q :
  ref_at (hl ts) ts n (hto_ref ts id_ref) = Some q ->
  (forall l, nth_error (elems ts l) n = Some (any (r_get (projT2 q) l)))
  /\ forall v l, elems ts (r_set (projT2 q) v l) = update n (any v) (elems ts l).
Proof.
  intros H. apply ref_at_spec in H as [H1 (u & H2 & H3)]. split; auto.
  intros v l. rewrite H2. simpl. apply H3.
Qed.

Lemma ref_at_length (S : Type) ts (r : ref S (hl ts)) n :
  n < length ts -> exists q, ref_at S ts n (hto_ref ts r) = Some q.
Proof.
  revert r n. induction ts as [|U ts IH]; intros r n Hn; simpl in Hn; [lia|].
  destruct n as [|n]; simpl; eauto. apply IH. lia.
Qed.
