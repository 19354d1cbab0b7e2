(** * Members of the protocol bindings are read *)

From Coq Require Import String Bool ZArith Lia List.
From Verif Require Import Base MinMax Json Serde Types HList Ser De Protocol Spec SpecThing SpecSerde SpecDoc SpecMember SpecTyped
  SpecShape SerdeFacts ReadsFacts.
Import ListNotations.
Set Implicit Arguments.
Local Open Scope string_scope.
Local Open Scope list_scope.

(** ** Values *)

Lemma text_reads v : is_text v -> d_str v <> None.
Proof. intros [s ->]. discriminate. Qed.

Lemma number_reads low high v : is_number low high v -> d_int low high v <> None.
Proof.
  intros (n & -> & H1 & H2). unfold d_int. destruct (Z.leb_spec low n); [|lia]. destruct (Z.leb_spec n high); [discriminate|lia].
Qed.

Lemma name_reads A (tbl : list (string * A)) v : is_one_of (map fst tbl) v -> d_variant tbl v <> None.
Proof.
  intros (s & -> & H). cbn [d_variant]. induction tbl as [|[k a] tbl IH]; cbn in *; [destruct H|].
  destruct (String.eqb_spec s k); [discriminate|]. destruct H as [H|H]; [congruence|auto].
Qed.

Section Nested.
  Variable Q : string -> json -> Prop.

  Lemma repeats_obj es : no_repeats (JObj es) -> NoDup (map fst es).
  Proof. intros H. inversion H as [? ? F| |]; subst; [exfalso; eapply F; reflexivity|auto]. Qed.

  Lemma repeats_member es k v : no_repeats (JObj es) -> In (k, v) es -> no_repeats v.
  Proof. intros H. inversion H as [? ? F| |]; subst; [exfalso; eapply F; reflexivity|eauto]. Qed.

  Lemma repeats_arr l v : no_repeats (JArr l) -> In v l -> no_repeats v.
  Proof. intros H. inversion H as [? F| |]; subst; [exfalso; eapply F; reflexivity|eauto]. Qed.

  (** A member is read if its value is, given what is known of it. *)
  Lemma opt_member A k (d : json -> option A) es : no_repeats (JObj es) -> always Q (JObj es) ->
    (forall v, no_repeats v -> always Q v -> Q k v -> d v <> None) -> opt k d es <> None.
  Proof.
    intros Hn Ha H. apply opt_reads; [apply repeats_obj, Hn|]. intros v Hin.
    destruct (always_obj _ _ Ha Hin) as [H1 H2]. eapply H; eauto using repeats_member.
  Qed.

  Lemma dflt_member A k a (d : json -> option A) es : no_repeats (JObj es) -> always Q (JObj es) ->
    (forall v, no_repeats v -> always Q v -> Q k v -> d v <> None) -> dflt k a d es <> None.
  Proof.
    intros Hn Ha H. apply dflt_reads; [apply repeats_obj, Hn|]. intros v Hin.
    destruct (always_obj _ _ Ha Hin) as [H1 H2]. eapply H; eauto using repeats_member.
  Qed.

  Lemma req_member A k (d : json -> option A) es : no_repeats (JObj es) -> always Q (JObj es) -> In k (map fst es) ->
    (forall v, no_repeats v -> always Q v -> Q k v -> d v <> None) -> req k d es <> None.
  Proof.
    intros Hn Ha Hk H. apply req_reads; [apply repeats_obj, Hn|exact Hk|]. intros v Hin.
    destruct (always_obj _ _ Ha Hin) as [H1 H2]. eapply H; eauto using repeats_member.
  Qed.
End Nested.

(** ** The bindings *)

Lemma header_reads h : no_repeats h -> always http_member h -> is_object h -> d_http_header h <> None.
Proof.
  intros Hn Ha [es ->]. cbn [d_http_header d_struct].
  apply bind_reads; [|intros ?; apply bind_reads; [|discriminate]];
    (eapply opt_member; [exact Hn|exact Ha|]; intros v _ _ (_ & _ & H & _); apply text_reads, H; auto).
Qed.

Lemma http_response_reads : reads_with http_member ["htv:headers"] http_response_piece.
Proof.
  intros es Hn Ha Hk. cbn [http_response_piece p_de].
  apply bind_reads; [|intros ?; apply bind_reads; [|discriminate]].
  - eapply req_member; [exact Hn|exact Ha|apply Hk; left; reflexivity|]. intros v Hv Hv' (_ & H & _).
    destruct (H eq_refl) as (l & -> & Hl). cbn [d_list]. apply omap_reads. intros h Hin.
    apply header_reads; [exact (repeats_arr _ Hv Hin)|exact (always_arr _ Hv' Hin)|auto].
  - eapply opt_member; [exact Hn|exact Ha|]. intros v _ _ (_ & _ & _ & H). apply number_reads, H, eq_refl.
Qed.

Lemma http_form_reads : reads_with http_member [] http_form_piece.
Proof.
  intros es Hn Ha _. cbn [http_form_piece p_de]. apply bind_reads; [|discriminate].
  eapply opt_member; [exact Hn|exact Ha|]. intros v _ _ (H & _). apply name_reads, H, eq_refl.
Qed.

Lemma block_reads v : (exists n, v = JInt n /\ In n [16; 32; 64; 128; 256; 512; 1024]%Z) -> d_block v <> None.
Proof. intros (n & -> & H). repeat destruct H as [<-|H]; try destruct H; discriminate. Qed.

Lemma blockwise_reads v : no_repeats v -> always coap_member v -> is_object v -> d_blockwise v <> None.
Proof.
  intros Hn Ha [es ->]. cbn [d_blockwise d_struct].
  apply bind_reads; [|intros ?; apply bind_reads; [|discriminate]];
    (eapply opt_member; [exact Hn|exact Ha|]; intros v _ _ (_ & _ & H & _); apply block_reads, H; auto).
Qed.

Lemma coap_form_reads : reads_with coap_member [] coap_form_piece.
Proof.
  intros es Hn Ha _. cbn [coap_form_piece p_de].
  repeat (apply bind_reads; [eapply opt_member; [exact Hn|exact Ha|]; intros v Hv Hv' (H1 & H2 & _ & H4 & H5)|intros ?]);
    try discriminate.
  - apply name_reads, H1, eq_refl.
  - apply blockwise_reads; auto.
  - apply blockwise_reads; auto.
  - apply number_reads, H4, eq_refl.
  - apply number_reads, H5; auto.
  - apply number_reads, H5; auto.
Qed.

Lemma coap_response_reads : reads_with coap_member [] coap_response_piece.
Proof.
  intros es Hn Ha _. cbn [coap_response_piece p_de]. apply bind_reads; [|discriminate].
  eapply opt_member; [exact Hn|exact Ha|]. intros v _ _ (_ & _ & _ & _ & H). apply number_reads, H; auto.
Qed.

Lemma mqtt_form_reads : reads_with mqtt_member [] mqtt_form_piece.
Proof.
  intros es Hn Ha _. cbn [mqtt_form_piece p_de].
  apply bind_reads; [eapply dflt_member; [exact Hn|exact Ha|]; intros v _ _ (H & _); destruct (H eq_refl) as [b ->]; discriminate|intros ?].
  apply bind_reads; [eapply opt_member; [exact Hn|exact Ha|]; intros v _ _ (_ & H & _); apply name_reads, H, eq_refl|intros ?].
  apply bind_reads; [eapply opt_member; [exact Hn|exact Ha|]; intros v _ _ (_ & _ & H & _); apply name_reads, H, eq_refl|intros ?].
  apply bind_reads; [eapply opt_member; [exact Hn|exact Ha|]; intros v _ _ (_ & _ & _ & H & _); apply text_reads, H, eq_refl|intros ?].
  apply bind_reads; [|discriminate]. eapply dflt_member; [exact Hn|exact Ha|]. intros v _ _ (_ & _ & _ & _ & H).
  unfold d_oom. destruct (H eq_refl) as [[s ->]|(l & -> & Hl)]; cbn; [discriminate|].
  apply omap_reads. intros x Hx. apply text_reads, Hl, Hx.
Qed.

Lemma unit_reads Q R : reads_with Q R unit_piece.
Proof. intros es _ _ _. discriminate. Qed.

Lemma nil_reads Q R : reads_with Q R nil_piece.
Proof. intros es _ _ _. discriminate. Qed.

Lemma cons_reads (Q Q' : string -> json -> Prop) R R' p p' : reads_with Q R p -> reads_with Q' R' p' ->
  (forall k, In k R' -> ~ In k (p_take p)) ->
  reads_with (fun k v => Q k v /\ Q' k v) (R ++ R') (cons_piece p p').
Proof.
  intros H H' Hd es Hn Ha Hk. cbn [cons_piece p_de].
  apply bind_reads; [|intros ?; apply bind_reads; [|discriminate]].
  - apply H; [exact Hn| |].
    + eapply always_imp; [|exact Ha]. cbn. tauto.
    + intros k Hin. apply Hk. apply in_or_app; auto.
  - apply H'.
    + apply nr_obj; [apply without_NoDup, repeats_obj, Hn|]. intros k v Hin. apply without_In in Hin as [Hin _].
      eapply repeats_member; eauto.
    + apply aw_obj; intros k v Hin; apply without_In in Hin as [Hin _]; destruct (always_obj _ _ Ha Hin) as [G1 G2]; [tauto|].
      eapply always_imp; [|exact G2]. cbn. tauto.
    + intros k Hin. specialize (Hk k (in_or_app _ _ _ (or_intror Hin))).
      apply in_map_iff in Hk as ([k' v] & F & Hk). cbn in F. subst k'. apply in_map_iff. exists (k, v). split; auto.
      apply without_In. auto.
Qed.

Lemma cons_readable X X' Q Q' : exts_readable X Q -> exts_readable X' Q' ->
  exts_readable (cons_exts X X') (fun k v => Q k v /\ Q' k v).
Proof. intros [] []. constructor; cbn [cons_exts x_t x_ia x_pa x_aa x_ea x_f x_ds x_os x_as];
  match goal with |- reads_with _ [] _ => apply (@cons_reads Q Q' [] []); [assumption|assumption|intros ? []] end. Qed.

Lemma nil_readable Q : exts_readable (nil_exts nil_piece) Q /\ reads_with Q [] (x_er (nil_exts nil_piece)).
Proof. split; [constructor|]; exact (@nil_reads _ _). Qed.

Lemma bindings_read :
  (exts_readable http_exts http_member /\ reads_with http_member ["htv:headers"] (x_er http_exts))
  /\ (exts_readable coap_exts coap_member /\ reads_with coap_member [] (x_er coap_exts))
  /\ (exts_readable mqtt_exts mqtt_member /\ reads_with mqtt_member [] (x_er mqtt_exts))
  /\ (forall Q, exts_readable (nil_exts nil_piece) Q /\ reads_with Q [] (x_er (nil_exts nil_piece)))
  /\ forall X X' Q Q', exts_readable X Q -> exts_readable X' Q' ->
       exts_readable (cons_exts X X') (fun k v => Q k v /\ Q' k v)
       /\ forall R R', reads_with Q R (x_er X) -> reads_with Q' R' (x_er X') -> (forall k, In k R' -> ~ In k (p_take (x_er X))) ->
            reads_with (fun k v => Q k v /\ Q' k v) (R ++ R') (x_er (cons_exts X X')).
Proof.
  split; [|split; [|split; [|split]]].
  - split; [constructor; try exact (@unit_reads _ _); exact http_form_reads|exact http_response_reads].
  - split; [constructor; try exact (@unit_reads _ _); exact coap_form_reads|exact coap_response_reads].
  - split; [constructor; try exact (@unit_reads _ _); exact mqtt_form_reads|exact (@unit_reads _ _)].
  - exact nil_readable.
  - intros X X' Q Q' H H'. split; [exact (cons_readable H H')|]. intros R R' G G' D. exact (cons_reads G G' D).
Qed.
