(** * Extensions: what they write, what they read *)

From Coq Require Import String Bool ZArith Lia List.
From Verif Require Import Base MinMax Json Serde Types HList Protocol Spec SpecSerde SpecExt SpecDoc SpecTyped Ser De
  SerdeFacts RoundTrip RoundTripDs RoundTripTd ExtFacts ProtocolFacts MemberFacts CanonFacts DecodedFacts CleanFacts.
Import ListNotations.
Set Implicit Arguments.
Local Open Scope string_scope.
Local Open Scope list_scope.

Lemma get_none k es : ~ In k (map fst es) -> get k es = [].
Proof. apply absent_get. Qed.

Ltac cleans1 :=
  first
    [ apply cleans_nil
    | apply cleans_fld
    | apply cleans_ofld; let a := fresh "a" in let Ha := fresh "Ha" in intros a Ha ].

(** ** Writing *)

Lemma unit_writes_clean : writes_clean unit_piece [] (fun _ => True).
Proof. split; simpl; [intros; split; [constructor|apply incl_refl]|intros mk a k v _ _ []]. Qed.

Lemma cons_writes_clean p q K K' ok ok' : writes_clean p K ok -> writes_clean q K' ok' -> disjoint K K' ->
  writes_clean (cons_piece p q) (K ++ K') (both ok ok').
Proof.
  intros Hp Hq Hd. split.
  - intros mk [a b] Hw [Ha Hb]. simpl in *. rewrite map_app.
    destruct (wc_names Hp a Hw Ha) as [Hn Hi]. destruct (wc_names Hq b Hw Hb) as [Hn' Hi'].
    split; [apply disjoint_NoDup; auto; intros k Hk Hk'; apply (Hd k); auto|].
    apply incl_app; [apply incl_appl|apply incl_appr]; auto.
  - intros mk [a b] k v Hw [Ha Hb] Hin. simpl in *. apply in_app_or in Hin as [Hin|Hin].
    + exact (wc_clean Hp a k v Hw Ha Hin).
    + exact (wc_clean Hq b k v Hw Hb Hin).
Qed.

Lemma both_write_clean X X' K K' (T : xvalues X) (T' : xvalues X') :
  exts_write_clean K T -> exts_write_clean K' T' -> xdisjoint K K' ->
  exts_write_clean (both_names K K') (both_values T T').
Proof. intros H H' Hd. split; apply cons_writes_clean; solve [apply H | apply H' | apply Hd]. Qed.

Lemma http_method_clean m : good True (s_http_method m).
Proof. apply clean_str. Qed.

Lemma http_header_clean mk h : json_writer mk -> good True (s_http_header mk h).
Proof.
  intros Hw. unfold s_http_header.
  eapply clean_within with (L := ["htv:fieldName"; "htv:fieldValue"]); auto.
  - repeat within_step.
  - apply nodupb_ok; reflexivity.
  - apply cleans_app; cleans1; apply clean_str.
Qed.

Lemma int_u64 n : in_u64 n -> good True (JInt n).
Proof. unfold in_u64. intros H. apply clean_int. lia. Qed.
Lemma int_u16 n : in_u16 n -> good True (JInt n).
Proof. unfold in_u16. intros H. apply clean_int. lia. Qed.
Lemma int_u8 n : in_u8 n -> good True (JInt n).
Proof. unfold in_u8. intros H. apply clean_int. lia. Qed.

Lemma writes_clean_intro p K (ok : pty p -> Prop) : NoDup K ->
  (forall mk a, json_writer mk -> ok a -> within (p_ser p mk a) K) ->
  (forall mk a, json_writer mk -> ok a -> cleans True (p_ser p mk a)) -> writes_clean p K ok.
Proof.
  intros Hn H1 H2. split.
  - intros mk a Hw Ha. apply piece_written; auto.
  - intros mk a k v Hw Ha Hin. destruct (H2 mk a Hw Ha k v Hin). split; auto.
Qed.

Lemma http_write_clean : exts_write_clean http_names http_typed.
Proof.
  split; try exact unit_writes_clean; apply writes_clean_intro; try (apply nodupb_ok; reflexivity).
  - intros mk a Hw _. simpl. apply within_ofld.
  - intros mk a Hw _. simpl. cleans1. apply http_method_clean.
  - intros mk a Hw _. simpl. apply within_cons; [|apply within_ofld].
    destruct (hr_headers a); [apply within_none|apply within_fld].
  - intros mk a Hw Ha. apply cleans_app.
    + destruct (hr_headers a) as [|h l]; [apply cleans_nil|apply cleans_fld].
      apply (clean_list (s_http_header mk) (h :: l)). intros. apply http_header_clean; auto.
    + cleans1. apply int_u64, Ha; auto.
Qed.

Lemma blockwise_clean mk b : json_writer mk -> good True (s_blockwise mk b).
Proof.
  intros Hw. unfold s_blockwise.
  eapply clean_within with (L := ["cov:block2Size"; "cov:block1Size"]); auto.
  - repeat within_step.
  - apply nodupb_ok; reflexivity.
  - apply cleans_app; cleans1; destruct a; apply int_u16; unfold in_u16; simpl; lia.
Qed.

Lemma coap_write_clean : exts_write_clean coap_names coap_typed.
Proof.
  split; try exact unit_writes_clean; apply writes_clean_intro; try (apply nodupb_ok; reflexivity).
  - intros mk a Hw _. simpl. repeat within_step.
  - intros mk a Hw (H1 & H2 & H3). simpl. repeat apply cleans_app; cleans1.
    + apply clean_str.
    + apply blockwise_clean; auto.
    + apply blockwise_clean; auto.
    + apply int_u8, H1; auto.
    + apply int_u16, H2; auto.
    + apply int_u16, H3; auto.
  - intros mk a Hw _. simpl. apply within_ofld.
  - intros mk a Hw Ha. simpl. cleans1. apply int_u16, Ha; auto.
Qed.

Lemma mqtt_write_clean : exts_write_clean mqtt_names mqtt_typed.
Proof.
  split; try exact unit_writes_clean; apply writes_clean_intro; try (apply nodupb_ok; reflexivity).
  - intros mk a Hw Ha. destruct (@rt_written _ _ _ mqtt_form_round_trips mk a Hw Ha) as [Hn Hi].
    apply within_incl; auto.
  - intros mk a Hw _. simpl. repeat apply cleans_app; try (cleans1; apply clean_str).
    + destruct (mf_retain a); [apply cleans_fld, clean_bool|apply cleans_nil].
    + destruct (mf_filter a) as [|s l]; [apply cleans_nil|apply cleans_fld, (clean_strs True (s :: l))].
Qed.

(** ** Reading *)

Lemma any_reads_ok p : reads_ok p (fun _ => True).
Proof. intros es a _ _. exact I. Qed.

Lemma cons_reads_ok p q ok ok' : reads_ok p ok -> reads_ok q ok' -> reads_ok (cons_piece p q) (both ok ok').
Proof.
  intros Hp Hq es [a b] Hd H. simpl in H. binds H. injection H as -> ->. split; simpl.
  - eapply Hp; eauto.
  - eapply Hq; [|eassumption]. apply document_obj. apply docs_without. apply document_obj. exact Hd.
Qed.

Lemma both_read_ok X X' (V : xvalues X) (V' : xvalues X') :
  exts_read_ok V -> exts_read_ok V' -> exts_read_ok (both_values V V').
Proof. intros [] []. split; apply cons_reads_ok; auto. Qed.

Lemma http_read_ok : exts_read_ok http_values.
Proof. split; apply any_reads_ok. Qed.

Lemma mqtt_read_ok : exts_read_ok mqtt_values.
Proof. split; apply any_reads_ok. Qed.

Lemma d_u16_range j n : d_u16 j = Some n -> in_u16 n.
Proof. apply int_inv. Qed.
Lemma d_u8_range j n : d_u8 j = Some n -> in_u8 n.
Proof. apply int_inv. Qed.
Lemma d_u64_range j n : d_u64 j = Some n -> in_u64 n.
Proof. apply int_inv. Qed.

Lemma coap_read_ok : exts_read_ok coap_values.
Proof.
  split; try apply any_reads_ok.
  intros es a _ H. simpl in H. binds H. injection H as <-. split; [|split]; cbn [cf_hop cf_accept cf_format].
  - eapply opt_all; [eassumption|]. intros v n _ _. apply d_u8_range.
  - eapply opt_all; [eassumption|]. intros v n _ _. apply d_u16_range.
  - eapply opt_all; [eassumption|]. intros v n _ _. apply d_u16_range.
Qed.

(** ** Reading what was written *)

Lemma unit_reads_back : reads_back unit_piece [] (fun _ => True) (fun _ => True).
Proof. intros mk a es b _ _ _ _. exact I. Qed.

Lemma cons_reads_back p q K K' T T' V V' :
  writes_clean p K T -> writes_clean q K' T' -> incl (p_take p) K -> disjoint K K' ->
  reads_back p K T V -> reads_back q K' T' V' ->
  reads_back (cons_piece p q) (K ++ K') (both T T') (both V V').
Proof.
  intros Wp Wq Ht Hd Hp Hq mk [a a'] es [b b'] Hw [Ha Ha'] Hg H. simpl in *. binds H. injection H as -> ->.
  assert (forall k, ~ In k K -> get k (p_ser p mk a) = []) as N1.
  { intros k Hk. rewrite get_none; [reflexivity|]. unfold not. intros F. apply Hk. revert F. apply (wc_names Wp a Hw Ha). }
  assert (forall k, ~ In k K' -> get k (p_ser q mk a') = []) as N2.
  { intros k Hk. rewrite get_none; [reflexivity|]. unfold not. intros F. apply Hk. revert F. apply (wc_names Wq a' Hw Ha'). }
  split; simpl.
  - eapply Hp; [exact Hw|exact Ha| |eassumption]. intros k Hk. rewrite Hg by (apply in_or_app; auto). rewrite get_app, N2, app_nil_r; auto.
  - eapply Hq; [exact Hw|exact Ha'| |eassumption]. intros k Hk. rewrite get_without.
    rewrite (proj2 (smem_false k (p_take p))) by (intros F; exact (Hd k (Ht _ F) Hk)).
    rewrite Hg by (apply in_or_app; auto). rewrite get_app, N1; auto. intros F. exact (Hd k F Hk).
Qed.

Lemma http_reads_back : reads_back (x_er http_exts) (k_er http_names) (v_er http_typed) (v_er http_values).
Proof.
  intros mk a es b Hw Ha Hg H. simpl in H. binds H. injection H as <-. split; cbn.
  - intros ->. unfold req in B. rewrite (Hg "htv:headers") in B by (left; reflexivity).
    cbn [x_er http_exts http_response_piece p_ser] in B. rewrite get_app, get_ofld in B.
    destruct (hr_headers a) as [|h l]; [discriminate B|]. rewrite get_fld in B.
    change (d_list d_http_header (s_list (s_http_header mk) (h :: l)) = Some []) in B.
    assert (d_list d_http_header (s_list (s_http_header mk) (h :: l)) = Some (h :: l)) as F
      by (apply d_list_rt; intros; apply d_http_header_rt; auto).
    congruence.
  - eapply opt_all; [eassumption|]. intros v n _ _. apply d_u64_range.
Qed.

Lemma coap_reads_back : reads_back (x_er coap_exts) (k_er coap_names) (v_er coap_typed) (v_er coap_values).
Proof.
  intros mk a es b Hw Ha Hg H. simpl in H. binds H. injection H as <-. cbn.
  eapply opt_all; [eassumption|]. intros v n _ _. apply d_u16_range.
Qed.

Lemma http_sound : exts_sound http_names http_typed http_values.
Proof.
  exact (Build_exts_sound http_exts_round_trip http_names_apart http_read_ok http_write_clean http_reads_back).
Qed.
Lemma coap_sound : exts_sound coap_names coap_typed coap_values.
Proof.
  exact (Build_exts_sound coap_exts_round_trip coap_names_apart coap_read_ok coap_write_clean coap_reads_back).
Qed.
Lemma mqtt_sound : exts_sound mqtt_names mqtt_typed mqtt_values.
Proof.
  exact (Build_exts_sound mqtt_exts_round_trip mqtt_names_apart mqtt_read_ok mqtt_write_clean unit_reads_back).
Qed.

Lemma both_sound X X' K K' (T V : xvalues X) (T' V' : xvalues X') :
  exts_sound K T V -> exts_sound K' T' V' -> xdisjoint K K' -> names_apart (both_names K K') ->
  exts_sound (both_names K K') (both_values T T') (both_values V V').
Proof.
  intros [R1 _ D1 C1 B1] [R2 _ D2 C2 B2] Hd Ha. split; auto.
  - apply cons_exts_round_trip; auto.
  - apply both_read_ok; auto.
  - apply both_write_clean; auto.
  - apply cons_reads_back; auto; [apply C1|apply C2|apply (rt_taken (xr_er R1))|apply (xd_er Hd)].
Qed.
