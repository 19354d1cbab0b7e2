(** * Extensions: unknown members and the order of members *)

From Coq Require Import String Bool ZArith Permutation Lia List.
From Verif Require Import Base MinMax Json Serde Types HList Protocol SpecSerde SpecExt SpecDoc Ser De SerdeFacts
  RoundTrip RoundTripDs GrownFacts CanonFacts.
Import ListNotations.
Set Implicit Arguments.
Local Open Scope string_scope.
Local Open Scope list_scope.

(** ** Unknown members *)

Lemma const_reads_only T s a t K : reads_only {| pty := T; p_ser := s; p_de := fun _ => Some a; p_take := t |} K.
Proof. intros es es' _. reflexivity. Qed.

Lemma only_without_comm K ks es : only K (without ks es) = without ks (only K es).
Proof.
  unfold only, without. induction es as [|[k v] es IH]; simpl; auto.
  destruct (smem k ks) eqn:Hs, (smem k K) eqn:HK; simpl; rewrite ?Hs, ?HK, ?IH; simpl; rewrite ?IH; auto.
Qed.

Lemma cons_reads_only p q K K' : reads_only p K -> reads_only q K' -> reads_only (cons_piece p q) (K ++ K').
Proof.
  intros Hp Hq es es' H. simpl.
  assert (H1 : only K es = only K es')
    by (rewrite <- (@only_only K (K ++ K') es), H by (apply incl_appl, incl_refl);
        apply only_only, incl_appl, incl_refl).
  assert (H2 : only K' es = only K' es')
    by (rewrite <- (@only_only K' (K ++ K') es), H by (apply incl_appr, incl_refl);
        apply only_only, incl_appr, incl_refl).
  rewrite (Hp _ _ H1). rewrite (Hq (without (p_take p) es) (without (p_take p) es')); auto.
  rewrite !only_without_comm, H2. reflexivity.
Qed.

Lemma both_read_only X X' K K' : exts_read_only X K -> exts_read_only X' K' ->
  exts_read_only (cons_exts X X') (both_names K K').
Proof. intros [] []. split; apply cons_reads_only; auto. Qed.

Ltac reads_tac :=
  let es := fresh "es" in let es' := fresh "es'" in let H := fresh "H" in
  intros es es' H; cbn [p_de];
  repeat match goal with
  | |- context [opt ?k ?d es] =>
      rewrite (@opt_reads _ k d es es') by (eapply only_get; [exact H|in_names])
  | |- context [req ?k ?d es] =>
      rewrite (@req_reads _ k d es es') by (eapply only_get; [exact H|in_names])
  | |- context [dflt ?k ?a ?d es] =>
      rewrite (@dflt_reads _ k a d es es') by (eapply only_get; [exact H|in_names])
  end; reflexivity.

Lemma http_read_only : exts_read_only http_exts http_names.
Proof. split; try apply const_reads_only; [unfold http_exts, x_f, http_form_piece|unfold http_exts, x_er, http_response_piece]; reads_tac. Qed.

Lemma coap_read_only : exts_read_only coap_exts coap_names.
Proof. split; try apply const_reads_only; [unfold coap_exts, x_f, coap_form_piece|unfold coap_exts, x_er, coap_response_piece]; reads_tac. Qed.

Lemma mqtt_read_only : exts_read_only mqtt_exts mqtt_names.
Proof. split; try apply const_reads_only; unfold mqtt_exts, x_f, mqtt_form_piece; reads_tac. Qed.

(** ** Adding one unknown member *)

Lemma grown_refl_list K d l : Forall2 (grown K d) l l.
Proof. induction l; constructor; auto. apply g_same. Qed.

Lemma grown_entries K (f : string -> doc_kind) (es : entries) :
  Forall2 (fun kv kv' => fst kv = fst kv' /\ grown K (f (fst kv)) (snd kv) (snd kv')) es es.
Proof. induction es; constructor; auto. split; auto. apply g_same. Qed.

Lemma grown_add K d es1 es2 k v : is_struct d = true -> ~ In k (names_of K d) ->
  grown K d (JObj (es1 ++ es2)) (JObj (es1 ++ (k, v) :: es2)).
Proof.
  intros Hs Hk. apply g_struct; auto.
  assert (only (names_of K d) (es1 ++ (k, v) :: es2) = only (names_of K d) (es1 ++ es2)) as ->.
  { unfold only. rewrite !filter_app. simpl. destruct (smem k (names_of K d)) eqn:E; auto.
    apply smem_In in E. tauto. }
  apply grown_entries.
Qed.

(** A difference in one member. *)
Lemma grown_member K d es1 es2 k v v' : is_struct d = true -> grown K (member_kind d k) v v' ->
  grown K d (JObj (es1 ++ (k, v) :: es2)) (JObj (es1 ++ (k, v') :: es2)).
Proof.
  intros Hs Hg. apply g_struct; auto. unfold only. rewrite !filter_app. apply Forall2_app.
  - apply grown_entries.
  - cbn [filter fst]. destruct (smem k (names_of K d)); [|apply grown_entries].
    constructor; [split; auto|apply grown_entries].
Qed.

Lemma grown_in_map K d es1 es2 k v v' : grown K d v v' ->
  grown K (DMap d) (JObj (es1 ++ (k, v) :: es2)) (JObj (es1 ++ (k, v') :: es2)).
Proof.
  intros Hg. apply g_map. apply Forall2_app; [apply (grown_entries K (fun _ => d))|].
  constructor; [split; auto|apply (grown_entries K (fun _ => d))].
Qed.

Lemma grown_in_list K d l1 l2 v v' : grown K d v v' ->
  grown K (DList d) (JArr (l1 ++ v :: l2)) (JArr (l1 ++ v' :: l2)).
Proof. intros Hg. apply g_list. apply Forall2_app; [|constructor]; auto using grown_refl_list. Qed.

(** ** The order of members *)

Lemma const_order_free T s a t : order_free {| pty := T; p_ser := s; p_de := fun _ => Some a; p_take := t |}.
Proof. intros es es' _ _ _. reflexivity. Qed.

(** It is enough to look at the sorted document. *)
Lemma order_free_intro p :
  (forall es es', crel true es es' -> below (jdepth (JObj es)) es -> p_de p es' = p_de p es) -> order_free p.
Proof.
  intros H es es' Hn Ho Hr. destruct (reordered_canon Hr Hn) as [Hn' Ec].
  assert (Ho' := reordered_bounds Hr Ho).
  assert (G : good_obj true es) by (apply good_obj_iff; split; auto).
  assert (G' : good_obj true es') by (apply good_obj_iff; split; auto).
  destruct (crel_canon G) as (c & E1 & C1). destruct (crel_canon G') as (c' & E2 & C2).
  assert (c = c') by congruence. subst c'.
  rewrite <- (H _ _ C1), <- (H _ _ C2); auto using below_self.
Qed.

Lemma cons_order_free p q : order_free p -> order_free q -> order_free (cons_piece p q).
Proof.
  intros Hp Hq. apply order_free_intro. intros es es' Hc _. simpl.
  rewrite (crel_free Hp Hc), (crel_free Hq (crel_without (p_take p) Hc)). reflexivity.
Qed.

Lemma both_order_free X X' : exts_order_free X -> exts_order_free X' -> exts_order_free (cons_exts X X').
Proof. intros [] []. split; apply cons_order_free; auto. Qed.

Lemma http_header_stable n : stable true n d_http_header.
Proof.
  destruct n as [|n]; [intros j Hj; lia|]. apply struct_stable.
  - intros es es' H Hb. repeat mem1 H Hb basic. reflexivity.
  - intros l Hl. rewrite !(@sq_opt_stable _ n l Hl) by basic. reflexivity.
Qed.

Lemma block_stable n : stable true n d_block. Proof. leaf. Qed.

Lemma blockwise_stable n : stable true n d_blockwise.
Proof.
  destruct n as [|n]; [intros j Hj; lia|]. apply struct_stable.
  - intros es es' H Hb. repeat mem1 H Hb ltac:(apply block_stable). reflexivity.
  - intros l Hl. rewrite !(@sq_opt_stable _ n l Hl) by apply block_stable. reflexivity.
Qed.

Ltac free_tac :=
  apply order_free_intro; let es := fresh "es" in let es' := fresh "es'" in let H := fresh "H" in
  let Hb := fresh "Hb" in intros es es' H Hb; cbn [p_de];
  repeat mem1 H Hb ltac:(first [apply int_stable | apply blockwise_stable
                               | apply list_stable', http_header_stable | basic]);
  reflexivity.

Lemma http_order_free : exts_order_free http_exts.
Proof. split; try apply const_order_free; [unfold http_exts, x_f, http_form_piece|unfold http_exts, x_er, http_response_piece]; free_tac. Qed.

Lemma coap_order_free : exts_order_free coap_exts.
Proof. split; try apply const_order_free; [unfold coap_exts, x_f, coap_form_piece|unfold coap_exts, x_er, coap_response_piece]; free_tac. Qed.

Lemma mqtt_order_free : exts_order_free mqtt_exts.
Proof. split; try apply const_order_free; unfold mqtt_exts, x_f, mqtt_form_piece; free_tac. Qed.
