(** * Facts about members, objects and single values *)

From Coq Require Import String Bool ZArith Permutation Lia List.
From Coq Require Import Floats.SpecFloat.
From Verif Require Import Base MinMax Json Serde Types Spec SpecSerde.
Import ListNotations.
Set Implicit Arguments.
Local Open Scope string_scope.
Local Open Scope list_scope.

(** ** Members *)

Lemma get_fld k k' j : get k (fld k' j) = if String.eqb k k' then [j] else [].
Proof. unfold fld. rewrite get_cons. destruct (String.eqb k k'); reflexivity. Qed.

Lemma get_ofld A k k' (f : A -> json) o :
  get k (ofld k' f o) = if String.eqb k k' then otolist (option_map f o) else [].
Proof. destruct o; simpl; [rewrite get_cons|]; destruct (String.eqb k k'); reflexivity. Qed.

(** At most the names in [K], each at most as often as in [K]. *)
Definition within (es : entries) (K : list string) : Prop :=
  forall k, length (get k es) <= count_occ string_dec K k.

Lemma within_nil : within [] [].
Proof. intros k. simpl. lia. Qed.

Lemma within_app es es' K K' : within es K -> within es' K' -> within (es ++ es') (K ++ K').
Proof.
  intros H H' k. rewrite get_app, app_length, count_occ_app.
  specialize (H k). specialize (H' k). lia.
Qed.

Lemma within_weak es K K' :
  (forall k, count_occ string_dec K k <= count_occ string_dec K' k) -> within es K -> within es K'.
Proof. intros H H' k. etransitivity; eauto. Qed.

Lemma within_l es K K' : within es K -> within es (K ++ K').
Proof. apply within_weak. intros k. rewrite count_occ_app. lia. Qed.

Lemma within_r es K K' : within es K' -> within es (K ++ K').
Proof. apply within_weak. intros k. rewrite count_occ_app. lia. Qed.

Lemma within_fld k j : within (fld k j) [k].
Proof.
  intros k'. rewrite get_fld. simpl. destruct (string_dec k k') as [->|n].
  - rewrite String.eqb_refl. simpl. lia.
  - destruct (String.eqb k' k) eqn:He; simpl; auto. apply String.eqb_eq in He. congruence.
Qed.

Lemma within_ofld A k (f : A -> json) o : within (ofld k f o) [k].
Proof.
  destruct o; simpl; [apply within_fld|]. intros k'. simpl. lia.
Qed.

Lemma within_none K : within [] K.
Proof. intros k. simpl. lia. Qed.

Lemma within_get_nil es K k : within es K -> ~ In k K -> get k es = [].
Proof.
  intros H Hk. specialize (H k). rewrite (proj1 (count_occ_not_In string_dec K k) Hk) in H.
  destruct (get k es); simpl in *; auto; lia.
Qed.

Arguments within_get_nil [es K k].

Lemma within_le1 es K k : within es K -> NoDup K -> length (get k es) <= 1.
Proof.
  intros H Hn. specialize (H k). rewrite (NoDup_count_occ string_dec) in Hn. specialize (Hn k). lia.
Qed.

Arguments within_le1 [es K] k.

Lemma length_get_count k es :
  length (get k es) = count_occ string_dec (map fst es) k.
Proof.
  induction es as [|[k' v] es IH]; simpl; auto.
  rewrite get_cons. destruct (string_dec k' k) as [->|n].
  - rewrite String.eqb_refl. simpl. auto.
  - destruct (String.eqb k k') eqn:He; auto. apply String.eqb_eq in He. congruence.
Qed.

Lemma le1_NoDup es : (forall k, length (get k es) <= 1) -> NoDup (map fst es).
Proof.
  intros H. apply (NoDup_count_occ string_dec). intros k. rewrite <- length_get_count. auto.
Qed.

Lemma within_NoDup es K : within es K -> NoDup K -> NoDup (map fst es).
Proof. intros H Hn. apply le1_NoDup. intros k. eapply within_le1; eauto. Qed.

Lemma within_incl es K : NoDup (map fst es) -> incl (map fst es) K -> within es K.
Proof.
  intros Hn Hi k. rewrite length_get_count.
  destruct (in_dec string_dec k (map fst es)) as [H|H].
  - rewrite (NoDup_count_occ string_dec) in Hn. specialize (Hn k).
    apply Hi in H. apply (count_occ_In string_dec) in H. lia.
  - rewrite (proj1 (count_occ_not_In string_dec _ _) H). lia.
Qed.

Lemma In_keys_get k es : In k (map fst es) -> get k es <> [].
Proof. intros H E. apply get_nil_iff in E. auto. Qed.

Lemma within_In es K k : within es K -> In k (map fst es) -> In k K.
Proof.
  intros H Hin. apply In_keys_get in Hin.
  destruct (in_dec string_dec k K); auto. exfalso. apply Hin. eapply within_get_nil; eauto.
Qed.

Lemma get_Permutation k es es' : Permutation es es' -> Permutation (get k es) (get k es').
Proof.
  intros H. unfold get. apply Permutation_map. induction H; simpl.
  - constructor.
  - destruct (String.eqb k (fst x)); auto.
  - destruct (String.eqb k (fst x)), (String.eqb k (fst y)); auto. apply perm_swap.
  - etransitivity; eauto.
Qed.

Lemma get_Permutation_eq k es es' :
  Permutation es es' -> length (get k es) <= 1 -> get k es' = get k es.
Proof.
  intros H Hl. apply (get_Permutation k) in H.
  destruct (get k es) as [|a [|b l]]; simpl in *; try lia.
  - apply Permutation_nil in H. auto.
  - apply Permutation_length_1_inv in H. auto.
Qed.

(** ** Assembling objects *)

Lemma writer_keeps mk es : json_writer mk -> NoDup (map fst es) ->
  exists es', mk es = JObj es' /\ Permutation es es'.
Proof.
  intros [->| ->] H.
  - exists es. split; [reflexivity|auto].
  - exists (mof es). split; [reflexivity|].
    apply NoDup_Permutation.
    + apply NoDup_map_inv in H; auto.
    + pose proof (msorted_NoDup _ (msorted_mof es)) as Hn. unfold mkeys in Hn.
      apply NoDup_map_inv in Hn; auto.
    + intros [k v]. split; intros Hin.
      * apply mlook_Some_In. rewrite mlook_mof, llook_NoDup by auto. apply In_mlook; auto.
      * apply In_mof in Hin. auto.
Qed.

Arguments writer_keeps [mk] [es].

Lemma writer_get mk es K : json_writer mk -> within es K -> NoDup K ->
  exists es', mk es = JObj es' /\ forall k, get k es' = get k es.
Proof.
  intros Hw H Hn. destruct (writer_keeps Hw (within_NoDup H Hn)) as (es' & E & Hp).
  exists es'. split; auto. intros k. apply get_Permutation_eq; auto. eapply within_le1; eauto.
Qed.

Lemma writer_obj mk es : json_writer mk -> exists es', mk es = JObj es'.
Proof. intros [->| ->]; eexists; reflexivity. Qed.

Lemma writer_not_null mk es : json_writer mk -> mk es <> JNull.
Proof. intros [->| ->]; discriminate. Qed.

(** ** Members read back *)

Lemma opt_rt A k (d : json -> option A) es (s : A -> json) o :
  get k es = otolist (option_map s o) ->
  (forall a, o = Some a -> d (s a) = Some a /\ s a <> JNull) ->
  opt k d es = Some o.
Proof.
  intros Hg Ha. unfold opt. rewrite Hg. destruct o as [a|]; simpl; auto.
  destruct (Ha a eq_refl) as [H1 H2]. destruct (s a) eqn:E; try (rewrite H1; reflexivity).
  congruence.
Qed.

Lemma req_rt A k (d : json -> option A) es j a :
  get k es = [j] -> d j = Some a -> req k d es = Some a.
Proof. intros Hg Hd. unfold req. rewrite Hg. auto. Qed.

Lemma dflt_rt A k (d : json -> option A) es j a0 a :
  get k es = [j] -> d j = Some a -> dflt k a0 d es = Some a.
Proof. intros Hg Hd. unfold dflt. rewrite Hg. auto. Qed.

Lemma dflt_absent A k (d : json -> option A) es a0 : get k es = [] -> dflt k a0 d es = Some a0.
Proof. intros Hg. unfold dflt. rewrite Hg. auto. Qed.

(** ** Values read back *)

Lemma d_str_rt s : d_str (JStr s) = Some s /\ JStr s <> JNull.
Proof. split; [reflexivity|discriminate]. Qed.

Lemma d_bool_rt b : d_bool (JBool b) = Some b /\ JBool b <> JNull.
Proof. split; [reflexivity|discriminate]. Qed.

Lemma d_int_rt lo hi n : (lo <= n <= hi)%Z -> d_int lo hi (JInt n) = Some n /\ JInt n <> JNull.
Proof.
  intros H. split; [|discriminate]. simpl.
  replace (lo <=? n)%Z with true by (symmetry; apply Z.leb_le; lia).
  replace (n <=? hi)%Z with true by (symmetry; apply Z.leb_le; lia). reflexivity.
Qed.

Lemma d_f64_rt x : finite x -> d_f64 (s_f64 x) = Some x /\ s_f64 x <> JNull.
Proof. unfold finite, s_f64. intros ->. split; [reflexivity|discriminate]. Qed.

Lemma d_list_rt A (d : json -> option A) (s : A -> json) l :
  (forall a, In a l -> d (s a) = Some a) ->
  d_list d (s_list s l) = Some l /\ s_list s l <> JNull.
Proof.
  intros H. split; [|discriminate]. simpl. rewrite omap_all_map.
  apply omap_all_id. auto.
Qed.

(** One-or-many: an array is never read as a single value. *)
Lemma d_oom_rt A (d : json -> option A) (s : A -> json) l :
  (forall a, In a l -> d (s a) = Some a /\ s a <> JNull) ->
  (length l <> 1 -> d (JArr (map s l)) = None) ->
  d_oom d (s_oom s l) = Some l /\ s_oom s l <> JNull.
Proof.
  intros H Ha. destruct l as [|a [|b l]].
  - split; [|discriminate]. unfold d_oom, s_oom. rewrite (Ha ltac:(simpl; lia)). reflexivity.
  - destruct (H a (or_introl eq_refl)) as [H1 H2]. simpl. unfold d_oom. rewrite H1. auto.
  - split; [|discriminate]. unfold d_oom, s_oom. rewrite (Ha ltac:(simpl; lia)).
    apply (@d_list_rt _ d s (a :: b :: l)). intros x Hx. apply H; auto.
Qed.

Lemma d_oom_str l : d_oom d_str (s_oom JStr l) = Some l /\ s_oom JStr l <> JNull.
Proof. apply d_oom_rt; auto. intros a _. apply d_str_rt. Qed.

Lemma mmap_nodup A B (f : A -> B) (m : amap A) : msorted m -> NoDup (map fst (mmap f m)).
Proof.
  intros H. change (map fst (mmap f m)) with (mkeys (mmap f m)).
  rewrite mkeys_mmap. apply msorted_NoDup; auto.
Qed.

Lemma Permutation_mmap_inv A B (f : A -> B) (m : amap A) es :
  Permutation (mmap f m) es -> exists m', Permutation m m' /\ es = mmap f m'.
Proof.
  unfold mmap. intros H. apply Permutation_sym in H.
  destruct (Permutation_map_inv _ _ H) as (m' & -> & Hp). exists m'. split; auto.
Qed.

Lemma omap_all_mmap A B (f : A -> json) (g : string * json -> option (string * B)) (h : A -> B)
  (m : amap A) :
  (forall k a, In (k, a) m -> g (k, f a) = Some (k, h a)) ->
  omap_all g (mmap f m) = Some (mmap h m).
Proof.
  unfold mmap. induction m as [|[k a] m IH]; simpl; intros H; auto.
  rewrite (H k a) by auto. simpl. rewrite IH; auto.
Qed.

Lemma mmap_id A (m : amap A) : mmap (fun a => a) m = m.
Proof. unfold mmap. rewrite <- (map_id m) at 2. apply map_ext. intros []; auto. Qed.

Lemma d_map_rt mk A (d : json -> option A) (s : A -> json) (m : amap A) :
  json_writer mk -> msorted m -> (forall k a, In (k, a) m -> d (s a) = Some a) ->
  d_map d (s_map mk s m) = Some m /\ s_map mk s m <> JNull.
Proof.
  intros Hw Hs H. unfold s_map. split; [|apply writer_not_null; auto].
  destruct (writer_keeps Hw (mmap_nodup s m Hs)) as (es' & -> & Hp).
  apply Permutation_mmap_inv in Hp as (m' & Hp & ->). simpl.
  rewrite (@omap_all_mmap _ _ s _ (fun a => a) m').
  - rewrite mmap_id. simpl. f_equal. apply mof_Permutation; auto. apply Permutation_sym; auto.
  - intros k a Hin. simpl. rewrite (H k a); auto.
    eapply Permutation_in; [apply Permutation_sym|]; eauto.
Qed.

(** ** [serde_json::Value] *)

Lemma ser_value_keys mk (es : entries) :
  map fst (map (fun kv => (fst kv, ser_value mk (snd kv))) es) = map fst es.
Proof. rewrite map_map. reflexivity. Qed.

Lemma canon_ser_value mk j : json_writer mk -> value_ok j -> canon (ser_value mk j) = j.
Proof.
  intros Hw. induction 1; auto.
  - simpl. f_equal. rewrite map_map. rewrite <- (map_id l) at 2. apply map_ext_in. auto.
  - change (ser_value mk (JObj es)) with (mk (mmap (ser_value mk) es)).
    destruct (writer_keeps Hw (mmap_nodup (ser_value mk) es H)) as (es' & -> & Hp).
    apply Permutation_mmap_inv in Hp as (m' & Hp & ->). simpl. f_equal.
    apply mof_Permutation; auto.
    assert (map (fun kv => (fst kv, canon (snd kv))) (mmap (ser_value mk) m') = m') as ->.
    { unfold mmap. rewrite map_map. rewrite <- (map_id m') at 2. apply map_ext_in.
      intros [k v] Hin. simpl. erewrite H1; eauto.
      eapply Permutation_in; [apply Permutation_sym|]; eauto. }
    apply Permutation_sym; auto.
Qed.

Lemma ser_value_not_null mk j : json_writer mk -> j <> JNull -> ser_value mk j <> JNull.
Proof. intros Hw Hj. destruct j; simpl; try congruence. apply writer_not_null; auto. Qed.

Lemma d_value_rt mk j : json_writer mk -> value_ok j -> d_value (ser_value mk j) = Some j.
Proof. intros Hw H. unfold d_value. rewrite canon_ser_value; auto. Qed.

(** ** Disjoint names *)

Lemma disjoint_NoDup l l' : NoDup l -> NoDup l' -> disjoint l' l -> NoDup (l ++ l').
Proof.
  induction l as [|a l IH]; simpl; intros H H' Hd; auto. inversion H; subst. constructor.
  - intros Hin. apply in_app_or in Hin as [Hin|Hin]; auto.
    apply (Hd a Hin). left; auto.
  - apply IH; auto. intros k Hk Hl. apply (Hd k Hk). right; auto.
Qed.

(** Decidable [NoDup] for literal lists. *)
Fixpoint nodupb (l : list string) : bool :=
  match l with [] => true | a :: l' => negb (smem a l') && nodupb l' end.

Lemma nodupb_ok l : nodupb l = true -> NoDup l.
Proof.
  induction l as [|a l IH]; simpl; intros H; constructor;
    apply andb_prop in H as [H1 H2]; auto.
  intros Hin. apply smem_In in Hin. rewrite Hin in H1. discriminate.
Qed.

Definition inclb (l l' : list string) : bool := forallb (fun k => smem k l') l.

Lemma inclb_ok l l' : inclb l l' = true -> incl l l'.
Proof. unfold inclb. rewrite forallb_forall. intros H k Hk. apply smem_In, H; auto. Qed.

Lemma smem_false k l : smem k l = false <-> ~ In k l.
Proof. rewrite <- smem_In. destruct (smem k l); split; congruence. Qed.

Lemma neq_lit k K k' : ~ In k K -> smem k' K = true -> String.eqb k k' = false.
Proof.
  intros H H'. apply String.eqb_neq. intros ->. apply H, smem_In; auto.
Qed.
Arguments neq_lit [k K k'] _ _.
