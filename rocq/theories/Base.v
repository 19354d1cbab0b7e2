(** * Common definitions: results, traversals, hash maps

    Nothing in this file is specific to wot-td; it fixes how the Rust standard
    library notions the crate uses are represented. *)

From Coq Require Import List String Ascii Bool Arith ZArith Lia Permutation.
Import ListNotations.
Local Open Scope string_scope.
Local Open Scope list_scope.
Set Implicit Arguments.

(** ** Option monad (decoders) *)

(** The [?] operator on options, as in src/thing.rs 1688 for results. *)
Definition obind {A B} (x : option A) (f : A -> option B) : option B :=
  match x with Some a => f a | None => None end.

Notation "'let?' x ':=' e 'in' f" := (obind e (fun x => f))
  (at level 200, x pattern, e at level 100, f at level 200, right associativity).

(** [Iterator::collect::<Option<_>>] / [Result<_,_>] without the error. Used by the decoders of src/thing.rs 51-167. *)
Fixpoint omap_all {A B} (f : A -> option B) (l : list A) : option (list B) :=
  match l with
  | [] => Some []
  | a :: l' =>
      match f a with
      | Some b => match omap_all f l' with Some l'' => Some (b :: l'') | None => None end
      | None => None
      end
  end.

(** [Option::into_iter]: no or one element (no line of its own in /repo). *)
Definition otolist {A} (o : option A) : list A :=
  match o with Some a => [a] | None => [] end.

(** ** Results (builder) *)

(** [Result], src/builder.rs 761. *)
Inductive result (E A : Type) : Type :=
| Ok (a : A)
| Err (e : E).
Arguments Ok {E A} a.
Arguments Err {E A} e.

(** The [?] operator, src/builder.rs 826, 843. *)
Definition rbind {E A B} (x : result E A) (f : A -> result E B) : result E B :=
  match x with Ok a => f a | Err e => Err e end.

Notation "'let!' x ':=' e 'in' f" := (rbind e (fun x => f))
  (at level 200, x pattern, e at level 100, f at level 200, right associativity).

(** [iter.map(f).collect::<Result<Vec<_>, _>>()]: stops at the first error. src/builder.rs 841, 3016. *)
Fixpoint rmap_all {E A B} (f : A -> result E B) (l : list A) : result E (list B) :=
  match l with
  | [] => Ok []
  | a :: l' =>
      match f a with
      | Ok b => match rmap_all f l' with Ok l'' => Ok (b :: l'') | Err e => Err e end
      | Err e => Err e
      end
  end.

(** [iter.try_for_each(f)]. src/builder.rs 817, 996, 1040. *)
Fixpoint rfor_each {E A} (f : A -> result E unit) (l : list A) : result E unit :=
  match l with
  | [] => Ok tt
  | a :: l' => match f a with Ok _ => rfor_each f l' | Err e => Err e end
  end.

(** [opt.map(f).transpose()]. src/builder.rs 843, 937. *)
Definition ropt {E A B} (f : A -> result E B) (o : option A) : result E (option B) :=
  match o with
  | None => Ok None
  | Some a => match f a with Ok b => Ok (Some b) | Err e => Err e end
  end.

(** [Result::is_ok] (no line of its own in /repo). *)
Definition is_ok {E A} (r : result E A) : bool :=
  match r with Ok _ => true | Err _ => false end.

(** [vec.is_empty().not().then_some(vec)]. src/builder.rs 828, 3017. *)
Definition nonempty {A} (l : list A) : option (list A) :=
  match l with [] => None | _ => Some l end.

(** [get_or_insert_with(Default::default).push(x)]. src/builder.rs 1135, 2150. *)
Definition opush {A} (o : option (list A)) (x : A) : option (list A) :=
  match o with None => Some [x] | Some l => Some (l ++ [x]) end.

(** [slice::contains]: whether a member name is listed, as in the derived readers of src/thing.rs 51-167. *)
Definition smem (k : string) (l : list string) : bool := existsb (String.eqb k) l.

(** ** String order *)

(** [Ord for String]: the order of the keys of a [BTreeMap], as in [serde_json::Map] (src/thing.rs 61). *)
Definition slt (a b : string) : Prop := String.compare a b = Lt.
(** The same, decided. *)
Definition sltb (a b : string) : bool :=
  match String.compare a b with Lt => true | _ => false end.

Lemma scompare_refl a : String.compare a a = Eq.
Proof.
  induction a as [|x a IH]; simpl; auto.
  unfold Ascii.compare. rewrite N.compare_refl. exact IH.
Qed.

Lemma slt_irrefl a : ~ slt a a.
Proof. unfold slt. rewrite scompare_refl. discriminate. Qed.

Lemma ascii_compare_refl c : Ascii.compare c c = Eq.
Proof. unfold Ascii.compare. apply N.compare_refl. Qed.

Lemma ascii_compare_eq c d : Ascii.compare c d = Eq -> c = d.
Proof. apply Ascii.compare_eq_iff. Qed.

Lemma slt_trans a b c : slt a b -> slt b c -> slt a c.
Proof.
  unfold slt. revert b c. induction a as [|x a IH]; intros [|y b] [|z c]; simpl; try discriminate; auto.
  destruct (Ascii.compare x y) eqn:Hxy; try discriminate.
  - apply ascii_compare_eq in Hxy; subst y.
    destruct (Ascii.compare x z) eqn:Hxz; try discriminate; eauto.
  - intros _. destruct (Ascii.compare y z) eqn:Hyz; try discriminate.
    + apply ascii_compare_eq in Hyz; subst z. rewrite Hxy. auto.
    + intros _.
      assert (Ascii.compare x z = Lt) as ->; auto.
      unfold Ascii.compare in *. rewrite N.compare_lt_iff in *. lia.
Qed.

Lemma scompare_gt a b : String.compare a b = Gt -> slt b a.
Proof. unfold slt. rewrite String.compare_antisym. destruct (String.compare b a); simpl; congruence. Qed.

Lemma slt_gt a b : slt a b -> String.compare b a = Gt.
Proof. unfold slt. rewrite String.compare_antisym. destruct (String.compare b a); simpl; congruence. Qed.

(** ** Hash maps

    [HashMap<String, A>] (and [BTreeMap]-backed [serde_json::Map]) as an
    association list sorted by key without repetition; this makes Coq equality
    the map equality.  Simplification: the iteration order of a [HashMap] is
    not the list order; code that iterates over one goes through an explicit
    reordering (see [Builder.v]). *)

(** E.g. src/builder.rs 281. *)
Definition amap (A : Type) := list (string * A).

(** [HashMap::keys] (src/builder.rs 281). *)
Definition mkeys {A} (m : amap A) : list string := map fst m.

(** [HashMap::get] (src/builder.rs 797). *)
Fixpoint mlook {A} (k : string) (m : amap A) : option A :=
  match m with
  | [] => None
  | (k', v) :: m' => if String.eqb k k' then Some v else mlook k m'
  end.

(** [HashMap::contains_key], src/builder.rs 819, 997, 1042. *)
Definition mhas {A} (k : string) (m : amap A) : bool :=
  match mlook k m with Some _ => true | None => false end.

(** [HashMap::insert]. src/builder.rs 1552, 1675. *)
Fixpoint minsert {A} (k : string) (v : A) (m : amap A) : amap A :=
  match m with
  | [] => [(k, v)]
  | (k', v') :: m' =>
      match String.compare k k' with
      | Lt => (k, v) :: m
      | Eq => (k, v) :: m'
      | Gt => (k', v') :: minsert k v m'
      end
  end.

(** [iter.collect::<HashMap<_, _>>()]: later entries win. src/builder.rs 860, 1792. *)
Definition mof {A} (l : list (string * A)) : amap A :=
  fold_left (fun m kv => minsert (fst kv) (snd kv) m) l [].

(** A list is a legitimate map representation. No counterpart in /repo: [HashMap] needs no such condition. *)
Fixpoint msorted {A} (m : amap A) : Prop :=
  match m with
  | [] => True
  | (k, _) :: m' => (forall k', In k' (mkeys m') -> slt k k') /\ msorted m'
  end.

(** [iter.map(|(k, v)| (k, f(v))).collect()], src/builder.rs 860. *)
Definition mmap {A B} (f : A -> B) (m : amap A) : amap B :=
  map (fun kv => (fst kv, f (snd kv))) m.

(** ** Facts about maps *)

Lemma eqb_sym a b : String.eqb a b = String.eqb b a.
Proof. apply String.eqb_sym. Qed.

Lemma mlook_minsert A k k' (v : A) m :
  msorted m ->
  mlook k (minsert k' v m) = if String.eqb k k' then Some v else mlook k m.
Proof.
  induction m as [|[k0 v0] m IH]; intros Hs; simpl.
  - reflexivity.
  - destruct Hs as [Hlt Hs].
    destruct (String.compare k' k0) eqn:Hc; simpl.
    + apply String.compare_eq_iff in Hc; subst k0.
      destruct (String.eqb k k') eqn:He; auto.
    + destruct (String.eqb k k') eqn:He; auto.
    + rewrite IH by auto.
      destruct (String.eqb k k0) eqn:He; auto.
      apply String.eqb_eq in He; subst k0.
      destruct (String.eqb k k') eqn:He'; auto.
      apply String.eqb_eq in He'; subst k'. rewrite scompare_refl in Hc. discriminate.
Qed.

Lemma mkeys_minsert A k (v : A) m x :
  In x (mkeys (minsert k v m)) <-> x = k \/ In x (mkeys m).
Proof.
  induction m as [|[k0 v0] m IH]; simpl.
  - intuition.
  - destruct (String.compare k k0) eqn:Hc; simpl.
    + apply String.compare_eq_iff in Hc; subst k0. intuition.
    + intuition.
    + rewrite IH. intuition.
Qed.

Lemma msorted_minsert A k (v : A) m : msorted m -> msorted (minsert k v m).
Proof.
  induction m as [|[k0 v0] m IH]; intros Hs; simpl.
  - split; auto. intros ? [].
  - destruct Hs as [Hlt Hs].
    destruct (String.compare k k0) eqn:Hc; simpl.
    + apply String.compare_eq_iff in Hc; subst k0. split; auto.
    + split; [|split; auto].
      intros x [<-|Hx]; auto. eapply slt_trans; [exact Hc|auto].
    + split; auto. intros x Hx. apply mkeys_minsert in Hx as [->|Hx]; auto.
      apply scompare_gt; auto.
Qed.

Lemma mlook_None A k (m : amap A) : mlook k m = None <-> ~ In k (mkeys m).
Proof.
  induction m as [|[k0 v0] m IH]; simpl.
  - intuition.
  - destruct (String.eqb k k0) eqn:He.
    + apply String.eqb_eq in He; subst. intuition discriminate.
    + apply String.eqb_neq in He. rewrite IH. intuition.
Qed.

Lemma mlook_Some_In A k (v : A) m : mlook k m = Some v -> In (k, v) m.
Proof.
  induction m as [|[k0 v0] m IH]; simpl; try discriminate.
  destruct (String.eqb k k0) eqn:He; intros H.
  - apply String.eqb_eq in He; subst. inversion H; subst. auto.
  - right; auto.
Qed.

Lemma msorted_NoDup A (m : amap A) : msorted m -> NoDup (mkeys m).
Proof.
  induction m as [|[k v] m IH]; simpl; intros H; constructor.
  - intros Hin. apply H in Hin. eapply slt_irrefl; eauto.
  - apply IH, H.
Qed.

Lemma In_mlook A k (v : A) m : NoDup (mkeys m) -> In (k, v) m -> mlook k m = Some v.
Proof.
  induction m as [|[k0 v0] m IH]; simpl; intros Hnd Hin; [tauto|].
  inversion Hnd; subst. destruct Hin as [Hin|Hin].
  - inversion Hin; subst. rewrite String.eqb_refl. reflexivity.
  - destruct (String.eqb k k0) eqn:He; auto.
    apply String.eqb_eq in He; subst. exfalso. apply H1.
    unfold mkeys. rewrite in_map_iff. exists (k0, v); auto.
Qed.

Lemma mhas_In A k (m : amap A) : mhas k m = true <-> In k (mkeys m).
Proof.
  unfold mhas. destruct (mlook k m) eqn:H.
  - split; auto. intros _. apply mlook_Some_In in H. unfold mkeys.
    rewrite in_map_iff. exists (k, a); auto.
  - apply mlook_None in H. intuition discriminate.
Qed.

Lemma mlook_minus A (m : amap A) k0 (v0 : A) :
  msorted ((k0, v0) :: m) -> mlook k0 m = None.
Proof. intros [H _]. apply mlook_None. intros Hin. apply H in Hin. eapply slt_irrefl; eauto. Qed.

Lemma mext A (m1 m2 : amap A) :
  msorted m1 -> msorted m2 -> (forall k, mlook k m1 = mlook k m2) -> m1 = m2.
Proof.
  revert m2. induction m1 as [|[k1 v1] m1 IH]; intros [|[k2 v2] m2] H1 H2 H.
  - reflexivity.
  - specialize (H k2). simpl in H. rewrite String.eqb_refl in H. discriminate.
  - specialize (H k1). simpl in H. rewrite String.eqb_refl in H. discriminate.
  - assert (k1 = k2) as ->.
    { destruct (String.compare k1 k2) eqn:Hc.
      - apply String.compare_eq_iff; auto.
      - pose proof (H k1) as Hk. simpl in Hk. rewrite String.eqb_refl in Hk.
        destruct (String.eqb k1 k2) eqn:He.
        { apply String.eqb_eq in He; auto. }
        symmetry in Hk. apply mlook_Some_In in Hk.
        destruct H2 as [H2 _].
        assert (slt k2 k1). { apply H2. unfold mkeys. rewrite in_map_iff. eexists (_,_); simpl; eauto. }
        exfalso. eapply slt_irrefl, slt_trans; eauto.
      - pose proof (H k2) as Hk. simpl in Hk. rewrite String.eqb_refl in Hk.
        destruct (String.eqb k2 k1) eqn:He.
        { apply String.eqb_eq in He; auto. }
        apply mlook_Some_In in Hk.
        destruct H1 as [H1 _].
        assert (slt k1 k2). { apply H1. unfold mkeys. rewrite in_map_iff. eexists (_,_); simpl; eauto. }
        apply scompare_gt in Hc. exfalso. eapply slt_irrefl, slt_trans; eauto. }
    pose proof (H k2) as Hk. simpl in Hk. rewrite String.eqb_refl in Hk. inversion Hk; subst v2.
    f_equal. apply IH; [apply H1|apply H2|].
    intros k. destruct (String.eqb k k2) eqn:He.
    + apply String.eqb_eq in He; subst k. erewrite !mlook_minus; eauto.
    + specialize (H k). simpl in H. rewrite He in H. exact H.
Qed.

Lemma msorted_fold A (l : list (string * A)) m :
  msorted m -> msorted (fold_left (fun m kv => minsert (fst kv) (snd kv) m) l m).
Proof. revert m. induction l as [|a l IH]; simpl; intros; auto. apply IH, msorted_minsert; auto. Qed.

Lemma msorted_mof A (l : list (string * A)) : msorted (mof l).
Proof. apply msorted_fold. exact I. Qed.

(** Last value given for a key. What [insert] leaves (src/builder.rs 1778). *)
Fixpoint llook {A} (k : string) (l : list (string * A)) : option A :=
  match l with
  | [] => None
  | (k', v) :: l' =>
      match llook k l' with
      | Some w => Some w
      | None => if String.eqb k k' then Some v else None
      end
  end.

Lemma mlook_fold A k (l : list (string * A)) m :
  msorted m ->
  mlook k (fold_left (fun m kv => minsert (fst kv) (snd kv) m) l m)
  = match llook k l with Some v => Some v | None => mlook k m end.
Proof.
  revert m. induction l as [|[k0 v0] l IH]; simpl; intros m Hm; auto.
  rewrite IH by (apply msorted_minsert; auto).
  rewrite mlook_minsert by auto.
  destruct (llook k l); auto. destruct (String.eqb k k0); auto.
Qed.

Lemma mlook_mof A k (l : list (string * A)) : mlook k (mof l) = llook k l.
Proof. unfold mof. rewrite mlook_fold by exact I. destruct (llook k l); auto. Qed.

Lemma llook_None A k (l : list (string * A)) : llook k l = None <-> ~ In k (map fst l).
Proof.
  induction l as [|[k0 v0] l IH]; simpl.
  - intuition.
  - destruct (llook k l) eqn:Hl.
    + assert (In k (map fst l)).
      { destruct (in_dec string_dec k (map fst l)); auto. exfalso. apply IH in n. discriminate. }
      intuition discriminate.
    + destruct (String.eqb k k0) eqn:He.
      * apply String.eqb_eq in He; subst. intuition discriminate.
      * apply String.eqb_neq in He. intuition.
Qed.

Lemma llook_NoDup A k (l : list (string * A)) : NoDup (map fst l) -> llook k l = mlook k l.
Proof.
  induction l as [|[k0 v0] l IH]; simpl; intros Hnd; auto.
  inversion Hnd; subst.
  destruct (String.eqb k k0) eqn:He.
  - apply String.eqb_eq in He; subst k0. apply llook_None in H1. rewrite H1. reflexivity.
  - rewrite IH by auto. destruct (mlook k l); auto.
Qed.

Lemma mkeys_mof A (l : list (string * A)) k : In k (mkeys (mof l)) <-> In k (map fst l).
Proof.
  destruct (mlook k (mof l)) eqn:H.
  - assert (In k (mkeys (mof l))).
    { apply mhas_In. unfold mhas. rewrite H. reflexivity. }
    rewrite mlook_mof in H.
    split; auto. intros _. destruct (in_dec string_dec k (map fst l)); auto.
    apply llook_None in n. congruence.
  - pose proof H as H'. apply mlook_None in H'. rewrite mlook_mof in H. apply llook_None in H. tauto.
Qed.

Lemma Permutation_mlook A k (l l' : list (string * A)) :
  NoDup (map fst l) -> Permutation l l' -> mlook k l = mlook k l'.
Proof.
  intros Hnd Hp.
  assert (NoDup (map fst l')) by (eapply Permutation_NoDup; [apply Permutation_map; eauto|auto]).
  destruct (mlook k l) eqn:H1.
  - apply mlook_Some_In in H1. symmetry. apply In_mlook; auto. eapply Permutation_in; eauto.
  - symmetry. apply mlook_None. apply mlook_None in H1. intros Hin. apply H1.
    eapply Permutation_in; [|exact Hin]. apply Permutation_map, Permutation_sym; auto.
Qed.

(** Collecting the entries of a map in any order gives the map back. *)
Lemma mof_Permutation A (m : amap A) l : msorted m -> Permutation l m -> mof l = m.
Proof.
  intros Hs Hp. apply mext; auto using msorted_mof.
  intros k. rewrite mlook_mof.
  assert (NoDup (map fst l)).
  { eapply Permutation_NoDup; [apply Permutation_map, Permutation_sym; eauto|]. apply msorted_NoDup; auto. }
  rewrite llook_NoDup by auto.
  apply Permutation_mlook; auto.
Qed.

Lemma mof_sorted A (m : amap A) : msorted m -> mof m = m.
Proof. intros. apply mof_Permutation; auto. Qed.

Lemma mof_Permutation_eq A (l l' : list (string * A)) :
  NoDup (map fst l) -> Permutation l l' -> mof l = mof l'.
Proof.
  intros Hnd Hp. apply mext; auto using msorted_mof.
  intros k. rewrite !mlook_mof.
  rewrite !llook_NoDup; auto.
  - apply Permutation_mlook; auto.
  - eapply Permutation_NoDup; [apply Permutation_map; eauto|auto].
Qed.

Lemma msorted_mmap A B (f : A -> B) (m : amap A) : msorted (mmap f m) <-> msorted m.
Proof.
  unfold mmap. induction m as [|[k v] m IH]; simpl; [tauto|].
  rewrite IH. unfold mkeys. rewrite map_map. simpl. tauto.
Qed.

Lemma mkeys_mmap A B (f : A -> B) (m : amap A) : mkeys (mmap f m) = mkeys m.
Proof. unfold mkeys, mmap. rewrite map_map. reflexivity. Qed.

Lemma mlook_mmap A B (f : A -> B) k (m : amap A) :
  mlook k (mmap f m) = option_map f (mlook k m).
Proof. induction m as [|[k0 v0] m IH]; simpl; auto. destruct (String.eqb k k0); auto. Qed.

(** ** Facts about traversals *)

Lemma omap_all_Some A B (f : A -> option B) l l' :
  omap_all f l = Some l' <-> Forall2 (fun a b => f a = Some b) l l'.
Proof.
  revert l'. induction l as [|a l IH]; simpl; intros l'.
  - split; intros H; inversion H; subst; auto.
  - destruct (f a) eqn:Hf; [destruct (omap_all f l) eqn:Hl|].
    + split; intros H.
      * inversion H; subst. constructor; auto. apply IH; auto.
      * inversion H; subst. apply IH in H4. congruence.
    + split; intros H; [discriminate|]. inversion H; subst. apply IH in H4. discriminate.
    + split; intros H; [discriminate|]. inversion H; subst. congruence.
Qed.

Lemma omap_all_ext A B (f g : A -> option B) l :
  (forall a, In a l -> f a = g a) -> omap_all f l = omap_all g l.
Proof.
  induction l as [|a l IH]; simpl; intros H; auto.
  rewrite H by auto. rewrite IH by auto. reflexivity.
Qed.

Lemma omap_all_map A B C (f : B -> option C) (g : A -> B) l :
  omap_all f (map g l) = omap_all (fun a => f (g a)) l.
Proof. induction l as [|a l IH]; simpl; auto. rewrite IH. reflexivity. Qed.

Lemma omap_all_id A (f : A -> option A) l :
  (forall a, In a l -> f a = Some a) -> omap_all f l = Some l.
Proof.
  intros H. apply omap_all_Some. induction l; constructor; auto with datatypes.
Qed.

Lemma rmap_all_Ok E A B (f : A -> result E B) l l' :
  rmap_all f l = Ok l' <-> Forall2 (fun a b => f a = Ok b) l l'.
Proof.
  revert l'. induction l as [|a l IH]; simpl; intros l'.
  - split; intros H; inversion H; subst; auto.
  - destruct (f a) eqn:Hf; [destruct (rmap_all f l) eqn:Hl|].
    + split; intros H.
      * inversion H; subst. constructor; auto. apply IH; auto.
      * inversion H; subst. apply IH in H4. congruence.
    + split; intros H; [discriminate|]. inversion H; subst. apply IH in H4. discriminate.
    + split; intros H; [discriminate|]. inversion H; subst. congruence.
Qed.

Lemma rmap_all_Err E A B (f : A -> result E B) l e :
  rmap_all f l = Err e -> exists a, In a l /\ f a = Err e.
Proof.
  induction l as [|a l IH]; simpl; [discriminate|].
  destruct (f a) eqn:Hf.
  - destruct (rmap_all f l); intros H; inversion H; subst.
    destruct IH as (x & Hx & Hfx); auto. eauto.
  - intros H; inversion H; subst. eauto.
Qed.

Lemma rmap_all_ok_iff E A B (f : A -> result E B) l :
  is_ok (rmap_all f l) = true <-> (forall a, In a l -> is_ok (f a) = true).
Proof.
  induction l as [|a l IH]; simpl.
  - split; [intros _ ? []|auto].
  - destruct (f a) eqn:Hf.
    + destruct (rmap_all f l); simpl in *.
      * split; auto. intros _ x [<-|Hx]; [rewrite Hf; auto|]. apply IH; auto.
      * split; [discriminate|]. intros H. apply IH. auto.
    + simpl. split; [discriminate|]. intros H. specialize (H a (or_introl eq_refl)).
      rewrite Hf in H. discriminate.
Qed.

Lemma rfor_each_Ok E A (f : A -> result E unit) l :
  rfor_each f l = Ok tt <-> (forall a, In a l -> f a = Ok tt).
Proof.
  induction l as [|a l IH]; simpl.
  - split; [intros _ ? []|auto].
  - destruct (f a) eqn:Hf.
    + destruct a0. rewrite IH. split.
      * intros H x [<-|Hx]; auto.
      * auto.
    + split; [discriminate|]. intros H. rewrite <- (H a); auto.
Qed.

Lemma rfor_each_Err E A (f : A -> result E unit) l e :
  rfor_each f l = Err e -> exists a, In a l /\ f a = Err e.
Proof.
  induction l as [|a l IH]; simpl; [discriminate|].
  destruct (f a) eqn:Hf.
  - intros H. destruct IH as (x & Hx & Hfx); eauto.
  - intros H; inversion H; subst. eauto.
Qed.

Lemma smem_In k l : smem k l = true <-> In k l.
Proof.
  unfold smem. rewrite existsb_exists. split.
  - intros (x & Hx & He). apply String.eqb_eq in He; subst; auto.
  - intros H. exists k. rewrite String.eqb_refl. auto.
Qed.
