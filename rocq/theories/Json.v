(** * JSON values and documents *)

From Coq Require Import String Bool ZArith Permutation Lia List.
From Coq Require Import Floats.SpecFloat.
From Verif Require Import Base MinMax.
Import ListNotations.
Set Implicit Arguments.
Local Open Scope string_scope.
Local Open Scope list_scope.

(** A JSON document.  Objects are entry lists that keep order and repeated
    members, as a text document does.  Numbers are what serde_json's [Number]
    distinguishes: integers and floats.  Texts are in [JsonText.v]. [serde_json::Value], src/thing.rs 61. *)
Inductive json :=
| JNull
| JBool (b : bool)
| JInt (n : Z)
| JFloat (x : f64)
| JStr (s : string)
| JArr (l : list json)
| JObj (es : list (string * json)).

(** The members of an object (src/thing.rs 61). *)
Definition entries := list (string * json).

Section JsonInd.
  Variable P : json -> Prop.
  Hypothesis Hnull : P JNull.
  Hypothesis Hbool : forall b, P (JBool b).
  Hypothesis Hint : forall n, P (JInt n).
  Hypothesis Hfloat : forall x, P (JFloat x).
  Hypothesis Hstr : forall s, P (JStr s).
  Hypothesis Harr : forall l, (forall j, In j l -> P j) -> P (JArr l).
  Hypothesis Hobj : forall es, (forall k j, In (k, j) es -> P j) -> P (JObj es).

  (** Induction over documents; no counterpart in /repo. *)
  Fixpoint json_ind' (j : json) : P j :=
    match j with
    | JNull => Hnull
    | JBool b => Hbool b
    | JInt n => Hint n
    | JFloat x => Hfloat x
    | JStr s => Hstr s
    | JArr l =>
        Harr l ((fix go (l : list json) : forall j, In j l -> P j :=
           match l with
           | [] => fun _ H => match H with end
           | a :: l' => fun j H =>
               match H with
               | or_introl E => eq_ind a P (json_ind' a) j E
               | or_intror H' => go l' j H'
               end
           end) l)
    | JObj es =>
        Hobj es ((fix go (es : list (string * json)) : forall k j, In (k, j) es -> P j :=
           match es with
           | [] => fun _ _ H => match H with end
           | (k0, a) :: es' => fun k j H =>
               match H with
               | or_introl E => eq_ind a P (json_ind' a) j (f_equal snd E)
               | or_intror H' => go es' k j H'
               end
           end) es)
    end.
End JsonInd.

(** All values given for a member name, in document order. No counterpart in /repo: what serde hands to a derived reader (src/thing.rs 51-167). *)
Definition get (k : string) (es : entries) : list json :=
  map snd (filter (fun kv => String.eqb k (fst kv)) es).

(** Drop the members whose name is listed. What is left for flattened members (src/thing.rs 165). *)
Definition without (ks : list string) (es : entries) : entries :=
  filter (fun kv => negb (smem (fst kv) ks)) es.

(** Nesting depth. No counterpart in /repo; bounds the recursion of the readers. *)
Fixpoint jdepth (j : json) : nat :=
  match j with
  | JArr l => S (fold_right (fun j n => Nat.max (jdepth j) n) 0 l)
  | JObj es => S (fold_right (fun kv n => Nat.max (jdepth (snd kv)) n) 0 es)
  | _ => 0
  end.

(** [serde_json::Value::deserialize]: objects become sorted maps, the last of
    repeated members wins (serde_json without [preserve_order]). src/thing.rs 61, 694, 697, 707, 1178. *)
Fixpoint canon (j : json) : json :=
  match j with
  | JArr l => JArr (map canon l)
  | JObj es => JObj (mof (map (fun kv => (fst kv, canon (snd kv))) es))
  | _ => j
  end.

(** A [serde_json::Value]: objects sorted without repetition, floats finite. src/thing.rs 61. *)
Inductive value_ok : json -> Prop :=
| V_null : value_ok JNull
| V_bool b : value_ok (JBool b)
| V_int n : value_ok (JInt n)
| V_float x : f64_finite x = true -> value_ok (JFloat x)
| V_str s : value_ok (JStr s)
| V_arr l : (forall j, In j l -> value_ok j) -> value_ok (JArr l)
| V_obj es : msorted es -> (forall k j, In (k, j) es -> value_ok j) -> value_ok (JObj es).

(** [Value::serialize]; [mk] assembles objects, see [Serde.v]. src/thing.rs 61, 694. *)
Fixpoint ser_value (mk : entries -> json) (j : json) : json :=
  match j with
  | JArr l => JArr (map (ser_value mk) l)
  | JObj es => mk (map (fun kv => (fst kv, ser_value mk (snd kv))) es)
  | _ => j
  end.

(** ** Facts *)

Lemma get_nil k : get k [] = [].
Proof. reflexivity. Qed.

Lemma get_cons k k' v es :
  get k ((k', v) :: es) = if String.eqb k k' then v :: get k es else get k es.
Proof. unfold get. simpl. destruct (String.eqb k k'); reflexivity. Qed.

Lemma get_app k es es' : get k (es ++ es') = get k es ++ get k es'.
Proof. unfold get. rewrite filter_app, map_app. reflexivity. Qed.

Lemma get_In k v es : In v (get k es) <-> In (k, v) es.
Proof.
  unfold get. rewrite in_map_iff. split.
  - intros ([k' v'] & <- & H). apply filter_In in H as [H He]. simpl in *.
    apply String.eqb_eq in He; subst; auto.
  - intros H. exists (k, v). split; auto. apply filter_In. simpl. rewrite String.eqb_refl. auto.
Qed.

Lemma get_nil_iff k es : get k es = [] <-> ~ In k (map fst es).
Proof.
  split.
  - intros H Hin. apply in_map_iff in Hin as ([k' v] & E & Hin). simpl in E; subst k'.
    apply get_In in Hin. rewrite H in Hin. destruct Hin.
  - intros H. destruct (get k es) eqn:E; auto.
    exfalso. apply H. apply in_map_iff. exists (k, j). split; auto.
    apply get_In. rewrite E. left; auto.
Qed.

Lemma get_without k ks es : get k (without ks es) = if smem k ks then [] else get k es.
Proof.
  unfold without. induction es as [|[k' v] es IH]; simpl.
  - destruct (smem k ks); reflexivity.
  - destruct (smem k' ks) eqn:Hk'; simpl.
    + rewrite IH, get_cons. destruct (String.eqb k k') eqn:He; auto.
      apply String.eqb_eq in He; subst. rewrite Hk'. auto.
    + rewrite !get_cons, IH. destruct (String.eqb k k') eqn:He; auto.
      apply String.eqb_eq in He; subst. rewrite Hk'. auto.
Qed.

Lemma get_mlook_NoDup k es : NoDup (map fst es) -> get k es = otolist (mlook k es).
Proof.
  induction es as [|[k' v] es IH]; simpl; intros H; auto.
  inversion H; subst. rewrite get_cons.
  destruct (String.eqb k k') eqn:He; auto.
  apply String.eqb_eq in He; subst. simpl. f_equal. apply get_nil_iff; auto.
Qed.

Lemma get_length_NoDup k es : NoDup (map fst es) -> length (get k es) <= 1.
Proof. intros H. rewrite get_mlook_NoDup by auto. destruct (mlook k es); simpl; lia. Qed.

(** [slice::last]; no counterpart in /repo. *)
Fixpoint lasto {A} (l : list A) : option A :=
  match l with
  | [] => None
  | a :: l' => match lasto l' with Some b => Some b | None => Some a end
  end.

Lemma llook_get k es : llook k es = lasto (get k es).
Proof.
  induction es as [|[k' v] es IH]; auto.
  rewrite get_cons. simpl. rewrite IH. destruct (String.eqb k k'); simpl.
  - reflexivity.
  - destruct (lasto (get k es)); reflexivity.
Qed.

Lemma lasto_single A (l : list A) : length l <= 1 -> otolist (lasto l) = l.
Proof. destruct l as [|a [|b l]]; simpl; auto; lia. Qed.

Lemma get_mof k es : get k (mof es) = otolist (lasto (get k es)).
Proof.
  rewrite get_mlook_NoDup by (apply msorted_NoDup, msorted_mof).
  rewrite mlook_mof, llook_get. reflexivity.
Qed.

Lemma canon_ok j : value_ok j -> canon j = j.
Proof.
  induction 1; simpl; auto.
  - f_equal. rewrite <- (map_id l) at 2. apply map_ext_in; auto.
  - f_equal.
    assert (map (fun kv => (fst kv, canon (snd kv))) es = es) as ->.
    { rewrite <- (map_id es) at 2. apply map_ext_in. intros [k v] Hin. simpl.
      erewrite H1; eauto. }
    apply mof_sorted; auto.
Qed.

Lemma In_mof A k (v : A) l : In (k, v) (mof l) -> In (k, v) l.
Proof.
  intros H. apply In_mlook in H; [|apply msorted_NoDup, msorted_mof].
  rewrite mlook_mof in H. revert H.
  induction l as [|[k' v'] l IH]; simpl; [discriminate|].
  destruct (llook k l) eqn:E.
  - intros H. inversion H; subst. auto.
  - destruct (String.eqb k k') eqn:He; intros H; inversion H; subst.
    apply String.eqb_eq in He; subst; auto.
Qed.

Lemma jdepth_obj k v es : In (k, v) es -> jdepth v < jdepth (JObj es).
Proof.
  simpl. intros H. apply Nat.lt_succ_r. induction es as [|[k' v'] es IH]; [destruct H|].
  destruct H as [H|H]; simpl.
  - inversion H; subst. lia.
  - apply IH in H. lia.
Qed.

Lemma jdepth_arr v l : In v l -> jdepth v < jdepth (JArr l).
Proof.
  simpl. intros H. apply Nat.lt_succ_r. induction l as [|a l IH]; [destruct H|].
  destruct H as [H|H]; simpl.
  - inversion H; subst. lia.
  - apply IH in H. lia.
Qed.
