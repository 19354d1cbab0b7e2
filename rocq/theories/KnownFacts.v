(** * When a scheme is read as a known one *)

From Coq Require Import String Bool ZArith Permutation Lia List.
From Verif Require Import Base MinMax Json Serde Types Spec SpecSerde SpecDoc SpecMember SpecTyped Ser De SerdeFacts
  RoundTrip RoundTripDs RoundTripTd ProtocolFacts MemberFacts CanonFacts DecodedFacts NameFacts ShapeFacts.
Import ListNotations.
Set Implicit Arguments.
Local Open Scope string_scope.
Local Open Scope list_scope.

Definition works {A} (d : json -> option A) (v : json) : Prop := exists a, d v = Some a.

Lemma get_once k es : NoDup (map fst es) ->
  (get k es = [] /\ forall v, ~ In (k, v) es)
  \/ exists v, get k es = [v] /\ In (k, v) es /\ forall w, In (k, w) es -> w = v.
Proof.
  intros Hn. assert (forall v, In (k, v) es <-> In v (get k es)) as H.
  { intros v. symmetry. apply get_In. }
  pose proof (get_length_NoDup k _ Hn) as Hl. destruct (get k es) as [|v [|w l]].
  - left. split; auto. intros v F. apply H in F. destruct F.
  - right. exists v. split; auto. split; [apply H; left; auto|]. intros w F. apply H in F as [<-|[]]. auto.
  - simpl in Hl. lia.
Qed.

Lemma dflt_works A k (a : A) d es : NoDup (map fst es) ->
  ((exists x, dflt k a d es = Some x) <-> every k (works d) es).
Proof.
  intros Hn. unfold dflt. destruct (get_once k _ Hn) as [[-> H]|(v & -> & H & Hu)].
  - split; [|eauto]. intros _ v F. destruct (H v F).
  - split; [intros H' w F; rewrite (Hu w F); exact H'|]. intros H'. exact (H' v H).
Qed.

Lemma opt_works A k (d : json -> option A) es : NoDup (map fst es) ->
  ((exists x, opt k d es = Some x) <-> every k (optional (works d)) es).
Proof.
  intros Hn. unfold opt. destruct (get_once k _ Hn) as [[-> H]|(v & -> & H & Hu)].
  - split; [|eauto]. intros _ v F. destruct (H v F).
  - split.
    + intros [x H'] w F. rewrite (Hu w F).
      destruct v; try (left; reflexivity); right; destruct (d _) as [a|] eqn:Ed; try discriminate; exists a; exact Ed.
    + intros H'. destruct (H' v H) as [->|[a Ha]]; [eauto|]. exists (match v with JNull => None | _ => Some a end).
      rewrite Ha. destruct v; reflexivity.
Qed.

Lemma req_works A k (d : json -> option A) es : NoDup (map fst es) ->
  ((exists x, req k d es = Some x) <-> has k (works d) es).
Proof.
  intros Hn. unfold req. destruct (get_once k _ Hn) as [[-> H]|(v & -> & H & Hu)].
  - split; [intros [x F]; discriminate|]. intros (v & F & _). destruct (H v F).
  - split; [intros H'; exists v; auto|]. intros (w & F & H'). rewrite <- (Hu w F). exact H'.
Qed.

Lemma every_iff k P Q es : (forall v, P v <-> Q v) -> every k P es <-> every k Q es.
Proof. intros H. unfold every. split; intros G v Hv; apply H; auto. Qed.
Lemma has_iff k P Q es : (forall v, P v <-> Q v) -> has k P es <-> has k Q es.
Proof. intros H. unfold has. split; intros (v & Hv & G); exists v; split; auto; apply H; auto. Qed.
Lemma optional_iff P Q v : (forall v, P v <-> Q v) -> optional P v <-> optional Q v.
Proof. intros H. unfold optional. rewrite H. tauto. Qed.

Lemma str_works v : works d_str v <-> is_str v.
Proof.
  split; [intros [a H]; eapply str_shape; eauto|]. intros [s ->]. exists s. reflexivity.
Qed.

Lemma strs_list l : Forall is_str l -> exists m, omap_all d_str l = Some m.
Proof.
  induction 1 as [|v l [s ->] _ [m IH]]; [eexists; reflexivity|]. simpl. rewrite IH. eexists; reflexivity.
Qed.

Lemma oom_works v : works (d_oom d_str) v <-> str_or_strs v.
Proof.
  split; [intros [a H]; eapply oom_str_shape; eauto|]. intros [[s ->]|(l & -> & Hl)].
  - exists [s]. reflexivity.
  - destruct (strs_list Hl) as [m Hm]. exists m. unfold d_oom. simpl. exact Hm.
Qed.

Lemma assoc_works A (tbl : list (string * A)) s : (exists a, assoc_name s tbl = Some a) <-> In s (map fst tbl).
Proof.
  induction tbl as [|[n a] tbl IH]; simpl.
  - split; [intros [a H]; discriminate|intros []].
  - destruct (String.eqb s n) eqn:He.
    + apply String.eqb_eq in He. subst. split; eauto.
    + apply String.eqb_neq in He. rewrite IH. split; auto. intros [F|F]; auto. congruence.
Qed.

Lemma variant_works A (tbl : list (string * A)) names v : map fst tbl = names ->
  works (d_variant tbl) v <-> variant_of names v.
Proof.
  intros <-. unfold works, variant_of. split.
  - intros [a H]. destruct v as [| | | |s| |[|[s [| | | | | |]] [|]]]; try discriminate; exists s;
      (split; [apply assoc_works; eauto|auto]).
  - intros (s & Hs & [->| ->]); simpl; apply assoc_works; exact Hs.
Qed.

Lemma obind_works A B (o : option A) (f : A -> option B) (P Q : Prop) :
  ((exists a, o = Some a) <-> P) -> (forall a, (exists b, f a = Some b) <-> Q) ->
  (exists b, obind o f = Some b) <-> P /\ Q.
Proof.
  intros H1 H2. split.
  - intros [b H]. apply obind_inv in H as (a & Ha & Hb). split; [apply H1; eauto|]. apply (H2 a). eauto.
  - intros [HP HQ]. apply H1 in HP as [a ->]. simpl. apply H2. exact HQ.
Qed.

Lemma some_works A (a : A) : (exists b, Some a = Some b) <-> True.
Proof. split; eauto. Qed.

Lemma map_works A B (f : A -> B) o P : ((exists a, o = Some a) <-> P) -> (exists b, option_map f o = Some b) <-> P.
Proof.
  intros <-. destruct o; simpl; split; intros [x H]; try discriminate; eauto.
Qed.

Section Known.
  Variable es : entries.
  Hypothesis Hn : NoDup (map fst es).

  Lemma ostr_works k : (exists x, opt k d_str es = Some x) <-> every k (optional is_str) es.
  Proof.
    rewrite (@opt_works _ k d_str _ Hn). apply every_iff. intros v. apply optional_iff. apply str_works.
  Qed.
  Lemma dstr_works k a : (exists x, dflt k a d_str es = Some x) <-> every k is_str es.
  Proof. rewrite (@dflt_works _ k a d_str _ Hn). apply every_iff. apply str_works. Qed.
  Lemma dloc_works a : (exists x, dflt "in" a d_loc es = Some x)
    <-> every "in" (variant_of ["header"; "query"; "body"; "cookie"; "uri"]) es.
  Proof.
    rewrite (@dflt_works _ "in" a d_loc _ Hn). apply every_iff. intros v. apply variant_works. reflexivity.
  Qed.

  Lemma located_works l : (exists b, d_loc_name l es = Some b) <-> located es.
  Proof.
    unfold d_loc_name, located. apply obind_works; [apply dloc_works|]. intros x.
    rewrite (@obind_works _ _ _ _ (every "name" (optional is_str) es) (True)); [tauto|apply ostr_works|].
    intros. apply some_works.
  Qed.

  Definition kind_body (t : sec_kind) : option known_sec :=
    match t with
    | TkNoSec => Some KNoSec
    | TkAuto => Some KAuto
    | TkCombo => option_map KCombo (d_combo es)
    | TkBasic => option_map KBasic (d_loc_name LHeader es)
    | TkDigest =>
        let? q := req "qop" (d_variant qops) es in
        option_map (KDigest q) (d_loc_name LHeader es)
    | TkBearer => option_map KBearer (d_bearer es)
    | TkPsk => option_map KPsk (opt "identity" d_str es)
    | TkOAuth2 => option_map KOAuth2 (d_oauth2 es)
    | TkApiKey => option_map KApiKey (d_loc_name LQuery es)
    end.

  Lemma combo_works : (exists b, d_combo es = Some b) <->
    exists k v, es = [(k, v)] /\ (k = "oneOf" \/ k = "allOf") /\ str_or_strs v.
  Proof.
    clear Hn. unfold d_combo. split.
    - intros [b H]. destruct es as [|[k v] [|]]; try discriminate. exists k, v. split; auto.
      destruct (String.eqb k "oneOf") eqn:H1; [|destruct (String.eqb k "allOf") eqn:H2; [|discriminate]];
        (split; [try (apply String.eqb_eq in H1); try (apply String.eqb_eq in H2); auto|]);
        apply oom_works; destruct (d_oom d_str v) as [a|] eqn:Ha; try discriminate; exists a; exact Ha.
    - intros (k & v & -> & [->| ->] & H); apply oom_works in H as [a ->]; eexists; reflexivity.
  Qed.

  Lemma bearer_works : (exists b, d_bearer es = Some b) <->
    located es /\ every "authorization" (optional is_str) es /\ every "alg" is_str es /\ every "format" is_str es.
  Proof.
    unfold d_bearer.
    rewrite (@obind_works _ _ _ _ (every "authorization" (optional is_str) es) (every "alg" is_str es /\ every "format" is_str es /\ located es)); [tauto|apply ostr_works|].
    intros a. apply obind_works; [apply dstr_works|]. intros g. apply obind_works; [apply dstr_works|]. intros f.
    apply obind_works; [apply dloc_works|]. intros l.
    rewrite (@obind_works _ _ _ _ (every "name" (optional is_str) es) (True)); [tauto|apply ostr_works|].
    intros. apply some_works.
  Qed.

  Lemma oauth2_works : (exists b, d_oauth2 es = Some b) <->
    every "authorization" (optional is_str) es /\ every "token" (optional is_str) es
    /\ every "refresh" (optional is_str) es /\ every "scopes" (optional str_or_strs) es /\ has "flow" is_str es.
  Proof.
    unfold d_oauth2.
    do 3 (apply obind_works; [apply ostr_works|]; intros ?).
    apply obind_works.
    { rewrite (@opt_works _ "scopes" _ _ Hn). apply every_iff. intros v. apply optional_iff. apply oom_works. }
    intros s.
    rewrite (@obind_works _ _ _ _ (has "flow" is_str es) (True)); [tauto| |intros; apply some_works].
    rewrite (@req_works _ "flow" _ _ Hn). apply has_iff. apply str_works.
  Qed.

  Lemma digest_works : (exists b, kind_body TkDigest = Some b) <->
    located es /\ has "qop" (variant_of ["auth"; "auth-int"]) es.
  Proof.
    cbn [kind_body].
    rewrite (@obind_works _ _ _ _ (has "qop" (variant_of ["auth"; "auth-int"]) es) (located es)); [tauto| |].
    - rewrite (@req_works _ "qop" _ _ Hn). apply has_iff. intros v. apply variant_works. reflexivity.
    - intros q. apply map_works. apply located_works.
  Qed.

  Lemma body_known s : ~ In "scheme" (map fst es) ->
    d_known (("scheme", JStr s) :: es) = (let? t := assoc_name s sec_names in kind_body t).
  Proof.
    intros Hs. unfold d_known, req. rewrite get_cons, (proj2 (get_nil_iff "scheme" es) Hs).
    cbn [String.eqb Ascii.eqb Bool.eqb d_tag].
    assert (without ["scheme"] (("scheme", JStr s) :: es) = es) as ->; [|reflexivity].
    unfold without. simpl. clear -Hs. induction es as [|[k v] l IH]; simpl; auto.
    destruct (String.eqb k "scheme") eqn:He; simpl.
    - apply String.eqb_eq in He. subst. destruct Hs. left; auto.
    - f_equal. apply IH. intros F. apply Hs. right; auto.
  Qed.

  Lemma known_works s : ~ In "scheme" (map fst es) ->
    ((exists k, d_known (("scheme", JStr s) :: es) = Some k) <-> looks_known es s).
  Proof.
    intros Hs. rewrite (body_known s Hs). split.
    - intros [k H]. apply obind_inv in H as (t & Ht & H). unfold sec_names in Ht. simpl in Ht.
      assert (exists k, kind_body t = Some k) as Hb by eauto. clear H k.
      repeat match type of Ht with
      | (if String.eqb s ?n then _ else _) = _ =>
          let He := fresh "He" in destruct (String.eqb s n) eqn:He;
          [apply String.eqb_eq in He; subst s; injection Ht as <-|clear He]
      end; try discriminate Ht.
      + constructor.
      + constructor.
      + cbn [kind_body] in Hb. rewrite (map_works _ combo_works) in Hb.
        destruct Hb as (k & v & H1 & H2 & H3). eapply lk_combo; eauto.
      + cbn [kind_body] in Hb. rewrite (map_works _ (located_works LHeader)) in Hb. constructor. exact Hb.
      + apply digest_works in Hb as [H1 H2]. constructor; auto.
      + cbn [kind_body] in Hb. rewrite (map_works _ bearer_works) in Hb. constructor; tauto.
      + cbn [kind_body] in Hb. rewrite (map_works _ (ostr_works "identity")) in Hb. constructor. exact Hb.
      + cbn [kind_body] in Hb. rewrite (map_works _ oauth2_works) in Hb. constructor; tauto.
      + cbn [kind_body] in Hb. rewrite (map_works _ (located_works LQuery)) in Hb. constructor. exact Hb.
    - intros H.
      inversion H; subst s; cbn [assoc_name sec_names String.eqb Ascii.eqb Bool.eqb obind kind_body].
      + eauto.
      + eauto.
      + apply (map_works _ combo_works). eauto 6.
      + apply (map_works _ (located_works LHeader)). auto.
      + apply (map_works _ (located_works LQuery)). auto.
      + apply digest_works. auto.
      + apply (map_works _ bearer_works). auto.
      + apply (map_works _ (ostr_works "identity")). auto.
      + apply (map_works _ oauth2_works). auto 6.
  Qed.
End Known.

Lemma value_no_repeats j : value_ok j -> no_repeats j.
Proof.
  induction j using json_ind'; intros Hv; inversion Hv; subst; try (apply nr_leaf; discriminate).
  - apply nr_arr. auto.
  - apply nr_obj; [apply msorted_NoDup; auto|]. eauto.
Qed.

Lemma custom_distinct s data : custom_ok unlike_known s data <-> custom_ok distinct s data.
Proof.
  unfold custom_ok. split; intros (es & -> & Hv & Hc & Hd); exists es; (split; [reflexivity|]); (split; [auto|]);
    (split; [|auto]).
  - destruct Hc as [Hc _]. intros F. inversion Hv; subst.
    apply (known_works es (msorted_NoDup es H0) s) in F as [k F]; [congruence|]. intros G. apply (Hd _ G). simpl; tauto.
  - inversion Hv; subst. split.
    + destruct (d_known _) as [k|] eqn:Hk; auto. destruct Hc.
      apply (known_works es (msorted_NoDup es H0) s); [intros G; apply (Hd _ G); simpl; tauto|]. eauto.
    + intros k v Hin. apply value_no_repeats. eauto.
Qed.

Lemma security_distinct E s : security_ok E unlike_known s <-> security_ok E distinct s.
Proof.
  unfold security_ok. split; intros [H1 H2]; (split; [auto|]); intros; apply custom_distinct; auto.
Qed.

Lemma thing_distinct E X (V : xvalues X) (t : thing E X) : thing_ok V unlike_known t <-> thing_ok V distinct t.
Proof.
  unfold thing_ok, map_ok.
  assert ((forall k a, In (k, a) (t_secdefs t) -> security_ok E unlike_known a)
    <-> (forall k a, In (k, a) (t_secdefs t) -> security_ok E distinct a)) as H.
  { split; intros H k a Hin; apply security_distinct; eauto. }
  rewrite H. reflexivity.
Qed.

Lemma distinct_own s es : own_name s es -> distinct s es.
Proof. intros H F. apply H. inversion F; simpl; tauto. Qed.
