(** * Equality is equality up to [plain], where there is no NaN *)

From Coq Require Import String Bool ZArith Arith Lia List.
From Coq Require Import Floats.SpecFloat.
From Verif Require Import Base MinMax Json Serde Types HList Protocol DsBuilder Builder Ser De Spec SpecThing SpecSerde
  SpecDoc SpecTyped DsFacts ExactFacts Equal SpecEqual.
Import ListNotations.
Set Implicit Arguments.
Local Open Scope string_scope.
Local Open Scope list_scope.

(** [f] decides, at [a], equality of what [v] gives, provided [N a]. *)
Definition exact1 A B (f : A -> A -> bool) (P N : A -> Prop) (v : A -> B) (a : A) : Prop :=
  P a -> forall b, P b -> (f a b = true <-> N a /\ v a = v b).
Definition exact A B (f : A -> A -> bool) (P N : A -> Prop) (v : A -> B) : Prop :=
  forall a, exact1 f P N v a.
Definition decides A (f : A -> A -> bool) : Prop := forall a b, f a b = true <-> a = b.

Definition anything {A} (a : A) : Prop := True.

Lemma decides_exact A (f : A -> A -> bool) P : decides f -> exact f P anything (fun a => a).
Proof. intros H a Ha b Hb. rewrite (H a b). unfold anything. tauto. Qed.

Lemma exact_decides A (f : A -> A -> bool) : exact f anything anything (fun a => a) -> decides f.
Proof. intros H a b. pose proof (H a I b I) as He. unfold anything in He. tauto. Qed.

Lemma exact_weaken A B (f : A -> A -> bool) (P P' N N' : A -> Prop) (v : A -> B) a :
  (forall a, P' a -> P a) -> (P' a -> (N a <-> N' a)) -> exact1 f P N v a -> exact1 f P' N' v a.
Proof. intros H1 H2 H Ha b Hb. rewrite (H (H1 _ Ha) b (H1 _ Hb)). specialize (H2 Ha). tauto. Qed.

Lemma opt_exact1 A B (f : A -> A -> bool) (P N : A -> Prop) (v : A -> B) o :
  (forall a, o = Some a -> exact1 f P N v a) ->
  exact1 (opt_eqb f) (all_some P) (all_some N) (option_map v) o.
Proof.
  intros H Ho o' Ho'. destruct o as [a|], o' as [b|]; cbn.
  - rewrite (H a eq_refl (Ho a eq_refl) b (Ho' b eq_refl)). split.
    + intros [Hn He]. split; [intros a' Ha; injection Ha as <-; exact Hn|congruence].
    + intros [Hn He]. split; [apply Hn; reflexivity|congruence].
  - split; [discriminate|intros [_ He]; discriminate].
  - split; [discriminate|intros [_ He]; discriminate].
  - split; auto. intros _. split; auto. intros a Ha. discriminate.
Qed.

Lemma list_exact1 A B (f : A -> A -> bool) (P N : A -> Prop) (v : A -> B) l :
  (forall a, In a l -> exact1 f P N v a) ->
  exact1 (list_eqb f) (Forall P) (Forall N) (map v) l.
Proof.
  induction l as [|a l IH]; intros H Hl l' Hl'; destruct l' as [|b l']; cbn [list_eqb map].
  - split; auto.
  - split; [discriminate|intros [_ He]; discriminate].
  - split; [discriminate|intros [_ He]; discriminate].
  - inversion Hl as [|? ? Pa Pl]; inversion Hl' as [|? ? Pb Pl']; subst.
    assert (Ht : exact1 (list_eqb f) (Forall P) (Forall N) (map v) l) by (apply IH; intros; apply H; right; auto).
    change (f a b && list_eqb f l l' = true <-> Forall N (a :: l) /\ v a :: map v l = v b :: map v l').
    rewrite andb_true_iff, (H a (or_introl eq_refl) Pa b Pb), (Ht Pl l' Pl').
    split.
    + intros [[G1 G2] [G3 G4]]. split; [constructor; auto|congruence].
    + intros [G1 G2]. inversion G1; subst. injection G2 as G2 G3. auto.
Qed.

(** The entries of a map, as values *)
Definition values_ok A (N : A -> Prop) (m : amap A) : Prop := forall k a, In (k, a) m -> N a.

Lemma hash_exact1 A B (f : A -> A -> bool) (P N : A -> Prop) (v : A -> B) m :
  (forall k a, In (k, a) m -> exact1 f P N v a) ->
  exact1 (hash_eqb f) (map_ok P) (values_ok N) (mmap v) m.
Proof.
  intros H [Hs Hm] m' [Hs' Hm']. unfold hash_eqb. rewrite andb_true_iff, Nat.eqb_eq, forallb_forall. split.
  - intros [Hlen Hall].
    assert (Hent : forall k a, In (k, a) m -> exists b, mlook k m' = Some b /\ N a /\ v a = v b).
    { intros k a Ha. pose proof (Hall _ Ha) as Hf. cbn in Hf. destruct (mlook k m') as [b|] eqn:Hb; [|discriminate].
      exists b. split; auto. apply (H _ _ Ha) in Hf; auto. eapply Hm; eauto.
      eapply Hm'. apply mlook_Some_In. eauto. }
    split; [intros k a Ha; apply Hent in Ha as (b & _ & Hn & _); auto|].
    apply mext.
    + apply msorted_mmap; auto.
    + apply msorted_mmap; auto.
    + assert (Hk : forall k, In k (mkeys m) -> In k (mkeys m')).
      { intros k Hk. apply in_map_iff in Hk as ([k' a] & Ek & Ha). cbn in Ek; subst.
        apply Hent in Ha as (b & Hb & _). apply mlook_Some_In in Hb. apply (in_map fst) in Hb. exact Hb. }
      assert (Hk' : forall k, In k (mkeys m') -> In k (mkeys m)).
      { intros k. apply NoDup_length_incl; auto.
        - apply msorted_NoDup. auto.
        - unfold mkeys. rewrite !map_length. lia. }
      intros k. rewrite !mlook_mmap. destruct (mlook k m) as [a|] eqn:Ha.
      * apply mlook_Some_In in Ha. apply Hent in Ha as (b & -> & _ & He). cbn. congruence.
      * destruct (mlook k m') as [b|] eqn:Hb; auto.
        apply mlook_Some_In, (in_map fst), Hk' in Hb. cbn in Hb.
        apply in_map_iff in Hb as ([k' a] & Ek & Hin). cbn in Ek; subst.
        apply mlook_None in Ha. exfalso. apply Ha. apply (in_map fst) in Hin. exact Hin.
  - intros [Hn He]. split.
    + rewrite <- (map_length (fun kv => (fst kv, v (snd kv))) m), <- (map_length (fun kv => (fst kv, v (snd kv))) m').
      unfold mmap in He. rewrite He. reflexivity.
    + intros [k a] Ha. cbn. assert (Hl : mlook k m = Some a) by (apply In_mlook; auto; apply msorted_NoDup; auto).
      assert (option_map v (mlook k m') = Some (v a)) as Hl'.
      { rewrite <- mlook_mmap, <- He, mlook_mmap, Hl. reflexivity. }
      destruct (mlook k m') as [b|] eqn:Hb; [|discriminate]. cbn in Hl'. injection Hl' as Hl'.
      apply (H _ _ Ha); auto.
      * eapply Hm; eauto.
      * eapply Hm'. apply mlook_Some_In. eauto.
      * split; [eapply Hn; eauto|congruence].
Qed.

(** ** Types without numbers *)

Lemma opt_decides A (f : A -> A -> bool) : decides f -> decides (opt_eqb f).
Proof.
  intros H [a|] [b|]; cbn; try (split; [discriminate|discriminate]); [rewrite (H a b)|]; split; congruence.
Qed.

Lemma list_decides A (f : A -> A -> bool) : decides f -> decides (list_eqb f).
Proof.
  intros H. intros l. induction l as [|a l IH]; intros [|b l']; cbn [list_eqb]; try (split; [discriminate|discriminate]).
  - split; auto.
  - change (f a b && list_eqb f l l' = true <-> a :: l = b :: l'). rewrite andb_true_iff, (H a b), (IH l').
    split; [intros [-> ->]; auto|intros He; injection He as -> ->; auto].
Qed.

Lemma string_decides : decides String.eqb.
Proof. intros a b. apply String.eqb_eq. Qed.
Lemma bool_decides : decides Bool.eqb.
Proof. intros a b. apply Bool.eqb_true_iff. Qed.
Lemma z_decides : decides Z.eqb.
Proof. intros a b. apply Z.eqb_eq. Qed.
Lemma ostr_decides : decides ostr_eqb.
Proof. apply opt_decides, string_decides. Qed.
Lemma strs_decides : decides strs_eqb.
Proof. apply list_decides, string_decides. Qed.
Lemma ostrs_decides : decides ostrs_eqb.
Proof. apply opt_decides, strs_decides. Qed.
Lemma oz_decides : decides oz_eqb.
Proof. apply opt_decides, z_decides. Qed.
Lemma obool_decides : decides (opt_eqb Bool.eqb).
Proof. apply opt_decides, bool_decides. Qed.

Ltac atoms := rewrite ?(string_decides _ _), ?(bool_decides _ _), ?(z_decides _ _), ?(ostr_decides _ _),
  ?(strs_decides _ _), ?(ostrs_decides _ _), ?(oz_decides _ _), ?(obool_decides _ _).
Ltac fields := repeat match goal with H : _ /\ _ |- _ => destruct H end; subst; auto.
Ltac record := rewrite ?andb_true_iff; atoms; split;
  [intros H; fields|intros H; injection H as H; fields; subst; repeat split; auto].

Lemma max_decides : decides (max_eqb Z.eqb).
Proof. intros [a|a] [b|b]; cbn; atoms; split; congruence. Qed.
Lemma min_decides : decides (min_eqb Z.eqb).
Proof. intros [a|a] [b|b]; cbn; atoms; split; congruence. Qed.

Lemma integer_decides : decides integer_eqb.
Proof.
  intros [a b c] [a' b' c']. unfold integer_eqb. cbn.
  rewrite !andb_true_iff, (opt_decides max_decides a a'), (opt_decides min_decides b b'), (oz_decides c c').
  split; [intros [[-> ->] ->]; auto|intros H; injection H as -> -> ->; auto].
Qed.

Lemma string_schema_decides : decides string_eqb.
Proof. intros [] []. unfold string_eqb. cbn. record. Qed.

Lemma location_decides : decides location_eqb.
Proof. intros [] []; cbn; split; congruence. Qed.
Lemma qop_decides : decides qop_eqb.
Proof. intros [] []; cbn; split; congruence. Qed.
Lemma loc_name_decides : decides loc_name_eqb.
Proof. intros [] []. unfold loc_name_eqb. cbn. rewrite andb_true_iff, (location_decides _ _). atoms.
  split; [intros [-> ->]; auto|intros H; injection H as -> ->; auto]. Qed.
Lemma bearer_decides : decides bearer_eqb.
Proof. intros [] []. unfold bearer_eqb. cbn. rewrite !andb_true_iff, (location_decides _ _). record. Qed.
Lemma oauth2_decides : decides oauth2_eqb.
Proof. intros [] []. unfold oauth2_eqb. cbn. record. Qed.

Lemma known_decides : decides known_eqb.
Proof.
  intros k k'. destruct k as [| |[l|l]|b|q b|b|i|o|b], k' as [| |[l'|l']|b'|q' b'|b'|i'|o'|b']; cbn;
    try (split; congruence).
  - rewrite (strs_decides l l'). split; congruence.
  - rewrite (strs_decides l l'). split; congruence.
  - rewrite (loc_name_decides b b'). split; congruence.
  - rewrite andb_true_iff, (qop_decides q q'), (loc_name_decides b b').
    split; [intros [-> ->]; auto|intros H; injection H as -> ->; auto].
  - rewrite (bearer_decides b b'). split; congruence.
  - rewrite (ostr_decides i i'). split; congruence.
  - rewrite (oauth2_decides o o'). split; congruence.
  - rewrite (loc_name_decides b b'). split; congruence.
Qed.

Lemma link_decides : decides link_eqb.
Proof. intros [] []. unfold link_eqb. cbn. record. Qed.
Lemma op_decides : decides form_op_eqb.
Proof. intros [] []; cbn; split; congruence. Qed.
Lemma ops_decides : decides form_ops_eqb.
Proof.
  intros [|l] [|l']; cbn; try (split; congruence). rewrite (list_decides op_decides l l'). split; congruence.
Qed.
Lemma add_resp_decides : decides add_resp_eqb.
Proof. intros [] []. unfold add_resp_eqb. cbn. record. Qed.
Lemma version_decides : decides version_eqb.
Proof. intros [] []. unfold version_eqb. cbn. record. Qed.

(** ** Numbers and JSON values *)

Lemma f64_exact : exact f64_eqb anything (fun x => x <> S754_nan) plain_f64.
Proof.
  intros x _ y _. unfold f64_eqb, SFeqb.
  destruct x as [s|s| |s m e], y as [s'|s'| |s' m' e']; cbn;
    try (destruct s; cbn); try (destruct s'; cbn);
    try (split; [discriminate || (intros _; split; [discriminate|reflexivity])|
                 intros [Hn He]; (discriminate || congruence || reflexivity)]).
  all: destruct (Z.compare_spec e e'); subst; cbn;
    try (split; [discriminate|intros [Hn He]; injection He as -> ->; lia]).
  all: change (Pos.compare_cont Eq m m') with (Pos.compare m m'); destruct (Pos.compare_spec m m'); subst; cbn;
    try (split; [discriminate|intros [Hn He]; injection He as ->; lia]);
    split; auto; intros _; split; auto; discriminate.
Qed.

Lemma json_exact : exact json_eqb value_ok anything plain_json.
Proof.
  intros j. induction j as [| | |x| |l IH|es IH] using json_ind'; intros Hj j' Hj'; destruct j'; cbn [json_eqb plain_json];
    try (split; [discriminate|intros [_ He]; discriminate]).
  - unfold anything; tauto.
  - rewrite (bool_decides b b0). unfold anything. split; [intros ->; auto|intros [_ He]; congruence].
  - rewrite (z_decides n n0). unfold anything. split; [intros ->; auto|intros [_ He]; congruence].
  - rewrite (@f64_exact x I x0 I). inversion Hj; subst. unfold anything. split.
    + intros [_ ->]; auto.
    + intros [_ He]. split; [intros ->; discriminate|congruence].
  - rewrite (string_decides s s0). unfold anything. split; [intros ->; auto|intros [_ He]; congruence].
  - inversion Hj as [| | | | |? Hv|]; inversion Hj' as [| | | | |? Hv'|]; subst.
    rewrite (list_exact1 IH (proj2 (Forall_forall _ _) Hv) (proj2 (Forall_forall _ _) Hv')).
    unfold anything. split; [intros [_ ->]; auto|intros [_ He]; split; [|congruence]].
    apply Forall_forall. auto.
  - inversion Hj as [| | | | | |? Hs Hv]; inversion Hj' as [| | | | | |? Hs' Hv']; subst.
    assert (He : exact1 (list_eqb (fun kv kv' => String.eqb (fst kv) (fst kv') && json_eqb (snd kv) (snd kv')))
              (Forall (fun kv : string * json => value_ok (snd kv))) (Forall anything)
              (map (fun kv : string * json => (fst kv, plain_json (snd kv)))) es).
    { apply list_exact1. intros [k a] Ha Hka [k' a'] Hka'. cbn in *.
      rewrite andb_true_iff, (string_decides k k'), (IH k a Ha Hka a' Hka'). unfold anything. split.
      - intros [-> [_ ->]]. auto.
      - intros [_ Hp]. injection Hp as -> ->. auto. }
    assert (Forall (fun kv : string * json => value_ok (snd kv)) es) as Hf.
    { apply Forall_forall. intros [k a] Ha. apply (Hv k a Ha). }
    assert (Forall (fun kv : string * json => value_ok (snd kv)) es0) as Hf'.
    { apply Forall_forall. intros [k a] Ha. apply (Hv' k a Ha). }
    rewrite (He Hf es0 Hf'). unfold anything. split; [intros [_ ->]; auto|intros [_ Hp]; split; [|congruence]].
    apply Forall_forall. intros; exact I.
Qed.

(** ** Language maps, data schemas *)

Lemma mmap_id A (m : amap A) : mmap (fun a => a) m = m.
Proof. unfold mmap. rewrite <- (map_id m) at 2. apply map_ext. intros []. reflexivity. Qed.

Lemma multilang_exact : exact multilang_eqb (@msorted _) anything (fun m => m).
Proof.
  intros m Hm m' Hm'.
  assert (H : exact1 (hash_eqb String.eqb) (map_ok (@anything string)) (values_ok (@anything string)) (mmap (fun a => a)) m).
  { apply hash_exact1. intros k a _. apply (@decides_exact _ _ anything string_decides). }
  assert (forall m : multilang, msorted m -> map_ok (@anything string) m) as Hok.
  { intros n Hn. split; auto. intros; exact I. }
  rewrite (H (Hok _ Hm) m' (Hok _ Hm')), !mmap_id. unfold anything. split; [intros [_ ->]; auto|].
  intros [_ ->]. split; auto. intros k a _. exact I.
Qed.

Lemma option_map_id A (o : option A) : option_map (fun a => a) o = o.
Proof. destruct o; reflexivity. Qed.

Lemma all_anything A (o : option A) : all_some anything o.
Proof. intros a _. exact I. Qed.

Lemma opt_multilang_exact : exact (opt_eqb multilang_eqb) (all_some (@msorted _)) anything (fun m => m).
Proof.
  intros o Ho o' Ho'. rewrite (@opt_exact1 _ _ multilang_eqb (@msorted _) anything (fun m => m) o
    (fun a _ => @multilang_exact a) Ho o' Ho'), !option_map_id.
  unfold anything. split; [intros [_ ->]; auto|intros [_ ->]; split; auto; apply all_anything].
Qed.

Definition info_maps (i : info) : Prop :=
  all_some (@msorted _) (i_titles i) /\ all_some (@msorted _) (i_descriptions i).

Lemma info_exact : exact info_eqb info_maps anything (fun i => i).
Proof.
  intros i [H1 H2] i' [H1' H2']. unfold info_eqb.
  rewrite !andb_true_iff, (opt_multilang_exact H1 H1'), (opt_multilang_exact H2 H2'). atoms. unfold anything.
  destruct i, i'. cbn in *. split; [intros H; fields|intros [_ H]; injection H as H; fields; subst; repeat split; auto].
Qed.

Definition misc_vals (m : dmisc) : Prop :=
  all_some value_ok (m_const m) /\ all_some value_ok (m_default m) /\ all_some (Forall value_ok) (m_enum m).

Lemma opt_json_exact : exact (opt_eqb json_eqb) (all_some value_ok) anything (option_map plain_json).
Proof.
  intros o Ho o' Ho'. rewrite (@opt_exact1 _ _ json_eqb value_ok anything plain_json o (fun a _ => @json_exact a) Ho o' Ho').
  unfold anything. split; [intros [_ ->]; auto|intros [_ ->]; split; auto; apply all_anything].
Qed.

Lemma all_anythings A (l : list A) : Forall anything l.
Proof. apply Forall_forall. intros; exact I. Qed.

Lemma opt_jsons_exact :
  exact (opt_eqb (list_eqb json_eqb)) (all_some (Forall value_ok)) anything (option_map (map plain_json)).
Proof.
  intros o Ho o' Ho'.
  rewrite (@opt_exact1 _ _ (list_eqb json_eqb) (Forall value_ok) (Forall anything) (map plain_json) o
    (fun l _ => @list_exact1 _ _ json_eqb value_ok anything plain_json l (fun a _ => @json_exact a)) Ho o' Ho').
  unfold anything. split; [intros [_ ->]; auto|intros [_ ->]; split; auto]. intros l _. apply all_anythings.
Qed.

Lemma misc_exact : exact misc_eqb misc_vals anything plain_misc.
Proof.
  intros m (H1 & H2 & H3) m' (H1' & H2' & H3'). unfold misc_eqb, plain_misc.
  rewrite !andb_true_iff, (opt_json_exact H1 H1'), (opt_json_exact H2 H2'), (opt_jsons_exact H3 H3'). atoms.
  unfold anything. destruct m, m'. cbn in *. split.
  - intros H. fields. split; auto. f_equal; auto.
  - intros [_ H]; injection H as H; fields; subst; repeat split; auto.
Qed.

Definition number_nn (n : number_schema) : Prop := forall x, number_in n x -> x <> S754_nan.

Lemma max_exact : exact (max_eqb f64_eqb) anything (fun m => max_val m <> S754_nan) plain_max.
Proof.
  intros [a|a] _ [b|b] _; cbn.
  - rewrite (@f64_exact a I b I). split; intros [H1 H2]; split; auto; congruence.
  - split; [discriminate|intros [_ H]; discriminate].
  - split; [discriminate|intros [_ H]; discriminate].
  - rewrite (@f64_exact a I b I). split; intros [H1 H2]; split; auto; congruence.
Qed.

Lemma min_exact : exact (min_eqb f64_eqb) anything (fun m => min_val m <> S754_nan) plain_min.
Proof.
  intros [a|a] _ [b|b] _; cbn.
  - rewrite (@f64_exact a I b I). split; intros [H1 H2]; split; auto; congruence.
  - split; [discriminate|intros [_ H]; discriminate].
  - split; [discriminate|intros [_ H]; discriminate].
  - rewrite (@f64_exact a I b I). split; intros [H1 H2]; split; auto; congruence.
Qed.

Lemma number_nn_iff n : number_nn n <->
  all_some (fun m => max_val m <> S754_nan) (n_max n) /\ all_some (fun m => min_val m <> S754_nan) (n_min n)
  /\ all_some (fun x => x <> S754_nan) (n_mult n).
Proof.
  unfold number_nn, number_in. split.
  - intros H. repeat split; intros m Hm; try (destruct m as [x|x]; cbn; apply H; rewrite Hm; auto 6). apply H. auto.
  - intros (H1 & H2 & H3) x [H|[H|[H|[H|H]]]].
    + apply (H3 x H). + apply (H1 _ H). + apply (H1 _ H). + apply (H2 _ H). + apply (H2 _ H).
Qed.

Lemma number_exact : exact number_eqb anything number_nn plain_number.
Proof.
  intros n _ n' _. unfold number_eqb, plain_number. rewrite !andb_true_iff.
  rewrite (@opt_exact1 _ _ _ anything _ _ (n_max n) (fun a _ => @max_exact a) (@all_anything _ _) (n_max n') (@all_anything _ _)).
  rewrite (@opt_exact1 _ _ _ anything _ _ (n_min n) (fun a _ => @min_exact a) (@all_anything _ _) (n_min n') (@all_anything _ _)).
  rewrite (@opt_exact1 _ _ _ anything _ _ (n_mult n) (fun a _ => @f64_exact a) (@all_anything _ _) (n_mult n') (@all_anything _ _)).
  rewrite number_nn_iff. destruct n, n'. cbn in *. split.
  - intros H. fields. repeat split; auto; f_equal; auto.
  - intros [H H']. injection H' as H'. fields; repeat split; auto.
Qed.

Section Things.
  Variable E : env.
  Variable X : exts.
  Variable D : date E -> date E.
  Variable Q : eqs E X.
  Hypothesis HQ : eqs_exact D Q.
  Notation dsx := (dsx X).

  Definition node_maps (d : dsx) : Prop :=
    info_maps (ds_info d) /\ misc_vals (ds_misc d)
    /\ forall ps r o, ds_sub d = Some (SObject (Some ps) r o) -> msorted ps.

  Definition ds_maps (d : dsx) : Prop := forall e, sub_ds e d -> node_maps e.

  Definition ds_nn (d : dsx) : Prop :=
    forall e n, sub_ds e d -> ds_sub e = Some (SNumber n) -> number_nn n.

  Lemma ds_maps_inv d : ds_maps d -> node_maps d /\ forall c, In c (ds_children d) -> ds_maps c.
  Proof.
    intros H. split; [apply H; constructor|]. intros c Hc e He. apply H. eapply sub_child; eauto.
  Qed.

  Lemma ds_nn_iff d : ds_nn d <->
    (forall n, ds_sub d = Some (SNumber n) -> number_nn n) /\ (forall c, In c (ds_children d) -> ds_nn c).
  Proof.
    split.
    - intros H. split; [intros n Hn; apply (H d n); auto; constructor|].
      intros c Hc e n He. apply H. eapply sub_child; eauto.
    - intros [H1 H2] e n He Hn. apply sub_inv in He as [->|(c & Hc & He)]; [auto|]. apply (H2 c Hc e n He Hn).
  Qed.

  Lemma plain_inj i i' m m' l l' s s' (x x' : pty (x_ds X)) :
    mkDs (AS := pty (x_as X)) (OS := pty (x_os X)) i m l s x = mkDs i' m' l' s' x' ->
    i = i' /\ m = m' /\ l = l' /\ s = s' /\ x = x'.
  Proof. intros H. injection H as -> -> -> -> ->. auto. Qed.

  Lemma ds_exact : exact (ds_eqb Q) ds_maps ds_nn (@plain_ds X).
  Proof.
    intros d. induction d as [i m l s x Hl Hs] using ds_ind'. intros Hd d' Hd'. destruct d' as [i' m' l' s' x'].
    apply ds_maps_inv in Hd as [(Hi & Hm & Ho) Hc]. apply ds_maps_inv in Hd' as [(Hi' & Hm' & Ho') Hc'].
    cbn [ds_info ds_misc ds_sub] in *. unfold ds_children in Hc, Hc'. cbn [ds_one_of ds_sub] in Hc, Hc'.
    assert (Hone : exact1 (opt_eqb (list_eqb (ds_eqb Q))) (all_some (Forall ds_maps)) (all_some (Forall ds_nn))
              (option_map (map (@plain_ds X))) l).
    { apply opt_exact1. intros l0 -> . apply list_exact1. intros d Hin. apply (Hl l0 d eq_refl Hin). }
    assert (Hsub : opt_eqb (sub_eqb Q) s s' = true <->
              ((forall n, s = Some (SNumber n) -> number_nn n)
               /\ forall c, In c (match s with Some s => sub_children s | None => [] end) -> ds_nn c)
              /\ option_map (@plain_sub X) s = option_map (@plain_sub X) s').
    { clear Hone Hl.
      assert (Hlists : forall a a' : list dsx,
        (forall d, In d a -> exact1 (ds_eqb Q) ds_maps ds_nn (@plain_ds X) d) ->
        (forall c, In c a -> ds_maps c) -> (forall c, In c a' -> ds_maps c) ->
        (list_eqb (ds_eqb Q) a a' = true <-> (forall c, In c a -> ds_nn c) /\ map (@plain_ds X) a = map (@plain_ds X) a')).
      { intros a a' He Ha Ha'. rewrite <- (Forall_forall ds_nn a).
        apply (list_exact1 He); apply Forall_forall; auto. }
      destruct s as [s|], s' as [s'|]; cbn [opt_eqb option_map].
      2-3: split; [discriminate|intros [_ He]; discriminate].
      2: { split; auto. intros _. split; auto. split; [discriminate|intros c []]. }
      specialize (Hs s).
      destruct s as [it mn mx o| |n|n|ps r o|n|], s' as [it' mn' mx' o'| |n'|n'|ps' r' o'|n'|];
        try (split; [discriminate|intros [_ He]; discriminate]).
      - change (opt_eqb (boxed_eqb Q) it it' && oz_eqb mn mn' && oz_eqb mx mx' && q_as Q o o' = true <->
          ((forall n, Some (SArray it mn mx o) = Some (SNumber n) -> number_nn n)
           /\ (forall c, In c (sub_children (SArray it mn mx o)) -> ds_nn c))
          /\ Some (SArray (option_map (@plain_boxed X) it) mn mx o)
             = Some (SArray (option_map (@plain_boxed X) it') mn' mx' o')).
        rewrite !andb_true_iff, (oz_decides mn mn'), (oz_decides mx mx'), (qe_as HQ).
        assert (Hit : opt_eqb (boxed_eqb Q) it it' = true <->
                  (forall c, In c (sub_children (SArray it mn mx o)) -> ds_nn c)
                  /\ option_map (@plain_boxed X) it = option_map (@plain_boxed X) it').
        { destruct it as [[d|a]|], it' as [[d'|a']|]; cbn [opt_eqb option_map sub_children boxed_list] in *;
            try (split; [discriminate|intros [_ He]; discriminate]).
          - assert (Hd : ds_maps d) by (apply Hc, in_or_app; right; left; reflexivity).
            assert (Hd' : ds_maps d') by (apply Hc', in_or_app; right; left; reflexivity).
            change (ds_eqb Q d d' = true <->
              (forall c, In c [d] -> ds_nn c) /\ Some (@BElem _ _ _ (plain_ds d)) = Some (BElem (plain_ds d'))).
            rewrite (Hs d eq_refl (or_introl eq_refl) Hd d' Hd').
            split; intros [H1 H2]; split.
            + intros c [<-|[]]. auto.
            + congruence.
            + apply H1. left; auto.
            + congruence.
          - change (list_eqb (ds_eqb Q) a a' = true <->
              (forall c, In c a -> ds_nn c)
              /\ Some (@BVec _ _ _ (map (@plain_ds X) a)) = Some (BVec (map (@plain_ds X) a'))).
            rewrite Hlists; auto.
            + split; intros [H1 H2]; split; congruence || auto.
            + intros c Hin. apply Hc, in_or_app; auto.
            + intros c Hin. apply Hc', in_or_app; auto.
          - split; auto. intros _. split; auto. intros c []. }
        rewrite Hit. split.
        + intros [[[[H1 H2] ->] ->] ->]. split; [split; [discriminate|exact H1]|congruence].
        + intros [[_ H1] He]. injection He as H2 -> -> ->. auto 6.
      - split; auto. intros _. split; auto. split; [discriminate|intros c []].
      - change (number_eqb n n' = true <->
          ((forall n0, Some (@SNumber (pty (x_ds X)) (pty (x_as X)) (pty (x_os X)) n) = Some (SNumber n0) -> number_nn n0)
           /\ (forall c : dsx, In c [] -> ds_nn c))
          /\ Some (@SNumber (pty (x_ds X)) (pty (x_as X)) (pty (x_os X)) (plain_number n)) = Some (SNumber (plain_number n'))).
        rewrite (@number_exact n I n' I). split.
        + intros [H1 ->]. split; auto. split; [intros n0 He; injection He as <-; auto|intros c []].
        + intros [[H1 _] He]. split; [auto|].
          apply (f_equal (fun s => match s with Some (SNumber m) => m | _ => plain_number n end)) in He. exact He.
      - cbn. rewrite (integer_decides n n'). split; [intros ->|intros [_ He]; congruence].
        split; auto. split; [discriminate|intros c []].
      - change (opt_eqb (hash_eqb (ds_eqb Q)) ps ps' && ostrs_eqb r r' && q_os Q o o' = true <->
          ((forall n, Some (SObject ps r o) = Some (SNumber n) -> number_nn n)
           /\ (forall c, In c (sub_children (SObject ps r o)) -> ds_nn c))
          /\ Some (SObject (option_map (map (fun kv => (fst kv, plain_ds (snd kv)))) ps) r o)
             = Some (SObject (option_map (map (fun kv => (fst kv, plain_ds (snd kv)))) ps') r' o')).
        rewrite !andb_true_iff, (ostrs_decides r r'), (qe_os HQ).
        assert (Hps : opt_eqb (hash_eqb (ds_eqb Q)) ps ps' = true <->
                  (forall c, In c (sub_children (SObject ps r o)) -> ds_nn c)
                  /\ option_map (map (fun kv => (fst kv, plain_ds (snd kv)))) ps
                     = option_map (map (fun kv => (fst kv, plain_ds (snd kv)))) ps').
        { destruct ps as [ps|], ps' as [ps'|]; cbn [opt_eqb option_map sub_children] in *;
            try (split; [discriminate|intros [_ He]; discriminate]).
          - assert (He : exact1 (hash_eqb (ds_eqb Q)) (map_ok ds_maps) (values_ok ds_nn) (mmap (@plain_ds X)) ps).
            { apply hash_exact1. intros k d Hin. apply (Hs d eq_refl). apply (in_map snd) in Hin. exact Hin. }
            assert (Hp : map_ok ds_maps ps).
            { split; [eapply Ho; eauto|]. intros k d Hin. apply Hc, in_or_app. right. apply (in_map snd) in Hin. exact Hin. }
            assert (Hp' : map_ok ds_maps ps').
            { split; [eapply Ho'; eauto|]. intros k d Hin. apply Hc', in_or_app. right. apply (in_map snd) in Hin. exact Hin. }
            rewrite (He Hp ps' Hp'). unfold mmap. split; intros [H1 H2]; split; try congruence.
            + intros c Hin. apply in_map_iff in Hin as ([k d] & <- & Hin). eapply H1; eauto.
            + intros k d Hin. apply H1. apply (in_map snd) in Hin. exact Hin.
          - split; auto. intros _. split; auto. intros c []. }
        rewrite Hps. split.
        + intros [[[H1 H2] ->] ->]. split; [split; [discriminate|exact H1]|congruence].
        + intros [[_ H1] He]. injection He as H2 -> ->. auto.
      - cbn. rewrite (string_schema_decides n n'). split; [intros ->|intros [_ He]; congruence].
        split; auto. split; [discriminate|intros c []].
      - split; auto. intros _. split; auto. split; [discriminate|intros c []]. }
    assert (Hl1 : all_some (Forall ds_maps) l).
    { intros a ->. apply Forall_forall. intros c Hin. apply Hc, in_or_app; auto. }
    assert (Hl1' : all_some (Forall ds_maps) l').
    { intros a ->. apply Forall_forall. intros c Hin. apply Hc', in_or_app; auto. }
    change (info_eqb i i' && misc_eqb m m' && opt_eqb (list_eqb (ds_eqb Q)) l l' && opt_eqb (sub_eqb Q) s s'
      && q_ds Q x x' = true <-> ds_nn (mkDs i m l s x)
      /\ mkDs i (plain_misc m) (option_map (map (@plain_ds X)) l) (option_map (@plain_sub X) s) x
         = mkDs i' (plain_misc m') (option_map (map (@plain_ds X)) l') (option_map (@plain_sub X) s') x').
    rewrite !andb_true_iff, (info_exact Hi Hi'), (misc_exact Hm Hm'), (Hone Hl1 l' Hl1'), Hsub, (qe_ds HQ).
    rewrite (ds_nn_iff (mkDs i m l s x)). unfold ds_children. cbn [ds_sub ds_one_of]. unfold anything.
    assert (Hnn : all_some (Forall ds_nn) l <->
              forall c, In c (match l with Some l => l | None => [] end) -> ds_nn c).
    { destruct l as [l|]; split.
      - intros H. apply Forall_forall, H. reflexivity.
      - intros H a Ha. injection Ha as <-. apply Forall_forall. auto.
      - intros _ c [].
      - intros _ a Ha. discriminate. }
    rewrite Hnn. split.
    - intros [[[[[_ ->] [_ H1]] [H2 H3]] [[H4 H5] H6]] ->]. split; [split|congruence].
      + exact H4.
      + intros c Hin. apply in_app_or in Hin as [Hin|Hin]; auto.
    - intros [[H1 H2] He]. apply plain_inj in He as (-> & H3 & H4 & H5 & ->). repeat split; auto; intros c Hin; apply H2, in_or_app; auto.
  Qed.

  (** *** Everything else *)
  Variable T : xvalues X.

  Lemma info_typed_maps i : info_ok E i -> info_maps i.
  Proof.
    intros H. split; intros m Hm; apply (H m); unfold info_map; auto.
  Qed.

  Lemma value_typed_ok o : all_some value_typed o -> all_some value_ok o.
  Proof. intros H a Ha. apply (H a Ha). Qed.

  Lemma schema_typed_maps d : schema_typed E T d -> ds_maps d.
  Proof.
    intros H e He. destruct (H e He) as (H1 & H2 & H3 & H4 & H5 & H6). split; [apply info_typed_maps; auto|].
    split; [split; [apply value_typed_ok; auto|split; [apply value_typed_ok; auto|]]|].
    - intros l Hl. eapply Forall_impl; [|apply (H4 l Hl)]. intros a Ha. apply Ha.
    - intros ps r o Ho. destruct (H5 _ Ho) as [H7 _]. auto.
  Qed.

  Lemma schema_exact : exact (ds_eqb Q) (schema_typed E T) ds_nn (@plain_ds X).
  Proof.
    intros d. eapply exact_weaken; [apply schema_typed_maps| |apply ds_exact]. tauto.
  Qed.

  Lemma oschema_exact : exact (opt_eqb (ds_eqb Q)) (all_some (schema_typed E T)) (all_some ds_nn) (option_map (@plain_ds X)).
  Proof. intros o. apply opt_exact1. intros d _. apply schema_exact. Qed.

  Lemma oschemas_exact : exact (opt_eqb (dsmap_eqb Q)) (all_some (schemas_typed E T)) (all_some (values_ok ds_nn))
    (option_map (mmap (@plain_ds X))).
  Proof. intros o. apply opt_exact1. intros m _. apply hash_exact1. intros k d _. apply schema_exact. Qed.

  Lemma exp_resp_decides : decides (exp_resp_eqb Q).
  Proof.
    intros [] []. unfold exp_resp_eqb. cbn. rewrite andb_true_iff, (string_decides _ _), (qe_er HQ).
    split; [intros [-> ->]; auto|intros H; injection H as -> ->; auto].
  Qed.

  Lemma form_decides : decides (form_eqb Q).
  Proof.
    intros [] []. unfold form_eqb. cbn.
    rewrite !andb_true_iff, (ops_decides _ _), (opt_decides exp_resp_decides _ _),
      (opt_decides (list_decides add_resp_decides) _ _), (qe_f HQ). atoms.
    split; [intros H; fields|intros H; injection H as H; fields; subst; repeat split; auto].
  Qed.

  Definition interaction_nn (i : interaction X) : Prop := all_some (values_ok ds_nn) (ia_uri i).

  Lemma interaction_exact : exact (interaction_eqb Q) (interaction_typed E T) interaction_nn (@plain_interaction X).
  Proof.
    intros i (H1 & _ & H2 & _) i' (H1' & _ & H2' & _). unfold interaction_eqb, interaction_nn, plain_interaction.
    rewrite !andb_true_iff, (info_exact (info_typed_maps H1) (info_typed_maps H1')),
      (list_decides form_decides (ia_forms i) (ia_forms i')), (oschemas_exact H2 H2'), (qe_ia HQ).
    destruct i as [j f u o], i' as [j' f' u' o']. cbn [ia_info ia_forms ia_uri ia_other] in *. split.
    - intros [[[[_ ->] ->] [H3 H4]] ->]. split; auto. f_equal; auto.
    - intros [H3 H]. injection H as -> -> H4 ->. unfold anything. auto 8.
  Qed.

  Definition property_nn (p : property X) : Prop := interaction_nn (pa_ia p) /\ ds_nn (pa_ds p).

  Lemma property_inj (a a' : interaction X) (b b' : dsx) (c c' : option bool) (d d' : pty (x_pa X)) :
    {| pa_ia := a; pa_ds := b; pa_observable := c; pa_other := d |}
    = {| pa_ia := a'; pa_ds := b'; pa_observable := c'; pa_other := d' |} -> a = a' /\ b = b' /\ c = c' /\ d = d'.
  Proof. intros H. injection H as -> -> -> ->. auto. Qed.

  Lemma property_exact : exact (property_eqb Q) (property_typed E T) property_nn (@plain_property X).
  Proof.
    intros p (H1 & H2 & _) p' (H1' & H2' & _). unfold property_eqb, property_nn, plain_property.
    rewrite !andb_true_iff, (interaction_exact H1 H1'), (schema_exact H2 H2'),
      (obool_decides (pa_observable p) (pa_observable p')), (qe_pa HQ). split.
    - intros [[[[H3 ->] [H4 ->]] ->] ->]. auto.
    - intros [[H3 H4] H]. apply property_inj in H as (-> & -> & -> & ->). auto 8.
  Qed.

  Definition action_nn (a : action X) : Prop :=
    interaction_nn (aa_ia a) /\ all_some ds_nn (aa_input a) /\ all_some ds_nn (aa_output a).

  Lemma action_inj (a a' : interaction X) (b b' c c' : option dsx) (d d' e e' : bool) (f f' : option bool)
      (g g' : pty (x_aa X)) :
    {| aa_ia := a; aa_input := b; aa_output := c; aa_safe := d; aa_idempotent := e; aa_synchronous := f; aa_other := g |}
    = {| aa_ia := a'; aa_input := b'; aa_output := c'; aa_safe := d'; aa_idempotent := e'; aa_synchronous := f';
         aa_other := g' |} ->
    a = a' /\ b = b' /\ c = c' /\ d = d' /\ e = e' /\ f = f' /\ g = g'.
  Proof. intros H. injection H as -> -> -> -> -> -> ->. auto 8. Qed.

  Lemma action_exact : exact (action_eqb Q) (action_typed E T) action_nn (@plain_action X).
  Proof.
    intros a (H1 & H2 & H3 & _) a' (H1' & H2' & H3' & _). unfold action_eqb, action_nn, plain_action.
    rewrite !andb_true_iff, (interaction_exact H1 H1'), (oschema_exact H2 H2'), (oschema_exact H3 H3'),
      (bool_decides (aa_safe a) (aa_safe a')), (bool_decides (aa_idempotent a) (aa_idempotent a')),
      (obool_decides (aa_synchronous a) (aa_synchronous a')), (qe_aa HQ). split.
    - intros [[[[[[[G1 ->] [G2 ->]] [G3 ->]] ->] ->] ->] ->]. auto.
    - intros [(G1 & G2 & G3) H]. apply action_inj in H as (-> & -> & -> & -> & -> & -> & ->). auto 12.
  Qed.

  Definition event_nn (e : event X) : Prop :=
    interaction_nn (ea_ia e) /\ all_some ds_nn (ea_subscription e) /\ all_some ds_nn (ea_data e)
    /\ all_some ds_nn (ea_data_response e) /\ all_some ds_nn (ea_cancellation e).

  Lemma event_inj (a a' : interaction X) (b b' c c' d d' e e' : option dsx) (g g' : pty (x_ea X)) :
    {| ea_ia := a; ea_subscription := b; ea_data := c; ea_data_response := d; ea_cancellation := e; ea_other := g |}
    = {| ea_ia := a'; ea_subscription := b'; ea_data := c'; ea_data_response := d'; ea_cancellation := e';
         ea_other := g' |} ->
    a = a' /\ b = b' /\ c = c' /\ d = d' /\ e = e' /\ g = g'.
  Proof. intros H. injection H as -> -> -> -> -> ->. auto 8. Qed.

  Lemma event_exact : exact (event_eqb Q) (event_typed E T) event_nn (@plain_event X).
  Proof.
    intros a (H1 & H2 & H3 & H4 & H5 & _) a' (H1' & H2' & H3' & H4' & H5' & _). unfold event_eqb, event_nn, plain_event.
    rewrite !andb_true_iff, (interaction_exact H1 H1'), (oschema_exact H2 H2'), (oschema_exact H3 H3'),
      (oschema_exact H4 H4'), (oschema_exact H5 H5'), (qe_ea HQ). split.
    - intros [[[[[[G1 ->] [G2 ->]] [G3 ->]] [G4 ->]] [G5 ->]] ->]. auto 8.
    - intros [(G1 & G2 & G3 & G4 & G5) H]. apply event_inj in H as (-> & -> & -> & -> & -> & ->). auto 12.
  Qed.

  Lemma security_exact : exact security_eqb (security_typed E) anything plain_security.
  Proof.
    intros s [H1 H2] s' [H1' H2']. unfold security_eqb, plain_security.
    assert (Hm : all_some (@msorted _) (ss_descriptions s)) by (intros m Hm; apply (H1 m Hm)).
    assert (Hm' : all_some (@msorted _) (ss_descriptions s')) by (intros m Hm2; apply (H1' m Hm2)).
    assert (Hs : subtype_eqb (ss_subtype s) (ss_subtype s') = true
                 <-> plain_subtype (ss_subtype s) = plain_subtype (ss_subtype s')).
    { destruct (ss_subtype s) as [k|n v], (ss_subtype s') as [k'|n' v']; cbn; try (split; discriminate).
      - rewrite (known_decides k k'). split; congruence.
      - rewrite andb_true_iff, (string_decides n n'),
          (json_exact (proj2 (H2 _ _ eq_refl)) (proj2 (H2' _ _ eq_refl))).
        unfold anything. split; [intros [-> [_ ->]]; auto|intros H; injection H as -> ->; auto]. }
    rewrite !andb_true_iff, (opt_multilang_exact Hm Hm'), Hs. atoms. unfold anything.
    destruct s as [a b c d e], s' as [a' b' c' d' e']. cbn [ss_attype ss_description ss_descriptions ss_proxy ss_subtype] in *. split.
    - intros [[[[-> ->] [_ ->]] ->] ->]. auto.
    - intros [_ H]. injection H as -> -> -> -> ->. auto 8.
  Qed.

  Definition thing_nn (t : thing E X) : Prop :=
    all_some (values_ok property_nn) (t_properties t) /\ all_some (values_ok action_nn) (t_actions t)
    /\ all_some (values_ok event_nn) (t_events t) /\ all_some (values_ok ds_nn) (t_uri t)
    /\ all_some (values_ok ds_nn) (t_schemas t).

  Lemma odate_exact : forall o o', opt_eqb (q_date Q) o o' = true <-> option_map D o = option_map D o'.
  Proof.
    intros [d|] [d'|]; cbn; try (split; discriminate); [|tauto]. rewrite (qe_date HQ). split; congruence.
  Qed.

  Lemma all_some_anything A (o : option (amap A)) : values_ok anything (olist o).
  Proof. intros k a _. exact I. Qed.

  Lemma thing_exact : exact (thing_eqb Q) (thing_typed T) thing_nn (plain D).
  Proof.
    intros t (H1 & H2 & H3 & H4 & H5 & H6 & _ & _ & H7 & H8 & H9 & _)
      t' (H1' & H2' & H3' & H4' & H5' & H6' & _ & _ & H7' & H8' & H9' & _).
    assert (Hsort : forall o, all_some (tags_ok E) o -> all_some (@msorted string) o).
    { intros o Ho m Hm. apply (Ho m Hm). }
    assert (Hsec : hash_eqb security_eqb (t_secdefs t) (t_secdefs t') = true
                   <-> mmap plain_security (t_secdefs t) = mmap plain_security (t_secdefs t')).
    { assert (He : exact1 (hash_eqb security_eqb) (map_ok (security_typed E)) (values_ok anything)
                    (mmap plain_security) (t_secdefs t)) by (apply hash_exact1; intros k a _; apply security_exact).
      rewrite (He H7 _ H7'). split; [tauto|]. intros ->. split; auto. intros k a _. exact I. }
    assert (Hp := @opt_exact1 _ _ _ _ _ _ (t_properties t)
      (fun m _ => @hash_exact1 _ _ _ _ _ _ m (fun _ a _ => @property_exact a)) H4 _ H4').
    assert (Ha := @opt_exact1 _ _ _ _ _ _ (t_actions t)
      (fun m _ => @hash_exact1 _ _ _ _ _ _ m (fun _ a _ => @action_exact a)) H5 _ H5').
    assert (Hv := @opt_exact1 _ _ _ _ _ _ (t_events t)
      (fun m _ => @hash_exact1 _ _ _ _ _ _ m (fun _ a _ => @event_exact a)) H6 _ H6').
    unfold thing_eqb, thing_nn.
    rewrite !andb_true_iff, (json_exact (proj2 H1) (proj2 H1')), (opt_multilang_exact (Hsort _ H2) (Hsort _ H2')),
      (opt_multilang_exact (Hsort _ H3) (Hsort _ H3')), (opt_decides version_decides _ _),
      !odate_exact, Hp, Ha, Hv, (opt_decides (list_decides link_decides) _ _),
      (opt_decides (list_decides form_decides) _ _), Hsec, (oschemas_exact H8 H8'), (oschemas_exact H9 H9'), (qe_t HQ).
    atoms. clear - HQ. unfold anything. split.
    - intros H.
      repeat match goal with G : _ /\ _ |- _ => destruct G end.
      split; [auto 8|]. unfold plain.
      repeat match goal with G : @eq _ _ _ |- _ => rewrite G; clear G end. reflexivity.
    - intros [(G1 & G2 & G3 & G4 & G5) H].
      repeat match goal with |- _ /\ _ => split end; auto;
        match goal with |- ?a = _ => idtac end.
      all: lazymatch goal with
        | |- plain_json _ = _ => exact (f_equal (@t_context _ _) H)
        | |- t_id _ = _ => exact (f_equal (@t_id _ _) H)
        | |- t_attype _ = _ => exact (f_equal (@t_attype _ _) H)
        | |- t_title _ = _ => exact (f_equal (@t_title _ _) H)
        | |- t_titles _ = _ => exact (f_equal (@t_titles _ _) H)
        | |- t_description _ = _ => exact (f_equal (@t_description _ _) H)
        | |- t_descriptions _ = _ => exact (f_equal (@t_descriptions _ _) H)
        | |- t_version _ = _ => exact (f_equal (@t_version _ _) H)
        | |- option_map D (t_created _) = _ => exact (f_equal (@t_created _ _) H)
        | |- option_map D (t_modified _) = _ => exact (f_equal (@t_modified _ _) H)
        | |- t_support _ = _ => exact (f_equal (@t_support _ _) H)
        | |- t_base _ = _ => exact (f_equal (@t_base _ _) H)
        | |- option_map _ (t_properties _) = _ => exact (f_equal (@t_properties _ _) H)
        | |- option_map _ (t_actions _) = _ => exact (f_equal (@t_actions _ _) H)
        | |- option_map _ (t_events _) = _ => exact (f_equal (@t_events _ _) H)
        | |- t_links _ = _ => exact (f_equal (@t_links _ _) H)
        | |- t_forms _ = _ => exact (f_equal (@t_forms _ _) H)
        | |- t_security _ = _ => exact (f_equal (@t_security _ _) H)
        | |- mmap _ (t_secdefs _) = _ => exact (f_equal (@t_secdefs _ _) H)
        | |- option_map _ (t_uri _) = _ => exact (f_equal (@t_uri _ _) H)
        | |- t_profile _ = _ => exact (f_equal (@t_profile _ _) H)
        | |- option_map _ (t_schemas _) = _ => exact (f_equal (@t_schemas _ _) H)
        | |- t_other _ = _ => exact (f_equal (@t_other _ _) H)
        end.
  Qed.

  Lemma ds_nn_in d : ds_nn d <->
    forall e n x, sub_ds e d -> ds_sub e = Some (SNumber n) -> number_in n x -> x <> S754_nan.
  Proof. unfold ds_nn, number_nn. split; intros H e n; intros; eapply H; eauto. Qed.

  Lemma in_olist A (o : option (list A)) a : In a (olist o) -> exists l, o = Some l /\ In a l.
  Proof. destruct o as [l|]; cbn; [eauto|intros []]. Qed.

  Lemma thing_nn_without t : thing_nn t <-> without_nan t.
  Proof.
    assert (without_nan t <-> forall d, schema_in (thing_body t) d -> ds_nn d) as ->.
    { unfold without_nan. split.
      - intros H d Hd. apply ds_nn_in. intros e n x. apply H. auto.
      - intros H d e n x Hd. apply (proj1 (ds_nn_in d)). auto. }
    split.
    - intros (H1 & H2 & H3 & H4 & H5) d Hd.
      destruct Hd as [[n a Hin Ha|n a Hin Ha|n a Hin Ha|n a Hin Ha|n a Hin Ha|n a Hin Ha]|n a Hin Ha|[n Hin|k m i n Haff Hin]|n Hin].
      + apply in_olist in Hin as (l & Hl & Hin). rewrite <- Ha. apply (H1 l Hl n a Hin).
      + apply in_olist in Hin as (l & Hl & Hin). destruct (H2 l Hl n a Hin) as (_ & G1 & G2). exact (G1 _ Ha).
      + apply in_olist in Hin as (l & Hl & Hin). destruct (H2 l Hl n a Hin) as (_ & G1 & G2). exact (G2 _ Ha).
      + apply in_olist in Hin as (l & Hl & Hin). destruct (H3 l Hl n a Hin) as (_ & G1 & G2 & G3 & G4). exact (G1 _ Ha).
      + apply in_olist in Hin as (l & Hl & Hin). destruct (H3 l Hl n a Hin) as (_ & G1 & G2 & G3 & G4). exact (G2 _ Ha).
      + apply in_olist in Hin as (l & Hl & Hin). destruct (H3 l Hl n a Hin) as (_ & G1 & G2 & G3 & G4). exact (G4 _ Ha).
      + apply in_olist in Hin as (l & Hl & Hin). destruct (H3 l Hl n a Hin) as (_ & G1 & G2 & G3 & G4). exact (G3 _ Ha).
      + apply in_olist in Hin as (l & Hl & Hin). apply (H4 l Hl n d Hin).
      + apply in_olist in Hin as (l & Hl & Hin).
        destruct Haff as [q a Ha|q a Ha|q a Ha]; apply in_olist in Ha as (l' & Hl' & Ha).
        * apply (proj1 (H1 l' Hl' q a Ha) l Hl n d Hin).
        * apply (proj1 (H2 l' Hl' q a Ha) l Hl n d Hin).
        * apply (proj1 (H3 l' Hl' q a Ha) l Hl n d Hin).
      + apply in_olist in Hin as (l & Hl & Hin). apply (H5 l Hl n d Hin).
    - intros H.
      assert (Hu : forall k n i, affordance (thing_body t) k n i -> interaction_nn i).
      { intros k n i Hi l Hl q d Hd. apply H, in_uri. eapply uri_aff; eauto. rewrite Hl. exact Hd. }
      split; [|split; [|split; [|split]]]; intros l Hl k a Ha.
      + assert (In (k, a) (y_properties (thing_body t))) as Hin by (cbn; rewrite Hl; auto).
        split; [eapply Hu; econstructor; eauto|]. apply H, in_checked. eapply chk_property; eauto.
      + assert (In (k, a) (y_actions (thing_body t))) as Hin by (cbn; rewrite Hl; auto).
        split; [eapply Hu; econstructor; eauto|].
        split; intros d Hd; apply H, in_checked; [eapply chk_input|eapply chk_output]; eauto.
      + assert (In (k, a) (y_events (thing_body t))) as Hin by (cbn; rewrite Hl; auto).
        split; [eapply Hu; econstructor; eauto|].
        split; [|split; [|split]]; intros d Hd; apply H.
        * apply in_checked. eapply chk_subscription; eauto.
        * apply in_checked. eapply chk_data; eauto.
        * eapply in_response; eauto.
        * apply in_checked. eapply chk_cancellation; eauto.
      + apply H, in_uri. apply uri_thing with k. cbn. rewrite Hl. auto.
      + apply H. apply in_definitions with k. cbn. rewrite Hl. auto.
  Qed.

  (** [plain] keeps NaN. *)

  Lemma number_nn_plain n : number_nn (plain_number n) <-> number_nn n.
  Proof.
    assert (Hf : forall x, plain_f64 x <> S754_nan <-> x <> S754_nan) by (intros [| | |]; cbn; split; congruence).
    assert (Ho : forall A (f : A -> A) (P : A -> Prop) o, (forall a, P (f a) <-> P a) ->
              (all_some P (option_map f o) <-> all_some P o)).
    { intros A f P [a|] Hp; unfold all_some; cbn; split; intros H b Hb; try discriminate; injection Hb as <-.
      - apply Hp, H. reflexivity.
      - apply Hp, H. reflexivity. }
    rewrite !number_nn_iff. cbn. rewrite !Ho; [tauto|apply Hf| |].
    - intros [x|x]; cbn; apply Hf.
    - intros [x|x]; cbn; apply Hf.
  Qed.

  Lemma plain_children d : ds_children (plain_ds d) = map (@plain_ds X) (ds_children d).
  Proof.
    destruct d as [i m l s x].
    change (plain_ds (mkDs i m l s x))
      with (mkDs i (plain_misc m) (option_map (map (@plain_ds X)) l) (option_map (@plain_sub X) s) x).
    unfold ds_children. cbn [ds_one_of ds_sub]. rewrite map_app. f_equal; [destruct l; reflexivity|].
    destruct s as [[[[d|ds]|] mn mx o| |n|n|[ps|] r o|n|]|]; try reflexivity.
    change (map snd (map (fun kv => (fst kv, plain_ds (snd kv))) ps) = map (@plain_ds X) (map snd ps)).
    rewrite !map_map. reflexivity.
  Qed.

  Lemma ds_nn_plain d : ds_nn (plain_ds d) <-> ds_nn d.
  Proof.
    induction d as [i m l s x Hl Hs] using ds_ind'. rewrite !ds_nn_iff, plain_children.
    assert (Hc : forall c, In c (ds_children (mkDs i m l s x)) -> (ds_nn (plain_ds c) <-> ds_nn c)).
    { intros c Hc. unfold ds_children in Hc. cbn [ds_one_of ds_sub] in Hc. apply in_app_or in Hc as [Hc|Hc].
      - destruct l as [l|]; [|destruct Hc]. apply (Hl l); auto.
      - destruct s as [s|]; [|destruct Hc]. apply (Hs s); auto. }
    split; intros [H1 H2]; (split; [|intros c Hin]).
    - intros n Hn. apply number_nn_plain, H1. cbn in Hn. subst. reflexivity.
    - apply Hc, H2, in_map; auto.
    - intros n Hn. destruct s as [[]|]; try discriminate. cbn in Hn.
      apply (f_equal (fun s => match s with Some (SNumber m) => m | _ => n end)) in Hn. rewrite <- Hn.
      apply number_nn_plain, H1. reflexivity.
    - apply in_map_iff in Hin as (c' & <- & Hin). apply Hc; auto.
  Qed.

  Lemma all_some_map A B (f : A -> B) (P : A -> Prop) (R : B -> Prop) o :
    (forall a, R (f a) <-> P a) -> (all_some R (option_map f o) <-> all_some P o).
  Proof.
    intros Hp. destruct o as [a|]; unfold all_some; cbn; split; intros H b Hb; try discriminate; injection Hb as <-;
      apply Hp, H; reflexivity.
  Qed.

  Lemma values_map A B (f : A -> B) (P : A -> Prop) (R : B -> Prop) m :
    (forall a, R (f a) <-> P a) -> (values_ok R (mmap f m) <-> values_ok P m).
  Proof.
    intros Hp. unfold values_ok, mmap. split; intros H k a Ha.
    - apply Hp, (H k). apply in_map_iff. exists (k, a). auto.
    - apply in_map_iff in Ha as ([k' b] & He & Ha). injection He as <- <-. apply Hp, (H _ _ Ha).
  Qed.

  Lemma interaction_nn_plain i : interaction_nn (plain_interaction i) <-> interaction_nn i.
  Proof. unfold interaction_nn. cbn. apply all_some_map. intros m. apply values_map, ds_nn_plain. Qed.

  Lemma maps_nn A (f : A -> A) (P : A -> Prop) (o : option (amap A)) : (forall a, P (f a) <-> P a) ->
    (all_some (values_ok P) (option_map (mmap f) o) <-> all_some (values_ok P) o).
  Proof. intros H. apply all_some_map. intros m. apply values_map. auto. Qed.

  Lemma oschema_nn_plain o : all_some ds_nn (option_map (@plain_ds X) o) <-> all_some ds_nn o.
  Proof. apply all_some_map, ds_nn_plain. Qed.

  Lemma thing_nn_plain t : thing_nn (plain D t) <-> thing_nn t.
  Proof.
    unfold thing_nn. cbn [plain t_properties t_actions t_events t_uri t_schemas].
    rewrite !(maps_nn _ _ _ ds_nn_plain), !maps_nn; [tauto| | |]; intros a.
    - unfold event_nn. cbn [plain_event ea_ia ea_subscription ea_data ea_data_response ea_cancellation].
      rewrite interaction_nn_plain, !oschema_nn_plain. tauto.
    - unfold action_nn. cbn [plain_action aa_ia aa_input aa_output].
      rewrite interaction_nn_plain, !oschema_nn_plain. tauto.
    - unfold property_nn. cbn [plain_property pa_ia pa_ds].
      rewrite interaction_nn_plain, ds_nn_plain. tauto.
  Qed.

  Lemma without_plain (t t' : thing E X) : plain D t = plain D t' -> without_nan t -> without_nan t'.
  Proof. rewrite <- !thing_nn_without, <- (thing_nn_plain t), <- (thing_nn_plain t'). intros ->. auto. Qed.

  (** ** The properties of [==] *)

  Theorem equal_iff t t' : thing_typed T t -> thing_typed T t' ->
    (thing_eqb Q t t' = true <-> without_nan t /\ plain D t = plain D t').
  Proof. intros H H'. rewrite (thing_exact H H'), thing_nn_without. tauto. Qed.

  Theorem equal_refl t : thing_typed T t -> (thing_eqb Q t t = true <-> without_nan t).
  Proof. intros H. rewrite (equal_iff H H). tauto. Qed.

  Theorem equal_sym t t' : thing_typed T t -> thing_typed T t' -> thing_eqb Q t t' = thing_eqb Q t' t.
  Proof.
    intros H H'. apply eq_true_iff_eq. rewrite (equal_iff H H'), (equal_iff H' H). split.
    - intros [H1 H2]. split; [eapply without_plain; eauto|auto].
    - intros [H1 H2]. split; [eapply without_plain; eauto|auto].
  Qed.

  Theorem equal_trans t1 t2 t3 : thing_typed T t1 -> thing_typed T t2 -> thing_typed T t3 ->
    thing_eqb Q t1 t2 = true -> thing_eqb Q t2 t3 = true -> thing_eqb Q t1 t3 = true.
  Proof.
    intros H1 H2 H3. rewrite (equal_iff H1 H2), (equal_iff H2 H3), (equal_iff H1 H3). intros [G1 G2] [G3 G4]. split; [exact G1|exact (eq_trans G2 G4)].
  Qed.

  Lemma schema_ok_nn (V : xvalues X) d : schema_ok E V d -> ds_nn d.
  Proof.
    intros H e n He Hn. destruct (H e He) as (_ & _ & _ & _ & H5 & _). destruct (H5 _ Hn) as (G1 & G2 & G3).
    assert (Hf : forall x, finite x -> x <> S754_nan) by (intros x Hx ->; discriminate).
    apply number_nn_iff. split; [|split]; intros m Hm; apply Hf; auto.
  Qed.

  Lemma schemas_ok_nn (V : xvalues X) o : all_some (schemas_ok E V) o -> all_some (values_ok ds_nn) o.
  Proof. intros H m Hm k d Hd. apply schema_ok_nn with V. apply (proj2 (H m Hm) k d Hd). Qed.

  Lemma oschema_ok_nn (V : xvalues X) o : all_some (schema_ok E V) o -> all_some ds_nn o.
  Proof. intros H d Hd. apply schema_ok_nn with V. apply (H d Hd). Qed.

  Lemma interaction_ok_nn (V : xvalues X) i : interaction_ok E V i -> interaction_nn i.
  Proof. intros (_ & _ & H & _). apply schemas_ok_nn in H. exact H. Qed.

  Lemma ok_without (V : xvalues X) custom (t : thing E X) : thing_ok V custom t -> without_nan t.
  Proof.
    intros (_ & _ & _ & _ & _ & H1 & H2 & H3 & _ & _ & _ & H4 & H5 & _). apply thing_nn_without.
    split; [|split; [|split; [|split]]]; try (eapply schemas_ok_nn; eassumption); intros m Hm k a Ha.
    - destruct (proj2 (H1 m Hm) k a Ha) as (G1 & G2 & _).
      split; [eapply interaction_ok_nn; eauto|eapply schema_ok_nn; eauto].
    - destruct (proj2 (H2 m Hm) k a Ha) as (G1 & G2 & G3 & _).
      split; [eapply interaction_ok_nn; eauto|split; eapply oschema_ok_nn; eauto].
    - destruct (proj2 (H3 m Hm) k a Ha) as (G1 & G2 & G3 & G4 & G5 & _).
      split; [eapply interaction_ok_nn; eauto|repeat split; eapply oschema_ok_nn; eauto].
  Qed.

  Theorem equal_back K (V : xvalues X) : exts_sound K T V ->
    (forall s d, date_parse E s = Some d -> date_ok E d) ->
    forall t : thing E X, thing_typed T t -> thing_ok V distinct t ->
    exists j t', s_thing mk_value t = Some j /\ d_thing E X j = Some t' /\ thing_eqb Q t t' = true.
  Proof.
    intros HS Hd t Ht Hok. destruct (proj2 (thing_value_exact HS Hd Ht) Hok) as (j & Hj & Hback).
    exists j, t. split; [auto|split; [auto|]]. apply (equal_refl Ht). eapply ok_without; eauto.
  Qed.
End Things.

(** ** The extensions of the crate *)

Lemma unit_decides : decides unit_eqb.
Proof. intros [] []. cbn. tauto. Qed.

Lemma http_exact E (D : date E -> date E) q : (forall d d', q d d' = true <-> D d = D d') -> eqs_exact D (http_eqs E q).
Proof.
  intros Hq. constructor; try exact unit_decides; auto; cbn.
  - intros [m] [m']. unfold http_form_eqb. cbn.
    assert (Hm : decides http_method_eqb) by (intros [] []; cbn; split; congruence).
    rewrite (opt_decides Hm m m'). split; congruence.
  - intros [h s] [h' s']. unfold http_response_eqb. cbn. 
    assert (Hh : decides http_header_eqb) by (intros [] []; unfold http_header_eqb; cbn; record).
    rewrite andb_true_iff, (oz_decides s s'), (list_decides Hh h h').
    split; [intros [-> ->]; auto|intros H; injection H as -> ->; auto].
Qed.

Lemma coap_exact E (D : date E -> date E) q : (forall d d', q d d' = true <-> D d = D d') -> eqs_exact D (coap_eqs E q).
Proof.
  intros Hq. constructor; try exact unit_decides; auto; cbn.
  - assert (Hb : decides blockwise_eqb).
    { assert (decides block_eqb) as Hb by (intros [] []; cbn; split; congruence).
      intros [] []. unfold blockwise_eqb. cbn. rewrite andb_true_iff, !(opt_decides Hb _ _).
      split; [intros [-> ->]; auto|intros H; injection H as -> ->; auto]. }
    assert (Hm : decides coap_method_eqb) by (intros [] []; cbn; split; congruence).
    intros [] []. unfold coap_form_eqb. cbn.
    rewrite !andb_true_iff, (opt_decides Hm _ _), !(opt_decides Hb _ _). record.
  - intros [] []. unfold coap_response_eqb. cbn. atoms. split; congruence.
Qed.

Lemma mqtt_exact E (D : date E -> date E) q : (forall d d', q d d' = true <-> D d = D d') -> eqs_exact D (mqtt_eqs E q).
Proof.
  intros Hq. constructor; try exact unit_decides; auto; cbn.
  assert (Hp : decides mqtt_packet_eqb) by (intros [] []; cbn; split; congruence).
  assert (Hs : decides mqtt_qos_eqb) by (intros [] []; cbn; split; congruence).
  intros [] []. unfold mqtt_form_eqb. cbn. rewrite !andb_true_iff, (opt_decides Hp _ _), (opt_decides Hs _ _). record.
Qed.

Lemma cons_decides A B (f : A -> A -> bool) (g : B -> B -> bool) : decides f -> decides g -> decides (cons_eqb f g).
Proof.
  intros Hf Hg [a b] [a' b']. unfold cons_eqb. cbn. rewrite andb_true_iff, (Hf a a'), (Hg b b').
  split; [intros [-> ->]; auto|intros H; injection H as -> ->; auto].
Qed.

Lemma cons_exact E X X' (D : date E -> date E) (Q : eqs E X) (Q' : eqs E X') :
  eqs_exact D Q -> eqs_exact D Q' -> eqs_exact D (cons_eqs Q Q').
Proof.
  intros [] []. constructor; cbn; auto; apply cons_decides; auto.
Qed.

Lemma crate_exact E (D : date E -> date E) q : (forall d d', q d d' = true <-> D d = D d') ->
  eqs_exact D (http_eqs E q) /\ eqs_exact D (coap_eqs E q) /\ eqs_exact D (mqtt_eqs E q)
  /\ forall X X' (Q : eqs E X) (Q' : eqs E X'), eqs_exact D Q -> eqs_exact D Q' -> eqs_exact D (cons_eqs Q Q').
Proof.
  intros H. split; [apply http_exact; auto|split; [apply coap_exact; auto|split; [apply mqtt_exact; auto|]]].
  intros. apply cons_exact; auto.
Qed.
