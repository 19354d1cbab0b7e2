(** * What is written has the shape of a Thing Description *)

From Coq Require Import String Bool ZArith Permutation Lia List.
From Verif Require Import Base MinMax Json Serde Types Spec DsFacts SpecThing SpecSerde SpecDoc SpecMember SpecTyped SpecEqual
  SpecShape Ser De SerdeFacts CanonFacts RoundTrip RoundTripDs RoundTripTd RoundTripThing ProtocolFacts MemberFacts NameFacts
  WrittenFacts CleanFacts.
Import ListNotations.
Set Implicit Arguments.
Local Open Scope string_scope.
Local Open Scope list_scope.

Lemma assoc_td p k s : assoc_name k (members p) = Some s -> In k (map fst (members p)).
Proof.
  induction (members p) as [|[n a] l IH]; cbn; [discriminate|].
  destruct (String.eqb k n) eqn:E; [left; symmetry; apply String.eqb_eq, E|right; auto].
Qed.

Lemma members_td p k : p <> PSecurity -> p <> PVersion -> p <> PLink -> p <> PAddResponse ->
  In k (map fst (members p)) -> In k td_names.
Proof. intros; destruct p; try congruence; (eapply incl_td; [|eassumption]); reflexivity. Qed.

Section Conform.
  Variable E : env.
  Variable X : exts.
  Variable K : xnames.
  Variable T : xvalues X.
  Variable mk : entries -> json.
  Hypothesis Hw : json_writer mk.
  Hypothesis HT : exts_write_clean K T.
  Hypothesis HK : names_apart K.
  Notation conforms := (conforms E).

  (** Each member the specification knows has its shape. *)
  Definition fits (p : part) (es : entries) : Prop :=
    forall k v s, In (k, v) es -> assoc_name k (members p) = Some s -> conforms s v.

  Lemma fits_nil p : fits p [].
  Proof. intros k v s []. Qed.
  Lemma fits_app p es es' : fits p es -> fits p es' -> fits p (es ++ es').
  Proof. intros H H' k v s Hin. apply in_app_or in Hin as [Hin|Hin]; eauto. Qed.
  Lemma fits_fld p k v : (forall s, assoc_name k (members p) = Some s -> conforms s v) -> fits p (fld k v).
  Proof. intros H k' v' s [[= <- <-]|[]]. apply H. Qed.
  Lemma fits_ofld A p k (f : A -> json) o :
    (forall a s, o = Some a -> assoc_name k (members p) = Some s -> conforms s (f a)) -> fits p (ofld k f o).
  Proof. intros H. destruct o; [apply fits_fld; eauto|apply fits_nil]. Qed.

  Lemma fits_ext p q L ok a : p <> PSecurity -> p <> PVersion -> p <> PLink -> p <> PAddResponse ->
    writes_clean q L ok -> disjoint L td_names -> ok a -> fits p (p_ser q mk a).
  Proof.
    intros H1 H2 H3 H4 Hq Hd Ha k v s Hin Hs. exfalso. apply assoc_td in Hs. apply members_td in Hs; auto.
    destruct (wc_names Hq a Hw Ha) as [_ Hi]. apply (Hd k); auto. apply Hi. apply in_map_iff. exists (k, v). auto.
  Qed.

  Lemma ext_nil q L ok a k : writes_clean q L ok -> disjoint L td_names -> ok a -> smem k td_names = true ->
    get k (p_ser q mk a) = [].
  Proof.
    intros Hq Hd Ha Hk. apply get_nil_iff. intros F. destruct (wc_names Hq a Hw Ha) as [_ Hi].
    apply smem_In in Hk. apply (Hd k); auto.
  Qed.

  Lemma conf_obj p es : p <> PSecurity -> (forall k, In k (needed p) -> get k es <> []) -> fits p es ->
    conforms (Object p) (mk es).
  Proof.
    intros Hp Hn Hf. destruct Hw as [->| ->]; (constructor; [| |intros F; congruence]).
    - intros k Hk. specialize (Hn k Hk). destruct (in_dec string_dec k (map fst es)) as [H|H]; auto.
      exfalso. apply Hn. apply get_nil_iff. exact H.
    - exact Hf.
    - intros k Hk. specialize (Hn k Hk). destruct (in_dec string_dec k (map fst (mof es))) as [H|H]; auto.
      exfalso. apply get_nil_iff in H. rewrite get_mof in H.
      destruct (get k es) as [|v l]; [congruence|]. destruct (lasto (v :: l)) eqn:F; [discriminate H|].
      cbn in F. destruct (lasto l); discriminate F.
    - intros k v s Hin. apply In_mof in Hin. eauto.
  Qed.

  Lemma conf_get p es k v s : conforms (Object p) (mk es) -> get k es = [v] -> assoc_name k (members p) = Some s ->
    conforms s v.
  Proof.
    intros Hc Hg Hs. destruct (writer_obj es Hw) as [es' He]. rewrite He in Hc. inversion Hc as [| | | | | | | | | | | | | |? ? _ H _]; subst.
    apply (H k); auto. apply get_In. rewrite (@written_get mk es es' k Hw He), Hg by (rewrite Hg; simpl; lia). left; auto.
  Qed.

  Lemma conf_str s sh : sh = Text -> conforms sh (JStr s).
  Proof. intros ->. constructor. Qed.

  Lemma conf_list A (f : A -> json) s l : (forall a, In a l -> conforms s (f a)) -> conforms (ListOf s) (s_list f l).
  Proof. intros H. constructor. intros j Hj. apply in_map_iff in Hj as (a & <- & Ha). auto. Qed.

  Lemma list_conf A (f : A -> json) s l a : conforms (ListOf s) (s_list f l) -> In a l -> conforms s (f a).
  Proof. intros H Ha. inversion H as [| | | | | | | | | |? ? G| | | | ]; subst. apply G. apply in_map. exact Ha. Qed.

  Lemma conf_oom A (f : A -> json) s l : (forall a, In a l -> conforms s (f a)) -> conforms (OneOrMore s) (s_oom f l).
  Proof.
    intros H. destruct l as [|a [|b l]].
    - apply cf_more. intros j [].
    - apply cf_one. apply H. left; auto.
    - apply cf_more. intros j Hj. apply (in_map_iff f (a :: b :: l) j) in Hj as (c & <- & Hc). auto.
  Qed.

  Lemma conf_strs l : conforms (OneOrMore Text) (s_oom JStr l).
  Proof. apply conf_oom. intros. constructor. Qed.

  Lemma conf_map A (f : A -> json) s m : (forall k a, In (k, a) m -> conforms s (f a)) ->
    conforms (MapOf s) (s_map mk f m).
  Proof.
    intros H. unfold s_map. assert (forall k j, In (k, j) (mmap f m) -> conforms s j) as G.
    { intros k j Hj. unfold mmap in Hj. apply in_map_iff in Hj as ([k' a] & [= <- <-] & Ha). eauto. }
    destruct Hw as [->| ->]; constructor; auto. intros k j Hj. apply In_mof in Hj. eauto.
  Qed.

  Lemma map_conf A (f : A -> json) s m k a : msorted m -> conforms (MapOf s) (s_map mk f m) -> In (k, a) m ->
    conforms s (f a).
  Proof.
    intros Hm H Ha. unfold s_map in H. destruct (@writer_keeps mk (mmap f m) Hw) as (es & He & Hp).
    { unfold mmap. rewrite map_map. apply msorted_NoDup. exact Hm. }
    rewrite He in H. inversion H as [| | | | | | | | | | | | |? ? G| ]; subst. apply (G k).
    eapply Permutation_in; [exact Hp|]. unfold mmap. apply in_map_iff. exists (k, a). auto.
  Qed.

  Lemma conf_texts m : tags_ok E m -> conforms Texts (s_multilang mk m).
  Proof.
    intros [_ H]. assert (forall k v, In (k, v) (mmap JStr m) -> tag_ok E k = true /\ is_str v) as G.
    { intros k v Hin. unfold mmap in Hin. apply in_map_iff in Hin as ([k' a] & [= <- <-] & Ha).
      split; [|eexists; reflexivity]. apply H. unfold mkeys. apply in_map_iff. exists (k', a). auto. }
    unfold s_multilang, s_map. destruct Hw as [->| ->]; constructor; auto. intros k v Hin. apply In_mof in Hin. eauto.
  Qed.

  Ltac table := let s := fresh "s" in let Hs := fresh "Hs" in intros s Hs; cbn in Hs; injection Hs as <-.
  Ltac fit1 :=
    first
      [ apply fits_nil
      | apply fits_fld; table
      | apply fits_ofld; let a := fresh "a" in let s := fresh "s" in let Ha := fresh "Ha" in let Hs := fresh "Hs" in
        intros a s Ha Hs; cbn in Hs; injection Hs as <- ].
  Ltac leaf := first [apply cf_any | apply cf_text | apply cf_flag | apply conf_strs].

  Definition has_info (p : part) : Prop := p = PProperty \/ p = PAction \/ p = PEvent \/ p = PSchema.

  Lemma info_fits p i : has_info p -> info_ok E i -> fits p (info_es mk i).
  Proof.
    intros [->|[->|[->| ->]]] Hi; unfold info_es; repeat apply fits_app; fit1; try leaf; apply conf_texts, Hi;
      first [left; assumption | right; assumption].
  Qed.

  (** ** Data schemas *)

  Definition node_full (e : dsx X) : Prop :=
    forall n x, ds_sub e = Some (SNumber n) -> number_in n x -> f64_finite x = true.
  Definition schema_full (d : dsx X) : Prop := forall e, sub_ds e d -> node_full e.

  Definition has_schema (p : part) : Prop := p = PProperty \/ p = PSchema.

  Lemma schema_info p : has_schema p -> has_info p.
  Proof. unfold has_schema, has_info. tauto. Qed.

  Lemma misc_fits p (d : dsx X) : has_schema p ->
    fits p (misc1_es mk (ds_misc d)) /\ fits p (misc2_es mk (ds_misc d)).
  Proof.
    intros [->| ->]; (split; [unfold misc1_es|unfold misc2_es]); repeat apply fits_app; fit1; try leaf;
      apply conf_list; intros; apply cf_any.
  Qed.

  Lemma conf_f64 x : f64_finite x = true -> conforms Number (s_f64 x).
  Proof. intros H. unfold s_f64. rewrite H. constructor. Qed.

  Lemma number_fits p n : has_schema p -> (forall x, number_in n x -> f64_finite x = true) -> fits p (number_es n).
  Proof.
    intros Hp H. unfold number_es. apply fits_app; [|apply fits_app].
    - destruct (n_max n) as [[x|x]|] eqn:Hx; cbn; [| |apply fits_nil];
        (destruct Hp as [->| ->]; fit1; apply conf_f64, H; unfold number_in; tauto).
    - destruct (n_min n) as [[x|x]|] eqn:Hx; cbn; [| |apply fits_nil];
        (destruct Hp as [->| ->]; fit1; apply conf_f64, H; unfold number_in; tauto).
    - destruct Hp as [->| ->]; fit1; apply conf_f64, H; unfold number_in; tauto.
  Qed.

  Lemma integer_fits p n : has_schema p -> fits p (integer_es n).
  Proof.
    intros Hp. unfold integer_es. apply fits_app; [|apply fits_app].
    - destruct (z_max n) as [[x|x]|]; cbn; [| |apply fits_nil]; destruct Hp as [->| ->]; fit1; constructor.
    - destruct (z_min n) as [[x|x]|]; cbn; [| |apply fits_nil]; destruct Hp as [->| ->]; fit1; constructor.
    - destruct Hp as [->| ->]; fit1; constructor.
  Qed.

  Lemma conf_u32 n : in_u32 n -> conforms Natural (JInt n).
  Proof. unfold in_u32. intros H. constructor. lia. Qed.

  Lemma conf_type p n : has_schema p ->
    smem n ["object"; "array"; "string"; "number"; "integer"; "boolean"; "null"] = true ->
    fits p (fld "type" (JStr n)).
  Proof. intros [->| ->] H; fit1; constructor; apply smem_In; exact H. Qed.

  Lemma ds_fits d : schema_typed E T d -> schema_full d ->
    conforms (Object PSchema) (s_ds mk d) /\ forall p, has_schema p -> fits p (ds_es mk d).
  Proof.
    induction d as [d IH] using children_ind. intros Ht Hf.
    assert (forall c, In c (ds_children d) -> conforms (Object PSchema) (s_ds mk c)) as Hch.
    { intros c Hc. apply (IH c Hc); intros e He; [apply Ht|apply Hf]; eapply sub_child; eauto. }
    pose proof (Ht d (sub_self _)) as Hn. pose proof Hn as (Hi & _ & _ & _ & Hs & Ho).
    enough (forall p, has_schema p -> fits p (ds_es mk d)) as Hc.
    { split; [|exact Hc]. apply conf_obj; [discriminate|intros k []|]. apply Hc. right; reflexivity. }
    intros p Hp. rewrite ds_es_eq. destruct (@misc_fits p d Hp) as [M1 M2].
    assert (p <> PSecurity /\ p <> PVersion /\ p <> PLink /\ p <> PAddResponse) as (P1 & P2 & P3 & P4).
    { destruct Hp as [->| ->]; repeat split; discriminate. }
    apply fits_app; [apply info_fits; auto; apply schema_info; auto|]. apply fits_app; [auto|].
    apply fits_app.
    { destruct Hp as [->| ->]; fit1; apply conf_list; intros c Hc; apply Hch; unfold ds_children; rewrite Ha;
        apply in_or_app; left; exact Hc. }
    apply fits_app; [auto|]. apply fits_app; [|eapply fits_ext; auto; [apply (wc_ds HT)|apply (na_ds HK)|auto]].
    destruct (ds_sub d) as [s|] eqn:Es; [|apply fits_nil]. specialize (Hs s eq_refl).
    assert (forall c, In c (sub_children s) -> conforms (Object PSchema) (s_ds mk c)) as Hsc.
    { intros c Hc. apply Hch. unfold ds_children. rewrite Es. apply in_or_app. right. exact Hc. }
    cbn [subo_es]. destruct s as [items mn mx o| |n|n|ps r o|s|].
    - rewrite sub_array_eq. destruct Hs as (H1 & H2 & H3). apply fits_app; [apply conf_type; auto|].
      apply fits_app.
      { destruct Hp as [->| ->]; fit1; (destruct a as [c|l]; simpl in *; subst items;
          [apply cf_one, Hsc; left; auto|apply cf_more; intros j Hj; apply in_map_iff in Hj as (c & <- & Hc); apply Hsc; exact Hc]). }
      apply fits_app; [destruct Hp as [->| ->]; fit1; apply conf_u32; auto|].
      apply fits_app; [destruct Hp as [->| ->]; fit1; apply conf_u32; auto|].
      eapply fits_ext; auto; [apply (wc_as HT)|apply (na_as HK)|auto].
    - apply conf_type; auto.
    - apply fits_app; [apply conf_type; auto|]. apply number_fits; auto. intros x Hx.
      exact (Hf d (sub_self _) n x Es Hx).
    - apply fits_app; [apply conf_type; auto|]. apply integer_fits; auto.
    - rewrite sub_object_eq. destruct Hs as [H1 H2]. apply fits_app; [apply conf_type; auto|].
      apply fits_app.
      { destruct Hp as [->| ->]; fit1; (apply conf_map; intros k c Hc; apply Hsc; subst ps; simpl;
          apply in_map_iff; exists (k, c); auto). }
      apply fits_app; [destruct Hp as [->| ->]; fit1; apply conf_list; intros; constructor|].
      eapply fits_ext; auto; [apply (wc_os HT)|apply (na_os HK)|auto].
    - apply fits_app; [apply conf_type; auto|]. unfold string_es. destruct Hs as [H1 H2].
      destruct Hp as [->| ->]; repeat apply fits_app; fit1; try leaf; apply conf_u32; auto.
    - apply conf_type; auto.
  Qed.

  (** ** From the document back to the schema *)

  Definition number_keys : list string :=
    ["oneOf"; "items"; "properties"; "maximum"; "exclusiveMaximum"; "minimum"; "exclusiveMinimum"; "multipleOf"].

  Lemma number_conf x : conforms Number (s_f64 x) -> f64_finite x = true.
  Proof. unfold s_f64. destruct (f64_finite x); auto. intros H. inversion H. Qed.

  Lemma info_nil i k : smem k info_keys = false -> get k (info_es mk i) = [].
  Proof. apply info_get_none. Qed.

  Lemma ds_full_of p d : has_schema p -> schema_typed E T d -> forall pre post,
    (forall k, smem k number_keys = true -> get k pre = [] /\ get k post = []) ->
    conforms (Object p) (mk (pre ++ ds_es mk d ++ post)) -> schema_full d.
  Proof.
    revert p. induction d as [d IH] using children_ind. intros p Hp Ht pre post Hpp Hc.
    assert (forall k v s, smem k number_keys = true -> get k (ds_es mk d) = [v] -> assoc_name k (members p) = Some s ->
              conforms s v) as Hget.
    { intros k v s Hk Hg. apply (conf_get k Hc). rewrite !get_app, Hg. destruct (Hpp k Hk) as [-> ->]. reflexivity. }
    assert (forall k, smem k ["oneOf"; "items"; "properties"; "maximum"; "exclusiveMaximum"; "minimum"; "exclusiveMinimum"; "multipleOf"] = true ->
              get k (info_es mk (ds_info d)) = [] /\ get k (misc1_es mk (ds_misc d)) = []
              /\ get k (misc2_es mk (ds_misc d)) = [] /\ get k (p_ser (x_ds X) mk (ds_other d)) = []) as Hnil.
    { pose proof (Ht d (sub_self _)) as (_ & _ & _ & _ & _ & Ho). intros k Hk.
      assert (get k (p_ser (x_ds X) mk (ds_other d)) = []) as Hx.
      { eapply ext_nil; [apply (wc_ds HT)|apply (na_ds HK)|auto|]. apply smem_In in Hk. apply smem_In.
        revert Hk. apply incl_td. reflexivity. }
      apply smem_In in Hk. repeat split; auto.
      - apply info_nil. lit_cases Hk; reflexivity.
      - lit_cases Hk; unfold misc1_es; gets; reflexivity.
      - lit_cases Hk; unfold misc2_es; gets; reflexivity. }
    assert (forall k, smem k ["items"; "properties"; "maximum"; "exclusiveMaximum"; "minimum"; "exclusiveMinimum"; "multipleOf"] = true ->
              get k (ds_es mk d) = get k (subo_es mk (ds_sub d))) as Hsub.
    { intros k Hk. rewrite ds_es_eq, !get_app. destruct (Hnil k) as (-> & -> & -> & ->).
      - apply smem_In in Hk. apply smem_In. simpl in *. tauto.
      - apply smem_In in Hk. rewrite app_nil_r. lit_cases Hk; gets; reflexivity. }
    assert (forall k, smem k td_names = true -> forall s, ds_sub d = Some s -> subtype_typed T s) as Hty.
    { intros k _ s Hs. apply (Ht d (sub_self _)). exact Hs. }
    assert (forall c, In c (ds_children d) -> conforms (Object PSchema) (s_ds mk c) -> schema_full c) as Hchild.
    { intros c Hin Hcc. apply (IH c Hin PSchema) with (pre := []) (post := []);
        [right; reflexivity|intros e He; apply Ht; eapply sub_child; eauto|split; reflexivity|].
      cbn [app]. rewrite app_nil_r. exact Hcc. }
    assert (forall c, In c (ds_children d) -> conforms (Object PSchema) (s_ds mk c)) as Hcc.
    { intros c Hin. unfold ds_children in Hin. apply in_app_or in Hin as [Hin|Hin].
      - destruct (ds_one_of d) as [l|] eqn:El; [|destruct Hin].
        assert (conforms (ListOf (Object PSchema)) (s_list (s_ds mk) l)) as H.
        { apply (Hget "oneOf"); [reflexivity| |destruct Hp as [->| ->]; reflexivity].
          rewrite ds_es_eq, !get_app. destruct (Hnil "oneOf" eq_refl) as (-> & -> & -> & ->). rewrite El.
          assert (get "oneOf" (subo_es mk (ds_sub d)) = []) as ->.
          { destruct (ds_sub d) as [s|] eqn:Es; [|reflexivity]. pose proof (Hty "id" eq_refl _ eq_refl) as Hs.
            cbn [subo_es]. destruct s as [items mn mx o| |n|n|ps r o|s|].
            - rewrite sub_array_eq. destruct Hs as (_ & _ & Hs). gets.
              rewrite (@ext_nil _ _ _ _ "oneOf" (wc_as HT) (na_as HK) Hs eq_refl). reflexivity.
            - reflexivity.
            - cbn [sub_es]. unfold number_es. destruct (n_max n) as [[?|?]|], (n_min n) as [[?|?]|]; cbn [max_es min_es]; gets; reflexivity.
            - cbn [sub_es]. unfold integer_es. destruct (z_max n) as [[?|?]|], (z_min n) as [[?|?]|]; cbn [max_es min_es]; gets; reflexivity.
            - rewrite sub_object_eq. destruct Hs as (_ & Hs). gets.
              rewrite (@ext_nil _ _ _ _ "oneOf" (wc_os HT) (na_os HK) Hs eq_refl). reflexivity.
            - cbn [sub_es]. unfold string_es. gets. reflexivity.
            - reflexivity. }
          gets. reflexivity. }
        eapply list_conf; eauto.
      - destruct (ds_sub d) as [s|] eqn:Es; [|destruct Hin]. pose proof (Hty "id" eq_refl _ eq_refl) as Hs.
        destruct s as [[[c'|l]|] mn mx o| |n|n|[ps|] r o|s|]; cbn [sub_children boxed_list] in Hin; try (destruct Hin; fail).
        + destruct Hin as [<-|[]]. assert (conforms (OneOrMore (Object PSchema)) (s_ds mk c')) as H.
          { apply (Hget "items"); [reflexivity| |destruct Hp as [->| ->]; reflexivity].
            rewrite Hsub by reflexivity. cbn [subo_es]. rewrite sub_array_eq. destruct Hs as (_ & _ & Hs). gets.
            rewrite (@ext_nil _ _ _ _ "items" (wc_as HT) (na_as HK) Hs eq_refl). reflexivity. }
          unfold s_ds in *. destruct (writer_obj (ds_es mk c') Hw) as [es' He]. rewrite He in *.
          inversion H; subst; auto.
        + assert (conforms (OneOrMore (Object PSchema)) (s_list (s_ds mk) l)) as H.
          { apply (Hget "items"); [reflexivity| |destruct Hp as [->| ->]; reflexivity].
            rewrite Hsub by reflexivity. cbn [subo_es]. rewrite sub_array_eq. destruct Hs as (_ & _ & Hs). gets.
            rewrite (@ext_nil _ _ _ _ "items" (wc_as HT) (na_as HK) Hs eq_refl). reflexivity. }
          inversion H as [| | | | | | | | | | |? ? G|? ? G HH| |]; subst; [inversion G|].
          apply G. apply in_map. exact Hin.
        + destruct Hs as [Hm Hs]. assert (conforms (MapOf (Object PSchema)) (s_map mk (s_ds mk) ps)) as H.
          { apply (Hget "properties"); [reflexivity| |destruct Hp as [->| ->]; reflexivity].
            rewrite Hsub by reflexivity. cbn [subo_es]. rewrite sub_object_eq. gets.
            rewrite (@ext_nil _ _ _ _ "properties" (wc_os HT) (na_os HK) Hs eq_refl). reflexivity. }
          apply in_map_iff in Hin as ([k c'] & <- & Hin). eapply map_conf; eauto. }
    intros e He. apply sub_inv in He as [->|(c & Hc' & He)].
    - intros n x Es Hx. apply number_conf. unfold number_in in Hx.
      assert (forall k v, smem k ["items"; "properties"; "maximum"; "exclusiveMaximum"; "minimum"; "exclusiveMinimum"; "multipleOf"] = true ->
                get k (number_es n) = [v] -> assoc_name k (members p) = Some Number -> conforms Number v) as G.
      { intros k v Hk Hg Ha. apply (Hget k).
        - apply smem_In in Hk. apply smem_In. unfold number_keys. simpl in *. tauto.
        - rewrite Hsub by exact Hk. rewrite Es. cbn [subo_es sub_es]. rewrite get_app, Hg.
          apply smem_In in Hk. lit_cases Hk; reflexivity.
        - exact Ha. }
      destruct Hx as [Hx|[Hx|[Hx|[Hx|Hx]]]].
      + apply (G "multipleOf"); [reflexivity| |destruct Hp as [->| ->]; reflexivity]. unfold number_es. rewrite Hx.
        destruct (n_max n) as [[?|?]|], (n_min n) as [[?|?]|]; cbn [max_es min_es]; gets; reflexivity.
      + apply (G "maximum"); [reflexivity| |destruct Hp as [->| ->]; reflexivity]. unfold number_es. rewrite Hx.
        destruct (n_min n) as [[?|?]|]; cbn [max_es min_es]; gets; reflexivity.
      + apply (G "exclusiveMaximum"); [reflexivity| |destruct Hp as [->| ->]; reflexivity]. unfold number_es. rewrite Hx.
        destruct (n_min n) as [[?|?]|]; cbn [max_es min_es]; gets; reflexivity.
      + apply (G "minimum"); [reflexivity| |destruct Hp as [->| ->]; reflexivity]. unfold number_es. rewrite Hx.
        destruct (n_max n) as [[?|?]|]; cbn [max_es min_es]; gets; reflexivity.
      + apply (G "exclusiveMinimum"); [reflexivity| |destruct Hp as [->| ->]; reflexivity]. unfold number_es. rewrite Hx.
        destruct (n_max n) as [[?|?]|]; cbn [max_es min_es]; gets; reflexivity.
    - exact (Hchild c Hc' (Hcc c Hc') e He).
  Qed.

  Lemma schema_conf d : schema_typed E T d -> (conforms (Object PSchema) (s_ds mk d) <-> schema_full d).
  Proof.
    intros Ht. split; [|intros Hf; apply (ds_fits Ht Hf)].
    intros H. apply (@ds_full_of PSchema d (or_intror eq_refl) Ht [] []); [split; reflexivity|].
    cbn [app]. rewrite app_nil_r. exact H.
  Qed.

  Lemma schemas_conf m : schemas_typed E T m ->
    (conforms (MapOf (Object PSchema)) (s_dsmap mk m) <-> forall k d, In (k, d) m -> schema_full d).
  Proof.
    intros [Hs Hm]. split.
    - intros H k d Hin. apply schema_conf; [eauto|]. eapply map_conf; [exact Hs|exact H|exact Hin].
    - intros H. apply conf_map. intros k d Hin. apply schema_conf; eauto.
  Qed.

  (** ** Security schemes *)

  Definition suits (tbl : list (string * shape)) (es : entries) : Prop :=
    forall k v s, In (k, v) es -> assoc_name k tbl = Some s -> conforms s v.

  Lemma suits_nil t : suits t [].
  Proof. intros k v s []. Qed.
  Lemma suits_app t es es' : suits t es -> suits t es' -> suits t (es ++ es').
  Proof. intros H H' k v s Hin. apply in_app_or in Hin as [Hin|Hin]; eauto. Qed.
  Lemma suits_fld t k v : (forall s, assoc_name k t = Some s -> conforms s v) -> suits t (fld k v).
  Proof. intros H k' v' s [[= <- <-]|[]]. apply H. Qed.
  Lemma suits_ofld A t k (f : A -> json) o :
    (forall a s, o = Some a -> assoc_name k t = Some s -> conforms s (f a)) -> suits t (ofld k f o).
  Proof. intros H. destruct o; [apply suits_fld; eauto|apply suits_nil]. Qed.

  Lemma mk_obj es : exists es', mk es = JObj es' /\ (forall k v, In (k, v) es' -> In (k, v) es)
    /\ (forall k, In k (map fst es) -> In k (map fst es')).
  Proof.
    destruct Hw as [->| ->]; eexists; (split; [reflexivity|]); split; auto.
    - intros k v. apply In_mof.
    - intros k Hk. destruct (in_dec string_dec k (map fst (mof es))) as [H|H]; auto.
      exfalso. apply get_nil_iff in H. rewrite get_mof in H. assert (get k es <> []) as G by (rewrite get_nil_iff; tauto).
      destruct (get k es) as [|v l]; [congruence|]. destruct (lasto (v :: l)) eqn:F; [discriminate H|].
      cbn in F. destruct (lasto l); discriminate F.
  Qed.

  Definition scheme_of (k : known_sec) : string :=
    match k with
    | KNoSec => "nosec" | KAuto => "auto" | KCombo _ => "combo" | KBasic _ => "basic" | KDigest _ _ => "digest"
    | KBearer _ => "bearer" | KPsk _ => "psk" | KOAuth2 _ => "oauth2" | KApiKey _ => "apikey"
    end.

  Lemma known_scheme k n : In ("scheme", JStr n) (known_es k) -> n = scheme_of k.
  Proof.
    rewrite <- get_In. destruct k as [| |[l|l]|b|q b|b|i|o|b]; cbn [known_es]; unfold loc_name_es; gets; simpl;
      intros [[=]|[]]; auto.
  Qed.

  Ltac suit1 :=
    first
      [ apply suits_app; suit1
      | apply suits_nil
      | apply suits_fld; let s := fresh "s" in let Hs := fresh "Hs" in
        intros s Hs; cbn in Hs; try discriminate Hs; injection Hs as <-
      | apply suits_ofld; let a := fresh "a" in let s := fresh "s" in let Ha := fresh "Ha" in let Hs := fresh "Hs" in
        intros a s Ha Hs; cbn in Hs; try discriminate Hs; injection Hs as <- ].

  Lemma conf_loc l : conforms (OneOf ["header"; "query"; "body"; "cookie"; "uri"]) (s_loc l).
  Proof. constructor. destruct l; simpl; tauto. Qed.
  Lemma conf_qop q : conforms (OneOf ["auth"; "auth-int"]) (s_qop q).
  Proof. constructor. destruct q; simpl; tauto. Qed.

  Lemma known_suits k : suits (members PSecurity) (known_es k) /\ suits (scheme_members (scheme_of k)) (known_es k).
  Proof.
    destruct k as [| |[l|l]|b|q b|b|i|o|b]; cbn [known_es scheme_of]; unfold loc_name_es; (split; suit1);
      try first [leaf | apply conf_loc | apply conf_qop].
  Qed.

  Lemma security_conf s j : security_typed E s ->
    (forall n data, ss_subtype s = Unknown n data ->
       exists es, (data = JObj es \/ (data = JNull /\ es = [])) /\ own_name n es
         /\ disjoint (map fst es) ["@type"; "description"; "descriptions"; "proxy"; "scheme"]) ->
    s_security mk s = Some j -> conforms (Object PSecurity) j.
  Proof.
    intros [Hd _] Hu H. unfold s_security in H. apply option_map_inv in H as (es & H & ->).
    unfold security_es in H. apply obind_inv in H as (sub & Hs & H). apply some_inj in H as <-.
    set (base := ofld "@type" (s_oom JStr) (ss_attype s) ++ ofld "description" JStr (ss_description s)
               ++ ofld "descriptions" (s_multilang mk) (ss_descriptions s) ++ ofld "proxy" JStr (ss_proxy s)).
    replace (_ ++ _ ++ _ ++ _ ++ sub) with (base ++ sub) by (unfold base; rewrite <- !app_assoc; reflexivity).
    assert (suits (members PSecurity) base) as Hb.
    { unfold base. suit1; try leaf. apply conf_texts; auto. }
    assert (forall n, get "scheme" base = [] /\ suits (scheme_members n) base) as Hb'.
    { intros n. split; [unfold base; gets; reflexivity|]. unfold scheme_members, assoc_name.
      repeat (destruct (String.eqb n _); [unfold base; suit1|]). intros k v sh _ F. discriminate F. }
    assert (exists n, In ("scheme", JStr n) sub /\ (forall n', In ("scheme", JStr n') sub -> n' = n)
              /\ suits (members PSecurity) sub /\ suits (scheme_members n) sub
              /\ forall k, In k (scheme_needed n) -> In k (map fst sub)) as (n & H1 & H2 & H3 & H4 & H5).
    { unfold subtype_es in Hs. destruct (ss_subtype s) as [k|n data] eqn:Es.
      - apply some_inj in Hs as <-. exists (scheme_of k). destruct (known_suits k). repeat split; auto.
        + destruct k as [| |[l|l]|b|q b|b|i|o|b]; left; reflexivity.
        + intros n'. apply known_scheme.
        + destruct k as [| |[l|l]|b|q b|b|i|o|b]; intros k Hk; cbn in Hk; try (destruct Hk; fail).
          destruct Hk as [<-|[]]. apply in_map_iff. exists ("flow", JStr (oa_flow o)). split; auto.
          cbn [known_es]. rewrite <- get_In. gets. left; reflexivity.
      - destruct (Hu _ _ eq_refl) as (des & Hdata & Hn & Hdis). exists n.
        assert (sub = fld "scheme" (JStr n) ++ map (fun kv => (fst kv, ser_value mk (snd kv))) des) as ->.
        { destruct Hdata as [->|[-> ->]]; cbn [obind] in Hs; apply some_inj in Hs as <-; reflexivity. }
        assert (scheme_members n = [] /\ scheme_needed n = []) as [E1 E2].
        { unfold own_name, scheme_names in Hn. unfold scheme_members, scheme_needed, assoc_name.
          assert (forall c, In c scheme_names -> String.eqb n c = false) as Hc.
          { intros c Hc. apply String.eqb_neq. intros ->. apply Hn. exact Hc. }
          rewrite !Hc by (apply smem_In; reflexivity). auto. }
        rewrite E1, E2. split; [left; reflexivity|]. split; [|split; [|split; [intros k v sh _ F; discriminate F|intros k []]]].
        + intros n' [[=]|Hin]; auto. apply in_map_iff in Hin as ([k v] & [=] & Hin). subst. exfalso.
          apply (Hdis "scheme"); [|simpl; tauto]. apply in_map_iff. exists ("scheme", v). auto.
        + apply suits_app; [suit1; leaf|]. intros k v sh Hin Ha. exfalso.
          apply in_map_iff in Hin as ([k' v'] & [= <- <-] & Hin). cbn [fst] in *.
          apply (@assoc_td PSecurity) in Ha. apply (Hdis k'); [|exact Ha]. apply in_map_iff. exists (k', v'). auto. }
    destruct (mk_obj (base ++ sub)) as (es' & -> & Hi & Hk). constructor.
    - intros k [<-|[]]. apply Hk. rewrite map_app. apply in_or_app. right. apply in_map_iff. eexists. split; [|exact H1]. reflexivity.
    - intros k v sh Hin. apply Hi in Hin. revert Hin. apply (suits_app Hb H3).
    - intros _ n' Hin. apply Hi in Hin. apply in_app_or in Hin as [Hin|Hin].
      { apply get_In in Hin. rewrite (proj1 (Hb' n)) in Hin. destruct Hin. }
      apply H2 in Hin as ->. split.
      + intros k Hn. apply Hk. rewrite map_app. apply in_or_app. right. auto.
      + intros k v sh Hin. apply Hi in Hin. revert Hin. apply (suits_app (proj2 (Hb' n)) H4).
  Qed.

  (** ** Links, responses, versions and forms *)

  Lemma link_conf l : link_ok E l -> conforms (Object PLink) (s_link mk l).
  Proof.
    intros H. apply conf_obj; [discriminate| |].
    - intros k [<-|[]]. unfold link_es. gets. discriminate.
    - unfold link_es. repeat apply fits_app; fit1; try leaf. apply conf_oom. intros s Hs. constructor.
      specialize (H _ Ha). rewrite Forall_forall in H. auto.
  Qed.

  Lemma add_resp_conf r : conforms (Object PAddResponse) (s_add_resp mk r).
  Proof.
    apply conf_obj; [discriminate|intros k []|]. unfold add_resp_es. apply fits_app.
    - destruct (ar_success r); fit1. leaf.
    - apply fits_app; fit1; leaf.
  Qed.

  Lemma exp_resp_conf r : v_er T (er_other r) -> conforms (Object PResponse) (s_exp_resp X mk r).
  Proof.
    intros H. apply conf_obj; [discriminate| |].
    - intros k [<-|[]]. unfold exp_resp_es. gets. discriminate.
    - unfold exp_resp_es. apply fits_app; [fit1; leaf|].
      eapply fits_ext; try discriminate; [apply (wc_er HT)|apply (na_er HK)|auto].
  Qed.

  Lemma version_conf v : conforms (Object PVersion) (s_version mk v) <-> v_model v <> None.
  Proof.
    split.
    - intros H F. assert (conforms Text JNull) as G; [|inversion G].
      eapply (conf_get "model" H); [|reflexivity]. unfold version_es. rewrite F. reflexivity.
    - intros H. destruct (v_model v) as [m|] eqn:Em; [|congruence]. apply conf_obj; [discriminate| |].
      + intros k [<-|[]]. unfold version_es. gets. discriminate.
      + unfold version_es. rewrite Em. apply fits_app; fit1; leaf.
  Qed.

  Lemma form_conf f : form_typed T f -> (conforms (Object PForm) (s_form mk f) <-> f_op f <> OpCustom []).
  Proof.
    intros [Hr Hf]. split.
    - intros H F. assert (conforms (OneOrMore (OneOf (map fst td_operations))) JNull) as G.
      { eapply (conf_get "op" H); [|reflexivity]. unfold form_es. gets. rewrite F.
        rewrite (@ext_nil _ _ _ _ "op" (wc_f HT) (na_f HK) Hf eq_refl). reflexivity. }
      inversion G as [| | | | | | | | | | |? ? G'| | |]; subst. inversion G'.
    - intros H. apply conf_obj; [discriminate| |].
      + intros k [<-|[]]. unfold form_es. gets. destruct (get "href" (op_es (f_op f))); discriminate.
      + unfold form_es. apply fits_app.
        { destruct (f_op f) as [|[|o l]]; cbn [op_es s_ops]; [apply fits_nil|congruence|]. fit1.
          apply cf_more. intros j Hj. apply (in_map_iff s_op (o :: l) j) in Hj as (c & <- & _). constructor.
          destruct c; simpl; tauto. }
        repeat (apply fits_app; [fit1; first [leaf | apply exp_resp_conf; auto | apply conf_oom; intros; apply add_resp_conf]|]).
        eapply fits_ext; try discriminate; [apply (wc_f HT)|apply (na_f HK)|auto].
  Qed.

  (** ** Affordances *)

  Definition is_affordance (p : part) : Prop := p = PProperty \/ p = PAction \/ p = PEvent.

  Definition interaction_full (i : interaction X) : Prop :=
    (forall f, In f (ia_forms i) -> f_op f <> OpCustom [])
    /\ forall m k d, ia_uri i = Some m -> In (k, d) m -> schema_full d.

  Lemma interaction_fits p i : is_affordance p -> interaction_typed E T i -> interaction_full i ->
    fits p (interaction_es mk i) /\ get "forms" (interaction_es mk i) <> [].
  Proof.
    intros Hp (Hi & Hf & Hu & Ho) [F1 F2]. rewrite Forall_forall in Hf. split.
    - unfold interaction_es. apply fits_app.
      { apply info_fits; auto. unfold is_affordance, has_info in *. tauto. }
      apply fits_app.
      { assert (conforms (ListOf (Object PForm)) (s_list (s_form mk) (ia_forms i))) as G.
        { apply conf_list. intros f Hin. apply form_conf; auto. }
        destruct Hp as [->|[->| ->]]; fit1; exact G. }
      apply fits_app.
      { destruct (ia_uri i) as [m|] eqn:Em; [|apply fits_nil].
        assert (conforms (MapOf (Object PSchema)) (s_dsmap mk m)) as G by (apply schemas_conf; eauto).
        destruct Hp as [->|[->| ->]]; fit1; exact G. }
      eapply fits_ext; [..|apply (wc_ia HT)|apply (na_ia HK)|auto]; destruct Hp as [->|[->| ->]]; discriminate.
    - unfold interaction_es. gets. rewrite info_nil by reflexivity. discriminate.
  Qed.

  Lemma interaction_full_of p i post : is_affordance p -> interaction_typed E T i ->
    get "forms" post = [] -> get "uriVariables" post = [] ->
    conforms (Object p) (mk (interaction_es mk i ++ post)) -> interaction_full i.
  Proof.
    intros Hp (Hi & Hf & Hu & Ho) P1 P2 H. rewrite Forall_forall in Hf. split.
    - assert (conforms (ListOf (Object PForm)) (s_list (s_form mk) (ia_forms i))) as G.
      { eapply (conf_get "forms" H); [|destruct Hp as [->|[->| ->]]; reflexivity]. unfold interaction_es. gets.
        rewrite P1, info_nil, (@ext_nil _ _ _ _ "forms" (wc_ia HT) (na_ia HK) Ho eq_refl) by reflexivity. reflexivity. }
      intros f Hin. apply form_conf; auto. eapply list_conf; eauto.
    - intros m k d Hm. revert k d. apply schemas_conf; auto.
      eapply (conf_get "uriVariables" H); [|destruct Hp as [->|[->| ->]]; reflexivity]. unfold interaction_es. gets.
      rewrite P2, info_nil, (@ext_nil _ _ _ _ "uriVariables" (wc_ia HT) (na_ia HK) Ho eq_refl), Hm by reflexivity. reflexivity.
  Qed.

  Lemma interaction_nil i k : v_ia T (ia_other i) -> smem k td_names = true -> smem k (info_keys ++ ["forms"; "uriVariables"]) = false ->
    get k (interaction_es mk i) = [].
  Proof.
    intros Ho Hk Hn. assert (forall l, smem k (info_keys ++ l) = false -> smem k info_keys = false) as G.
    { intros l. rewrite !smem_false. intros F F'. apply F, in_or_app. auto. }
    unfold interaction_es. rewrite !get_app, info_nil by eauto.
    rewrite (@ext_nil _ _ _ _ k (wc_ia HT) (na_ia HK) Ho Hk). apply smem_false in Hn.
    rewrite get_fld, get_ofld.
    destruct (String.eqb k "forms") eqn:E1; [apply String.eqb_eq in E1; subst; exfalso; apply Hn; simpl; tauto|].
    destruct (String.eqb k "uriVariables") eqn:E2; [apply String.eqb_eq in E2; subst; exfalso; apply Hn; simpl; tauto|].
    rewrite ?E1, ?E2, ?(String.eqb_sym "forms"), ?(String.eqb_sym "uriVariables"), ?E1, ?E2. reflexivity.
  Qed.

  Definition opt_full (o : option (dsx X)) : Prop := forall d, o = Some d -> schema_full d.

  Lemma opt_fits p k o : assoc_name k (members p) = Some (Object PSchema) -> all_some (schema_typed E T) o ->
    opt_full o -> fits p (ofld k (s_ds mk) o).
  Proof.
    intros Hk Ht Hf. apply fits_ofld. intros d s Hd Hs. rewrite Hk in Hs. injection Hs as <-.
    apply schema_conf; auto.
  Qed.

  Lemma opt_full_of p k o es : assoc_name k (members p) = Some (Object PSchema) -> all_some (schema_typed E T) o ->
    get k es = otolist (option_map (s_ds mk) o) -> conforms (Object p) (mk es) -> opt_full o.
  Proof.
    intros Hk Ht Hg H d Hd. subst o. apply schema_conf; [apply Ht; reflexivity|]. eapply (conf_get k H); [|exact Hk]. exact Hg.
  Qed.

  Definition action_full (a : action X) : Prop :=
    interaction_full (aa_ia a) /\ opt_full (aa_input a) /\ opt_full (aa_output a).

  Lemma action_conf a : action_typed E T a -> (conforms (Object PAction) (s_action mk a) <-> action_full a).
  Proof.
    intros (Hi & H1 & H2 & Ha). pose proof Hi as (_ & _ & _ & Hia).
    pose proof (fun k => @ext_nil _ _ _ _ k (wc_aa HT) (na_aa HK) Ha) as Hx. split.
    - intros H. unfold s_action in H. split; [|split].
      + refine (@interaction_full_of PAction _ _ ltac:(right; left; reflexivity) Hi _ _ H);
          gets; rewrite Hx by reflexivity; reflexivity.
      + eapply (@opt_full_of PAction "input"); [reflexivity|auto| |exact H]. unfold action_es. gets.
        rewrite interaction_nil, Hx by (auto; reflexivity). gets. reflexivity.
      + eapply (@opt_full_of PAction "output"); [reflexivity|auto| |exact H]. unfold action_es. gets.
        rewrite interaction_nil, Hx by (auto; reflexivity). gets. reflexivity.
    - intros (F1 & F2 & F3). destruct (@interaction_fits PAction (aa_ia a)) as [G1 G2]; auto;
        [right; left; reflexivity|]. apply conf_obj; [discriminate| |].
      + intros k [<-|[]]. unfold action_es. rewrite get_app. destruct (get "forms" _); [congruence|discriminate].
      + unfold action_es. apply fits_app; [auto|].
        apply fits_app; [apply opt_fits; auto|]. apply fits_app; [apply opt_fits; auto|].
        repeat (apply fits_app; [fit1; leaf|]).
        eapply fits_ext; try discriminate; [apply (wc_aa HT)|apply (na_aa HK)|auto].
  Qed.

  Definition event_full (e : event X) : Prop :=
    interaction_full (ea_ia e) /\ opt_full (ea_subscription e) /\ opt_full (ea_data e)
    /\ opt_full (ea_data_response e) /\ opt_full (ea_cancellation e).

  Lemma event_conf e : event_typed E T e -> (conforms (Object PEvent) (s_event mk e) <-> event_full e).
  Proof.
    intros (Hi & H1 & H2 & H3 & H4 & Ha). pose proof Hi as (_ & _ & _ & Hia).
    pose proof (fun k => @ext_nil _ _ _ _ k (wc_ea HT) (na_ea HK) Ha) as Hx. split.
    - intros H. unfold s_event in H. split; [|split; [|split; [|split]]].
      + refine (@interaction_full_of PEvent _ _ ltac:(right; right; reflexivity) Hi _ _ H);
          gets; rewrite Hx by reflexivity; reflexivity.
      + eapply (@opt_full_of PEvent "subscription"); [reflexivity|auto| |exact H]. unfold event_es. gets.
        rewrite interaction_nil, Hx by (auto; reflexivity). gets. reflexivity.
      + eapply (@opt_full_of PEvent "data"); [reflexivity|auto| |exact H]. unfold event_es. gets.
        rewrite interaction_nil, Hx by (auto; reflexivity). gets. reflexivity.
      + eapply (@opt_full_of PEvent "data_response"); [reflexivity|auto| |exact H]. unfold event_es. gets.
        rewrite interaction_nil, Hx by (auto; reflexivity). gets. reflexivity.
      + eapply (@opt_full_of PEvent "cancellation"); [reflexivity|auto| |exact H]. unfold event_es. gets.
        rewrite interaction_nil, Hx by (auto; reflexivity). gets. reflexivity.
    - intros (F1 & F2 & F3 & F4 & F5). destruct (@interaction_fits PEvent (ea_ia e)) as [G1 G2]; auto;
        [right; right; reflexivity|]. apply conf_obj; [discriminate| |].
      + intros k [<-|[]]. unfold event_es. rewrite get_app. destruct (get "forms" _); [congruence|discriminate].
      + unfold event_es. apply fits_app; [auto|].
        repeat (apply fits_app; [apply opt_fits; auto|]).
        eapply fits_ext; try discriminate; [apply (wc_ea HT)|apply (na_ea HK)|auto].
  Qed.

  Definition property_full (p : property X) : Prop := interaction_full (pa_ia p) /\ schema_full (pa_ds p).

  Lemma ds_nil d k : schema_typed E T d -> smem k ["forms"; "uriVariables"] = true -> get k (ds_es mk d) = [].
  Proof.
    intros Ht Hk. pose proof (Ht d (sub_self _)) as (_ & _ & _ & _ & Hs & Ho). rewrite ds_es_eq, !get_app.
    apply smem_In in Hk.
    assert (smem k td_names = true) as Htd by (lit_cases Hk; reflexivity).
    rewrite (@ext_nil _ _ _ _ k (wc_ds HT) (na_ds HK) Ho Htd), info_nil by (lit_cases Hk; reflexivity).
    assert (get k (subo_es mk (ds_sub d)) = []) as ->.
    { destruct (ds_sub d) as [s|] eqn:Es; [|reflexivity]. specialize (Hs _ eq_refl). cbn [subo_es].
      destruct s as [items mn mx o| |n|n|ps r o|s|].
      - rewrite sub_array_eq. destruct Hs as (_ & _ & Hs). rewrite !get_app, (@ext_nil _ _ _ _ k (wc_as HT) (na_as HK) Hs Htd).
        lit_cases Hk; gets; reflexivity.
      - lit_cases Hk; reflexivity.
      - cbn [sub_es]. unfold number_es. lit_cases Hk; destruct (n_max n) as [[?|?]|], (n_min n) as [[?|?]|]; cbn [max_es min_es]; gets; reflexivity.
      - cbn [sub_es]. unfold integer_es. lit_cases Hk; destruct (z_max n) as [[?|?]|], (z_min n) as [[?|?]|]; cbn [max_es min_es]; gets; reflexivity.
      - rewrite sub_object_eq. destruct Hs as (_ & Hs). rewrite !get_app, (@ext_nil _ _ _ _ k (wc_os HT) (na_os HK) Hs Htd).
        lit_cases Hk; gets; reflexivity.
      - cbn [sub_es]. unfold string_es. lit_cases Hk; gets; reflexivity.
      - lit_cases Hk; reflexivity. }
    unfold misc1_es, misc2_es. lit_cases Hk; gets; reflexivity.
  Qed.

  Lemma property_conf p : property_typed E T p -> (conforms (Object PProperty) (s_property mk p) <-> property_full p).
  Proof.
    intros (Hi & Hd & Ha). pose proof Hi as (_ & _ & _ & Hia).
    pose proof (fun k => @ext_nil _ _ _ _ k (wc_pa HT) (na_pa HK) Ha) as Hx. split.
    - intros H. unfold s_property, property_es in H. split.
      + refine (@interaction_full_of PProperty _ _ ltac:(left; reflexivity) Hi _ _ H);
          gets; rewrite Hx, ds_nil by (auto; reflexivity); reflexivity.
      + refine (@ds_full_of PProperty _ ltac:(left; reflexivity) Hd _ _ _ H). intros k Hk. apply smem_In in Hk.
        assert (smem k td_names = true) as Htd by (unfold number_keys in Hk; lit_cases Hk; reflexivity). split.
        * apply interaction_nil; auto. unfold number_keys in Hk; lit_cases Hk; reflexivity.
        * rewrite get_app, Hx by auto. unfold number_keys in Hk; lit_cases Hk; gets; reflexivity.
    - intros (F1 & F2). destruct (@interaction_fits PProperty (pa_ia p)) as [G1 G2]; auto;
        [left; reflexivity|]. apply conf_obj; [discriminate| |].
      + intros k [<-|[]]. unfold property_es. rewrite get_app. destruct (get "forms" _); [congruence|discriminate].
      + unfold property_es. apply fits_app; [auto|]. apply fits_app; [apply ds_fits; auto; left; reflexivity|].
        apply fits_app; [fit1; leaf|].
        eapply fits_ext; try discriminate; [apply (wc_pa HT)|apply (na_pa HK)|auto].
  Qed.

  (** ** Things *)

  Lemma secdefs_conf m j : map_ok (security_typed E) m ->
    (forall k s n data, In (k, s) m -> ss_subtype s = Unknown n data ->
       exists es, (data = JObj es \/ (data = JNull /\ es = [])) /\ own_name n es
         /\ disjoint (map fst es) ["@type"; "description"; "descriptions"; "proxy"; "scheme"]) ->
    s_secdefs mk m = Some j -> conforms (MapOf (Object PSecurity)) j.
  Proof.
    intros [Hs Ht] Hx H. unfold s_secdefs in H. apply option_map_inv in H as (es & H & ->).
    assert (forall k v, In (k, v) es -> exists s, In (k, s) m /\ s_security mk s = Some v) as Hes.
    { clear Hs Ht Hx. revert es H. induction m as [|[k s] m IH]; simpl; intros es H.
      - injection H as <-. intros ? ? [].
      - destruct (s_security mk s) as [j|] eqn:Ej; [|discriminate].
        simpl in H. apply obind_inv in H as (es' & H & He). injection He as <-.
        intros k' v [[= <- <-]|Hin]; [eauto|]. destruct (IH _ H _ _ Hin) as (s' & ? & ?). eauto. }
    destruct (mk_obj es) as (es' & -> & Hi & _). constructor. intros k v Hin. apply Hi in Hin.
    destruct (Hes _ _ Hin) as (s & Hm & Hv). eapply security_conf; [| |exact Hv]; eauto.
  Qed.

  Definition map_full A (P : A -> Prop) (o : option (amap A)) : Prop :=
    forall m k a, o = Some m -> In (k, a) m -> P a.

  Definition thing_full (t : thing E X) : Prop :=
    (forall v, t_version t = Some v -> v_model v <> None)
    /\ map_full property_full (t_properties t) /\ map_full action_full (t_actions t)
    /\ map_full event_full (t_events t)
    /\ (forall l f, t_forms t = Some l -> In f l -> f_op f <> OpCustom [])
    /\ map_full schema_full (t_uri t) /\ map_full schema_full (t_schemas t).

  Lemma full_gaps (t : thing E X) : thing_full t <-> no_gaps t.
  Proof.
    split.
    - intros (Hv & Hp & Ha & He & Hf & Hu & Hs).
      assert (forall k n i, affordance (SpecThing.thing_body t) k n i -> interaction_full i) as Hi.
      { intros k n i [n' a Hin|n' a Hin|n' a Hin]; cbn in Hin.
        - destruct (t_properties t) eqn:Q; [|destruct Hin]. eapply Hp; eauto.
        - destruct (t_actions t) eqn:Q; [|destruct Hin]. eapply Ha; eauto.
        - destruct (t_events t) eqn:Q; [|destruct Hin]. eapply He; eauto. }
      constructor; auto.
      + intros c f [f' Hin|k n i f' Haff Hin].
        * cbn in Hin. destruct (t_forms t) eqn:Q; [|destruct Hin]. eauto.
        * apply (Hi _ _ _ Haff). exact Hin.
      + intros d e n x Hin. assert (schema_full d) as G; [|intros He' Hn Hx; exact (G e He' n x Hn Hx)].
        destruct Hin as [[n' a Hin Hd|n' a Hin Hd|n' a Hin Hd|n' a Hin Hd|n' a Hin Hd|n' a Hin Hd]|n' a Hin Hd|[n' Hin|k m i n' Haff Hin]|n' Hin];
          cbn in Hin.
        * destruct (t_properties t) eqn:Q; [|destruct Hin]. subst d. eapply Hp; eauto.
        * destruct (t_actions t) eqn:Q; [|destruct Hin]. destruct (Ha _ _ _ eq_refl Hin) as (_ & G & _); auto.
        * destruct (t_actions t) eqn:Q; [|destruct Hin]. destruct (Ha _ _ _ eq_refl Hin) as (_ & _ & G); auto.
        * destruct (t_events t) eqn:Q; [|destruct Hin]. destruct (He _ _ _ eq_refl Hin) as (_ & G & _); auto.
        * destruct (t_events t) eqn:Q; [|destruct Hin]. destruct (He _ _ _ eq_refl Hin) as (_ & _ & G & _); auto.
        * destruct (t_events t) eqn:Q; [|destruct Hin]. destruct (He _ _ _ eq_refl Hin) as (_ & _ & _ & _ & G); auto.
        * destruct (t_events t) eqn:Q; [|destruct Hin]. destruct (He _ _ _ eq_refl Hin) as (_ & _ & _ & G & _); auto.
        * destruct (t_uri t) eqn:Q; [|destruct Hin]. eapply Hu; eauto.
        * destruct (ia_uri i) eqn:Q; [|destruct Hin]. eapply (Hi _ _ _ Haff); eauto.
        * destruct (t_schemas t) eqn:Q; [|destruct Hin]. eapply Hs; eauto.
    - intros [Ho Hv Hn].
      assert (forall d, schema_in (SpecThing.thing_body t) d -> schema_full d) as Hd.
      { intros d Hin e He n x. apply (Hn d e n x Hin He). }
      assert (forall k n i, affordance (SpecThing.thing_body t) k n i -> interaction_full i) as Hi.
      { intros k n i Haff. split.
        - intros f Hin. eapply Ho. eapply form_aff; eauto.
        - intros m k' d Hm Hin. apply Hd, in_uri. eapply uri_aff; [exact Haff|]. rewrite Hm. exact Hin. }
      unfold thing_full. repeat match goal with |- _ /\ _ => split end; auto.
      + intros m k a Hm Hin. assert (In (k, a) (y_properties (SpecThing.thing_body t))) as G by (cbn; rewrite Hm; exact Hin).
        split; [eapply Hi; econstructor; exact G|]. apply Hd, in_checked. eapply chk_property; eauto.
      + intros m k a Hm Hin. assert (In (k, a) (y_actions (SpecThing.thing_body t))) as G by (cbn; rewrite Hm; exact Hin).
        split; [eapply Hi; econstructor; exact G|]. split; intros d Q; apply Hd, in_checked; [eapply chk_input|eapply chk_output]; eauto.
      + intros m k a Hm Hin. assert (In (k, a) (y_events (SpecThing.thing_body t))) as G by (cbn; rewrite Hm; exact Hin).
        split; [eapply Hi; econstructor; exact G|]. repeat split; intros d Q; apply Hd;
          [apply in_checked; eapply chk_subscription|apply in_checked; eapply chk_data|eapply in_response|apply in_checked; eapply chk_cancellation]; eauto.
      + intros l f Hl Hin. eapply Ho. apply form_thing. cbn. rewrite Hl. exact Hin.
      + intros m k a Hm Hin. apply Hd, in_uri. eapply uri_thing. cbn. rewrite Hm. exact Hin.
      + intros m k a Hm Hin. apply Hd. eapply in_definitions. cbn. rewrite Hm. exact Hin.
  Qed.

  Lemma map_full_conf A (P : A -> Prop) (Ty : A -> Prop) (f : A -> json) s o :
    (forall a, Ty a -> (conforms s (f a) <-> P a)) -> all_some (map_ok Ty) o ->
    ((forall m, o = Some m -> conforms (MapOf s) (s_map mk f m)) <-> map_full P o).
  Proof.
    intros Hc Ht. split.
    - intros H m k a Hm Hin. destruct (Ht _ Hm) as [Hs Ha]. apply Hc; [eauto|]. eapply map_conf; eauto.
    - intros H m Hm. destruct (Ht _ Hm) as [Hs Ha]. apply conf_map. intros k a Hin. apply Hc; eauto.
  Qed.

  Theorem thing_conf (t : thing E X) j : thing_typed T t -> schemes_own t -> dates_readable t ->
    s_thing mk t = Some j -> (conforms (Object PThing) j <-> no_gaps t).
  Proof.
    intros (Hcx & Hts & Hds & Hpr & Hac & Hev & Hli & Hfo & Hsd & Hur & Hsc & Ho) Hown [Hdc Hdm] H.
    rewrite <- full_gaps. unfold thing_full.
    unfold s_thing in H. apply option_map_inv in H as (es & H & ->). unfold thing_es in H.
    apply obind_inv in H as (cr & Hcr & H). apply date_es_eq in Hcr as ->.
    apply obind_inv in H as (mo & Hmo & H). apply date_es_eq in Hmo as ->.
    apply obind_inv in H as (sd & Hsd' & H).
    assert (conforms (MapOf (Object PSecurity)) sd) as Hcd by (eapply secdefs_conf; eauto).
    apply some_inj in H as <-.
    rewrite <- (@map_full_conf _ _ _ _ _ _ property_conf Hpr), <- (@map_full_conf _ _ _ _ _ _ action_conf Hac), <- (@map_full_conf _ _ _ _ _ _ event_conf Hev),
      <- (@map_full_conf _ _ _ _ _ _ schema_conf Hur), <- (@map_full_conf _ _ _ _ _ _ schema_conf Hsc).
    pose proof (fun k => @ext_nil _ _ _ _ k (wc_t HT) (na_t HK) Ho) as Hx. split.
    - intros H.
      repeat match goal with |- _ /\ _ => split end; intros m Hm.
      + apply version_conf. eapply (conf_get "version" H); [|reflexivity]. gets. rewrite Hm, Hx by reflexivity. reflexivity.
      + eapply (conf_get "properties" H); [|reflexivity]. gets. rewrite Hm, Hx by reflexivity. reflexivity.
      + eapply (conf_get "actions" H); [|reflexivity]. gets. rewrite Hm, Hx by reflexivity. reflexivity.
      + eapply (conf_get "events" H); [|reflexivity]. gets. rewrite Hm, Hx by reflexivity. reflexivity.
      + intros Hm' Hin. pose proof (Hfo _ Hm') as G. rewrite Forall_forall in G. apply form_conf; auto.
        eapply list_conf; [|exact Hin].
        eapply (conf_get "forms" H); [|reflexivity]. gets. rewrite Hm', Hx by reflexivity. reflexivity.
      + eapply (conf_get "uriVariables" H); [|reflexivity]. gets. rewrite Hm, Hx by reflexivity. reflexivity.
      + eapply (conf_get "schemaDefinitions" H); [|reflexivity]. gets. rewrite Hm, Hx by reflexivity. reflexivity.
    - intros (F1 & F2 & F3 & F4 & F5 & F6 & F7). apply conf_obj; [discriminate| |].
      + intros k [<-|[<-|[<-|[]]]]; gets; [destruct (get "title" (p_ser (x_t X) mk (t_other t)))
          |destruct (get "security" (p_ser (x_t X) mk (t_other t)))
          |destruct (get "securityDefinitions" (p_ser (x_t X) mk (t_other t)))]; discriminate.
      + repeat match goal with |- fits _ (_ ++ _) => apply fits_app end; try (fit1; try leaf).
        * apply conf_texts; auto.
        * apply conf_texts; auto.
        * apply version_conf. auto.
        * unfold date_text in Ha. destruct (t_created t) as [d|] eqn:Q; [|discriminate].
          constructor. destruct (Hdc _ eq_refl) as (s & H1 & H2). rewrite H1 in Ha. injection Ha as <-. congruence.
        * unfold date_text in Ha. destruct (t_modified t) as [d|] eqn:Q; [|discriminate].
          constructor. destruct (Hdm _ eq_refl) as (s & H1 & H2). rewrite H1 in Ha. injection Ha as <-. congruence.
        * auto.
        * auto.
        * auto.
        * apply conf_list. intros l Hl. apply link_conf. pose proof (Hli _ Ha) as G. rewrite Forall_forall in G. auto.
        * apply conf_list. intros f Hf. pose proof (Hfo _ Ha) as G. rewrite Forall_forall in G. apply form_conf; eauto.
        * exact Hcd.
        * apply F6; auto.
        * apply F7; auto.
        * eapply fits_ext; try discriminate; [apply (wc_t HT)|apply (na_t HK)|auto].
  Qed.
End Conform.
