(** * Structs read from arrays *)

From Coq Require Import String Bool ZArith Arith Lia List.
From Verif Require Import Base Json Serde Types De Ser Protocol SpecSerde RoundTripTd ProtocolFacts ExtFacts Samples SpecRow SpecThing.
Import ListNotations.
Set Implicit Arguments.
Local Open Scope string_scope.
Local Open Scope list_scope.

Lemma text_at i l o : sq_opt i d_str l = Some o <-> exists c, nth_error l i = Some c /\ text_cell o c.
Proof.
  unfold sq_opt. split.
  - destruct (nth_error l i) as [c|]; [|discriminate]. intros H. exists c. split; [reflexivity|].
    destruct c; cbn in H; try discriminate; injection H as <-; constructor.
  - intros (c & -> & [|s]); reflexivity.
Qed.

Lemma block_at i l o : sq_opt i d_block l = Some o <-> exists c, nth_error l i = Some c /\ block_cell o c.
Proof.
  unfold sq_opt. split.
  - destruct (nth_error l i) as [c|]; [|discriminate]. intros H. exists c. split; [reflexivity|].
    assert (Q : forall b, d_block c = Some b -> block_cell (Some b) c) by (intros b Hb; apply d_block_iff in Hb as ->; destruct b; constructor).
    destruct (d_block c) as [b|] eqn:Hb.
    + specialize (Q b eq_refl). destruct c; cbn in H; try discriminate; injection H as <-; exact Q.
    + destruct c; cbn in H; try discriminate. injection H as <-. constructor.
  - intros (c & -> & Hc). destruct Hc; reflexivity.
Qed.

Lemma short_nth A (l : list A) n : List.length l <= n -> nth_error l n = None.
Proof. intros H. apply nth_error_None, H. Qed.

Lemma version_iff l v : d_version (JArr l) = Some v <-> version_row v l.
Proof.
  unfold d_version, d_struct. split.
  - destruct (Nat.leb_spec (List.length l) 2); [|discriminate]. unfold obind.
    destruct (sq_req 0 d_str l) as [i|] eqn:Hi; [|discriminate]. destruct (sq_opt 1 d_str l) as [m|] eqn:Hm; [|discriminate].
    intros [= <-]. apply text_at in Hm as (c & Hc & Hm). destruct l as [|a [|b [|]]]; cbn in *; try discriminate; try lia.
    injection Hc as ->. destruct a; cbn in Hi; try discriminate. injection Hi as ->. constructor. exact Hm.
  - intros [i m cm Hm]. cbn [List.length Nat.leb]. unfold sq_req. cbn [nth_error d_str obind].
    rewrite (proj2 (text_at 1 [JStr i; cm] m)) by (exists cm; auto). reflexivity.
Qed.

Lemma response_iff l r : d_add_resp (JArr l) = Some r <-> response_row r l.
Proof.
  unfold d_add_resp, d_struct. split.
  - destruct (Nat.leb_spec (List.length l) 3); [|discriminate]. unfold obind.
    destruct (sq_dflt 0 false d_bool l) as [i|] eqn:Hi; [|discriminate].
    destruct (sq_opt 1 d_str l) as [m|] eqn:Hm; [|discriminate]. destruct (sq_opt 2 d_str l) as [k|] eqn:Hk; [|discriminate].
    intros [= <-]. apply text_at in Hm as (c & Hc & Hm). apply text_at in Hk as (e & He & Hk).
    destruct l as [|a [|b [|d [|]]]]; cbn in *; try discriminate; try lia.
    injection Hc as ->. injection He as ->. destruct a; cbn in Hi; try discriminate. injection Hi as ->. constructor; assumption.
  - intros [s c n cc cn Hc Hn]. cbn [List.length Nat.leb]. unfold sq_dflt. cbn [nth_error d_bool obind].
    rewrite (proj2 (text_at 1 [JBool s; cc; cn] c)) by (exists cc; auto). cbn [obind].
    rewrite (proj2 (text_at 2 [JBool s; cc; cn] n)) by (exists cn; auto). reflexivity.
Qed.

Lemma header_iff l h : d_http_header (JArr l) = Some h <-> header_row h l.
Proof.
  unfold d_http_header, d_struct. split.
  - destruct (Nat.leb_spec (List.length l) 2); [|discriminate]. unfold obind.
    destruct (sq_opt 0 d_str l) as [m|] eqn:Hm; [|discriminate]. destruct (sq_opt 1 d_str l) as [k|] eqn:Hk; [|discriminate].
    intros [= <-]. apply text_at in Hm as (c & Hc & Hm). apply text_at in Hk as (e & He & Hk).
    destruct l as [|a [|b [|]]]; cbn in *; try discriminate; try lia.
    injection Hc as ->. injection He as ->. constructor; assumption.
  - intros [n v cn cv Hn Hv]. cbn [List.length Nat.leb].
    rewrite (proj2 (text_at 0 [cn; cv] n)) by (exists cn; auto). cbn [obind].
    rewrite (proj2 (text_at 1 [cn; cv] v)) by (exists cv; auto). reflexivity.
Qed.

Lemma blockwise_iff l b : d_blockwise (JArr l) = Some b <-> blockwise_row b l.
Proof.
  unfold d_blockwise, d_struct. split.
  - destruct (Nat.leb_spec (List.length l) 2); [|discriminate]. unfold obind.
    destruct (sq_opt 0 d_block l) as [m|] eqn:Hm; [|discriminate]. destruct (sq_opt 1 d_block l) as [k|] eqn:Hk; [|discriminate].
    intros [= <-]. apply block_at in Hm as (c & Hc & Hm). apply block_at in Hk as (e & He & Hk).
    destruct l as [|a [|d [|]]]; cbn in *; try discriminate; try lia.
    injection Hc as ->. injection He as ->. constructor; assumption.
  - intros [n v cn cv Hn Hv]. cbn [List.length Nat.leb].
    rewrite (proj2 (block_at 0 [cn; cv] n)) by (exists cn; auto). cbn [obind].
    rewrite (proj2 (block_at 1 [cn; cv] v)) by (exists cv; auto). reflexivity.
Qed.

Section Links.
  Variable E : env.

  Lemma tags_all l ls : omap_all (d_langtag E) l = Some ls <-> l = map JStr ls /\ Forall (fun s => tag_ok E s = true) ls.
  Proof.
    revert ls. induction l as [|j l IH]; intros ls.
    - cbn. split; [intros [= <-]; split; [reflexivity|constructor]|]. intros [H _]. destruct ls; [reflexivity|discriminate].
    - cbn [omap_all]. split.
      + unfold d_langtag at 1. destruct j; cbn; try discriminate. destruct (tag_ok E s) eqn:Hs; cbn; [|discriminate].
        destruct (omap_all (d_langtag E) l) as [r|] eqn:Hr; cbn; [|discriminate]. intros [= <-].
        destruct (proj1 (IH r) eq_refl) as [-> Hf]. split; [reflexivity|constructor; assumption].
      + intros [H Hf]. destruct ls as [|s ls]; [discriminate|]. injection H as -> ->. apply Forall_cons_iff in Hf as [Hs Hf].
        cbn. rewrite Hs. cbn. rewrite (proj2 (IH ls) (conj eq_refl Hf)). reflexivity.
  Qed.

  Lemma languages_at l o : List.length l <= 6 -> 5 <= List.length l ->
    sq_optd 5 (d_oom (d_langtag E)) l = Some o <-> languages_end o (skipn 5 l) /\ all_some (Forall (fun s => tag_ok E s = true)) o.
  Proof.
    intros H6 H5. destruct l as [|? [|? [|? [|? [|? l]]]]]; cbn in H5; try lia. cbn [skipn]. unfold sq_optd. cbn [nth_error].
    destruct l as [|c [|]]; cbn in H6; try lia.
    - split; [intros [= <-]; split; [constructor|intros ? [=]]|]. intros [H _]. inversion H. reflexivity.
    - split.
      + destruct c as [|b|n|x|s|v|es]; cbn; try discriminate.
        * intros [= <-]. split; [constructor|intros ? [=]].
        * unfold d_oom. cbn. destruct (tag_ok E s) eqn:Hs; cbn; [|discriminate]. intros [= <-].
          split; [constructor|]. intros ? [= <-]. constructor; [exact Hs|constructor].
        * unfold d_oom. cbn [d_langtag d_list]. destruct (omap_all (d_langtag E) v) as [ls|] eqn:Hv; [|discriminate].
          cbn. intros [= <-]. apply tags_all in Hv as [-> Hv]. split; [constructor|]. intros ? [= <-]. exact Hv.
      + intros [H Hf]. inversion H; subst.
        * reflexivity.
        * specialize (Hf _ eq_refl). apply Forall_inv in Hf. unfold d_oom. cbn. rewrite Hf. reflexivity.
        * specialize (Hf _ eq_refl). unfold d_oom. cbn [d_langtag d_list]. rewrite (proj2 (tags_all _ _) (conj eq_refl Hf)). reflexivity.
  Qed.

  Lemma link_iff l k : d_link E (JArr l) = Some k <-> link_row k l /\ link_ok E k.
  Proof.
    unfold d_link, d_struct, link_ok. split.
    - destruct (Nat.leb_spec (List.length l) 6); [|discriminate]. unfold obind.
      destruct (sq_req 0 d_str l) as [h|] eqn:H0; [|discriminate]. destruct (sq_opt 1 d_str l) as [t|] eqn:H1; [|discriminate].
      destruct (sq_opt 2 d_str l) as [r|] eqn:H2; [|discriminate]. destruct (sq_opt 3 d_str l) as [a|] eqn:H3; [|discriminate].
      destruct (sq_opt 4 d_str l) as [s|] eqn:H4; [|discriminate].
      destruct (sq_optd 5 (d_oom (d_langtag E)) l) as [g|] eqn:H5; [|discriminate]. intros [= <-]. cbn [l_hreflang].
      apply text_at in H1 as (c1 & N1 & H1). apply text_at in H2 as (c2 & N2 & H2). apply text_at in H3 as (c3 & N3 & H3).
      apply text_at in H4 as (c4 & N4 & H4).
      apply languages_at in H5; [|assumption|]; cycle 1.
      { assert (4 < List.length l) by (apply nth_error_Some; rewrite N4; discriminate). lia. }
      destruct H5 as [H5 Hf]. split; [|exact Hf].
      destruct l as [|e0 [|e1 [|e2 [|e3 [|e4 rest]]]]]; cbn in *; try discriminate.
      injection N1 as ->. injection N2 as ->. injection N3 as ->. injection N4 as ->.
      destruct e0; cbn in H0; try discriminate. injection H0 as ->. constructor; assumption.
    - intros [[h t r a s ls ct cr ca cs rest Ht Hr Ha Hs Hl] Hf]. cbn [l_hreflang] in Hf.
      assert (L : List.length rest <= 1) by (destruct Hl; cbn; lia).
      set (w := JStr h :: ct :: cr :: ca :: cs :: rest).
      assert (L6 : List.length w <= 6) by (cbn; lia). rewrite (proj2 (Nat.leb_le _ _) L6).
      change (sq_req 0 d_str w) with (Some h). cbn [obind].
      rewrite (proj2 (text_at 1 w t)) by (exists ct; auto). cbn [obind].
      rewrite (proj2 (text_at 2 w r)) by (exists cr; auto). cbn [obind].
      rewrite (proj2 (text_at 3 w a)) by (exists ca; auto). cbn [obind].
      rewrite (proj2 (text_at 4 w s)) by (exists cs; auto). cbn [obind].
      rewrite (proj2 (languages_at w ls L6 ltac:(cbn; lia))) by (split; assumption). reflexivity.
  Qed.

  Variable X : exts.

  Lemma objects_only j :
    (d_thing E X j <> None \/ d_property E X j <> None \/ d_action E X j <> None \/ d_event E X j <> None \/ d_ds E X j <> None
     \/ d_form X j <> None \/ d_exp_resp X j <> None \/ d_security E j <> None) -> exists es, j = JObj es.
  Proof.
    destruct j as [|b|n|x|s|v|es]; try (intros _; exists es; reflexivity); intros H; exfalso;
      repeat (destruct H as [H|H]; [apply H; reflexivity|]); apply H; reflexivity.
  Qed.

  Lemma rows_or_objects j :
    (d_link E j <> None \/ d_add_resp j <> None \/ d_version j <> None \/ d_http_header j <> None \/ d_blockwise j <> None) ->
    (exists es, j = JObj es) \/ (exists l, j = JArr l).
  Proof.
    destruct j as [|b|n|x|s|v|es]; try (intros _; left; exists es; reflexivity); try (intros _; right; exists v; reflexivity);
      intros H; exfalso; repeat (destruct H as [H|H]; [apply H; reflexivity|]); apply H; reflexivity.
  Qed.
End Links.

(** The array of a struct is read like its object. *)
Lemma rows_same mk E : json_writer mk ->
  (forall k l, link_row k l -> link_ok E k -> d_link E (JArr l) = d_link E (s_link mk k))
  /\ (forall r l, response_row r l -> d_add_resp (JArr l) = d_add_resp (s_add_resp mk r))
  /\ (forall v l, version_row v l -> d_version (JArr l) = d_version (s_version mk v))
  /\ (forall h l, header_row h l -> d_http_header (JArr l) = d_http_header (s_http_header mk h))
  /\ (forall b l, blockwise_row b l -> d_blockwise (JArr l) = d_blockwise (s_blockwise mk b)).
Proof.
  intros Hw. repeat split.
  - intros k l Hr Hk. rewrite (link_rt Hw Hk). apply link_iff. split; assumption.
  - intros r l Hr. rewrite (proj1 (add_resp_rt Hw r)). apply response_iff, Hr.
  - intros v l Hr. rewrite (proj1 (version_rt Hw v)). apply version_iff, Hr.
  - intros h l Hr. rewrite (d_http_header_rt h Hw). apply header_iff, Hr.
  - intros b l Hr. rewrite (proj1 (d_blockwise_rt b Hw)). apply blockwise_iff, Hr.
Qed.

(** ** An example *)

(** An icon of the lamp, in German or English. *)
Definition icon : link :=
  {| l_href := "lamp.png"; l_type := Some "image/png"; l_rel := Some "icon"; l_anchor := None; l_sizes := Some "16x16";
     l_hreflang := Some ["de"; "en"] |}.

(** The icon as an array. *)
Definition icon_row : list json :=
  [JStr "lamp.png"; JStr "image/png"; JStr "icon"; JNull; JStr "16x16"; JArr [JStr "de"; JStr "en"]].

Lemma rows_used :
  link_row icon icon_row /\ link_ok sample_env icon
  /\ link_row {| l_href := "x"; l_type := None; l_rel := None; l_anchor := None; l_sizes := None; l_hreflang := None |} [JStr "x"; JNull; JNull; JNull; JNull]
  /\ response_row {| ar_success := true; ar_ctype := None; ar_schema := Some "error" |} [JBool true; JNull; JStr "error"]
  /\ version_row {| v_instance := "1.0.0"; v_model := Some "1.1" |} [JStr "1.0.0"; JStr "1.1"]
  /\ header_row {| hh_name := Some "Accept"; hh_value := None |} [JStr "Accept"; JNull]
  /\ blockwise_row {| bw_2 := Some B64; bw_1 := None |} [JInt 64; JNull]
  /\ d_version (JArr [JStr "1.0.0"]) = None /\ json_writer mk_text /\ json_writer mk_value.
Proof.
  repeat match goal with |- _ /\ _ => split end; try reflexivity; try (left; reflexivity); try (right; reflexivity).
  - constructor; constructor.
  - intros l [= <-]. repeat constructor.
  - repeat constructor.
  - repeat constructor.
  - repeat constructor.
  - repeat constructor.
  - repeat constructor.
Qed.
