(** * Depth: the extensions, Things that reach the limit *)

From Coq Require Import String Bool ZArith Lia List.
From Verif Require Import Base MinMax Json Serde Types HList Protocol Spec DsFacts SpecSerde SpecDoc SpecTyped SpecExt SpecMember Ser De
  JsonText SpecJsonText JsonTextFacts SpecNest NestFacts DsBuilder Samples TextSamples DocSamples ExtTypedFacts Witnesses SerdeSamples ExchangeMore ExactFacts SpecThing.
Import ListNotations.
Set Implicit Arguments.
Local Open Scope string_scope.
Local Open Scope list_scope.

(** ** The extensions of src/protocol *)

Ltac members := repeat first [apply flat_nil | apply flat_fld | apply flat_app | apply flat_ofld; intros | apply Nat.le_0_l].

Lemma shallow_of p k : (forall mk a, json_writer mk -> flat k (p_ser p mk a)) -> writes_shallow p k.
Proof. intros H mk a n j Hw Hin. apply not_nested. eapply H; eauto. Qed.

Lemma unit_shallow k : writes_shallow unit_piece k.
Proof. intros mk a n j _ []. Qed.

Lemma http_shallow : exts_shallow http_exts 2.
Proof.
  constructor; try apply unit_shallow; apply shallow_of; intros mk a Hw;
    cbn [http_exts x_f x_er p_ser http_form_piece http_response_piece].
  - members.
  - destruct (hr_headers a) as [|h l]; members. apply (depth_list (s_http_header mk)). intros. apply depth_mk; auto. members.
Qed.

Lemma coap_shallow : exts_shallow coap_exts 1.
Proof.
  constructor; try apply unit_shallow; apply shallow_of; intros mk a Hw;
    cbn [coap_exts x_f x_er p_ser coap_form_piece coap_response_piece]; members; apply depth_mk; auto; members.
Qed.

Lemma mqtt_shallow : exts_shallow mqtt_exts 1.
Proof.
  constructor; try apply unit_shallow; apply shallow_of; intros mk a Hw; cbn [mqtt_exts x_f p_ser mqtt_form_piece].
  destruct (mf_retain a), (mf_filter a); members; apply depth_strs; lia.
Qed.

Lemma cons_shallow X X' k : exts_shallow X k -> exts_shallow X' k -> exts_shallow (cons_exts X X') k.
Proof.
  assert (H : forall p q, writes_shallow p k -> writes_shallow q k -> writes_shallow (cons_piece p q) k).
  { intros p q Hp Hq mk a n j Hw Hin. cbn in Hin. apply in_app_or in Hin as [Hin|Hin]; eauto. }
  intros [] []. constructor; apply H; auto.
Qed.

(** ** A Thing as deep as its schemas and values allow *)

Fixpoint boxes (k : nat) : json := match k with O => JNull | S k => JArr [boxes k] end.

Fixpoint choices (n k : nat) : ds unit unit unit :=
  match n with
  | O => mkDs (ds_info leaf) {| m_const := None; m_default := None; m_unit := None; m_enum := Some [boxes k]; m_ro := false; m_wo := false;
                                m_format := None |} None None tt
  | S n => mkDs (ds_info leaf) (ds_misc leaf) (Some [choices n k]) None tt
  end.

Definition choosy (n k : nat) : thing sample_env http_exts :=
  {| t_context := JStr TD_CONTEXT_11; t_id := None; t_attype := None; t_title := "Lamp"; t_titles := None; t_description := None;
     t_descriptions := None; t_version := None; t_created := None; t_modified := None; t_support := None; t_base := None;
     t_properties := None;
     t_actions := Some [("a", {| aa_ia := {| ia_info := no_info; ia_forms := []; ia_uri := Some [("u", choices n k : dsx http_exts)];
                                             ia_other := tt : pty (x_ia http_exts) |};
                                 aa_input := None; aa_output := None; aa_safe := false; aa_idempotent := false; aa_synchronous := None;
                                 aa_other := tt : pty (x_aa http_exts) |})];
     t_events := None; t_links := None; t_forms := None; t_security := []; t_secdefs := [];
     t_uri := None; t_profile := None; t_schemas := None; t_other := tt : pty (x_t http_exts) |}.

Lemma boxes_depth k : jdepth (boxes k) = k.
Proof. induction k as [|k IH]; [reflexivity|]. cbn. rewrite IH. lia. Qed.

Lemma choices_inside n k c d : inside c d -> d = choices n k -> exists m, n = S m /\ c = choices m k.
Proof.
  intros H ->. destruct n as [|n].
  - inversion H; subst; discriminate.
  - inversion H as [d l Hl Hc|d mn mx o Hd|d l mn mx o Hd|d ps k' r o Hd]; subst; try discriminate.
    injection Hl as <-. destruct Hc as [<-|[]]. eauto.
Qed.

Lemma choices_levels m d : levels m d -> forall n k, d = choices n k -> m <= S n.
Proof.
  induction 1 as [d|m c d Hi Hl IH]; intros n k Hd; [lia|].
  apply (choices_inside n k) in Hi as (n' & -> & ->); auto. specialize (IH n' k eq_refl). lia.
Qed.

Lemma choices_sub n k e : sub_ds e (choices n k) -> exists m, e = choices m k.
Proof.
  induction n as [|n IH]; intros H; apply sub_inv in H as [->|(c & Hc & H)]; try (eexists; reflexivity).
  - destruct Hc.
  - cbn in Hc. destruct Hc as [<-|[]]. auto.
Qed.

Lemma choosy_schema n k d : schema_in (thing_body (choosy n k)) d -> d = choices n k.
Proof.
  intros H. destruct H as [H|n' a H|H|n' H].
  - destruct H as [n' a H|n' a H E|n' a H E|n' a H|n' a H|n' a H]; cbn in H; try tauto; destruct H as [[= <- <-]|[]]; discriminate E.
  - destruct H.
  - destruct H as [n' H|kd m i n' H Hin]; [destruct H|]. destruct H as [n2 a H|n2 a H|n2 a H]; cbn in H; try tauto.
    destruct H as [[= <- <-]|[]]. cbn in Hin. destruct Hin as [[= <- <-]|[]]. reflexivity.
  - destruct H.
Qed.

Lemma choosy_value n k v : 1 <= k -> value_in (choosy n k) v -> jdepth v <= k.
Proof.
  intros Hk H. destruct H as [<-|d e Hd He Hv|d e Hd He Hv|d e l Hd He Hl Hv|n' s sc es k' Hs].
  - apply Nat.le_0_l.
  - apply choosy_schema in Hd as ->. apply choices_sub in He as [[|m] ->]; discriminate Hv.
  - apply choosy_schema in Hd as ->. apply choices_sub in He as [[|m] ->]; discriminate Hv.
  - apply choosy_schema in Hd as ->. apply choices_sub in He as [[|m] ->]; [|discriminate Hl].
    injection Hl as <-. destruct Hv as [<-|[]]. rewrite boxes_depth. apply le_n.
  - destruct Hs.
Qed.

Lemma choosy_depth n k : exists j, s_thing mk_text (choosy n k) = Some j /\ nested (6 + 2 * n + k) j.
Proof.
  assert (Hb : forall mk, json_writer mk -> ser_value mk (boxes k) = boxes k).
  { intros mk _. induction k as [|k' IH]; [reflexivity|]. cbn. rewrite IH. reflexivity. }
  assert (H : nested (2 * n + k + 2) (s_ds (X := http_exts) mk_text (choices n k))).
  { induction n as [|n IH].
    - replace (2 * 0 + k + 2) with (S (S k)) by lia.
      eapply ne_obj with (k := "enum") (j := JArr [ser_value mk_text (boxes k)]); [left; reflexivity|].
      eapply ne_arr; [left; reflexivity|]. rewrite (Hb mk_text (or_introl eq_refl)). apply nested_depth. rewrite boxes_depth. apply le_n.
    - replace (2 * S n + k + 2) with (S (S (2 * n + k + 2))) by lia.
      eapply ne_obj with (k := "oneOf") (j := JArr [s_ds (X := http_exts) mk_text (choices n k)]); [left; reflexivity|].
      eapply ne_arr; [left; reflexivity|exact IH]. }
  eexists. split; [reflexivity|].
  replace (6 + 2 * n + k) with (S (S (S (S (2 * n + k + 2))))) by lia.
  eapply ne_obj with (k := "actions"); [right; right; left; reflexivity|].
  eapply ne_obj with (k := "a"); [left; reflexivity|].
  eapply ne_obj with (k := "uriVariables"); [right; left; reflexivity|].
  eapply ne_obj with (k := "u"); [left; reflexivity|]. exact H.
Qed.

Lemma nesting_sharp L k : 1 <= L -> 1 <= k ->
  exists (t : thing sample_env http_exts) j,
    (forall d, schema_in (thing_body t) d -> ~ levels (S L) d) /\ (forall v, value_in t v -> ~ nested (S k) v)
    /\ s_thing mk_text t = Some j /\ nested (4 + 2 * L + k) j.
Proof.
  intros HL Hk. destruct (choosy_depth (L - 1) k) as (j & Hj & Hn). exists (choosy (L - 1) k), j.
  split.
  { intros d Hd Hl. apply choosy_schema in Hd. assert (Q := choices_levels Hl _ _ Hd). lia. }
  split; [intros v Hv; apply not_nested; apply choosy_value in Hv; auto|]. split; [exact Hj|].
  replace (4 + 2 * L + k) with (6 + 2 * (L - 1) + k) by lia. exact Hn.
Qed.

(** ** The door and the arrays of arrays *)

Lemma deep_levels n : levels (S n) (deep_ds n).
Proof. induction n as [|n IH]; [apply lv_one|]. eapply lv_more; [|exact IH]. eapply ins_item. reflexivity. Qed.

Lemma deep_sub n e : sub_ds e (deep_ds n) -> exists m, e = deep_ds m.
Proof.
  induction n as [|n IH]; intros H; apply sub_inv in H as [->|(c & Hc & H)]; try (eexists; reflexivity).
  - destruct Hc.
  - cbn in Hc. destruct Hc as [<-|[]]. auto.
Qed.

Lemma deep_typed n : thing_typed http_typed (deep_thing n).
Proof.
  assert (H : forall m, node_typed sample_env (X := http_exts) http_typed (deep_ds m)).
  { assert (Hi : info_ok sample_env (ds_info leaf)) by (intros m [H|H]; discriminate H).
    intros m. destruct m as [|m].
    - split; [exact Hi|]. split; [discriminate|]. split; [discriminate|]. split; [discriminate|]. split; [|exact I].
      intros s [= <-]. exact I.
    - split; [exact Hi|]. split; [discriminate|]. split; [discriminate|]. split; [discriminate|]. split; [|exact I].
      intros s [= <-]. split; [discriminate|]. split; [discriminate|]. exact I. }
  split; [split; constructor|]. do 7 (split; [discriminate|]).
  split; [split; [constructor|intros k a []]|]. split; [discriminate|]. split; [|exact I].
  intros m Hm. injection Hm as <-. split; [split; [intros k' []|exact I]|]. intros k a [Ha|[]]. injection Ha as <- <-. intros e He.
  apply deep_sub in He as [m ->]. apply H.
Qed.

Lemma deep_defined n : schema_in (thing_body (deep_thing n)) (deep_ds n).
Proof. eapply in_definitions. left. reflexivity. Qed.

Lemma door_levels d : schema_in (thing_body the_door) d -> ~ levels 61 d.
Proof.
  intros Hd Hl. assert (Q := levels_thing door_written Hd Hl). revert Q. apply Nat.lt_nge. cbn. lia.
Qed.

(** The schemas in a schema, up to a depth *)
Fixpoint subs (n : nat) (d : dsx http_exts) : list (dsx http_exts) :=
  match n with O => [] | S n => d :: flat_map (subs n) (ds_children d) end.

Lemma subs_in d : forall n e, ~ levels (S n) d -> sub_ds e d -> In e (subs n d).
Proof.
  induction d as [d IH] using CleanFacts.children_ind. intros n e Hn He.
  destruct n as [|n]; [destruct Hn; apply lv_one|].
  apply sub_inv in He as [->|(c & Hc & He)]; [left; reflexivity|]. right. apply in_flat_map. exists c. split; auto.
  apply IH; auto. intros Hl. apply Hn. eapply lv_more; [apply inside_child, Hc|exact Hl].
Qed.

Definition tame (d : dsx http_exts) : bool :=
  let ok j := Nat.leb (jdepth j) 3 in
  match m_const (ds_misc d) with Some j => ok j | None => true end
  && match m_default (ds_misc d) with Some j => ok j | None => true end
  && match m_enum (ds_misc d) with Some l => forallb ok l | None => true end.

Lemma door_schemas d e : schema_in (thing_body the_door) d -> sub_ds e d -> tame e = true.
Proof.
  intros Hd He.
  assert (Hl : ~ levels 61 d) by (apply door_levels; exact Hd).
  apply (subs_in Hl) in He. revert e He.
  enough (Q : forallb tame (subs 60 d) = true) by (intros e He; exact (proj1 (forallb_forall _ _) Q e He)).
  clear Hl. destruct Hd as [Hd|n' a Hin Hx|Hd|n' Hin].
  - destruct Hd as [n' a Hin Hx|n' a Hin Hx|n' a Hin Hx|n' a Hin Hx|n' a Hin Hx|n' a Hin Hx]; cbn in Hin;
      repeat destruct Hin as [[= <- <-]|Hin]; try destruct Hin; cbn in Hx; try discriminate Hx;
      try (injection Hx as <-); subst; reflexivity.
  - cbn in Hin. repeat destruct Hin as [[= <- <-]|Hin]; try destruct Hin; cbn in Hx; try discriminate Hx;
      injection Hx as <-; reflexivity.
  - destruct Hd as [n' Hin|kd m i n' Ha Hin].
    + cbn in Hin. repeat destruct Hin as [[= <- <-]|Hin]; try destruct Hin; reflexivity.
    + destruct Ha as [n2 a Ha|n2 a Ha|n2 a Ha]; cbn in Ha; repeat destruct Ha as [[= <- <-]|Ha]; try destruct Ha; cbn in Hin; repeat destruct Hin as [[= <- <-]|Hin]; try destruct Hin; reflexivity.
  - cbn in Hin. repeat destruct Hin as [[= <- <-]|Hin]; try destruct Hin; reflexivity.
Qed.

Lemma door_values v : value_in the_door v -> ~ nested 4 v.
Proof.
  intros H. apply not_nested. destruct H as [<-|d e Hd He Hv|d e Hd He Hv|d e l Hd He Hl Hv|n' s sc es k' Hs He Hv].
  - cbn. lia.
  - assert (Q := door_schemas Hd He). unfold tame in Q. rewrite Hv in Q. apply Nat.leb_le.
    apply andb_prop in Q as [Q _]. apply andb_prop in Q as [Q _]. exact Q.
  - assert (Q := door_schemas Hd He). unfold tame in Q. rewrite Hv in Q. apply Nat.leb_le.
    apply andb_prop in Q as [Q _]. apply andb_prop in Q as [_ Q]. exact Q.
  - assert (Q := door_schemas Hd He). unfold tame in Q. rewrite Hl in Q. apply Nat.leb_le.
    apply andb_prop in Q as [_ Q]. exact (proj1 (forallb_forall _ _) Q v Hv).
  - cbn in Hs. repeat destruct Hs as [[= <- <-]|Hs]; try destruct Hs; discriminate He.
Qed.

Lemma nesting_used :
  exts_sound http_names http_typed http_values
  /\ exts_shallow http_exts 2 /\ thing_typed http_typed the_door /\ thing_ok http_values distinct the_door /\ untitled the_door
  /\ (forall d, schema_in (thing_body the_door) d -> ~ levels 61 d) /\ (forall v, value_in the_door v -> ~ nested 4 v)
  /\ s_thing mk_text the_door = Some door_json /\ (forall x, float_in x door_json -> faithful few_floats x)
  /\ thing_typed http_typed (deep_thing 125) /\ schema_in (thing_body (deep_thing 125)) (deep_ds 125) /\ levels 126 (deep_ds 125)
  /\ s_thing mk_text (deep_thing 125) = Some (deep_doc 125) /\ (forall F x, float_in x (deep_doc 125) -> faithful F x).
Proof.
  split; [exact http_sound|]. split; [exact http_shallow|]. split; [exact door_typed|]. split; [exact door_ok|].
  split; [exact door_untitled|]. split; [exact door_levels|]. split; [exact door_values|]. split; [exact door_written|].
  split; [exact door_faithful|]. split; [apply deep_typed|]. split; [apply deep_defined|]. split; [apply deep_levels|].
  split; [apply deep_written|]. intros F x Hx. destruct (deep_floats Hx).
Qed.
