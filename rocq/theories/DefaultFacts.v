(** * Default values are those of the least documents *)

From Coq Require Import String Bool ZArith Permutation List.
From Verif Require Import Base MinMax Json Serde Types DsBuilder Builder HList Protocol SpecSerde SpecDoc SpecMember Ser De Samples
  Defaults SpecDefault.
Import ListNotations.
Set Implicit Arguments.
Local Open Scope string_scope.
Local Open Scope list_scope.

Lemma least_mandatory d : map fst (least d) = mandatory d.
Proof. destruct d; reflexivity. Qed.

Section Defaults.
  Variable E : env.
  Variable X : exts.
  Variable Z : xdefaults X.
  Hypothesis HZ : exts_default Z.

  Local Ltac sub := intros ? H; repeat (destruct H as [<-|H]; [cbn; tauto|]); destruct H.

  Lemma ds_default_read es : es = [] \/ es = [("forms", JArr [])] -> d_ds E X (JObj es) = Some (ds_default Z).
  Proof.
    destruct HZ as (_ & _ & _ & _ & _ & _ & Hds & _).
    intros [-> | ->]; unfold d_ds; cbn - [p_de]; rewrite (proj1 Hds); try reflexivity; sub.
  Qed.

  Lemma interaction_default_read : interaction_body E X [("forms", JArr [])] = Some (interaction_default Z).
  Proof.
    destruct HZ as (_ & Hia & _). unfold interaction_body. cbn - [p_de]. rewrite (proj1 Hia); [reflexivity|sub].
  Qed.

  Lemma property_default_read : d_property E X (JObj (least DProperty)) = Some (property_default Z).
  Proof.
    destruct HZ as (_ & _ & Hpa & _). unfold d_property, d_flat, property_body.
    change (opt "observable" d_bool (least DProperty)) with (Some (@None bool)).
    change (without property_keys (least DProperty)) with [("forms", JArr [])]. cbv beta iota zeta.
    rewrite interaction_default_read, ds_default_read, (proj1 Hpa); [reflexivity|sub|auto].
  Qed.

  Lemma action_default_read : d_action E X (JObj (least DAction)) = Some (action_default Z).
  Proof.
    destruct HZ as (_ & _ & _ & Haa & _). unfold d_action, d_flat, action_body.
    change (without action_keys (least DAction)) with [("forms", JArr [])]. cbv zeta.
    rewrite interaction_default_read, (proj1 Haa); [reflexivity|sub].
  Qed.

  Lemma event_default_read : d_event E X (JObj (least DEvent)) = Some (event_default Z).
  Proof.
    destruct HZ as (_ & _ & _ & _ & Hea & _). unfold d_event, d_flat, event_body.
    change (without event_keys (least DEvent)) with [("forms", JArr [])]. cbv zeta.
    rewrite interaction_default_read, (proj1 Hea); [reflexivity|sub].
  Qed.

  Lemma form_default_read : d_form X (JObj (least DForm)) = Some (form_default Z).
  Proof.
    destruct HZ as (_ & _ & _ & _ & _ & Hf & _). unfold d_form, d_flat, form_body.
    change (without form_keys (least DForm)) with (@nil (string * json)).
    rewrite (proj1 Hf); [reflexivity|sub].
  Qed.

  Lemma thing_default_read : d_thing E X (JObj (("@context", JNull) :: least DThing)) = Some (thing_default E Z).
  Proof.
    destruct HZ as (Ht & _). unfold d_thing, d_flat, thing_body.
    change (without thing_keys (("@context", JNull) :: least DThing)) with (@nil (string * json)).
    rewrite (proj1 Ht); [reflexivity|sub].
  Qed.

  Lemma thing_least_read :
    d_thing E X (JObj (least DThing)) = Some (entitled (JStr TD_CONTEXT_11) "" (thing_default E Z)).
  Proof.
    destruct HZ as (Ht & _). unfold d_thing, d_flat, thing_body.
    change (without thing_keys (least DThing)) with (@nil (string * json)).
    rewrite (proj1 Ht); [reflexivity|sub].
  Qed.

  Lemma sub_default_read :
    d_ds E X (JObj []) = Some (ds_default Z)
    /\ forall (n : string) (s : dsubx X),
      In (n, s) [("array", array_default Z); ("boolean", SBoolean); ("number", SNumber number_default);
                 ("integer", SInteger integer_default); ("object", object_default Z);
                 ("string", SString string_default); ("null", dsub_default)] ->
      d_ds E X (JObj [("type", JStr n)]) = Some (mkDs no_info misc_default None (Some s) (z_ds Z)).
  Proof.
    split; [apply ds_default_read; auto|].
    destruct HZ as (_ & _ & _ & _ & _ & _ & Hds & Hos & Has).
    intros n s Hin.
    repeat (destruct Hin as [Hin|Hin];
      [injection Hin as <- <-; unfold d_ds; cbn - [p_de];
       rewrite ?(proj1 Has) by sub; rewrite ?(proj1 Hos) by sub; rewrite (proj1 Hds) by sub; reflexivity|]).
    destruct Hin.
  Qed.

  (** ** Written *)

  Lemma default_written :
    (forall mk, s_ds mk (ds_default Z) = mk (least DSchema ++ flags DSchema))
    /\ (forall mk, s_form mk (form_default Z) = mk (least DForm ++ flags DForm))
    /\ (forall mk, s_property mk (property_default Z) = mk (least DProperty ++ flags DProperty))
    /\ (forall mk, s_action mk (action_default Z) = mk (least DAction ++ flags DAction))
    /\ (forall mk, s_event mk (event_default Z) = mk (least DEvent ++ flags DEvent)).
  Proof.
    destruct HZ as (_ & Hia & Hpa & Haa & Hea & Hf & Hds & _).
    repeat split; intros mk.
    - unfold s_ds. f_equal. cbn - [p_ser]. rewrite (proj2 Hds). reflexivity.
    - unfold s_form. f_equal. cbn - [p_ser]. rewrite (proj2 Hf). reflexivity.
    - unfold s_property. f_equal. cbn - [p_ser]. rewrite (proj2 Hia), (proj2 Hds), (proj2 Hpa). reflexivity.
    - unfold s_action. f_equal. cbn - [p_ser]. rewrite (proj2 Hia), (proj2 Haa). reflexivity.
    - unfold s_event. f_equal. cbn - [p_ser]. rewrite (proj2 Hia), (proj2 Hea). reflexivity.
  Qed.

  Lemma thing_default_written :
    s_thing mk_text (thing_default E Z) = Some (JObj (("@context", JNull) :: least DThing)).
  Proof.
    destruct HZ as (Ht & _). unfold s_thing, thing_es. cbn - [p_ser]. rewrite (proj2 Ht). reflexivity.
  Qed.
End Defaults.

(** ** Types without extensions *)

Lemma plain_default_read E :
  d_link E (JObj (least DLink)) = Some link_default
  /\ d_version (JObj (least DVersion)) = Some version_default
  /\ d_add_resp (JObj []) = Some add_resp_default
  /\ d_security E (JObj [("scheme", JStr "nosec")]) = Some security_default
  /\ forall n fs k,
      In (n, fs, k)
        [("nosec", [], known_default); ("auto", [], KAuto); ("basic", [], KBasic basic_default);
         ("digest", [("qop", JStr "auth")], KDigest qop_default digest_default);
         ("bearer", [], KBearer bearer_default); ("psk", [], KPsk psk_default);
         ("oauth2", [("flow", JStr "")], KOAuth2 oauth2_default); ("apikey", [], KApiKey apikey_default)] ->
      option_map ss_subtype (d_security E (JObj (("scheme", JStr n) :: fs))) = Some (Known k).
Proof.
  repeat (split; [reflexivity|]). intros n fs k Hin.
  repeat (destruct Hin as [Hin|Hin]; [injection Hin as <- <- <-; reflexivity|]). destruct Hin.
Qed.

Lemma version_from_read instance :
  d_version (JObj [("instance", JStr instance)]) = Some (version_from instance)
  /\ s_version mk_text (version_from instance) = JObj [("instance", JStr instance); ("model", JNull)].
Proof. split; reflexivity. Qed.

Lemma oauth2_new_read E flow :
  option_map ss_subtype (d_security E (JObj [("scheme", JStr "oauth2"); ("flow", JStr flow)]))
  = Some (Known (KOAuth2 (oauth2_new flow))).
Proof. reflexivity. Qed.

Lemma exp_resp_default_read (X : exts) (Z : xdefaults X) : default_of (x_er X) (z_er Z) ->
  d_exp_resp X (JObj (least DExpResp)) = Some (exp_resp_default (z_er Z)).
Proof.
  intros H. unfold d_exp_resp, d_flat, exp_resp_body. cbn - [p_de]. rewrite (proj1 H); [reflexivity|intros ? []].
Qed.

(** ** The extensions of the crate *)

Lemma unit_default : default_of unit_piece tt.
Proof. split; reflexivity. Qed.

Lemma get_incl k es l : incl (map fst es) l -> ~ In k l -> get k es = [].
Proof.
  intros H Hk. induction es as [|[k' v] es IH]; auto. cbn. 
  destruct (String.eqb_spec k k') as [->|Hne].
  - exfalso. apply Hk, H. now left.
  - apply IH. intros x Hx. apply H. now right.
Qed.

Lemma without_incl ks (es : entries) l : incl (map fst es) l -> incl (map fst (without ks es)) l.
Proof.
  intros H x Hx. apply H. apply in_map_iff in Hx as ((k & v) & <- & Hin). apply filter_In in Hin as [Hin _].
  apply in_map_iff. exists (k, v). auto.
Qed.

Local Ltac none H := unfold opt, req, dflt;
  repeat match goal with
  | |- context [get ?k ?es] =>
      rewrite (@get_incl k es _ H) by (intros F; repeat (destruct F as [F|F]; [discriminate F|]); destruct F)
  end.

Lemma http_default : exts_default http_defaults.
Proof.
  repeat (split; [exact unit_default|]). split; [|repeat (split; try exact unit_default)].
  split; [|reflexivity]. intros es H. cbn. none H. reflexivity.
Qed.

Lemma coap_default : exts_default coap_defaults /\ default_of (x_er coap_exts) (z_er coap_defaults).
Proof.
  split; [repeat (split; [exact unit_default|]); split; [|repeat (split; try exact unit_default)]|];
    (split; [|reflexivity]); intros es H; cbn; none H; reflexivity.
Qed.

Lemma mqtt_default : exts_default mqtt_defaults /\ default_of (x_er mqtt_exts) (z_er mqtt_defaults).
Proof.
  split; [|exact unit_default].
  repeat (split; [exact unit_default|]). split; [|repeat (split; try exact unit_default)].
  split; [|reflexivity]. intros es H. cbn. none H. reflexivity.
Qed.

Lemma cons_default p q (a : pty p) (b : pty q) :
  default_of p a -> default_of q b -> default_of (cons_piece p q) ((a, b) : pty (cons_piece p q)).
Proof.
  intros [H1 H2] [H3 H4]. split.
  - intros es H. cbn. rewrite H1 by auto. rewrite H3 by (apply without_incl; auto). reflexivity.
  - intros mk. cbn. rewrite H2, H4. reflexivity.
Qed.

Lemma cons_exts_default X X' (Z : xdefaults X) (Z' : xdefaults X') :
  exts_default Z -> exts_default Z' -> exts_default (cons_defaults Z Z').
Proof.
  intros (A1 & A2 & A3 & A4 & A5 & A6 & A7 & A8 & A9) (B1 & B2 & B3 & B4 & B5 & B6 & B7 & B8 & B9).
  repeat (split; [apply cons_default; assumption|]). apply cons_default; assumption.
Qed.

Lemma nil_exts_default t z : default_of t z -> exts_default (nil_defaults t z).
Proof. intros H. split; [exact H|]. repeat (split; [exact unit_default|]). exact unit_default. Qed.

Lemma http_response_unread :
  s_exp_resp http_exts mk_text (exp_resp_default (z_er http_defaults)) = JObj (least DExpResp)
  /\ d_exp_resp http_exts (JObj (least DExpResp)) = None.
Proof. split; reflexivity. Qed.

Lemma context_differs :
  d_thing sample_env http_exts (JObj (least DThing)) <> Some (thing_default sample_env http_defaults).
Proof.
  rewrite (thing_least_read sample_env http_default). intros H.
  apply (f_equal (option_map (@t_context sample_env http_exts))) in H. cbn in H. discriminate.
Qed.

Lemma unknown_differs E mk : exists es, subtype_es mk unknown_default = Some es
  /\ option_map ss_subtype (d_security E (JObj es)) <> Some unknown_default.
Proof. eexists. split; [reflexivity|]. cbn. discriminate. Qed.

(** ** Building nothing *)

Lemma build_nothing E X (Z : xdefaults X) ord title : order_ok ord ->
  thing_program ord title (z_t Z) [] = Some (Ok (entitled (JStr TD_CONTEXT_11) title (thing_default E Z))).
Proof.
  intros Ho. unfold thing_program, trun, tbuild.
  assert (H : forall A, ord A [] = []).
  { intros A. apply Permutation_nil. apply Permutation_sym, Ho. }
  unfold map_build, check_combos. cbn. rewrite !H. reflexivity.
Qed.
