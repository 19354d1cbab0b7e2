(** * Lemmas and samples for Props_Serde *)

From Coq Require Import String Bool ZArith List.
From Verif Require Import Base MinMax Json Serde Types HList Ser De Protocol Spec Samples SpecSerde SpecExt SpecDoc
  SpecMember SerdeFacts RoundTrip RoundTripDs RoundTripTd RoundTripThing ExtFacts SerdeSamples DocSamples
  RespellFacts NameFacts WrittenFacts Witnesses.
Import ListNotations.
Set Implicit Arguments.
Local Open Scope string_scope.
Local Open Scope list_scope.

Lemma thing_value_rt E X K (V : xvalues X) : exts_round_trip K V -> names_apart K ->
  forall t : thing E X, thing_ok V own_name t ->
  exists j, s_thing mk_value t = Some j /\ d_thing E X j = Some t.
Proof.
  intros HX HK t Ht.
  exact (thing_rt (or_intror eq_refl) HX HK own_name_apart Ht (or_introl eq_refl)).
Qed.

Lemma thing_text_rt E X K (V : xvalues X) : exts_round_trip K V -> names_apart K ->
  forall t : thing E X, thing_ok V own_name t ->
  (forall ps k p, t_properties t = Some ps -> In (k, p) ps -> ds_info (pa_ds p) = no_info) ->
  exists j, s_thing mk_text t = Some j /\ d_thing E X j = Some t.
Proof.
  intros HX HK t Ht Hi.
  exact (thing_rt (or_introl eq_refl) HX HK own_name_apart Ht (or_intror Hi)).
Qed.

Lemma property_value_rt E X K (V : xvalues X) : exts_round_trip K V -> names_apart K ->
  forall p, property_ok E V p -> d_property E X (s_property mk_value p) = Some p.
Proof.
  intros HX HK p Hp. exact (property_rt (or_intror eq_refl) HX HK Hp (or_introl eq_refl)).
Qed.

Lemma bindings_round_trip :
  (exts_round_trip http_names http_values /\ names_apart http_names)
  /\ (exts_round_trip coap_names coap_values /\ names_apart coap_names)
  /\ (exts_round_trip mqtt_names mqtt_values /\ names_apart mqtt_names)
  /\ forall X X' K K' (V : xvalues X) (V' : xvalues X'),
       exts_round_trip K V -> exts_round_trip K' V' -> xdisjoint K K' ->
       exts_round_trip (both_names K K') (both_values V V').
Proof.
  split; [exact (conj http_exts_round_trip http_names_apart)|].
  split; [exact (conj coap_exts_round_trip coap_names_apart)|].
  split; [exact (conj mqtt_exts_round_trip mqtt_names_apart)|].
  intros. apply cons_exts_round_trip; auto.
Qed.

(** ** A deep schema *)
Fixpoint depth_at_least (n : nat) (d : dsx http_exts) : Prop :=
  match n with
  | O => True
  | S n => exists c, In c (ds_children d) /\ depth_at_least n c
  end.

Definition deep_schema : dsx http_exts :=
  mkDs (DS := unit) (AS := unit) (OS := unit) (titled "deep") (misc_const None)
    (Some [w_schema no_info (Some (JObj [("a", JArr [JInt 1; JNull])])) None])
    (Some (SObject (Some
      [("path",
        w_schema no_info None (Some (SArray (Some (BVec
          [w_schema no_info None (Some (SArray (Some (BElem
             (w_schema (titled "leaf") (Some (JStr "c"))
                (Some (SInteger {| z_max := Some (MaxExcl 7%Z); z_min := Some (MinIncl (-3)%Z); z_mult := Some 2%Z |})))))
             (Some 1%Z) (Some 4%Z) tt))])) None None tt)));
       ("text", w_schema no_info None (Some (SString {| s_min := Some 2%Z; s_max := None; s_pattern := Some "^a";
                                                        s_encoding := None; s_media := None |})))])
      (Some ["path"]) tt)) tt.

Lemma deep_schema_ok : schema_ok sample_env http_values deep_schema.
Proof. unfold deep_schema, w_schema. schema_tac. Qed.

Lemma deep_schema_deep : depth_at_least 3 deep_schema.
Proof.
  eexists. split; [right; left; reflexivity|].
  eexists. split; [left; reflexivity|].
  eexists. split; [left; reflexivity|]. exact I.
Qed.

(** ** Operations *)

Lemma form_op_rt X K (V : xvalues X) mk : json_writer mk -> exts_round_trip K V -> names_apart K ->
  forall f es, v_f V (f_other f) -> all_some (fun r => v_er V (er_other r)) (f_response f) ->
  s_form mk f = JObj es ->
  (absent "op" es <-> f_op f = OpDefault)
  /\ (f_op f <> OpCustom [] -> option_map (@f_op X) (d_form X (JObj es)) = Some (f_op f)).
Proof.
  intros Hw HX HK f es Hv Hr He.
  split; [apply (form_written Hw HX HK f Hv He)|].
  intros Ho. rewrite <- He, (form_rt Hw HX HK) by (split; auto). reflexivity.
Qed.

Lemma form_op_sample :
  exists es, s_form mk_text (w_form (OpCustom [ReadProperty; WriteProperty])) = JObj es
    /\ In ("op", JArr [JStr "readproperty"; JStr "writeproperty"]) es
    /\ http_response_ok {| hr_headers := [{| hh_name := Some "a"; hh_value := None |}]; hr_status := None |}.
Proof.
  eexists. split; [reflexivity|]. split; [left; reflexivity|]. split; [discriminate|]. intros a [=].
Qed.

Lemma default_not_custom : OpDefault <> OpCustom [].
Proof. discriminate. Qed.

Lemma observe_all :
  In ("observeallproperties", ObserveAllProperties) td_operations /\ length td_operations = 18.
Proof. split; [simpl; tauto|reflexivity]. Qed.

(** ** Security *)

Lemma security_own_rt E mk : json_writer mk -> forall s, security_ok E own_name s ->
  exists j, s_security mk s = Some j /\ d_security E j = Some s.
Proof.
  intros Hw s Hs. destruct (security_rt Hw own_name_apart Hs) as (j & H1 & H2 & _). eauto.
Qed.

Lemma security_known_rt E mk : json_writer mk -> forall s k, ss_subtype s = Known k ->
  all_some (tags_ok E) (ss_descriptions s) -> exists j, s_security mk s = Some j /\ d_security E j = Some s.
Proof.
  intros Hw s k Hk Ht. apply security_own_rt; auto. split; auto. intros scheme data H. congruence.
Qed.

Definition custom_scheme : security_scheme :=
  {| ss_attype := None; ss_description := None; ss_descriptions := None; ss_proxy := Some "http://p";
     ss_subtype := Unknown "acme" (JObj [("keys", JArr [JInt 1; JInt 2]); ("realm", JStr "home")]) |}.

Lemma custom_scheme_ok : security_ok sample_env own_name custom_scheme.
Proof.
  split; [intros a [=]|]. intros scheme data [= <- <-]. eexists. split; [reflexivity|].
  split; [value_tac|]. split.
  - intros H. apply smem_In in H. discriminate.
  - intros k [<-|[<-|[]]] H; apply smem_In in H; discriminate.
Qed.

Lemma security_refuted :
  s_security mk_value scalar_scheme = None
  /\ (~ exists j, s_security mk_value null_scheme = Some j /\ d_security sample_env j = Some null_scheme)
  /\ (~ exists j, s_security mk_value clashing_scheme = Some j
        /\ d_security sample_env j = Some clashing_scheme)
  /\ (~ exists j, s_security mk_value false_nosec = Some j /\ d_security sample_env j = Some false_nosec).
Proof.
  split; [reflexivity|].
  split; [eapply security_back; [reflexivity|discriminate]|].
  split; [eapply security_back; [reflexivity|discriminate]|].
  eapply security_back; [reflexivity|discriminate].
Qed.

(** ** One or many *)

Section Respell.
  Variable E : env.
  Variable X : exts.
  Variable K : xnames.
  Hypothesis HX : exts_read_only X K.
  Hypothesis HK : names_apart K.

  Lemma thing_respelt j j' : respelt DThing j j' -> d_thing E X j = d_thing E X j'.
  Proof. exact (@respelt_alike E X K HX HK DThing j j'). Qed.
  Lemma property_respelt j j' : respelt DProperty j j' -> d_property E X j = d_property E X j'.
  Proof. exact (@respelt_alike E X K HX HK DProperty j j'). Qed.
  Lemma action_respelt j j' : respelt DAction j j' -> d_action E X j = d_action E X j'.
  Proof. exact (@respelt_alike E X K HX HK DAction j j'). Qed.
  Lemma event_respelt j j' : respelt DEvent j j' -> d_event E X j = d_event E X j'.
  Proof. exact (@respelt_alike E X K HX HK DEvent j j'). Qed.
  Lemma schema_respelt j j' : respelt DSchema j j' -> d_ds E X j = d_ds E X j'.
  Proof. intros H. exact (proj1 (@respelt_alike E X K HX HK DSchema j j' H)). Qed.
End Respell.

Lemma form_respelt X K : exts_read_only X K -> names_apart K ->
  forall j j', respelt DForm j j' -> d_form X j = d_form X j'.
Proof. intros HX HK j j'. exact (@respelt_alike sample_env X K HX HK DForm j j'). Qed.

Lemma link_respelt E j j' : respelt DLink j j' -> d_link E j = d_link E j'.
Proof.
  exact (@respelt_alike E http_exts http_names ExtDocFacts.http_read_only http_names_apart DLink j j').
Qed.

Lemma form_one_or_many X K (V : xvalues X) mk : json_writer mk -> exts_round_trip K V -> names_apart K ->
  forall f es, v_f V (f_other f) -> s_form mk f = JObj es ->
  written_as es "security" (one_or_many JStr) (f_security f)
  /\ written_as es "scopes" (one_or_many JStr) (f_scopes f)
  /\ written_as es "additionalResponses" (one_or_many (s_add_resp mk)) (f_additional f).
Proof.
  intros Hw HX HK f es Hv He. destruct (form_written Hw HX HK f Hv He) as (H1 & H2 & H3 & _). auto.
Qed.

Lemma affordances_one_or_many E X K (V : xvalues X) mk :
  json_writer mk -> exts_round_trip K V -> names_apart K ->
  (forall p es, property_ok E V p -> s_property mk p = JObj es ->
     written_as es "@type" (one_or_many JStr) (i_attype (ia_info (pa_ia p))))
  /\ (forall a es, action_ok E V a -> s_action mk a = JObj es ->
     written_as es "@type" (one_or_many JStr) (i_attype (ia_info (aa_ia a))))
  /\ (forall e es, event_ok E V e -> s_event mk e = JObj es ->
     written_as es "@type" (one_or_many JStr) (i_attype (ia_info (ea_ia e)))).
Proof.
  intros Hw HX HK. split; [|split].
  - intros p es Hp He. pose proof Hp as (_ & _ & Hi & _). rewrite Hi. eapply property_written; eauto.
  - intros a es. apply (@action_written E X K V mk Hw HX HK).
  - intros e es. apply (@event_written E X K V mk Hw HX HK).
Qed.

Definition door_respelt : json :=
  JObj [("title", JStr "Door"); ("security", JArr [JStr "nosec_sc"]);
        ("securityDefinitions", JObj [("nosec_sc", JObj [("scheme", JStr "nosec")])]);
        ("properties", JObj [("position", door_position [] [])]);
        ("actions", JObj [("open", JObj [("safe", JBool true); ("forms", JArr [door_form []])])])].

Lemma door_respelt_used :
  respelt DThing door door_respelt /\ door_respelt <> door
  /\ is_some (d_thing sample_env http_exts door) = true
  /\ (exists es, s_thing mk_text the_lamp = Some (JObj es)
        /\ In ("@type", JStr "saref:LightSwitch") es
        /\ In ("security", JArr [JStr "basic_sc"; JStr "combo"]) es).
Proof.
  split; [|split; [|split]].
  - apply (@rs_here DThing "security" (JStr "nosec_sc") [("title", JStr "Door")]);
      [simpl; tauto|split; discriminate].
  - unfold door_respelt, door, door_with. simpl. intros F. injection F as F. discriminate F.
  - exact door_reads.
  - eexists. split; [reflexivity|]. split; apply get_In; vm_compute; left; reflexivity.
Qed.

Lemma str_not_null : s_op ReadProperty <> JNull.
Proof. discriminate. Qed.
Lemma str_not_arr : forall l, s_op ReadProperty <> JArr l.
Proof. discriminate. Qed.
