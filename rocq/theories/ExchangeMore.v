(** * Lemmas and samples for Props_Exchange *)

From Coq Require Import String Bool ZArith Lia List.
From Coq Require Import Floats.SpecFloat.
From Verif Require Import Base MinMax Json Serde Types DsBuilder Builder HList Protocol Spec DsFacts Samples SpecThing
  SpecSerde SpecExt SpecDoc SpecMember SpecTyped Ser De SerdeFacts RoundTrip RoundTripDs RoundTripTd RoundTripThing
  ExtFacts ProtocolFacts MemberFacts SerdeSamples CanonFacts DocSamples DecodedFacts Witnesses SerdeMore CleanFacts ExtTypedFacts
  StableFacts KnownFacts ExactFacts.
Import ListNotations.
Set Implicit Arguments.
Local Open Scope string_scope.
Local Open Scope list_scope.

(** ** What is read from documents *)

Section Read.
  Variable E : env.
  Variable X : exts.
  Variable K : xnames.
  Variables T V : xvalues X.
  Hypothesis HS : exts_sound K T V.

  Lemma schema_again mk j d : json_writer mk -> document j -> d_ds E X j = Some d -> d_ds E X (s_ds mk d) = Some d.
  Proof.
    intros Hw Hd H. eapply ds_rt; [exact Hw|apply (es_round HS)|apply (es_apart HS)|].
    eapply ds_decoded; [apply (es_read HS)|exact Hd|exact H].
  Qed.

  Lemma action_again mk j a : json_writer mk -> document j -> d_action E X j = Some a ->
    (forall f, In f (ia_forms (aa_ia a)) -> form_rest V f) -> d_action E X (s_action mk a) = Some a.
  Proof.
    intros Hw Hd H Hf. eapply action_rt; [exact Hw|apply (es_round HS)|apply (es_apart HS)|].
    eapply action_decoded; [apply (es_read HS)|exact Hd|exact H|exact Hf].
  Qed.

  Hypothesis Hdates : forall s d, date_parse E s = Some d -> date_ok E d.

  Lemma thing_again j (t : thing E X) : clean j -> d_thing E X j = Some t -> forms_survive V t ->
    exists j', s_thing mk_value t = Some j' /\ d_thing E X j' = Some t.
  Proof.
    intros [Hd Hn] H Hf. apply (ok_back HS).
    eapply thing_decoded; [apply (es_read HS)|exact Hdates|exact Hd|exact Hn|exact H|exact Hf].
  Qed.

  Lemma thing_again_text j (t : thing E X) : clean j -> d_thing E X j = Some t -> forms_survive V t -> untitled t ->
    exists j', s_thing mk_text t = Some j' /\ d_thing E X j' = Some t.
  Proof.
    intros [Hd Hn] H Hf Hu.
    eapply thing_rt with (custom := unlike_known);
      [left; reflexivity|apply (es_round HS)|apply (es_apart HS)|apply unlike_known_apart| |right; exact Hu].
    eapply thing_decoded; [apply (es_read HS)|exact Hdates|exact Hd|exact Hn|exact H|exact Hf].
  Qed.
End Read.

(** ** Text with repeated members *)

Lemma Forall2_In_l A B (R : A -> B -> Prop) l l' a : Forall2 R l l' -> In a l -> exists b, In b l' /\ R a b.
Proof.
  induction 1 as [|x y l l' Hr _ IH]; intros [].
  - subst. exists y. split; [left|]; auto.
  - destruct IH as (b & Hb & H'); auto. exists b. split; [right|]; auto.
Qed.

Lemma opt_twice A k (d : json -> option A) es : 2 <= length (get k es) -> opt k d es = None.
Proof.
  unfold opt. destruct (get k es) as [|v [|w l]]; simpl; try lia. intros _. destruct v; reflexivity.
Qed.

Lemma get_ofld_some A k (f : A -> json) o : o <> None -> 1 <= length (get k (ofld k f o)).
Proof. intros H. destruct o; [|congruence]. rewrite get_ofld, String.eqb_refl. simpl. lia. Qed.

Lemma info_twice E mk (i i' : info) a b c ks : share i i' ->
  (forall k, In k ["@type"; "title"; "titles"; "description"; "descriptions"] -> smem k ks = false) ->
  d_info E (without ks (a ++ info_es mk i ++ b ++ info_es mk i' ++ c)) = None.
Proof.
  intros H Hks. unfold d_info.
  set (es := without ks _).
  assert (forall k, In k ["@type"; "title"; "titles"; "description"; "descriptions"] ->
    1 <= length (get k (info_es mk i)) -> 1 <= length (get k (info_es mk i')) -> 2 <= length (get k es)) as G.
  { intros k Hk H1 H2. unfold es. rewrite get_without, (Hks k Hk), !get_app, !app_length. lia. }
  assert (forall j, 1 <= length (get "@type" (info_es mk j)) <-> i_attype j <> None) as G1.
  { intros [o1 o2 o3 o4 o5]. unfold info_es. rewrite !get_app, !get_ofld. cbn. destruct o1; simpl; split; try lia; congruence. }
  assert (forall j, 1 <= length (get "title" (info_es mk j)) <-> i_title j <> None) as G2.
  { intros [o1 o2 o3 o4 o5]. unfold info_es. rewrite !get_app, !get_ofld. cbn. destruct o2; simpl; split; try lia; congruence. }
  assert (forall j, 1 <= length (get "titles" (info_es mk j)) <-> i_titles j <> None) as G3.
  { intros [o1 o2 o3 o4 o5]. unfold info_es. rewrite !get_app, !get_ofld. cbn. destruct o3; simpl; split; try lia; congruence. }
  assert (forall j, 1 <= length (get "description" (info_es mk j)) <-> i_description j <> None) as G4.
  { intros [o1 o2 o3 o4 o5]. unfold info_es. rewrite !get_app, !get_ofld. cbn. destruct o4; simpl; split; try lia; congruence. }
  assert (forall j, 1 <= length (get "descriptions" (info_es mk j)) <-> i_descriptions j <> None) as G5.
  { intros [o1 o2 o3 o4 o5]. unfold info_es. rewrite !get_app, !get_ofld. cbn. destruct o5; simpl; split; try lia; congruence. }
  destruct H as [[H1 H2]|[[H1 H2]|[[H1 H2]|[[H1 H2]|[H1 H2]]]]].
  - rewrite (@opt_twice _ "@type"); [reflexivity|]. apply G; [simpl; tauto|apply G1; auto|apply G1; auto].
  - rewrite (@opt_twice _ "title"); [destruct (opt "@type" _ es); reflexivity|].
    apply G; [simpl; tauto|apply G2; auto|apply G2; auto].
  - rewrite (@opt_twice _ "titles"); [destruct (opt "@type" _ es), (opt "title" _ es); reflexivity|].
    apply G; [simpl; tauto|apply G3; auto|apply G3; auto].
  - rewrite (@opt_twice _ "description");
      [destruct (opt "@type" _ es), (opt "title" _ es), (opt "titles" _ es); reflexivity|].
    apply G; [simpl; tauto|apply G4; auto|apply G4; auto].
  - rewrite (@opt_twice _ "descriptions");
      [destruct (opt "@type" _ es), (opt "title" _ es), (opt "titles" _ es), (opt "description" _ es); reflexivity|].
    apply G; [simpl; tauto|apply G5; auto|apply G5; auto].
Qed.

Lemma property_unreadable E X (p : property X) : share (ia_info (pa_ia p)) (ds_info (pa_ds p)) ->
  d_property E X (s_property mk_text p) = None.
Proof.
  intros H. change (s_property mk_text p) with (JObj (property_es mk_text p)).
  unfold d_property, d_flat, property_body.
  destruct (opt "observable" _ _); [|reflexivity]. cbn [obind].
  assert (d_info E (without property_keys (property_es mk_text p)) = None) as Hi.
  { unfold property_es, interaction_es. rewrite ds_es_eq. rewrite <- !app_assoc.
    rewrite (app_assoc (fld "forms" _)), (app_assoc (_ ++ ofld "uriVariables" _ _)).
    apply (@info_twice E mk_text _ _ [] ((fld "forms" (s_list (s_form mk_text) (ia_forms (pa_ia p)))
       ++ ofld "uriVariables" (s_dsmap mk_text) (ia_uri (pa_ia p))) ++ p_ser (x_ia X) mk_text (ia_other (pa_ia p))));
      auto.
    intros k Hk. destruct (smem k property_keys) eqn:Hs; auto. apply smem_In in Hs.
    simpl in Hk, Hs. intuition subst; discriminate. }
  cbv zeta. unfold interaction_body. rewrite Hi. reflexivity.
Qed.

(** The text of such a Thing cannot be parsed. *)
Lemma thing_unreadable E X (t : thing E X) ps k p j : t_properties t = Some ps -> In (k, p) ps ->
  share (ia_info (pa_ia p)) (ds_info (pa_ds p)) -> s_thing mk_text t = Some j -> d_thing E X j = None.
Proof.
  intros Hps Hin Hsh Hj. destruct (d_thing E X j) as [t'|] eqn:H; auto. exfalso.
  unfold s_thing in Hj. apply option_map_inv in Hj as (es & He & ->). unfold thing_es in He.
  apply obind_inv in He as (cr & _ & He). apply obind_inv in He as (mo & _ & He).
  apply obind_inv in He as (sd & _ & He). apply some_inj in He. rewrite Hps in He.
  assert (In ("properties", s_map mk_text (s_property mk_text) ps) es) as Hpr.
  { rewrite <- He. repeat (apply in_or_app; first [left; left; reflexivity|right]). }
  clear He. unfold mk_text at 1, d_thing, d_flat, De.thing_body in H. binds H. clear H.
  match goal with Hp : opt "properties" _ es = Some _ |- _ => rename Hp into Hopt end.
  apply get_In in Hpr. unfold opt in Hopt. destruct (get "properties" es) as [|v [|w l]]; [destruct Hpr| |].
  - destruct Hpr as [->|[]]. 
    change (s_map mk_text (s_property mk_text) ps) with (JObj (mmap (s_property mk_text) ps)) in Hopt.
    unfold d_map in Hopt.
    match type of Hopt with context [omap_all ?f ?l] => destruct (omap_all f l) as [m|] eqn:Hm; [|discriminate] end.
    apply omap_all_Some in Hm.
    assert (In (k, s_property mk_text p) (mmap (s_property mk_text) ps)) as Hk
      by (apply in_map_iff; exists (k, p); auto).
    destruct (@Forall2_In_l _ _ _ _ _ _ Hm Hk) as (b & _ & Hb). cbn [snd] in Hb.
    rewrite property_unreadable in Hb by auto. discriminate Hb.
  - destruct v; discriminate.
Qed.

(** ** Samples *)

Ltac doc_tac :=
  lazymatch goal with
  | |- document (JObj _) => apply doc_obj; let H := fresh in intros ? ? H; cbn in H;
                            repeat destruct H as [[= <- <-]|H]; try destruct H; doc_tac
  | |- document (JArr _) => apply doc_arr; let H := fresh in intros ? H; in_tac H; doc_tac
  | |- document (JInt _) => apply doc_int; lia
  | |- document _ => constructor; try reflexivity
  end.

Ltac tvalue_tac :=
  lazymatch goal with
  | |- Forall _ _ => repeat constructor; tvalue_tac
  | |- value_typed _ => split; [doc_tac|value_tac]
  | |- _ => idtac
  end.

Ltac tnode_tac :=
  split; [info_tac|split; [some_tac; tvalue_tac|split; [some_tac; tvalue_tac|
  split; [some_tac; forall_tac tvalue_tac|
  split; [some_tac; cbn [subtype_typed]; subtype_tac
         |exact I]]]]].

Ltac tschema_tac :=
  let c := fresh "c" in let H := fresh "H" in
  apply everywhere_intro;
  [tnode_tac|intros c H; cbn in H; repeat destruct H as [<-|H]; try destruct H; tschema_tac].

Ltac tform_tac := split; [some_tac; cbn; some_tac; unfold in_u64; lia|exact I].

Ltac tinteraction_tac :=
  split; [info_tac|split; [forall_tac tform_tac|split; [some_tac; map_tac tschema_tac|exact I]]].
Ltac tproperty_tac := split; [tinteraction_tac|split; [tschema_tac|exact I]].
Ltac taction_tac :=
  split; [tinteraction_tac|split; [some_tac; tschema_tac|split; [some_tac; tschema_tac|exact I]]].
Ltac tevent_tac :=
  split; [tinteraction_tac|split; [some_tac; tschema_tac|split; [some_tac; tschema_tac|
    split; [some_tac; tschema_tac|split; [some_tac; tschema_tac|exact I]]]]].

Ltac tthing_tac :=
  unfold thing_typed;
  split; [cbn; tvalue_tac|];
  split; [some_tac; tags_tac|]; split; [some_tac; tags_tac|];
  split; [some_tac; map_tac tproperty_tac|];
  split; [some_tac; map_tac taction_tac|];
  split; [some_tac; map_tac tevent_tac|];
  split; [some_tac; forall_tac link_tac|];
  split; [some_tac; forall_tac tform_tac|];
  split; [map_tac security_tac|];
  split; [some_tac; map_tac tschema_tac|]; split; [some_tac; map_tac tschema_tac|]; exact I.

Lemma lamp_typed : thing_typed http_typed the_lamp.
Proof. tthing_tac. Qed.

Lemma one_title_typed : thing_typed http_typed one_title.
Proof. tthing_tac. Qed.

Lemma deep_schema_typed : schema_typed sample_env http_typed deep_schema.
Proof. unfold deep_schema, w_schema. tschema_tac. Qed.

Lemma sample_dates : forall s d, date_parse sample_env s = Some d -> date_ok sample_env d.
Proof.
  intros s d H. cbn in H. destruct (String.eqb s "-1") eqn:Hs; [discriminate|].
  apply some_inj in H as <-. exists s. cbn. rewrite Hs. auto.
Qed.

Lemma door_clean : clean door.
Proof.
  split; [|exact door_no_repeats]. unfold door, door_with, door_position, door_form. cbn [app]. doc_tac.
Qed.

Definition the_door : thing sample_env http_exts.
Proof.
  let r := eval vm_compute in
    (match d_thing sample_env http_exts door with Some t => t | None => one_title end) in exact r.
Defined.

Lemma door_is : d_thing sample_env http_exts door = Some the_door.
Proof. reflexivity. Qed.

Ltac form_at_tac :=
  match goal with
  | H : form_at _ _ _ |- _ =>
      let f := fresh "f" in let Hf := fresh "Hf" in let Ha := fresh "Ha" in
      destruct H as [f Hf|? ? ? f Ha Hf];
      [cbn in Hf; repeat destruct Hf as [<-|Hf]; try destruct Hf
      |destruct Ha as [? ? Ha|? ? Ha|? ? Ha]; cbn in Ha; repeat destruct Ha as [[= <- <-]|Ha]; try destruct Ha;
       cbn in Hf; repeat destruct Hf as [<-|Hf]; try destruct Hf]
  end.

Lemma door_survives : forms_survive http_values the_door.
Proof. intros c f H. form_at_tac; (split; [discriminate|some_tac]). Qed.

Lemma door_untitled : untitled the_door.
Proof.
  intros ps k p [= <-] H. cbn in H. repeat destruct H as [[= <- <-]|H]; try destruct H. reflexivity.
Qed.

Lemma door_typed : thing_typed http_typed the_door.
Proof. tthing_tac. Qed.

Definition minimal (members : entries) : json :=
  JObj ([("title", JStr "T"); ("security", JArr [])] ++ members).

Definition with_schemes (es : entries) (members : entries) : json :=
  minimal (("securityDefinitions", JObj es) :: members).

(** A form with an empty list of operations *)
Definition empty_ops : json :=
  with_schemes [] [("forms", JArr [JObj [("href", JStr "/x"); ("op", JArr [])]])].

(** A response with an empty list of headers *)
Definition empty_headers : json :=
  with_schemes [] [("forms", JArr [JObj [("href", JStr "/x");
    ("response", JObj [("contentType", JStr "text/plain"); ("htv:headers", JArr [])])]])].

(** A property with a title *)
Definition titled_doc : json :=
  with_schemes [] [("properties", JObj [("p", JObj [("title", JStr "P"); ("forms", JArr [])])])].

(** A scheme with a member that is repeated *)
Definition named_twice : json :=
  with_schemes [("s", JObj [("scheme", JStr "basic"); ("name", JStr "a"); ("name", JStr "b")])] [].

Ltac clean_tac := split; [unfold with_schemes, minimal; cbn [app]; doc_tac|unfold with_schemes, minimal; cbn [app]; nr].

(** [j] is read, but what is read does not survive. *)
Definition unstable (mk : entries -> json) (j : json) : Prop :=
  exists t, d_thing sample_env http_exts j = Some t
    /\ ~ exists j', s_thing mk t = Some j' /\ d_thing sample_env http_exts j' = Some t.

Lemma unstable_by A (f : thing sample_env http_exts -> A) mk j a b :
  option_map f (d_thing sample_env http_exts j) = Some a ->
  option_map f (obind (obind (d_thing sample_env http_exts j) (fun t => s_thing mk t)) (d_thing sample_env http_exts)) = b ->
  b <> Some a -> unstable mk j.
Proof.
  unfold unstable. destruct (d_thing sample_env http_exts j) as [t|]; [|discriminate]. cbn [option_map obind].
  intros [= <-] Hb Hn. exists t. split; auto. intros (j' & Hj & H). rewrite Hj in Hb. cbn [obind] in Hb. rewrite H in Hb. cbn in Hb.
  congruence.
Qed.

Lemma empty_ops_unstable : clean empty_ops /\ unstable mk_value empty_ops.
Proof.
  split; [unfold empty_ops; clean_tac|].
  eapply unstable_by with (f := op_of); [reflexivity|reflexivity|discriminate].
Qed.

Lemma empty_headers_unstable : clean empty_headers /\ unstable mk_value empty_headers.
Proof.
  split; [unfold empty_headers; clean_tac|].
  eapply unstable_by with (f := fun _ => tt); [reflexivity|reflexivity|discriminate].
Qed.

Lemma titled_unstable : clean titled_doc /\ unstable mk_text titled_doc.
Proof.
  split; [unfold titled_doc; clean_tac|].
  eapply unstable_by with (f := fun _ => tt); [reflexivity|reflexivity|discriminate].
Qed.

Lemma named_twice_unstable : document named_twice /\ unstable mk_value named_twice.
Proof.
  split; [unfold named_twice, with_schemes, minimal; cbn [app]; doc_tac|].
  eapply unstable_by with (f := schemes_of); [reflexivity|reflexivity|discriminate].
Qed.

Lemma value_no_repeat E X K (T V : xvalues X) : exts_sound K T V ->
  forall (t : thing E X) j, thing_typed T t -> s_thing mk_value t = Some j -> no_repeats j.
Proof. intros HS t j Ht Hj. exact (proj2 (value_clean HS Ht Hj)). Qed.

Lemma door_ok : thing_ok http_values distinct the_door.
Proof.
  apply (thing_value_exact http_sound sample_dates door_typed).
  exact (thing_again http_sound sample_dates door_clean door_is door_survives).
Qed.

Lemma one_title_text :
  thing_typed http_typed one_title /\ thing_ok http_values own_name one_title
  /\ is_some (s_thing mk_text one_title) = true /\ back_text one_title = None.
Proof.
  split; [exact one_title_typed|]. split.
  - unfold thing_ok.
    split; [cbn; value_tac|].
    split; [some_tac; tags_tac|]. split; [some_tac; tags_tac|].
    split; [date_tac|]. split; [date_tac|].
    split; [some_tac; map_tac property_tac|].
    split; [some_tac; map_tac action_tac|].
    split; [some_tac; map_tac event_tac|].
    split; [some_tac; forall_tac link_tac|].
    split; [some_tac; forall_tac form_tac|].
    split; [map_tac security_tac|].
    split; [some_tac; schemas_tac|]. split; [some_tac; schemas_tac|]. exact I.
  - split; reflexivity.
Qed.

Lemma two_titles_typed : thing_typed http_typed two_titles.
Proof. tthing_tac. Qed.

(** Named like a known scheme, but without its mandatory member. *)
Definition digest_like : security_scheme := w_security (Unknown "digest" (JObj [("name", JStr "n")])).

Lemma custom_scheme_typed : security_typed sample_env custom_scheme.
Proof. split; [some_tac|]. intros scheme data [= <- <-]. tvalue_tac. Qed.
Lemma digest_like_typed : security_typed sample_env digest_like.
Proof. split; [some_tac|]. intros scheme data [= <- <-]. tvalue_tac. Qed.

Lemma digest_like_ok : security_ok sample_env distinct digest_like.
Proof.
  split; [some_tac|]. intros scheme data [= <- <-]. eexists. split; [reflexivity|]. split; [value_tac|]. split.
  - intros H. inversion H as [| | | | |Hl Hq Hs| | |]. destruct Hq as (v & [Hv|[]] & _). discriminate.
  - intros k [<-|[]] H. apply smem_In in H. discriminate.
Qed.

Lemma exact_used :
  (forall s d, date_parse sample_env s = Some d -> date_ok sample_env d)
  /\ thing_typed http_typed the_lamp /\ thing_typed http_typed two_titles /\ thing_typed http_typed the_door
  /\ schema_typed sample_env http_typed deep_schema
  /\ security_typed sample_env custom_scheme /\ security_typed sample_env digest_like
  /\ security_ok sample_env distinct digest_like.
Proof.
  exact (conj sample_dates (conj lamp_typed (conj two_titles_typed (conj door_typed (conj deep_schema_typed
    (conj custom_scheme_typed (conj digest_like_typed digest_like_ok))))))).
Qed.
