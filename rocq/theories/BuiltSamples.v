(** * Built Things that survive, and some that do not *)

From Coq Require Import String Bool ZArith Lia List.
From Coq Require Import Floats.SpecFloat.
From Verif Require Import Base MinMax Json Serde Types DsBuilder Builder HList Ser De Protocol Samples SampleFacts
  Spec SpecCalls SpecThing SpecSerde SpecExt SpecDoc SpecMember SpecTyped SpecArgs SerdeFacts MemberFacts CleanFacts StableFacts SerdeSamples DocSamples
  Witnesses SerdeMore ExchangeMore BuiltFacts.
Import ListNotations.
Set Implicit Arguments.
Local Open Scope string_scope.
Local Open Scope list_scope.

Lemma sample_tags : tags_read sample_env.
Proof.
  intros s s' H. cbn in *. destruct (tag_chars (lower s)) eqn:Hs; [|discriminate].
  destruct (String.eqb s "") eqn:He; [discriminate|]. apply some_inj in H as <-.
  assert (forall r, lower (lower r) = lower r) as Hl.
  { induction r as [|c r IH]; [reflexivity|]. cbn [lower]. rewrite IH. f_equal.
    destruct c as [[] [] [] [] [] [] [] []]; reflexivity. }
  rewrite Hl, Hs. destruct s; [discriminate|]. reflexivity.
Qed.

(** ** A program without titles of properties *)
Definition sensor : list hop :=
  [TFinish; TSecurity [SBasic; SWithKey "b"; SRequired];
   TSecurity [SCustom "acme"; SData (JObj [("level", JInt 3%Z)])];
   TProperty "level" tt tt
     [PDs (DFinish tt); PDs DNumber; PDs (DNumMax (MaxIncl (f64_of_Z 100%Z))); PDs (DDefault (JInt 5%Z));
      PIa (IForm no_method [FHref "/level"; FOp ReadProperty; FOp WriteProperty])];
   TAction "reset" tt tt [AInfo (ITitle "Reset"); AIa (IForm no_method [FHref "/reset"; FSecurity "b"])];
   TEvent "alarm" tt tt [EIa (IForm no_method [FHref "/alarm"])]].

(** ** Programs whose Thing does not survive *)
Definition one_schema (q : list (dsop unit unit unit)) : list hop :=
  [TFinish; TSecurity [SNoSec; SRequired]; TSchema "s" (DFinish tt :: q)].

Definition null_constant : list hop := one_schema [DConstant JNull].
Definition infinite_bound : list hop := one_schema [DNumber; DNumMax (MaxIncl (S754_infinity false))].
Definition posing_scheme : list hop := [TFinish; TSecurity [SCustom "nosec"; SData (JObj [])]].
Definition strange_date : list hop := [TFinish; TCreated "-1"].
Definition no_headers : list hop :=
  [TFinish;
   TForm no_method [FHref "/"; FOp ReadAllProperties; FResponse "text/plain" {| hr_headers := []; hr_status := None |}]].

(** ** Reading off the limits of arguments *)

Lemma ds_args_intro E X (L : limits E X) p :
  Forall (fun o => dsop_fits L o /\ match closure o with Some q => ds_args L q | None => True end) p -> ds_args L p.
Proof.
  rewrite Forall_forall. intros H o Ho. destruct Ho as [p o Ho|p o q o' Ho Hq Hc]; destruct (H o Ho) as [H1 H2]; auto.
  rewrite Hq in H2. auto.
Qed.


Section Intro.
  Variable E : env.
  Variable X : exts.
  Variable L : limits E X.

  Lemma form_args_intro y q : v_f (lm_ext L) y ->
    Forall (fun o => match o with FResponse _ r => v_er (lm_ext L) r | _ => True end) q -> form_args L y q.
  Proof. rewrite Forall_forall. intros Hy H. split; auto. intros c r Hr. apply (H _ Hr). Qed.

  Lemma ia_args_intro y q : v_ia (lm_ext L) y ->
    Forall (fun o => match o with IForm z c => form_args L z c | IUri _ c => ds_args L c end) q -> ia_args L y q.
  Proof.
    rewrite Forall_forall. intros Hy H. split; auto. split; [intros z c Hc; apply (H _ Hc)|intros n c Hc; apply (H _ Hc)].
  Qed.

  Lemma sec_args_intro q :
    Forall (fun o => match o with
                     | SCustom s => lm_custom L s (match lasto (picks w_data q) with Some v => v | None => JNull end)
                     | _ => True end) q -> sec_args L q.
  Proof. rewrite Forall_forall. intros H s Hs. apply (H _ Hs). Qed.

  Lemma property_args_intro n xi xp q : ia_args L xi (picks (@p_ia X) q) -> ds_args L (picks (@p_ds X) q) ->
    v_pa (lm_ext L) xp -> top_fits L (TProperty n xi xp q).
  Proof. intros H1 H2 H3. exact (conj H1 (conj H2 H3)). Qed.

  Lemma action_args_intro n xi xp q : ia_args L xi (picks (@a_ia X) q) -> v_aa (lm_ext L) xp ->
    Forall (fun o => match o with AInput c | AOutput c => ds_args L c | _ => True end) q ->
    top_fits L (TAction n xi xp q).
  Proof.
    rewrite Forall_forall. intros H1 H2 H. split; auto. split; auto. intros c [Hc|Hc]; apply (H _ Hc).
  Qed.

  Lemma event_args_intro n xi xp q : ia_args L xi (picks (@e_ia X) q) -> v_ea (lm_ext L) xp ->
    Forall (fun o => match o with ESubscription c | EData c | EDataResponse c | ECancellation c => ds_args L c
                     | _ => True end) q ->
    top_fits L (TEvent n xi xp q).
  Proof.
    rewrite Forall_forall. intros H1 H2 H. split; auto. split; auto. intros c [Hc|[Hc|[Hc|Hc]]]; apply (H _ Hc).
  Qed.

  Lemma args_intro x p : v_t (lm_ext L) x -> Forall (top_fits L) p -> args L x p.
  Proof. rewrite Forall_forall. intros. split; auto. Qed.
End Intro.

Ltac op_tac :=
  cbn [dsop_fits typed_limits ok_limits lm_value lm_enum lm_float lm_custom lm_date lm_ext];
  lazymatch goal with
  | |- value_typed _ => tvalue_tac
  | |- some_value _ => split; [value_tac|discriminate]
  | |- value_ok _ => value_tac
  | |- in_u32 _ => unfold in_u32; lia
  | |- in_i64 _ => unfold in_i64; cbn; lia
  | |- in_nz_u64 _ => unfold in_nz_u64; lia
  | |- finite _ => reflexivity
  | |- _ => exact I
  end.

Ltac ds_args_tac :=
  apply ds_args_intro; forall_tac ltac:(split; [op_tac|cbn [closure]; first [exact I|ds_args_tac]]).

(** [er]: for the extension of responses, [cu]: for custom schemes *)
Ltac form_args_tac er := apply form_args_intro; [exact I|forall_tac ltac:(cbv beta iota; first [exact I|er])].
Ltac ia_args_tac er :=
  apply ia_args_intro; [exact I|forall_tac ltac:(cbv beta iota;
    lazymatch goal with |- form_args _ _ _ => form_args_tac er | |- ds_args _ _ => ds_args_tac end)].
Ltac top_tac er cu da :=
  lazymatch goal with
  | |- top_fits _ (TProperty _ _ _ _) => apply property_args_intro; [ia_args_tac er|ds_args_tac|exact I]
  | |- top_fits _ (TAction _ _ _ _) =>
      apply action_args_intro; [ia_args_tac er|exact I|forall_tac ltac:(cbv beta iota; first [exact I|ds_args_tac])]
  | |- top_fits _ (TEvent _ _ _ _) =>
      apply event_args_intro; [ia_args_tac er|exact I|forall_tac ltac:(cbv beta iota; first [exact I|ds_args_tac])]
  | |- top_fits _ (TSecurity _) => apply sec_args_intro; forall_tac ltac:(cbv beta iota; first [exact I|cu])
  | |- top_fits _ (TForm _ _) => cbn [top_fits]; form_args_tac er
  | |- top_fits _ (TUri _ _) => cbn [top_fits]; ds_args_tac
  | |- top_fits _ (TSchema _ _) => cbn [top_fits]; ds_args_tac
  | |- top_fits _ (TCreated _) => cbn [top_fits]; da
  | |- top_fits _ (TModified _) => cbn [top_fits]; da
  | |- _ => exact I
  end.

Ltac typed_args_tac :=
  apply args_intro; [exact I|forall_tac ltac:(idtac; top_tac
    ltac:(idtac; cbn; some_tac; unfold in_u64; lia) ltac:(idtac; cbn; tvalue_tac) ltac:(idtac; exact I))].
Ltac ok_args_tac :=
  apply args_intro; [exact I|forall_tac ltac:(idtac; top_tac
    ltac:(idtac; split; [discriminate|some_tac; split; discriminate]) idtac
    ltac:(idtac; eexists; split; reflexivity))].

Lemma lamp_args_typed : args_typed http_typed tt lamp.
Proof. typed_args_tac. Qed.

Lemma lamp_args_ok : args_ok http_values tt lamp.
Proof. ok_args_tac. Qed.

Lemma sensor_args_typed : args_typed http_typed tt sensor.
Proof. typed_args_tac. Qed.

Lemma sensor_args_ok : args_ok http_values tt sensor.
Proof.
  ok_args_tac. cbn. eexists. split; [reflexivity|]. split; [value_tac|]. split.
  - intros H. inversion H.
  - intros k [<-|[]] H. apply smem_In in H. discriminate.
Qed.

Definition the_sensor : thing sample_env http_exts.
Proof.
  let r := eval vm_compute in (match run id_order sensor with Some (Ok t) => t | _ => the_lamp end) in exact r.
Defined.

Lemma sensor_built : run id_order sensor = Some (Ok the_sensor) /\ ~ titles_property sensor.
Proof.
  split; [reflexivity|]. intros (n & xi & xp & q & o & Hc & Ho). cbn in Hc.
  destruct (String.eqb n "level"); [|discriminate]. injection Hc as <- <- <-.
  cbn in Ho. repeat destruct Ho as [Ho|Ho]; try discriminate Ho. exact Ho.
Qed.

(** [p] is a program of typed arguments that builds a Thing that does not survive *)
Definition lost (mk : entries -> json) (p : list hop) : Prop :=
  args_typed http_typed tt p /\ exists t, run id_order p = Some (Ok t)
    /\ ~ exists j, s_thing mk t = Some j /\ d_thing sample_env http_exts j = Some t.

Lemma lost_by A (f : thing sample_env http_exts -> A) mk p t a b :
  args_typed http_typed tt p ->
  run id_order p = Some (Ok t) -> f t = a ->
  option_map f (obind (s_thing mk t) (d_thing sample_env http_exts)) = b -> b <> Some a -> lost mk p.
Proof.
  intros Hp Hr Ha Hb Hn. split; auto. exists t. split; auto. intros (j & Hj & Hd). rewrite Hj in Hb.
  cbn [obind] in Hb. rewrite Hd in Hb. cbn in Hb. congruence.
Qed.

Definition schema_const (t : thing sample_env http_exts) : list (option json) :=
  map (fun e => m_const (ds_misc (snd e))) (olist (t_schemas t)).
Definition schema_maxes (t : thing sample_env http_exts) : list (option bool) :=
  map (fun e => match ds_sub (snd e) with Some (SNumber n) => Some (is_some (n_max n)) | _ => None end)
    (olist (t_schemas t)).

Lemma null_constant_lost : lost mk_value null_constant.
Proof.
  eapply lost_by with (f := schema_const); [typed_args_tac|reflexivity|reflexivity|reflexivity|discriminate].
Qed.
Lemma infinite_bound_lost : lost mk_value infinite_bound.
Proof.
  eapply lost_by with (f := schema_maxes); [typed_args_tac|reflexivity|reflexivity|reflexivity|discriminate].
Qed.
Lemma posing_scheme_lost : lost mk_value posing_scheme.
Proof.
  eapply lost_by with (f := schemes_of); [typed_args_tac|reflexivity|reflexivity|reflexivity|discriminate].
Qed.
Lemma strange_date_lost : lost mk_value strange_date.
Proof.
  eapply lost_by with (f := fun _ => tt); [typed_args_tac|reflexivity|reflexivity|reflexivity|discriminate].
Qed.
Lemma no_headers_lost : lost mk_value no_headers.
Proof.
  eapply lost_by with (f := fun _ => tt); [typed_args_tac|reflexivity|reflexivity|reflexivity|discriminate].
Qed.
Lemma lamp_text_lost : lost mk_text lamp.
Proof.
  eapply lost_by with (f := fun _ => tt) (t := the_lamp);
    [exact lamp_args_typed|reflexivity|reflexivity|reflexivity|discriminate].
Qed.

(** ** No security, no forms *)
Definition bare : list hop :=
  [TFinish; TProperty "p" tt tt [PDs (DFinish tt); PDs DNull]; TAction "a" tt tt []; TEvent "e" tt tt [EInfo (ITitle "E")]].

Definition the_bare : thing sample_env http_exts.
Proof.
  let r := eval vm_compute in (match run id_order bare with Some (Ok t) => t | _ => the_lamp end) in exact r.
Defined.

Lemma bare_built : run id_order bare = Some (Ok the_bare) /\ t_security the_bare = []
  /\ (forall i, affordance the_bare i -> ia_forms i = [])
  /\ exists ps qs es, t_properties the_bare = Some ps /\ t_actions the_bare = Some qs /\ t_events the_bare = Some es
       /\ length ps = 1 /\ length qs = 1 /\ length es = 1.
Proof.
  split; [reflexivity|]. split; [reflexivity|]. split.
  - intros i [ps n a [= <-] H|ps n a [= <-] H|ps n a [= <-] H]; cbn in H; destruct H as [[= <- <-]|[]]; reflexivity.
  - eexists _, _, _. repeat split.
Qed.

Lemma sensor_formed :
  (exists q, In (TSecurity q) sensor /\ In SRequired q)
  /\ (forall q, affordance_calls sensor q -> exists y c, In (IForm y c) q)
  /\ (exists q, affordance_calls sensor q).
Proof.
  split; [eexists; split; [right; left; reflexivity|right; right; left; reflexivity]|]. split.
  - intros q [n xi xp c H|n xi xp c H|n xi xp c H]; cbn in H;
      (destruct (String.eqb n _) in H; [|discriminate]); injection H as <- <- <-; eexists _, _; left; reflexivity.
  - eexists. apply (@ac_property _ _ sensor "level" tt tt). reflexivity.
Qed.

Lemma lamp_titles : titles_property lamp.
Proof.
  eexists "status", tt, tt, _, _. split; [reflexivity|]. apply in_or_app. right. right. right. right. left. reflexivity.
Qed.

Lemma built_used :
  run id_order lamp = Some (Ok the_lamp) /\ args_typed http_typed tt lamp /\ args_ok http_values tt lamp
  /\ run id_order sensor = Some (Ok the_sensor) /\ args_ok http_values tt sensor /\ ~ titles_property sensor
  /\ titles_property lamp
  /\ order_ok id_order /\ tags_read sample_env /\ dates_written sample_env.
Proof.
  exact (conj (proj1 SampleFacts.lamp_ok) (conj lamp_args_typed (conj lamp_args_ok (conj (proj1 sensor_built)
    (conj sensor_args_ok (conj (proj2 sensor_built) (conj lamp_titles (conj id_order_ok
    (conj sample_tags sample_dates))))))))).
Qed.

Lemma built_lost :
  lost mk_value null_constant /\ lost mk_value infinite_bound /\ lost mk_value posing_scheme
  /\ lost mk_value strange_date /\ lost mk_value no_headers /\ lost mk_text lamp.
Proof.
  exact (conj null_constant_lost (conj infinite_bound_lost (conj posing_scheme_lost (conj strange_date_lost
    (conj no_headers_lost lamp_text_lost))))).
Qed.
