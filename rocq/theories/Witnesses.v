(** * Values and documents on which serialization properties fail *)

From Coq Require Import String Bool ZArith List.
From Coq Require Import Floats.SpecFloat.
From Verif Require Import Base MinMax Json Serde Types Protocol Samples SpecSerde SpecDoc SpecMember Ser De
  DocSamples.
Import ListNotations.
Set Implicit Arguments.
Local Open Scope string_scope.
Local Open Scope list_scope.

Definition titled (s : string) : info :=
  {| i_attype := None; i_title := Some s; i_titles := None; i_description := None; i_descriptions := None |}.

Definition misc_const (c : option json) : dmisc :=
  {| m_const := c; m_default := None; m_unit := None; m_enum := None; m_ro := false; m_wo := false;
     m_format := None |}.

Definition w_schema (i : info) (c : option json) (s : option (dsubx http_exts)) : dsx http_exts :=
  @mkDs unit unit unit i (misc_const c) None s tt.

(** A constant that is [null]. *)
Definition null_const : dsx http_exts := w_schema no_info (Some JNull) None.

(** A number bounded by infinity. *)
Definition unbounded : dsx http_exts :=
  w_schema no_info None
    (Some (SNumber {| n_max := Some (MaxIncl (S754_infinity false)); n_min := None; n_mult := None |})).

(** An array of such numbers, two levels down. *)
Definition unbounded_deep : dsx http_exts :=
  w_schema no_info None (Some (SArray (Some (BVec [w_schema no_info None
    (Some (SArray (Some (BElem unbounded)) None None tt))])) None None tt)).

Definition w_form (o : form_ops) : form http_exts :=
  {| f_op := o; f_href := "/x"; f_ctype := None; f_ccoding := None; f_subprotocol := None;
     f_security := None; f_scopes := None; f_response := None; f_additional := None;
     f_other := ({| hf_method := None |} : pty (x_f http_exts)) |}.

Definition w_property (i i' : info) : property http_exts :=
  {| pa_ia := {| ia_info := i; ia_forms := [w_form OpDefault]; ia_uri := None;
                 ia_other := (tt : pty (x_ia http_exts)) |};
     pa_ds := w_schema i' None None; pa_observable := None;
     pa_other := (tt : pty (x_pa http_exts)) |}.

Definition w_security (s : sec_subtype) : security_scheme :=
  {| ss_attype := None; ss_description := None; ss_descriptions := None; ss_proxy := None; ss_subtype := s |}.

Definition w_thing (props : amap (property http_exts)) (forms : list (form http_exts))
  (sec : amap security_scheme) (created : option string) : thing sample_env http_exts :=
  {| t_context := JStr TD_CONTEXT_11; t_id := None; t_attype := None; t_title := "T"; t_titles := None;
     t_description := None; t_descriptions := None; t_version := None;
     t_created := (created : option (date sample_env)); t_modified := None;
     t_support := None; t_base := None; t_properties := Some props; t_actions := None; t_events := None;
     t_links := None; t_forms := Some forms; t_security := []; t_secdefs := sec; t_uri := None;
     t_profile := None; t_schemas := None; t_other := (tt : pty (x_t http_exts)) |}.

(** What comes back. *)
Notation back t := (obind (s_thing mk_value t) (d_thing sample_env http_exts)).
Notation back_text t := (obind (s_thing mk_text t) (d_thing sample_env http_exts)).

Definition op_of (t : thing sample_env http_exts) : option (list form_ops) :=
  option_map (map (fun f => f_op f)) (t_forms t).

Definition titles_of (t : thing sample_env http_exts) : option (list (option string)) :=
  option_map (map (fun kp => i_title (ia_info (pa_ia (snd kp))))) (t_properties t).

Definition schemes_of (t : thing sample_env http_exts) : list sec_subtype :=
  map (fun ks => ss_subtype (snd ks)) (t_secdefs t).

Lemma changed A B (f : A -> B) (o : option A) a b : option_map f o = Some b -> b <> f a -> o <> Some a.
Proof. intros H Hb ->. simpl in H. congruence. Qed.

(** An empty list of operations comes back as the default. *)
Definition no_ops : thing sample_env http_exts := w_thing [] [w_form (OpCustom [])] [] None.

Lemma no_ops_back : back no_ops <> Some no_ops.
Proof. eapply changed with (f := op_of) (b := Some [OpDefault]); [reflexivity|discriminate]. Qed.

(** A property with one title as affordance, another as schema. *)
Definition two_titles : thing sample_env http_exts :=
  w_thing [("p", w_property (titled "affordance") (titled "schema"))] [] [] None.

Lemma two_titles_back : back two_titles <> Some two_titles.
Proof. eapply changed with (f := titles_of) (b := Some [Some "schema"]); [reflexivity|discriminate]. Qed.

(** A custom scheme with the name of a known one. *)
Definition false_nosec : security_scheme := w_security (Unknown "nosec" (JObj [("realm", JStr "r")])).

Definition impostor : thing sample_env http_exts := w_thing [] [] [("s", false_nosec)] None.

Lemma impostor_back : back impostor <> Some impostor.
Proof. eapply changed with (f := schemes_of) (b := [Known KNoSec]); [reflexivity|discriminate]. Qed.

(** Custom schemes whose data is not an object. *)
Definition scalar_scheme : security_scheme := w_security (Unknown "acme" (JInt 1)).
Definition null_scheme : security_scheme := w_security (Unknown "acme" JNull).

(** Data that uses a name of the scheme itself. *)
Definition clashing_scheme : security_scheme := w_security (Unknown "acme" (JObj [("proxy", JStr "p")])).

(** A date RFC 3339 cannot express. *)
Definition undated : thing sample_env http_exts := w_thing [] [] [] (Some "-1").

(** A property as the builder makes it: the same title twice. *)
Definition one_title : thing sample_env http_exts :=
  w_thing [("p", w_property (titled "p") (titled "p"))] [] [] None.

Lemma null_const_back :
  d_ds sample_env http_exts (s_ds mk_value null_const) <> Some null_const.
Proof.
  eapply changed with (f := fun d => m_const (ds_misc d)) (b := None); [reflexivity|discriminate].
Qed.

Definition number_max {X} (d : dsx X) : option (option (maximum f64)) :=
  match ds_sub d with Some (SNumber n) => Some (n_max n) | _ => None end.

Lemma unbounded_back :
  d_ds sample_env http_exts (s_ds mk_value unbounded) <> Some unbounded.
Proof. eapply changed with (f := number_max) (b := Some None); [reflexivity|discriminate]. Qed.

Lemma security_back s s' :
  obind (s_security mk_value s) (d_security sample_env) = Some s' -> s' <> s ->
  ~ exists j, s_security mk_value s = Some j /\ d_security sample_env j = Some s.
Proof.
  intros H Hn (j & Hj & Hd). rewrite Hj in H. simpl in H. rewrite H in Hd. congruence.
Qed.
