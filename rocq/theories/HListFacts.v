(** * Examples for the extension properties *)

From Coq Require Import String Bool ZArith Permutation Lia List.
From Verif Require Import Base MinMax Json Serde Types DsBuilder Builder HList Extend Protocol SpecSerde SpecExt
  SerdeFacts RoundTrip ExtFacts ExtendFacts.
Import ListNotations.
Set Implicit Arguments.
Local Open Scope string_scope.
Local Open Scope list_scope.

Lemma reverse_twice ts (l : hl ts) :
  elems _ (hreverse (length (rev_ty (length ts) ts)) _ (hreverse (length ts) ts l)) = elems ts l.
Proof.
  rewrite reverse_elems by auto. rewrite reverse_elems by auto. apply rev_involutive.
Qed.

Lemma cons_elems T ts (v : T) (l : hl ts) :
  elems (T :: ts) (hcons l v) = any v :: elems ts l /\ hsplit_head (hcons l v) = (v, l).
Proof. split; reflexivity. Qed.

(** ** A list *)

(** [Nil::cons(true).cons(7).cons("x")] *)
Definition sample_list : hl [string : Type; nat : Type; bool : Type] := hcons (hcons (hcons hnil true) 7) "x".

(** ** Two extensions for forms *)

Definition http_named : named_ext :=
  {| e_piece := http_form_piece; e_names := k_f http_names; e_ok := fun _ => True |}.
Definition mqtt_named : named_ext :=
  {| e_piece := mqtt_form_piece; e_names := k_f mqtt_names; e_ok := fun _ => True |}.
Definition coap_named : named_ext :=
  {| e_piece := coap_form_piece; e_names := k_f coap_names; e_ok := coap_form_ok |}.

(** Nested on both sides *)
Definition sample_tree : ext_tree :=
  ECons (ECons (EOne http_named) (ECons (EOne mqtt_named) ENil)) (ECons (EOne coap_named) ENil).

Definition sample_http : http_form := {| hf_method := Some HPut |}.
Definition sample_mqtt : mqtt_form :=
  {| mf_retain := true; mf_packet := Some MPublish; mf_qos := None; mf_topic := Some "lamp";
     mf_filter := ["a"; "b"] |}.
Definition sample_coap : coap_form :=
  {| cf_method := Some CIpatch; cf_block := Some {| bw_2 := Some B64; bw_1 := None |};
     cf_qblock := None; cf_hop := Some 3%Z; cf_accept := None; cf_format := Some 65535%Z |}.

Definition sample_value : pty (tree_piece sample_tree) :=
  ((sample_http, (sample_mqtt, tt)), (sample_coap, tt)).

Lemma sample_tree_apart : apart (tree_exts sample_tree).
Proof.
  repeat constructor; apply disjointb_ok; reflexivity.
Qed.

Lemma sample_tree_exts e : In e (tree_exts sample_tree) ->
  round_trips (e_piece e) (e_names e) (e_ok e).
Proof.
  intros [<-|[<-|[<-|[]]]].
  - exact http_form_round_trips.
  - exact mqtt_form_round_trips.
  - exact coap_form_round_trips.
Qed.

Lemma sample_coap_ok : coap_form_ok sample_coap.
Proof.
  split; [|split]; intros a H; try discriminate; injection H as <-; unfold in_u8, in_u16; lia.
Qed.

Lemma sample_value_ok : tree_ok sample_tree sample_value.
Proof. exact (conj (conj I (conj I I)) (conj sample_coap_ok I)). Qed.

Lemma overlap :
  let p := cons_piece http_form_piece http_form_piece in
  let v := ({| hf_method := Some HPut |}, {| hf_method := Some HGet |}) in
  p_de p (p_ser p mk_text v) = None /\ p_de p (mof (p_ser p mk_value v)) <> Some v.
Proof. split; [reflexivity|discriminate]. Qed.

(** ** Builders *)

(** [b.ext(1).href("h").ext("x").op(ReadProperty).ext(true)] *)
Definition form_chain : list (call (fop http_exts) dyn) :=
  [Ext _ (any 1); Call _ (FHref "h"); Ext _ (any "x"); Call _ (FOp ReadProperty); Ext _ (any true)].

Lemma form_chain_reached :
  exists s, form_reached form_chain [bool : Type; string : Type; nat : Type] s
            /\ of_href s = Some "h" /\ of_op s = OpCustom [ReadProperty]
            /\ of_other s = (true, ("x", (1, tt))).
Proof.
  eexists. split.
  - change form_chain with
      (((((([] ++ [Ext _ (any 1)]) ++ [Call _ (FHref "h")]) ++ [Ext _ (any "x")])
         ++ [Call _ (FOp ReadProperty)]) ++ [Ext _ (any true)]) : list (call (fop http_exts) dyn)).
    eapply fr_ext, fr_call; [eapply fr_ext, fr_call; [eapply fr_ext, fr_new|]|]; reflexivity.
  - repeat split.
Qed.

(** [b.ext_interaction(1).observable(true).ext("x").ext_interaction(true)] *)
Definition property_chain : list (call (pop http_exts) (dyn + dyn)) :=
  [Ext _ (inl (any 1)); Call _ (PObservable true); Ext _ (inr (any "x")); Ext _ (inl (any true))].

Lemma property_chain_reached :
  exists s, property_reached property_chain [bool : Type; nat : Type] [string : Type] s
            /\ op_observable s = Some true
            /\ oi_other (op_ia s) = (true, (1, tt)) /\ op_other s = ("x", tt).
Proof.
  eexists. split.
  - change property_chain with
      ((((([] ++ [Ext _ (inl (any 1))]) ++ [Call _ (PObservable true)]) ++ [Ext _ (inr (any "x"))])
         ++ [Ext _ (inl (any true))]) : list (call (pop http_exts) (dyn + dyn))).
    eapply pr_ext_ia, pr_ext, pr_call; [eapply pr_ext_ia, pr_new|]. reflexivity.
  - repeat split.
Qed.

(** [b.safe().ext("x").input(|b| b.finish_extend().bool()).ext_interaction(1)] *)
Definition action_chain : list (call (aop http_exts) (dyn + dyn)) :=
  [Call _ (@ASafe http_exts); Ext _ (inr (any "x"));
   Call _ (@AInput http_exts [DFinish tt; @DBool unit unit unit]); Ext _ (inl (any 1))].

Lemma action_chain_reached :
  exists s, action_reached action_chain [nat : Type] [string : Type] s
            /\ oa_safe s = true /\ oa_input s <> None
            /\ oi_other (oa_ia s) = (1, tt) /\ oa_other s = ("x", tt).
Proof.
  eexists. split.
  - change action_chain with
      ((((([] ++ [Call _ (@ASafe http_exts)]) ++ [Ext _ (inr (any "x"))])
          ++ [Call _ (@AInput http_exts [DFinish tt; @DBool unit unit unit])])
         ++ [Ext _ (inl (any 1))]) : list (call (aop http_exts) (dyn + dyn))).
    eapply ar_ext_ia, ar_call; [eapply ar_ext, ar_call; [apply ar_new|]|]; reflexivity.
  - repeat split. discriminate.
Qed.

(** [b.title("t").ext("x").data(|b| b.finish_extend().bool()).ext_interaction(1)] *)
Definition event_chain : list (call (eop http_exts) (dyn + dyn)) :=
  [Call _ (@EInfo http_exts (ITitle "t")); Ext _ (inr (any "x"));
   Call _ (@EData http_exts [DFinish tt; @DBool unit unit unit]); Ext _ (inl (any 1))].

Lemma event_chain_reached :
  exists s, event_reached event_chain [nat : Type] [string : Type] s
            /\ i_title (oe_info s) = Some "t" /\ oe_data s <> None
            /\ oi_other (oe_ia s) = (1, tt) /\ oe_other s = ("x", tt).
Proof.
  eexists. split.
  - change event_chain with
      ((((([] ++ [Call _ (@EInfo http_exts (ITitle "t"))]) ++ [Ext _ (inr (any "x"))])
          ++ [Call _ (@EData http_exts [DFinish tt; @DBool unit unit unit])])
         ++ [Ext _ (inl (any 1))]) : list (call (eop http_exts) (dyn + dyn))).
    eapply er_ext_ia, er_call; [eapply er_ext, er_call; [apply er_new|]|]; reflexivity.
  - repeat split. discriminate.
Qed.

(** [b.unit("m").ext(1).title("t").ext("x")] *)
Definition ds_chain : list (call ds_early dyn) :=
  [Call _ (EaUnit "m"); Ext _ (any 1); Call _ (EaInfo (ITitle "t")); Ext _ (any "x")].

Lemma ds_chain_reached :
  exists s : open_ds (hl [string : Type; nat : Type]) unit unit,
    ds_reached ds_chain [string : Type; nat : Type] s
    /\ od_unit s = Some "m" /\ i_title (od_info s) = Some "t" /\ od_other s = ("x", (1, tt)).
Proof.
  eexists. split.
  - change ds_chain with
      ((((([] ++ [Call _ (EaUnit "m")]) ++ [Ext _ (any 1)]) ++ [Call _ (EaInfo (ITitle "t"))])
         ++ [Ext _ (any "x")]) : list (call ds_early dyn)).
    apply dr_ext, dr_call, dr_ext, dr_call, dr_new.
  - repeat split.
Qed.

(** [Thing::builder("lamp").id("i").ext(HttpProtocol {}).base("b").ext(..)] *)
Definition thing_value (A : exts) (v : pty (x_t A)) : thing_dyn := existT (fun A => pty (x_t A)) A v.
Definition thing_chain E : list (call (thing_early E) thing_dyn) :=
  [Call _ (TeId E "i"); Ext _ (thing_value http_exts tt); Call _ (TeBase E "b");
   Ext _ (thing_value coap_exts tt)].

Lemma thing_chain_reached E :
  exists s, thing_reached "lamp" (thing_chain E) [coap_exts; http_exts] s
            /\ tb_id s = Some "i" /\ tb_base s = Some "b" /\ tb_title s = "lamp".
Proof.
  eexists. split.
  - change (thing_chain E) with
      ((((([] ++ [Call _ (TeId E "i")]) ++ [Ext _ (thing_value http_exts tt)])
          ++ [Call _ (TeBase E "b")]) ++ [Ext _ (thing_value coap_exts tt)])
       : list (call (thing_early E) thing_dyn)).
    eapply tr_ext, tr_call; [eapply tr_ext, tr_call; [apply tr_new|]|]; reflexivity.
  - repeat split.
Qed.
