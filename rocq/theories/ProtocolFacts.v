(** * Facts about the protocol bindings *)

From Coq Require Import String Bool ZArith Lia List.
From Verif Require Import Base MinMax Json Serde Types HList Ser De Protocol Spec SpecSerde SpecExt SerdeFacts
  RoundTrip RoundTripDs RoundTripTd ExtFacts.
Import ListNotations.
Set Implicit Arguments.
Local Open Scope string_scope.
Local Open Scope list_scope.

(** An extension written as a document of its own. *)
Lemma alone p K ok mk (a : pty p) : round_trips p K ok -> json_writer mk -> ok a ->
  exists es, mk (p_ser p mk a) = JObj es /\ p_de p es = Some a.
Proof.
  intros H Hw Ha. destruct (rt_written H Hw Ha) as (Hn & Hi).
  destruct (writer_keeps Hw Hn) as (es & E & Hp). exists es. split; auto.
  apply (rt_read H Hw Ha). intros k _. apply get_Permutation_eq; auto.
  rewrite length_get_count. apply (NoDup_count_occ string_dec); auto.
Qed.

(** ** HTTP *)

Lemma http_form_alone mk f : json_writer mk ->
  exists es, mk (p_ser http_form_piece mk f) = JObj es /\ p_de http_form_piece es = Some f.
Proof. intros Hw. exact (alone _ http_form_round_trips Hw I). Qed.

Lemma http_response_alone mk r : json_writer mk -> all_some in_u64 (hr_status r) ->
  ((exists es, mk (p_ser http_response_piece mk r) = JObj es
               /\ p_de http_response_piece es = Some r)
   <-> hr_headers r <> []).
Proof.
  intros Hw Hs. split.
  - intros (es & E & D) H0. destruct r as [h st]; simpl in *; subst h; simpl in *.
    assert (G : get "htv:headers" es = []).
    { destruct Hw as [-> | ->]; injection E as <-; destruct st; reflexivity. }
    unfold req in D. rewrite G in D. discriminate.
  - intros H. exact (alone _ http_response_round_trips Hw (conj H Hs)).
Qed.

Lemma http_no_headers :
  exists r : http_response,
    all_some in_u64 (hr_status r)
    /\ forall mk, json_writer mk ->
         ~ exists es, mk (p_ser http_response_piece mk r) = JObj es
                      /\ p_de http_response_piece es = Some r.
Proof.
  set (r := {| hr_headers := []; hr_status := None |}).
  assert (Hs : all_some in_u64 (hr_status r)) by (intros a; discriminate).
  exists r. split; auto. intros mk Hw H. apply (http_response_alone r Hw Hs) in H. apply H. reflexivity.
Qed.

Lemma http_whole_form mk (f : form http_exts) : json_writer mk ->
  f_op f <> OpCustom [] ->
  all_some (fun r => http_response_ok (er_other r)) (f_response f) ->
  d_form http_exts (s_form mk f) = Some f.
Proof.
  intros Hw Ho Hr. apply (form_rt Hw http_exts_round_trip http_names_apart).
  split; [auto|split; [exact Hr|exact I]].
Qed.

(** ** CoAP *)

Lemma d_block_iff j b : d_block j = Some b <-> j = JInt (block_num b).
Proof.
  split.
  - unfold d_block, d_u16, d_int. destruct j; try discriminate.
    destruct ((0 <=? n) && (n <=? 65535))%Z; [|discriminate]. cbn [obind]. intros H.
    apply find_some in H as (_ & H). apply Z.eqb_eq in H as ->. reflexivity.
  - intros ->. apply d_block_rt.
Qed.

Lemma block_sizes n :
  (exists b, d_block (JInt n) = Some b) <-> In n [16; 32; 64; 128; 256; 512; 1024]%Z.
Proof.
  split.
  - intros (b & H). apply d_block_iff in H. injection H as ->. destruct b; simpl; tauto.
  - simpl. intros H. repeat destruct H as [<-|H]; try easy;
      [exists B16|exists B32|exists B64|exists B128|exists B256|exists B512|exists B1024]; reflexivity.
Qed.

Lemma opt_Some A k (d : json -> option A) es a v : opt k d es = Some a -> get k es = [v] ->
  v = JNull \/ exists x, d v = Some x /\ a = Some x.
Proof.
  unfold opt. intros H E. rewrite E in H. destruct v; auto; right; revert H;
    destruct (d _); simpl; try discriminate; intros [= <-]; eauto.
Qed.

Lemma d_int_Some lo hi n x : d_int lo hi (JInt n) = Some x -> (lo <= n <= hi)%Z /\ x = n.
Proof.
  simpl. destruct ((lo <=? n)%Z && (n <=? hi)%Z) eqn:E; [|discriminate]. intros [= <-]. lia.
Qed.

Lemma obind_inv A B (o : option A) (f : A -> option B) b :
  obind o f = Some b -> exists a, o = Some a /\ f a = Some b.
Proof. destruct o; simpl; intros H; [eauto|discriminate]. Qed.

Lemma coap_ranges es f : p_de coap_form_piece es = Some f ->
  forall n,
    (get "cov:hopLimit" es = [JInt n] -> in_u8 n)
    /\ (get "cov:accept" es = [JInt n] -> in_u16 n)
    /\ (get "cov:contentFormat" es = [JInt n] -> in_u16 n).
Proof.
  intros H n. simpl in H.
  apply obind_inv in H as (m & _ & H). apply obind_inv in H as (b & _ & H).
  apply obind_inv in H as (q & _ & H). apply obind_inv in H as (h & Hh & H).
  apply obind_inv in H as (a & Ha & H). apply obind_inv in H as (c & Hc & _).
  split; [|split]; intros G;
    [destruct (opt_Some _ _ _ Hh G) as [?|(x & D & _)]|destruct (opt_Some _ _ _ Ha G) as [?|(x & D & _)]|
     destruct (opt_Some _ _ _ Hc G) as [?|(x & D & _)]]; try discriminate;
    apply d_int_Some in D as (D & _); exact D.
Qed.

Lemma coap_response_range es r n : p_de coap_response_piece es = Some r ->
  get "cov:contentFormat" es = [JInt n] -> in_u16 n.
Proof.
  intros H G. simpl in H. apply obind_inv in H as (c & Hc & _).
  destruct (opt_Some _ _ _ Hc G) as [?|(x & D & _)]; [discriminate|]. apply d_int_Some in D as (D & _). exact D.
Qed.

Lemma coap_form_alone mk f : json_writer mk -> coap_form_ok f ->
  exists es, mk (p_ser coap_form_piece mk f) = JObj es /\ p_de coap_form_piece es = Some f.
Proof. intros Hw Hf. exact (alone _ coap_form_round_trips Hw Hf). Qed.

Lemma coap_response_alone mk f : json_writer mk -> coap_response_ok f ->
  exists es, mk (p_ser coap_response_piece mk f) = JObj es /\ p_de coap_response_piece es = Some f.
Proof. intros Hw Hf. exact (alone _ coap_response_round_trips Hw Hf). Qed.

(** ** MQTT *)

Lemma mqtt_form_alone mk f : json_writer mk ->
  exists es, mk (p_ser mqtt_form_piece mk f) = JObj es /\ p_de mqtt_form_piece es = Some f.
Proof. intros Hw. exact (alone _ mqtt_form_round_trips Hw I). Qed.

Lemma mqtt_members mk f :
  let names := map fst (p_ser mqtt_form_piece mk f) in
  (In "mqv:retain" names <-> mf_retain f = true)
  /\ (In "mqv:controlPacket" names <-> mf_packet f <> None)
  /\ (In "mqv:qos" names <-> mf_qos f <> None)
  /\ (In "mqv:topic" names <-> mf_topic f <> None)
  /\ (In "mqv:filter" names <-> mf_filter f <> []).
Proof.
  destruct f as [r p q t fl].
  destruct r, p, q, t, fl; simpl;
    repeat split; intros; try discriminate; try congruence; try tauto;
    repeat match goal with H : _ \/ _ |- _ => destruct H as [H|H]; try discriminate end; tauto.
Qed.

Lemma mqtt_filter es s :
  let one := p_de mqtt_form_piece (("mqv:filter", JStr s) :: es) in
  one = p_de mqtt_form_piece (("mqv:filter", JArr [JStr s]) :: es)
  /\ forall f, one = Some f -> mf_filter f = [s].
Proof.
  simpl. unfold opt, dflt. cbn [get String.eqb Ascii.eqb Bool.eqb].
  assert (G : forall k (v : json), k <> "mqv:filter" -> get k (("mqv:filter", v) :: es) = get k es).
  { intros k v Hk. unfold get. simpl. destruct (String.eqb_spec k "mqv:filter"); [congruence|].
    destruct (String.eqb_spec "mqv:filter" k); congruence. }
  rewrite !(G "mqv:retain"), !(G "mqv:controlPacket"), !(G "mqv:qos"), !(G "mqv:topic") by discriminate.
  assert (F : forall v : json, get "mqv:filter" (("mqv:filter", v) :: es) = v :: get "mqv:filter" es)
    by reflexivity.
  rewrite !F. split.
  - destruct (get "mqv:filter" es); reflexivity.
  - intros f H. apply obind_inv in H as (? & _ & H). apply obind_inv in H as (? & _ & H).
    apply obind_inv in H as (? & _ & H). apply obind_inv in H as (? & _ & H).
    apply obind_inv in H as (fl & Hf & H). injection H as <-. simpl.
    destruct (get "mqv:filter" es); [|discriminate]. injection Hf as <-. reflexivity.
Qed.
