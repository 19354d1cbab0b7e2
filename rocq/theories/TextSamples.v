(** * Texts: floats, the door, schemas of any depth *)

From Coq Require Import String Ascii Bool ZArith Lia List.
From Coq Require Import Floats.SpecFloat.
From Verif Require Import Base MinMax Json Serde Types DsBuilder Builder Ser De Protocol Samples Spec SpecThing SpecSerde SpecExt SpecDoc
  SpecMember SpecTyped JsonText SpecJsonText DsFacts DsProgFacts DocSamples JsonTextFacts SpecSyntax SyntaxFacts ThingTextFacts ExtTypedFacts ExactFacts StableFacts KnownFacts SerdeSamples SerdeMore Witnesses ExchangeMore.
Import ListNotations.
Set Implicit Arguments.
Local Open Scope string_scope.
Local Open Scope list_scope.

(** Zero and ninety *)
Definition few_floats : floats :=
  {| fl_write := fun x => list_ascii_of_string (match x with S754_zero _ => "0.0" | _ => "9.0e1" end);
     fl_read := fun s =>
       if String.eqb (string_of_list_ascii s) "0.0" then Some (S754_zero false)
       else if String.eqb (string_of_list_ascii s) "0.0E+1" then Some (S754_zero false)
       else if String.eqb (string_of_list_ascii s) "9.0e1" then Some (f64_of_Z 90) else None |}.

Fixpoint floats_of (j : json) : list f64 :=
  match j with
  | JFloat x => [x]
  | JArr l => flat_map floats_of l
  | JObj es => flat_map (fun kv => floats_of (snd kv)) es
  | _ => []
  end.

Lemma floats_of_in x j : float_in x j -> In x (floats_of j).
Proof.
  induction 1; cbn; [auto| |]; apply in_flat_map; eauto.
Qed.

Lemma zero_faithful : faithful few_floats (S754_zero false).
Proof.
  split; [|reflexivity]. exists [], ["0"%char], ["."; "0"]%char, []. split; [reflexivity|]. split; [|left; discriminate].
  split; auto.
  - split; [discriminate|]. intros c [<-|[]]. cbn. lia.
  - intros ds [= <-]. reflexivity.
  - right. eexists. split; [reflexivity|]. split; [discriminate|]. intros c [<-|[]]. cbn. lia.
Qed.

Lemma ninety_faithful : faithful few_floats (f64_of_Z 90).
Proof.
  split; [|reflexivity]. exists [], ["9"%char], ["."; "0"]%char, ["e"; "1"]%char. split; [reflexivity|]. split; [|left; discriminate].
  split; auto.
  - split; [discriminate|]. intros c [<-|[]]. cbn. lia.
  - discriminate.
  - right. eexists. split; [reflexivity|]. split; [discriminate|]. intros c [<-|[]]. cbn. lia.
  - right. exists "e"%char, [], ["1"%char]. split; [reflexivity|]. split; [auto|]. split; [auto|].
    split; [discriminate|]. intros c [<-|[]]. cbn. lia.
Qed.

Lemma few_finite : forall s x, fl_read few_floats s = Some x -> f64_finite x = true.
Proof.
  intros s x. cbn. destruct (String.eqb (string_of_list_ascii s) "0.0"); [intros H; injection H as <-; reflexivity|].
  destruct (String.eqb (string_of_list_ascii s) "0.0E+1"); [intros H; injection H as <-; reflexivity|].
  destruct (String.eqb (string_of_list_ascii s) "9.0e1"); [intros H; injection H as <-; reflexivity|discriminate].
Qed.

Definition door_json : json.
Proof.
  let r := eval vm_compute in (match s_thing mk_text the_door with Some j => j | None => JNull end) in exact r.
Defined.

Lemma door_written : s_thing mk_text the_door = Some door_json.
Proof. reflexivity. Qed.

Lemma door_faithful : forall x, float_in x door_json -> faithful few_floats x.
Proof.
  intros x H. apply floats_of_in in H. cbn in H. destruct H as [<-|[<-|[]]]; [exact ninety_faithful|exact zero_faithful].
Qed.

Lemma door_shallow : ~ nested 128 door_json.
Proof. rewrite nested_depth. cbn. lia. Qed.

(** ** Arrays of arrays *)

Fixpoint deep (n : nat) : list (dsop unit unit unit) :=
  match n with
  | O => [DFinish tt; DNull]
  | S n => [DFinish tt; DVec tt; DSetItem (deep n)]
  end.

Definition leaf : ds unit unit unit.
Proof. let r := eval vm_compute in (dbuild (deep 0)) in match r with Some ?d => exact d end. Defined.

Fixpoint deep_ds (n : nat) : ds unit unit unit :=
  match n with
  | O => leaf
  | S n => mkDs (ds_info leaf) (ds_misc leaf) None (Some (SArray (Some (BElem (deep_ds n))) None None tt)) tt
  end.

Lemma deep_built n : dbuild (deep n) = Some (deep_ds n).
Proof.
  induction n as [|n IH]; [reflexivity|].
  unfold dbuild. change (deep (S n)) with ([DFinish tt; DVec tt] ++ [DSetItem (deep n)]). rewrite drun_app.
  let s := eval vm_compute in (drun [DFinish tt; DVec tt] (@dempty unit unit unit)) in
    change (drun [DFinish tt; DVec tt] (@dempty unit unit unit)) with s.
  cbn [obind drun]. rewrite (dstep_child (DSetItem (deep n)) (p := deep n)) by reflexivity. rewrite IH. reflexivity.
Qed.

Lemma deep_checked n : ds_build id_order (tag_parse sample_env) (deep_ds n) = Ok (deep_ds n).
Proof. induction n as [|n IH]; [reflexivity|]. cbn [deep_ds ds_build]. rewrite IH. reflexivity. Qed.

(** A Thing with such a schema definition *)
Definition deep_calls (n : nat) : list (top sample_env http_exts) := [TFinish; TSchema "d" (deep n)].

Definition with_schema (d : ds unit unit unit) : thing sample_env http_exts :=
  {| t_context := JStr TD_CONTEXT_11; t_id := None; t_attype := None; t_title := "Lamp"; t_titles := None; t_description := None;
     t_descriptions := None; t_version := None; t_created := None; t_modified := None; t_support := None; t_base := None;
     t_properties := None; t_actions := None; t_events := None; t_links := None; t_forms := None; t_security := []; t_secdefs := [];
     t_uri := None; t_profile := None; t_schemas := Some [("d", d : dsx http_exts)]; t_other := tt : pty (x_t http_exts) |}.

Lemma with_schema_built p d : dbuild p = Some d -> ds_build id_order (tag_parse sample_env) d = Ok d ->
  run id_order [TFinish; TSchema "d" p] = Some (Ok (with_schema d)).
Proof.
  intros H1 H2. unfold thing_program, trun. cbn [orun]. 
  change (@tstep sample_env http_exts (TFinish) (thing_new sample_env http_exts "Lamp" tt)) with (Some (set_tb_extended (thing_new sample_env http_exts "Lamp" tt) true)).
  cbn [obind tstep]. unfold when_extended. cbn [tb_extended set_tb_extended].
  rewrite H1. cbn [obind]. f_equal.
  match goal with |- tbuild _ ?s0 = _ => set (s := s0) end. unfold tbuild.
  assert (Hs : map_build id_order (ds_build id_order (tag_parse sample_env)) [("d", d)] = Ok [("d", d)]).
  { unfold map_build, id_order. cbn [rmap_all snd fst]. unfold id_order in H2. rewrite H2. reflexivity. }
  change (tb_schemas s) with [("d", d)]. rewrite Hs. reflexivity.
Qed.

Definition deep_thing (n : nat) : thing sample_env http_exts := with_schema (deep_ds n).

Lemma deep_thing_built n : run id_order (deep_calls n) = Some (Ok (deep_thing n)).
Proof. apply with_schema_built; [apply deep_built | apply deep_checked]. Qed.

Fixpoint deep_json (n : nat) : json :=
  match n with
  | O => JObj [("readOnly", JBool false); ("writeOnly", JBool false); ("type", JStr "null")]
  | S n => JObj [("readOnly", JBool false); ("writeOnly", JBool false); ("type", JStr "array"); ("items", deep_json n)]
  end.

Definition deep_doc (n : nat) : json :=
  JObj [("@context", JStr TD_CONTEXT_11); ("title", JStr "Lamp"); ("security", JArr []); ("securityDefinitions", JObj []);
        ("schemaDefinitions", JObj [("d", deep_json n)])].

Lemma deep_ds_written n : s_ds (X := http_exts) mk_text (deep_ds n) = deep_json n.
Proof.
  induction n as [|n IH]; [reflexivity|].
  change (s_ds (X := http_exts) mk_text (deep_ds (S n))) with
    (JObj [("readOnly", JBool false); ("writeOnly", JBool false); ("type", JStr "array"); ("items", s_ds (X := http_exts) mk_text (deep_ds n))]).
  rewrite IH. reflexivity.
Qed.

Lemma deep_written n : s_thing mk_text (deep_thing n) = Some (deep_doc n).
Proof.
  unfold deep_doc. rewrite <- deep_ds_written. reflexivity.
Qed.

Lemma deep_depth n : jdepth (deep_doc n) = n + 3.
Proof.
  assert (H : forall n, jdepth (deep_json n) = S n).
  { clear n. induction n as [|n IH]; [reflexivity|]. change (deep_json (S n)) with
    (JObj [("readOnly", JBool false); ("writeOnly", JBool false); ("type", JStr "array"); ("items", deep_json n)]).
    cbn [jdepth map fold_right]. cbn. rewrite IH. lia. }
  unfold deep_doc. cbn. rewrite H. lia.
Qed.

Lemma deep_floats n x : ~ float_in x (deep_doc n).
Proof.
  intros H. apply floats_of_in in H. unfold deep_doc in H. cbn in H. rewrite !app_nil_r in H.
  induction n as [|n IH]; cbn in H; [exact H|]. rewrite !app_nil_r in H. auto.
Qed.

Lemma deep_document n : document (deep_doc n).
Proof.
  assert (Ho : forall es, (forall kv, In kv es -> document (snd kv)) -> document (JObj es)) by (intros es H; constructor; intros k j Hj; exact (H _ Hj)).
  assert (H : document (deep_json n)).
  { induction n as [|n IH]; cbn; apply Ho; intros kv Hkv; cbn in Hkv; intuition subst; try constructor; exact IH. }
  unfold deep_doc. apply Ho. intros kv Hkv. cbn in Hkv. intuition subst; cbn [snd]; try constructor; cbn; try tauto.
  intros k j [[= <- <-]|[]]. exact H.
Qed.

Lemma deep_text F n : from_text F (to_text F (deep_doc n)) = if Nat.leb 125 n then None else Some (deep_doc n).
Proof.
  assert (Hf : forall x, float_in x (deep_doc n) -> faithful F x) by (intros x Hx; destruct (deep_floats Hx)).
  destruct (Nat.leb_spec 125 n).
  - apply text_deep; auto using deep_document. apply nested_depth. rewrite deep_depth. lia.
  - apply text_shallow; auto using deep_document. rewrite nested_depth, deep_depth. lia.
Qed.

Lemma deep_read : d_thing sample_env http_exts (deep_doc 125) = Some (deep_thing 125).
Proof. reflexivity. Qed.

Lemma deep_unread :
  (forall n, run id_order (deep_calls n) = Some (Ok (deep_thing n))
     /\ exists j, s_thing mk_text (deep_thing n) = Some j
        /\ forall F, from_text F (to_text F j) = if Nat.leb 125 n then None else Some j)
  /\ obind (s_thing mk_text (deep_thing 125)) (d_thing sample_env http_exts) = Some (deep_thing 125).
Proof.
  split.
  - intros n. split; [apply deep_thing_built|]. exists (deep_doc n). split; [apply deep_written|]. intros F. apply deep_text.
  - rewrite deep_written. exact deep_read.
Qed.

Lemma texts_used :
  exts_sound http_names http_typed http_values
  /\ thing_typed http_typed the_door /\ thing_ok http_values distinct the_door /\ untitled the_door
  /\ s_thing mk_text the_door = Some door_json /\ (forall x, float_in x door_json -> faithful few_floats x)
  /\ document door_json /\ ~ nested 128 door_json /\ nested 3 door_json
  /\ (forall s x, fl_read few_floats s = Some x -> f64_finite x = true)
  /\ from_text few_floats " { ""a"" : [ -1 , 9.0e1, ""é\n"" ],""a"":null } "
     = Some (JObj [("a", JArr [JInt (-1); JFloat (f64_of_Z 90); JStr (string_of_list_ascii (map ascii_of_N [195; 169; 10]%N))]); ("a", JNull)])
  /\ to_text few_floats (JObj [("a", JArr [JInt (-1); JFloat (f64_of_Z 90); JStr (string_of_list_ascii ["""";"010"]%char)]); ("b", JNull)])
     = "{""a"":[-1,9.0e1,""\""\n""],""b"":null}".
Proof.
  split; [exact http_sound|]. split; [exact door_typed|]. split; [exact door_ok|]. split; [exact door_untitled|].
  split; [exact door_written|]. split; [exact door_faithful|].
  split; [exact (written_document http_sound (or_introl eq_refl) door_typed door_written)|].
  split; [exact door_shallow|]. split; [rewrite nested_depth; cbn; lia|]. split; [exact few_finite|].
  split; reflexivity.
Qed.

Lemma grammar_used :
  json_text few_floats (list_ascii_of_string "[ ""\u00e9\ud83d\ude00\/"" ,0.0E+1,{ } ]")
    (JArr [JStr (string_of_list_ascii (map ascii_of_N [195; 169; 240; 159; 152; 128; 47]%N)); JFloat (S754_zero false); JObj []])
  /\ json_text few_floats (list_ascii_of_string (to_text few_floats door_json)) door_json
  /\ map (from_text few_floats) ["[1,]"; "01"; "-"; "1."; ".5"; "1e"; """\ud83d"""; """\x"""; "{""a"" 1}"; "{1:2}"; "nul"; "[]]"; ""]
     = [None; None; None; None; None; None; None; None; None; None; None; None; None].
Proof.
  split; [apply (proj1 (syntax_exact few_floats _ _)); reflexivity|].
  split; [exact (thing_in_grammar http_sound (or_introl eq_refl) door_typed door_written door_faithful)|reflexivity].
Qed.
