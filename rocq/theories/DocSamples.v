(** * Sample documents *)

From Coq Require Import String Bool ZArith List.
From Verif Require Import Base MinMax Json Serde Types HList Protocol SpecSerde SpecExt SpecDoc Ser De Samples
  SerdeFacts GrownFacts CanonFacts ExtDocFacts.
Import ListNotations.
Set Implicit Arguments.
Local Open Scope string_scope.
Local Open Scope list_scope.

Definition is_some {A} (o : option A) : bool := match o with Some _ => true | None => false end.

Lemma is_some_not_None A (o : option A) : is_some o = true -> o <> None.
Proof. destruct o; simpl; congruence. Qed.

(** A door with a position (a number from 0 up to, but not including, 90) and an action. *)
Definition door_form (extra : entries) : json :=
  JObj ([("href", JStr "https://door.example/pos"); ("op", JStr "readproperty")] ++ extra).

Definition door_position (extra extra_form : entries) : json :=
  JObj ([("type", JStr "number"); ("minimum", JInt 0)]
        ++ extra
        ++ [("exclusiveMaximum", JInt 90); ("forms", JArr [door_form extra_form])]).

Definition door_with (extra extra_property extra_form : entries) : json :=
  JObj ([("title", JStr "Door"); ("security", JStr "nosec_sc")]
        ++ extra
        ++ [("securityDefinitions", JObj [("nosec_sc", JObj [("scheme", JStr "nosec")])]);
            ("properties", JObj [("position", door_position extra_property extra_form)]);
            ("actions", JObj [("open", JObj [("safe", JBool true); ("forms", JArr [door_form []])])])]).

Definition door : json := door_with [] [] [].

(** The door with unknown members in the Thing, a property and one of its forms. *)
Definition door_grown : json :=
  door_with [("ex:colour", JStr "red"); ("ex:colour", JNull)]
    [("ex:precision", JObj [("href", JInt 5)])] [("ex:port", JInt 8080)].

Lemma door_grows : grown http_names DThing door door_grown.
Proof.
  apply g_struct; [reflexivity|].
  cbn -[door_position door_form].
  repeat (constructor; [split; [reflexivity|]|]); try apply g_same; [|constructor].
  apply g_map. constructor; [split; [reflexivity|]|constructor].
  apply g_struct; [reflexivity|]. cbn -[door_form].
  repeat (constructor; [split; [reflexivity|]|]); try apply g_same; [|constructor].
  apply g_list. constructor; [|constructor].
  apply g_struct; [reflexivity|]. cbn.
  repeat (constructor; [split; [reflexivity|]|]); try apply g_same. constructor.
Qed.

Lemma door_grown_differs : door <> door_grown.
Proof.
  intros H. assert (E : length (match door with JObj es => es | _ => [] end)
    = length (match door_grown with JObj es => es | _ => [] end)) by (rewrite H; reflexivity).
  discriminate E.
Qed.

Lemma door_reads : is_some (d_thing sample_env http_exts door) = true.
Proof. reflexivity. Qed.

(** The door with its members sorted at every level. *)
Lemma door_no_repeats : no_repeats door.
Proof.
  Ltac nr :=
    first
      [ apply nr_leaf; [intros ? Hx; discriminate Hx|intros ? Hx; discriminate Hx]
      | apply nr_obj; [apply nodupb_ok; reflexivity|];
        let k := fresh in let j := fresh in let H := fresh in
        intros k j H; repeat (destruct H as [H|H]; [injection H as <- <-; nr|]); destruct H
      | apply nr_arr; let j := fresh in let H := fresh in
        intros j H; repeat (destruct H as [H|H]; [subst j; nr|]); destruct H ].
  unfold door, door_with, door_position, door_form. cbn [app]. nr.
Qed.

Lemma door_one_bound : one_bound_each door.
Proof.
  Ltac ob_keys := cbn; intuition discriminate.
  Ltac ob :=
    first
      [ apply ob_leaf; [intros ? Hx; discriminate Hx|intros ? Hx; discriminate Hx]
      | apply ob_obj; [ob_keys|ob_keys|];
        let k := fresh in let j := fresh in let H := fresh in
        intros k j H; repeat (destruct H as [H|H]; [injection H as <- <-; ob|]); destruct H
      | apply ob_arr; let j := fresh in let H := fresh in
        intros j H; repeat (destruct H as [H|H]; [subst j; ob|]); destruct H ].
  unfold door, door_with, door_position, door_form. cbn [app]. ob.
Qed.

Lemma door_reordered : reordered door (canon door) /\ canon door <> door.
Proof.
  split; [apply canon_reordered, door_no_repeats|]. intros H.
  assert (E : map fst (match canon door with JObj es => es | _ => [] end)
              = map fst (match door with JObj es => es | _ => [] end)) by (rewrite H; reflexivity).
  vm_compute in E. discriminate E.
Qed.

(** A number with both an inclusive and an exclusive maximum. *)
Definition two_bounds : json :=
  JObj [("type", JStr "integer"); ("maximum", JInt 10); ("exclusiveMaximum", JInt 5)].
Definition two_bounds' : json :=
  JObj [("type", JStr "integer"); ("exclusiveMaximum", JInt 5); ("maximum", JInt 10)].

Lemma two_bounds_differ :
  reordered two_bounds two_bounds' /\ no_repeats two_bounds
  /\ option_map (@ds_sub _ _ _) (d_ds sample_env http_exts two_bounds)
     = Some (Some (SInteger {| z_max := Some (MaxIncl 10%Z); z_min := None; z_mult := None |}))
  /\ option_map (@ds_sub _ _ _) (d_ds sample_env http_exts two_bounds')
     = Some (Some (SInteger {| z_max := Some (MaxExcl 5%Z); z_min := None; z_mult := None |})).
Proof.
  split; [apply (@ro_swap [("type", JStr "integer")])|]. split; [unfold two_bounds; nr|].
  split; reflexivity.
Qed.
