(** * Concrete programs used as examples by the property files *)

From Coq Require Import String Bool ZArith Permutation List Ascii.
From Coq Require Import Floats.SpecFloat.
From Verif Require Import Base MinMax Json Serde Types DsBuilder Builder HList Protocol.
Import ListNotations.
Set Implicit Arguments.
Local Open Scope string_scope.
Local Open Scope list_scope.

(** ** An environment

    Tags are letters, digits and hyphens, recorded in lower case. A date is an
    RFC 3339 string; ["-1"] stands for a date that cannot be written. *)
Definition lower_ascii (c : ascii) : ascii :=
  let n := nat_of_ascii c in
  if Nat.leb 65 n && Nat.leb n 90 then ascii_of_nat (n + 32) else c.

Definition tag_char (c : ascii) : bool :=
  let n := nat_of_ascii c in
  (Nat.leb 97 n && Nat.leb n 122) || (Nat.leb 48 n && Nat.leb n 57) || Nat.eqb n 45.

Fixpoint lower (s : string) : string :=
  match s with EmptyString => EmptyString | String c s' => String (lower_ascii c) (lower s') end.

Fixpoint tag_chars (s : string) : bool :=
  match s with EmptyString => true | String c s' => tag_char c && tag_chars s' end.

Definition sample_env : env :=
  {| tag_parse := fun s => if tag_chars (lower s) && negb (String.eqb s "") then Some (lower s) else None;
     tag_ok := fun s => tag_chars (lower s) && negb (String.eqb s "");
     date := string;
     date_fmt := fun d => if String.eqb d "-1" then None else Some d;
     date_parse := fun s => if String.eqb s "-1" then None else Some s |}.

(** An environment whose parser keeps tags as they are. *)
Definition plain_env : env :=
  {| tag_parse := fun s => if tag_chars (lower s) && negb (String.eqb s "") then Some s else None;
     tag_ok := tag_ok sample_env; date := string; date_fmt := date_fmt sample_env;
     date_parse := date_parse sample_env |}.

(** Two iteration orders. *)
Definition id_order : order := fun A m => m.
Definition rev_order : order := fun A m => rev m.

(** Elaborate the arguments of calls from the expected type. *)
#[global] Arguments cons {A} & _ _.
#[global] Arguments TCreated {E X} & _.
#[global] Arguments TModified {E X} & _.
#[global] Arguments TForm {E X} & _ _.
#[global] Arguments TUri {E X} & _ _.
#[global] Arguments TSchema {E X} & _ _.
#[global] Arguments TProperty {E X} & _ _ _ _.
#[global] Arguments TAction {E X} & _ _ _ _.
#[global] Arguments TEvent {E X} & _ _ _ _.
#[global] Arguments FResponse {X} & _ _.
#[global] Arguments IForm {X} & _ _.
#[global] Arguments IUri {X} & _ _.
#[global] Arguments PDs {X} & _.
#[global] Arguments PIa {X} & _.
#[global] Arguments AIa {X} & _.
#[global] Arguments AInput {X} & _.
#[global] Arguments AOutput {X} & _.
#[global] Arguments EIa {X} & _.
#[global] Arguments EData {X} & _.
#[global] Arguments EDataResponse {X} & _.
#[global] Arguments ECancellation {X} & _.
#[global] Arguments ESubscription {X} & _.

(** ** A thing with the HTTP binding

    Two security schemes and a combination, a thing level form with an additional
    response, URI variables, a property with a nested schema, an action, an event,
    all named "status", links and languages. *)
Notation hop := (top sample_env http_exts).

Definition no_method : http_form := {| hf_method := None |}.

Definition lamp_schema : list (dsop unit unit unit) :=
  [DFinish tt; DObject tt;
   DProperty "level" true
     [DInfo (ITitles [("EN", "Level")]); DFinish tt; DInteger; DIntMin (MinIncl 0%Z); DIntMax (MaxIncl 100%Z);
      DUnit "percent"];
   DProperty "path" false
     [DFinish tt; DVec tt;
      DSetItem [DFinish tt; DNumber; DNumMin (MinExcl (f64_of_Z 0%Z)); DNumMax (MaxExcl (f64_of_Z 1%Z));
                DNumMult (f64_of_Z 1%Z)];
      DMinItems 1%Z; DMaxItems 4%Z];
   DProperty "mode" true
     [DFinish tt; DOneOf [DFinish tt; DEnum (JStr "on"); DEnum (JStr "off"); DReadOnly];
      DOneOf [DFinish tt; DConstant (JInt 7%Z)]]].

Definition lamp_calls (E : env) (created : date E) : list (top E http_exts) :=
  [TId "urn:lamp"; TTitles [("EN", "Lamp"); ("it", "Lampada")]; TContextMap [("saref", "https://w3id.org/saref#")];
   TContext TD_CONTEXT_11; TAttype "saref:LightSwitch"; TVersion {| v_instance := "1"; v_model := None |};
   TCreated created; TDescriptions [("de-CH", "Lampe")];
   TFinish;
   TSecurity [SBasic; SWithKey "basic_sc"; SRequired; SLocation LCookie; SDescriptions [("fr", "simple")]];
   TSecurity [SNoSec];
   TSecurity [SCombo; SAllOf ["basic_sc"]; SPush "nosec"; SRequired];
   TSchema "Problem" [DFinish tt; DString; DMaxLength 200%Z];
   TForm {| hf_method := Some HGet |}
     [FHref "/all"; FOp ReadAllProperties; FOp ObserveAllProperties; FSecurity "basic_sc";
      FResponse "application/json"
        {| hr_headers := [{| hh_name := Some "Link"; hh_value := None |}]; hr_status := Some 200%Z |};
      FAdditional [RSuccess; RSchema "Problem"]];
   TUri "lang" [DFinish tt; DString];
   TProperty "status" tt tt
     (map (@PDs http_exts) lamp_schema ++
      [PIa (IForm no_method [FHref "/status"; FOp ReadProperty; FSecurity "combo"; FSecurity "nosec"]);
       PIa (IUri "verbose" [DFinish tt; DBool]); PObservable true; PDs (DInfo (ITitle "Status"))]);
   TAction "status" tt tt
     [AInfo (IDescription "Blink"); AIa (IForm {| hf_method := Some HPost |} [FHref "/blink"]);
      AInput [DFinish tt; DInteger; DIntMax (MaxIncl 10%Z)]; AOutput lamp_schema; AIdempotent];
   TEvent "status" tt tt
     [EIa (IForm no_method [FHref "/events"; FOp SubscribeEvent; FOp UnsubscribeEvent]);
      EData lamp_schema; ECancellation [DFinish tt; DNull]];
   TEvent "overheated" tt tt [EDataResponse [DFinish tt; DNumber]];
   TLink "https://example.org"; TLinkWith [LSizes "16x16"; LHref "icon.png"; LRel "icon"; LHreflang "de-AT"];
   TProfile "https://www.w3.org/2022/wot/profile/http-basic/v1"].

Definition lamp : list hop := lamp_calls sample_env "2022-11-16T10:00:00Z".

(** Running a program on a thing builder with the HTTP binding. *)
Notation run ord p := (@thing_program sample_env http_exts ord "Lamp" tt p).

Definition lamp_thing : option (thing sample_env http_exts) :=
  match run id_order lamp with Some (Ok t) => Some t | _ => None end.

Definition the_lamp : thing sample_env http_exts.
Proof.
  let r := eval vm_compute in lamp_thing in
  match r with Some ?t => exact t end.
Defined.

(** Programs that fail, one defect each. *)
Definition a_form : list (fop http_exts) := [FHref "/x"; FOp ReadAllProperties].

(** The schema rejected for its bounds: at depth two. *)
Definition bad_bounds : list (dsop unit unit unit) :=
  [DFinish tt; DObject tt;
   DProperty "xs" true [DFinish tt; DVec tt; DSetItem [DFinish tt; DInteger; DIntMin (MinIncl 5%Z); DIntMax (MaxIncl 4%Z)]]].

