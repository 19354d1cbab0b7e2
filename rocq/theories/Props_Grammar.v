(** * The type-state of the builders as a grammar (C58)

    [SpecGrammar.v] describes the chains of calls the builders accept: where the kind of a schema or of a
    security scheme is chosen, which calls come before and after it, what [href] and [finish_extend]
    are for.  A chain "type checks" when the model gives it a result ([Some]). *)

From Coq Require Import String Bool ZArith List.
From Verif Require Import Base MinMax Json Serde Types Protocol DsBuilder Builder Samples SampleFacts SpecGrammar GrammarFacts.
Import ListNotations.
Set Implicit Arguments.
Local Open Scope string_scope.
Local Open Scope list_scope.

Theorem C58_schema :
  forall DS AS OS (p : list (dsop DS AS OS)), (exists d, dbuild p = Some d) <-> schema_chain p.
Proof. exact schema_grammar. Qed.
Print Assumptions C58_schema.

Theorem C58_link : forall p, (exists l, link_run p = Some l) <-> link_chain p.
Proof. exact link_grammar. Qed.
Print Assumptions C58_link.

Theorem C58_security : forall p, (exists s, sec_run p = Some s) <-> security_chain p.
Proof. exact security_grammar. Qed.
Print Assumptions C58_security.

Theorem C58_form : forall X x (p : list (fop X)), (exists f, form_run x p = Some f) <-> form_chain p.
Proof. exact form_grammar. Qed.
Print Assumptions C58_form.

Theorem C58_property :
  forall X xi xp (p : list (pop X)), (exists a, prop_run xi xp p = Some a) <-> property_chain p.
Proof. exact property_grammar. Qed.
Print Assumptions C58_property.

Theorem C58_action :
  forall X xi xa (p : list (aop X)),
    (exists a, action_run xi xa p = Some a) <-> forall o, In o p -> action_fits o.
Proof. exact action_grammar. Qed.
Print Assumptions C58_action.

Theorem C58_event :
  forall X xi xe (p : list (eop X)),
    (exists a, event_run xi xe p = Some a) <-> forall o, In o p -> event_fits o.
Proof. exact event_grammar. Qed.
Print Assumptions C58_event.

Theorem C58_thing :
  forall E X ord title x (p : list (top E X)),
    (exists r, thing_program ord title x p = Some r) <-> thing_chain p.
Proof. exact thing_grammar. Qed.
Print Assumptions C58_thing.

(** The lamp of [Samples.v] is a chain, with everything in it. *)
Example C58_used : thing_chain (E := sample_env) (X := http_exts) lamp.
Proof.
  refine (proj1 (@C58_thing sample_env http_exts id_order "Lamp" tt lamp) _).
  exists (Ok the_lamp). exact (proj1 lamp_ok).
Qed.

(** A chain derived from the grammar alone, and therefore accepted: a list of marked strings. *)
Example C58_derived :
  schema_chain (DS := unit) (AS := unit) (OS := unit)
    [DInfo (ITitle "Names"); DFinish tt; DUnit "none"; DVec tt;
     DSetItem [DFinish tt; DString; DMaxLength 9%Z; DWriteOnly; DFormat "x"]; DReadOnly; DMinItems 1%Z].
Proof.
  constructor.
  - apply (@sh_marked unit unit unit [DInfo (ITitle "Names")] tt [DUnit "none"] (DVec tt) CVec
             [DSetItem [DFinish tt; DString; DMaxLength 9%Z; DWriteOnly; DFormat "x"]] DReadOnly [DMinItems 1%Z]);
      try reflexivity; intros o [<-|[]]; reflexivity.
  - intros o q Hin Hq. repeat (destruct Hin as [<-|Hin]; [try discriminate|]); [|destruct Hin].
    injection Hq as <-. constructor.
    + apply (@sh_marked unit unit unit [] tt [] DString CString [DMaxLength 9%Z] DWriteOnly [DFormat "x"]);
        try reflexivity; intros o; [intros []|intros []|intros [<-|[]]; reflexivity|intros [<-|[]]; reflexivity].
    + intros o q Hin Hq. repeat (destruct Hin as [<-|Hin]; [discriminate|]). destruct Hin.
Qed.

(** Outside the grammar: the length of a string schema that is marked already, a union that is marked,
    a kind chosen twice or before [finish_extend], a nested schema without a kind. *)
Example C58_outside :
  ~ schema_chain (AS := unit) (OS := unit) [DFinish tt; DString; DReadOnly; DMaxLength 9%Z]
  /\ ~ schema_chain (AS := unit) (OS := unit) [DFinish tt; DOneOf [DFinish tt; DNull]; DReadOnly]
  /\ ~ schema_chain (AS := unit) (OS := unit) [DFinish tt; DNumber; DString]
  /\ ~ schema_chain (AS := unit) (OS := unit) [DNumber; DFinish tt]
  /\ ~ schema_chain (OS := unit) [DFinish tt; DTuple tt; DAppend [DFinish tt]]
  /\ ~ security_chain [SBasic; SQop QAuth]
  /\ ~ security_chain [SCombo; SName "both"]
  /\ ~ link_chain [LRel "icon"]
  /\ ~ thing_chain (E := sample_env) (X := http_exts) [TProperty "p" tt tt []].
Proof.
  assert (Hds : forall DS AS OS (p : list (dsop DS AS OS)), dbuild p = None -> ~ schema_chain p)
    by (intros DS AS OS p H Hc; apply C58_schema in Hc as [d Hd]; congruence).
  assert (Hsec : forall p, sec_run p = None -> ~ security_chain p)
    by (intros p H Hc; apply C58_security in Hc as [d Hd]; congruence).
  split; [apply Hds; reflexivity|]. split; [apply Hds; reflexivity|]. split; [apply Hds; reflexivity|].
  split; [apply Hds; reflexivity|]. split; [apply Hds; reflexivity|].
  split; [apply Hsec; reflexivity|]. split; [apply Hsec; reflexivity|].
  split; [intros [s Hs]; discriminate|].
  intros [[H|(pre & post & E & _)] _].
  - discriminate (H _ (or_introl eq_refl)).
  - destruct pre as [|o [|o' pre]]; discriminate.
Qed.
