(** * Vocabulary of the property statements: descriptions, consistency, defects *)

From Coq Require Import String Bool ZArith List.
From Coq Require Import Floats.SpecFloat.
From Verif Require Import Base MinMax Json Serde Types DsBuilder Builder Spec SpecCalls.
Import ListNotations.
Set Implicit Arguments.
Local Open Scope string_scope.
Local Open Scope list_scope.

(** An absent list is an empty list. *)
Definition olist {A} (o : option (list A)) : list A := match o with Some l => l | None => [] end.

(** A collection is absent exactly when nothing was declared for it, and never
    present and empty. *)
Definition absent_iff_none {A B} (m : option (list A)) (calls : list B) : Prop :=
  (m = None <-> calls = []) /\ m <> Some [].

(** ** Operations each kind of form may carry (TD 1.1, 5.3.4.2) *)
Definition ops_of (c : form_context) : list form_op :=
  match c with
  | CtxThing =>
      [ReadAllProperties; WriteAllProperties; ReadMultipleProperties; WriteMultipleProperties;
       ObserveAllProperties; UnobserveAllProperties; SubscribeAllEvents; UnsubscribeAllEvents;
       QueryAllActions]
  | CtxProperty => [ReadProperty; WriteProperty; ObserveProperty; UnobserveProperty]
  | CtxAction => [InvokeAction; QueryAction; CancelAction]
  | CtxEvent => [SubscribeEvent; UnsubscribeEvent]
  end.

(** The schemes a combo scheme combines. *)
Definition combined (s : security_scheme) (n : string) : Prop :=
  exists l, In n l /\ (ss_subtype s = Known (KCombo (COneOf l)) \/ ss_subtype s = Known (KCombo (CAllOf l))).

(** [n] occurs at two positions. *)
Definition twice {A} (n : A) (l : list A) : Prop := exists l1 l2 l3, l = l1 ++ n :: l2 ++ n :: l3.

(** What a bounds error says about the schema it was raised for. *)
Section BoundsDefect.
  Variables DS AS OS : Type.
  Notation dsub := (dsub DS AS OS).

  Definition bounds_defect (e : error) (s : dsub) : Prop :=
    match e with
    | InvalidMinMax =>
        match s with
        | SArray _ (Some a) (Some b) _ => (b < a)%Z
        | SNumber n => exists a b, n_min n = Some a /\ n_max n = Some b
                                   /\ ~ (same_kind a b /\ fle (min_val a) (max_val b))
        | SInteger n => exists a b, z_min n = Some a /\ z_max n = Some b
                                    /\ ~ (same_kind a b /\ (min_val a <= max_val b)%Z)
        | _ => False
        end
    | NanMinMax =>
        match s with
        | SNumber n => (exists a, n_min n = Some a /\ is_nan (min_val a))
                       \/ (exists b, n_max n = Some b /\ is_nan (max_val b))
        | _ => False
        end
    | InvalidMultipleOf =>
        match s with
        | SNumber n => exists x, n_mult n = Some x /\ fle x (S754_zero false)
        | _ => False
        end
    | _ => False
    end.
End BoundsDefect.

Section Things.
  Variable E : env.
  Variable X : exts.
  Notation dsx := (dsx X).
  Notation dsop := (dsop (pty (x_ds X)) (pty (x_as X)) (pty (x_os X))).

  (** ** The parts of a description that have to fit together

      As lists, so that the same words describe a built Thing ([thing_body]) and
      the declarations made to a builder ([declares], below), where names may
      occur more than once. *)
  Record body := {
    y_secdefs : list (string * security_scheme);
    y_schemas : list (string * dsx);
    y_forms : list (form X);
    y_uris : list (string * dsx);
    y_properties : list (string * property X);
    y_actions : list (string * action X);
    y_events : list (string * event X);
    y_links : list link;
    y_titles : list (string * string);
    y_descriptions : list (string * string);
  }.

  Definition thing_body (t : thing E X) : body :=
    {| y_secdefs := t_secdefs t; y_schemas := olist (t_schemas t); y_forms := olist (t_forms t);
       y_uris := olist (t_uri t); y_properties := olist (t_properties t);
       y_actions := olist (t_actions t); y_events := olist (t_events t);
       y_links := olist (t_links t); y_titles := olist (t_titles t);
       y_descriptions := olist (t_descriptions t) |}.

  Definition secnames (y : body) : list string := map fst (y_secdefs y).

  (** The interactions, with kind and name. *)
  Inductive affordance (y : body) : affordance_type -> string -> interaction X -> Prop :=
  | aff_property n a : In (n, a) (y_properties y) -> affordance y AProperty n (pa_ia a)
  | aff_action n a : In (n, a) (y_actions y) -> affordance y AAction n (aa_ia a)
  | aff_event n a : In (n, a) (y_events y) -> affordance y AEvent n (ea_ia a).

  (** A form, and whether it is a form of the thing or of which kind of affordance. *)
  Inductive form_at (y : body) : form_context -> form X -> Prop :=
  | form_thing f : In f (y_forms y) -> form_at y CtxThing f
  | form_aff k n i f : affordance y k n i -> In f (ia_forms i) -> form_at y (ctx_of k) f.

  Inductive uri_variable (y : body) (d : dsx) : Prop :=
  | uri_thing n : In (n, d) (y_uris y) -> uri_variable y d
  | uri_aff k m i n : affordance y k m i -> In (n, d) (olist (ia_uri i)) -> uri_variable y d.

  (** The schemas whose bounds are validated. *)
  Inductive checked_schema (y : body) (d : dsx) : Prop :=
  | chk_property n a : In (n, a) (y_properties y) -> pa_ds a = d -> checked_schema y d
  | chk_input n a : In (n, a) (y_actions y) -> aa_input a = Some d -> checked_schema y d
  | chk_output n a : In (n, a) (y_actions y) -> aa_output a = Some d -> checked_schema y d
  | chk_subscription n a : In (n, a) (y_events y) -> ea_subscription a = Some d -> checked_schema y d
  | chk_data n a : In (n, a) (y_events y) -> ea_data a = Some d -> checked_schema y d
  | chk_cancellation n a : In (n, a) (y_events y) -> ea_cancellation a = Some d -> checked_schema y d.

  (** All schemas. *)
  Inductive schema_in (y : body) (d : dsx) : Prop :=
  | in_checked : checked_schema y d -> schema_in y d
  | in_response n a : In (n, a) (y_events y) -> ea_data_response a = Some d -> schema_in y d
  | in_uri : uri_variable y d -> schema_in y d
  | in_definitions n : In (n, d) (y_schemas y) -> schema_in y d.

  (** Language maps, and the strings used as language tags. *)
  Inductive lang_map_in (y : body) (m : multilang) : Prop :=
  | lm_title : y_titles y = m -> lang_map_in y m
  | lm_description : y_descriptions y = m -> lang_map_in y m
  | lm_security n c : In (n, c) (y_secdefs y) -> ss_descriptions c = Some m -> lang_map_in y m
  | lm_affordance k n i : affordance y k n i -> info_map (ia_info i) m -> lang_map_in y m
  | lm_schema d : schema_in y d -> ds_map d m -> lang_map_in y m.

  Inductive tag_in (y : body) (s : string) : Prop :=
  | tag_map m : lang_map_in y m -> In s (mkeys m) -> tag_in y s
  | tag_link l hs : In l (y_links y) -> l_hreflang l = Some hs -> In s hs -> tag_in y s.

  (** ** Consistency

      [good]: which strings are proper language tags. *)
  Record consistent (good : string -> Prop) (y : body) : Prop := {
    co_secdefs : NoDup (secnames y);
    co_combo : forall k s n, In (k, s) (y_secdefs y) -> combined s n -> In n (secnames y);
    co_security : forall c f l n, form_at y c f -> f_security f = Some l -> In n l -> In n (secnames y);
    co_thing_ops : forall f, form_at y CtxThing f -> f_op f <> OpDefault;
    co_ops : forall c f l o, form_at y c f -> f_op f = OpCustom l -> In o l -> In o (ops_of c);
    co_responses : forall f l r n, form_at y CtxThing f -> f_additional f = Some l -> In r l ->
                   ar_schema r = Some n -> In n (map fst (y_schemas y));
    co_uris : forall d, uri_variable y d -> ~ is_aggregate d;
    co_properties : NoDup (map fst (y_properties y));
    co_actions : NoDup (map fst (y_actions y));
    co_events : NoDup (map fst (y_events y));
    co_bounds : forall d, checked_schema y d -> all_accepted d;
    co_tags : forall s, tag_in y s -> good s;
    co_links : forall l z, In l (y_links y) -> l_sizes l = Some z -> l_rel l = Some "icon";
  }.

  (** ** What an error says *)
  Definition defect (y : body) (e : error) : Prop :=
    match e with
    | DuplicatedSecurityDefinition n => twice n (secnames y)
    | MissingOpInForm => exists f, form_at y CtxThing f /\ f_op f = OpDefault
    | InvalidOpInForm c o =>
        exists f l, form_at y c f /\ f_op f = OpCustom l /\ In o l /\ ~ In o (ops_of c)
    | UndefinedSecurity n =>
        exists c f l, form_at y c f /\ f_security f = Some l /\ In n l /\ ~ In n (secnames y)
    | InvalidMinMax | NanMinMax | InvalidMultipleOf =>
        exists d e' s, checked_schema y d /\ sub_ds e' d /\ ds_sub e' = Some s /\ bounds_defect e s
    | DuplicatedAffordance t n =>
        twice n (match t with
                 | AProperty => map fst (y_properties y)
                 | AAction => map fst (y_actions y)
                 | AEvent => map fst (y_events y)
                 end)
    | MissingSchemaDefinition n =>
        (exists f l r, form_at y CtxThing f /\ f_additional f = Some l /\ In r l
                       /\ ar_schema r = Some n /\ ~ In n (map fst (y_schemas y)))
        (* combo schemes referring to unknown schemes are reported in this way too *)
        \/ (exists k s, In (k, s) (y_secdefs y) /\ combined s n /\ ~ In n (secnames y))
    | InvalidUriVariables => exists d, uri_variable y d /\ is_aggregate d
    | InvalidLanguageTag s => tag_in y s /\ tag_parse E s = None
    | SizesWithRelNotIcon =>
        exists l z, In l (y_links y) /\ l_sizes l = Some z /\ l_rel l <> Some "icon"
    | EPanic => False
    end.

  (** Tags the parser accepts, and tags it returns. *)
  Definition parsable (s : string) : Prop := tag_parse E s <> None.
  Definition parsed (s : string) : Prop := exists k, tag_parse E k = Some s.

  (** ** What the calls declare

      [tg]: how language tags are recorded. *)
  Section Says.
  Variable tg : string -> option string.
  Notation says := (@ds_says (pty (x_ds X)) (pty (x_as X)) (pty (x_os X)) tg).

  (** Links. *)
  Definition k_href o := match o with LHref v => Some v | _ => None end.
  Definition k_type o := match o with LType v => Some v | _ => None end.
  Definition k_rel o := match o with LRel v => Some v | _ => None end.
  Definition k_anchor o := match o with LAnchor v => Some v | _ => None end.
  Definition k_sizes o := match o with LSizes v => Some v | _ => None end.
  Definition k_hreflang o := match o with LHreflang v => Some v | _ => None end.

  Record link_says (p : list link_op) (l : link) : Prop := {
    ls_href : picks k_href p = [l_href l];
    ls_type : l_type l = lasto (picks k_type p);
    ls_rel : l_rel l = lasto (picks k_rel p);
    ls_anchor : l_anchor l = lasto (picks k_anchor p);
    ls_sizes : l_sizes l = lasto (picks k_sizes p);
    ls_hreflang : exists hs, Forall2 (fun k k' => tg k = Some k') (picks k_hreflang p) hs
                             /\ l_hreflang l = nonempty hs;
  }.

  (** Security schemes.  [choice] calls pick the scheme; [name] is the key of the
      definition for combo schemes and a member of the scheme otherwise. *)
  Definition w_choice o :=
    match o with
    | SNoSec | SAuto | SCombo | SBasic | SDigest | SBearer | SPsk | SOAuth2 _ | SApiKey | SCustom _ => Some o
    | _ => None
    end.
  Definition w_attype o := match o with SAttype v => Some v | _ => None end.
  Definition w_description o := match o with SDescription v => Some v | _ => None end.
  Definition w_descriptions o := match o with SDescriptions v => Some v | _ => None end.
  Definition w_proxy o := match o with SProxy v => Some v | _ => None end.
  Definition is_required o := match o with SRequired => true | _ => false end.
  Definition is_combo o := match o with SCombo => true | _ => false end.
  Definition w_key (combo : bool) o :=
    match o with SWithKey v => Some v | SName v => if combo then Some v else None | _ => None end.
  Definition w_name o := match o with SName v => Some v | _ => None end.
  Definition w_location o := match o with SLocation v => Some v | _ => None end.
  Definition w_qop o := match o with SQop v => Some v | _ => None end.
  Definition w_authorization o := match o with SAuthorization v => Some v | _ => None end.
  Definition w_alg o := match o with SAlg v => Some v | _ => None end.
  Definition w_format o := match o with SFormat v => Some v | _ => None end.
  Definition w_token o := match o with SToken v => Some v | _ => None end.
  Definition w_refresh o := match o with SRefresh v => Some v | _ => None end.
  Definition w_scope o := match o with SScope v => Some v | _ => None end.
  Definition w_data o := match o with SData v => Some v | _ => None end.
  Definition w_combined o :=
    match o with SAllOf l | SOneOf l | SExtend l => l | SPush v => [v] | _ => [] end.
  Definition w_all_of o := match o with SAllOf _ => Some true | SOneOf _ => Some false | _ => None end.

  Definition or_else {A} (o : option A) (d : A) : A := match o with Some a => a | None => d end.

  (** The scheme declared by [p] after the choice [c], and its default key. *)
  Inductive scheme_says (p : list sec_op) : sec_op -> sec_subtype -> string -> Prop :=
  | says_nosec : scheme_says p SNoSec (Known KNoSec) "nosec"
  | says_auto : scheme_says p SAuto (Known KAuto) "auto"
  | says_all_of :
      picks w_all_of p = [true] ->
      scheme_says p SCombo (Known (KCombo (CAllOf (flat_map w_combined p)))) "combo"
  | says_one_of :
      picks w_all_of p = [false] ->
      scheme_says p SCombo (Known (KCombo (COneOf (flat_map w_combined p)))) "combo"
  | says_basic :
      scheme_says p SBasic
        (Known (KBasic {| ln_loc := or_else (lasto (picks w_location p)) LHeader;
                          ln_name := lasto (picks w_name p) |})) "basic"
  | says_digest :
      scheme_says p SDigest
        (Known (KDigest (or_else (lasto (picks w_qop p)) QAuth)
                  {| ln_loc := or_else (lasto (picks w_location p)) LHeader;
                     ln_name := lasto (picks w_name p) |})) "digest"
  | says_bearer :
      scheme_says p SBearer
        (Known (KBearer {| be_auth := lasto (picks w_authorization p);
                           be_alg := or_else (lasto (picks w_alg p)) "ES256";
                           be_format := or_else (lasto (picks w_format p)) "jwt";
                           be_loc := or_else (lasto (picks w_location p)) LHeader;
                           be_name := lasto (picks w_name p) |})) "bearer"
  | says_psk : scheme_says p SPsk (Known (KPsk None)) "psk"
  | says_oauth2 flow :
      scheme_says p (SOAuth2 flow)
        (Known (KOAuth2 {| oa_auth := lasto (picks w_authorization p);
                           oa_token := lasto (picks w_token p);
                           oa_refresh := lasto (picks w_refresh p);
                           oa_scopes := nonempty (picks w_scope p);
                           oa_flow := flow |})) "oauth2"
  | says_apikey :
      scheme_says p SApiKey
        (Known (KApiKey {| ln_loc := or_else (lasto (picks w_location p)) LQuery;
                           ln_name := lasto (picks w_name p) |})) "apikey"
  | says_custom scheme :
      scheme_says p (SCustom scheme)
        (Unknown scheme (or_else (lasto (picks w_data p)) JNull)) scheme.

  (** Key, whether the scheme is required, and the scheme. *)
  Record sec_says (p : list sec_op) (r : string * bool * security_scheme) : Prop := {
    se_scheme : exists c key, picks w_choice p = [c] /\ scheme_says p c (ss_subtype (snd r)) key
                  /\ fst (fst r) = or_else (lasto (picks (w_key (some_call is_combo p)) p)) key;
    se_required : snd (fst r) = some_call is_required p;
    se_attype : ss_attype (snd r) = nonempty (picks w_attype p);
    se_description : ss_description (snd r) = lasto (picks w_description p);
    se_descriptions : omatch (ml_declared tg) (lasto (picks w_descriptions p)) (ss_descriptions (snd r));
    se_proxy : ss_proxy (snd r) = lasto (picks w_proxy p);
  }.

  (** Additional responses. *)
  Definition r_ctype o := match o with RCtype v => Some v | _ => None end.
  Definition r_schema o := match o with RSchema v => Some v | _ => None end.
  Definition is_success o := match o with RSuccess => true | _ => false end.

  Record resp_says (p : list resp_op) (r : add_resp) : Prop := {
    rs_success : ar_success r = some_call is_success p;
    rs_ctype : ar_ctype r = lasto (picks r_ctype p);
    rs_schema : ar_schema r = lasto (picks r_schema p);
  }.

  (** Forms. *)
  Definition q_href (o : fop X) := match o with FHref v => Some v | _ => None end.
  Definition q_ctype (o : fop X) := match o with FCtype v => Some v | _ => None end.
  Definition q_ccoding (o : fop X) := match o with FCcoding v => Some v | _ => None end.
  Definition q_subprotocol (o : fop X) := match o with FSubprotocol v => Some v | _ => None end.
  Definition q_op (o : fop X) := match o with FOp v => Some v | _ => None end.
  Definition q_security (o : fop X) := match o with FSecurity v => Some v | _ => None end.
  Definition q_scope (o : fop X) := match o with FScope v => Some v | _ => None end.
  Definition q_response (o : fop X) :=
    match o with FResponse c x => Some {| er_ctype := c; er_other := x |} | _ => None end.
  Definition q_additional (o : fop X) := match o with FAdditional p => Some p | _ => None end.

  Record form_says (xp : pty (x_f X) * list (fop X)) (f : form X) : Prop := {
    fs_op : f_op f = match picks q_op (snd xp) with [] => OpDefault | l => OpCustom l end;
    fs_href : picks q_href (snd xp) = [f_href f];
    fs_ctype : f_ctype f = lasto (picks q_ctype (snd xp));
    fs_ccoding : f_ccoding f = lasto (picks q_ccoding (snd xp));
    fs_subprotocol : f_subprotocol f = lasto (picks q_subprotocol (snd xp));
    fs_security : f_security f = nonempty (picks q_security (snd xp));
    fs_scopes : f_scopes f = nonempty (picks q_scope (snd xp));
    fs_response : f_response f = lasto (picks q_response (snd xp));
    fs_additional : exists rs, Forall2 resp_says (picks q_additional (snd xp)) rs
                               /\ f_additional f = nonempty rs;
    fs_other : f_other f = fst xp;
  }.

  (** Maps: the last declaration of each name. *)
  Definition map_says {P A} (R : P -> A -> Prop) (adds : list (string * P)) (m : amap A) : Prop :=
    msorted m /\ forall k, omatch R (llook k adds) (mlook k m).

  (** A map that is absent when there are no declarations. *)
  Definition omap_says {P A} (R : P -> A -> Prop) (adds : list (string * P)) (m : option (amap A)) : Prop :=
    map_says R adds (olist m) /\ (m = None <-> adds = []).

  (** Interactions. *)
  Definition i_form (o : ia_op X) := match o with IForm x p => Some (x, p) | _ => None end.
  Definition i_uri (o : ia_op X) := match o with IUri n p => Some (n, p) | _ => None end.

  Record ia_says (x : pty (x_ia X)) (p : list (ia_op X)) (i : interaction X) : Prop := {
    is_forms : Forall2 form_says (picks i_form p) (ia_forms i);
    is_uri : omap_says says (picks i_uri p) (ia_uri i);
    is_other : ia_other i = x;
  }.

  Definition p_ds (o : pop X) := match o with PDs o => Some o | _ => None end.
  Definition p_ia (o : pop X) := match o with PIa o => Some o | _ => None end.
  Definition p_observable (o : pop X) := match o with PObservable b => Some b | _ => None end.

  (** Properties: title, description etc. are members of both the interaction and
      the data schema. *)
  Record property_says (c : pty (x_ia X) * pty (x_pa X) * list (pop X)) (a : property X) : Prop := {
    ps_ia : ia_says (fst (fst c)) (picks p_ia (snd c)) (pa_ia a);
    ps_ds : says (picks p_ds (snd c)) (pa_ds a);
    ps_info : ia_info (pa_ia a) = ds_info (pa_ds a);
    ps_observable : pa_observable a = lasto (picks p_observable (snd c));
    ps_other : pa_other a = snd (fst c);
  }.

  Definition a_info (o : aop X) := match o with AInfo o => Some o | _ => None end.
  Definition a_ia (o : aop X) := match o with AIa o => Some o | _ => None end.
  Definition a_input (o : aop X) := match o with AInput p => Some p | _ => None end.
  Definition a_output (o : aop X) := match o with AOutput p => Some p | _ => None end.
  Definition a_synchronous (o : aop X) := match o with ASynchronous b => Some b | _ => None end.
  Definition is_safe (o : aop X) := match o with ASafe => true | _ => false end.
  Definition is_idempotent (o : aop X) := match o with AIdempotent => true | _ => false end.

  Record action_says (c : pty (x_ia X) * pty (x_aa X) * list (aop X)) (a : action X) : Prop := {
    as_ia : ia_says (fst (fst c)) (picks a_ia (snd c)) (aa_ia a);
    as_info : info_declared tg (picks a_info (snd c)) (ia_info (aa_ia a));
    as_input : omatch says (lasto (picks a_input (snd c))) (aa_input a);
    as_output : omatch says (lasto (picks a_output (snd c))) (aa_output a);
    as_safe : aa_safe a = some_call is_safe (snd c);
    as_idempotent : aa_idempotent a = some_call is_idempotent (snd c);
    as_synchronous : aa_synchronous a = lasto (picks a_synchronous (snd c));
    as_other : aa_other a = snd (fst c);
  }.

  Definition e_info (o : eop X) := match o with EInfo o => Some o | _ => None end.
  Definition e_ia (o : eop X) := match o with EIa o => Some o | _ => None end.
  Definition e_subscription (o : eop X) := match o with ESubscription p => Some p | _ => None end.
  Definition e_data (o : eop X) := match o with EData p => Some p | _ => None end.
  Definition e_data_response (o : eop X) := match o with EDataResponse p => Some p | _ => None end.
  Definition e_cancellation (o : eop X) := match o with ECancellation p => Some p | _ => None end.

  Record event_says (c : pty (x_ia X) * pty (x_ea X) * list (eop X)) (a : event X) : Prop := {
    es_ia : ia_says (fst (fst c)) (picks e_ia (snd c)) (ea_ia a);
    es_info : info_declared tg (picks e_info (snd c)) (ia_info (ea_ia a));
    es_subscription : omatch says (lasto (picks e_subscription (snd c))) (ea_subscription a);
    es_data : omatch says (lasto (picks e_data (snd c))) (ea_data a);
    es_data_response : omatch says (lasto (picks e_data_response (snd c))) (ea_data_response a);
    es_cancellation : omatch says (lasto (picks e_cancellation (snd c))) (ea_cancellation a);
    es_other : ea_other a = snd (fst c);
  }.

  End Says.

  (** The thing. *)
  Notation top := (top E X).
  Definition t_of_id (o : top) := match o with TId v => Some v | _ => None end.
  Definition t_of_description (o : top) := match o with TDescription v => Some v | _ => None end.
  Definition t_of_version (o : top) := match o with TVersion v => Some v | _ => None end.
  Definition t_of_created (o : top) := match o with TCreated v => Some v | _ => None end.
  Definition t_of_modified (o : top) := match o with TModified v => Some v | _ => None end.
  Definition t_of_support (o : top) := match o with TSupport v => Some v | _ => None end.
  Definition t_of_base (o : top) := match o with TBase v => Some v | _ => None end.
  Definition t_of_attype (o : top) := match o with TAttype v => Some v | _ => None end.
  Definition t_of_titles (o : top) := match o with TTitles v => Some v | _ => None end.
  Definition t_of_descriptions (o : top) := match o with TDescriptions v => Some v | _ => None end.
  Definition t_of_profile (o : top) := match o with TProfile v => Some v | _ => None end.
  Definition t_of_security (o : top) := match o with TSecurity v => Some v | _ => None end.
  Definition t_of_link (o : top) :=
    match o with TLink h => Some [LHref h] | TLinkWith p => Some p | _ => None end.
  Definition t_of_form (o : top) := match o with TForm x p => Some (x, p) | _ => None end.
  Definition t_of_uri (o : top) := match o with TUri n p => Some (n, p) | _ => None end.
  Definition t_of_schema (o : top) := match o with TSchema n p => Some (n, p) | _ => None end.
  Definition t_of_property (o : top) :=
    match o with TProperty n xi xp p => Some (n, (xi, xp, p)) | _ => None end.
  Definition t_of_action (o : top) :=
    match o with TAction n xi xa p => Some (n, (xi, xa, p)) | _ => None end.
  Definition t_of_event (o : top) :=
    match o with TEvent n xi xe p => Some (n, (xi, xe, p)) | _ => None end.

  (** A name with something declared under it. *)
  Definition named {P A} (R : P -> A -> Prop) (c : string * P) (a : string * A) : Prop :=
    fst c = fst a /\ R (snd c) (snd a).

  (** [declares p y]: the calls [p] declare the description [y]. *)
  Record declares (p : list top) (y : body) : Prop := {
    dc_secdefs : exists rs, Forall2 (sec_says Some) (picks t_of_security p) rs
                   /\ y_secdefs y = map (fun r => (fst (fst r), snd r)) rs;
    dc_schemas : map_says (@ds_says _ _ _ Some) (picks t_of_schema p) (y_schemas y);
    dc_forms : Forall2 form_says (picks t_of_form p) (y_forms y);
    dc_uris : map_says (@ds_says _ _ _ Some) (picks t_of_uri p) (y_uris y);
    dc_properties : Forall2 (named (property_says Some)) (picks t_of_property p) (y_properties y);
    dc_actions : Forall2 (named (action_says Some)) (picks t_of_action p) (y_actions y);
    dc_events : Forall2 (named (event_says Some)) (picks t_of_event p) (y_events y);
    dc_links : Forall2 (link_says Some) (picks t_of_link p) (y_links y);
    dc_titles : ml_declared Some (olist (lasto (picks t_of_titles p))) (y_titles y);
    dc_descriptions : ml_declared Some (olist (lasto (picks t_of_descriptions p))) (y_descriptions y);
  }.

  (** ** @context *)

  (** A context call, other than one repeating the default context. *)
  Definition t_of_context (o : top) : option (string + list (string * string)) :=
    match o with
    | TContext s => if String.eqb s TD_CONTEXT_11 then None else Some (inl s)
    | TContextMap l => Some (inr l)
    | _ => None
    end.

  (** How a context is written. *)
  Inductive context_is : string + list (string * string) -> json -> Prop :=
  | ctx_simple s : context_is (inl s) (JStr s)
  | ctx_map l m : map_says (fun v j => j = JStr v) l m -> context_is (inr l) (JObj m).

  Definition context_says (p : list top) (j : json) : Prop :=
    match picks t_of_context p with
    | [] => j = JStr TD_CONTEXT_11
    | cs => exists js, Forall2 context_is cs js /\ j = JArr (JStr TD_CONTEXT_11 :: js)
    end.

  (** [thing_says title x p t]: the Thing [t] holds what [title], the extension
      value [x] and the calls [p] declare. *)
  Notation tg := (tag_parse E).
  Record thing_says (title : string) (x : pty (x_t X)) (p : list top) (t : thing E X) : Prop := {
    ts_context : context_says p (t_context t);
    ts_id : t_id t = lasto (picks t_of_id p);
    ts_attype : t_attype t = nonempty (picks t_of_attype p);
    ts_title : t_title t = title;
    ts_titles : omatch (ml_declared tg) (lasto (picks t_of_titles p)) (t_titles t);
    ts_description : t_description t = lasto (picks t_of_description p);
    ts_descriptions : omatch (ml_declared tg) (lasto (picks t_of_descriptions p)) (t_descriptions t);
    ts_version : t_version t = lasto (picks t_of_version p);
    ts_created : t_created t = lasto (picks t_of_created p);
    ts_modified : t_modified t = lasto (picks t_of_modified p);
    ts_support : t_support t = lasto (picks t_of_support p);
    ts_base : t_base t = lasto (picks t_of_base p);
    ts_properties : omap_says (property_says tg) (picks t_of_property p) (t_properties t);
    ts_actions : omap_says (action_says tg) (picks t_of_action p) (t_actions t);
    ts_events : omap_says (event_says tg) (picks t_of_event p) (t_events t);
    ts_links : exists ls, Forall2 (link_says tg) (picks t_of_link p) ls /\ t_links t = nonempty ls;
    ts_forms : exists fs, Forall2 form_says (picks t_of_form p) fs /\ t_forms t = nonempty fs;
    ts_security : exists rs, Forall2 (sec_says tg) (picks t_of_security p) rs
                    /\ t_security t = map (fun r => fst (fst r)) (filter (fun r => snd (fst r)) rs)
                    /\ NoDup (map (fun r => fst (fst r)) rs)
                    /\ msorted (t_secdefs t)
                    /\ forall k s, In (k, s) (t_secdefs t) <-> In (k, s) (map (fun r => (fst (fst r), snd r)) rs);
    ts_uri : omap_says (@ds_says _ _ _ tg) (picks t_of_uri p) (t_uri t);
    ts_profile : t_profile t = nonempty (picks t_of_profile p);
    ts_schemas : omap_says (@ds_says _ _ _ tg) (picks t_of_schema p) (t_schemas t);
    ts_other : t_other t = x;
  }.

  (** ** Which member of the thing a call sets

      [VStatus]: [finish_extend] sets nothing, it ends the extension phase. *)
  Inductive tfield :=
  | VContext | VId | VAttype | VTitles | VDescription | VDescriptions | VVersion | VCreated | VModified
  | VSupport | VBase | VProperties | VActions | VEvents | VLinks | VForms | VUri | VSecurity | VProfile
  | VSchemas | VStatus.

  Definition target (o : top) : tfield :=
    match o with
    | TContext _ | TContextMap _ => VContext
    | TId _ => VId
    | TAttype _ => VAttype
    | TTitles _ => VTitles
    | TDescription _ => VDescription
    | TDescriptions _ => VDescriptions
    | TVersion _ => VVersion
    | TCreated _ => VCreated
    | TModified _ => VModified
    | TSupport _ => VSupport
    | TBase _ => VBase
    | TProperty _ _ _ _ => VProperties
    | TAction _ _ _ _ => VActions
    | TEvent _ _ _ _ => VEvents
    | TLink _ | TLinkWith _ => VLinks
    | TForm _ _ => VForms
    | TUri _ _ => VUri
    | TSecurity _ => VSecurity
    | TProfile _ => VProfile
    | TSchema _ _ => VSchemas
    | TFinish => VStatus
    end.
End Things.

(** ** A family of programs

    A thing with one property affordance named [n], whose schema is made by the
    given calls of the data schema builder. *)
Definition one_property E X (n : string) (xi : pty (x_ia X)) (xp : pty (x_pa X)) (xd : pty (x_ds X))
  (calls : list (dsop (pty (x_ds X)) (pty (x_as X)) (pty (x_os X)))) : list (top E X) :=
  [TFinish; TProperty n xi xp (map PDs (DFinish xd :: calls))].
