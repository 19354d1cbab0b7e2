(** * Link, security, form, affordance and thing builders
    (src/builder.rs, src/builder/affordance.rs)

    As in [DsBuilder.v], a builder value is a record, a chain of calls is a list
    and a call that does not type check gives [None]. *)

From Coq Require Import String Bool ZArith Permutation List.
From Verif Require Import Base MinMax Json Serde Types DsBuilder.
Import ListNotations.
Set Implicit Arguments.
Local Open Scope string_scope.
Local Open Scope list_scope.

(** ** Links *)

(** src/builder.rs 1797-1804 [LinkBuilder<Href>]; [lb_href = None] is
    [LinkBuilder<()>].  [UncheckedLink] (2987-2994) has the same fields. *)
Record link_b := {
  lb_href : option string;
  lb_type : option string;
  lb_rel : option string;
  lb_anchor : option string;
  lb_sizes : option string;
  lb_hreflang : list string;
}.

(** Record updates. *)
(** Assignment to [href], src/builder.rs 1798 *)
Definition set_lb_href (s : link_b) v : link_b :=
    {| lb_href := v; lb_type := lb_type s; lb_rel := lb_rel s; lb_anchor := lb_anchor s; lb_sizes := lb_sizes s; lb_hreflang := lb_hreflang s |}.
(** Assignment to [ty], src/builder.rs 1799 *)
Definition set_lb_type (s : link_b) v : link_b :=
    {| lb_href := lb_href s; lb_type := v; lb_rel := lb_rel s; lb_anchor := lb_anchor s; lb_sizes := lb_sizes s; lb_hreflang := lb_hreflang s |}.
(** Assignment to [rel], src/builder.rs 1800 *)
Definition set_lb_rel (s : link_b) v : link_b :=
    {| lb_href := lb_href s; lb_type := lb_type s; lb_rel := v; lb_anchor := lb_anchor s; lb_sizes := lb_sizes s; lb_hreflang := lb_hreflang s |}.
(** Assignment to [anchor], src/builder.rs 1801 *)
Definition set_lb_anchor (s : link_b) v : link_b :=
    {| lb_href := lb_href s; lb_type := lb_type s; lb_rel := lb_rel s; lb_anchor := v; lb_sizes := lb_sizes s; lb_hreflang := lb_hreflang s |}.
(** Assignment to [sizes], src/builder.rs 1802 *)
Definition set_lb_sizes (s : link_b) v : link_b :=
    {| lb_href := lb_href s; lb_type := lb_type s; lb_rel := lb_rel s; lb_anchor := lb_anchor s; lb_sizes := v; lb_hreflang := lb_hreflang s |}.
(** Assignment to [hreflang], src/builder.rs 1803 *)
Definition set_lb_hreflang (s : link_b) v : link_b :=
    {| lb_href := lb_href s; lb_type := lb_type s; lb_rel := lb_rel s; lb_anchor := lb_anchor s; lb_sizes := lb_sizes s; lb_hreflang := v |}.

(** src/builder.rs 1807-1816, [LinkBuilder::new] *)
Definition link_new : link_b :=
  {| lb_href := None; lb_type := None; lb_rel := None; lb_anchor := None; lb_sizes := None;
     lb_hreflang := [] |}.

(** Calls of [LinkBuilder], src/builder.rs 1818-1848 *)
Inductive link_op :=
| LHref (s : string) | LType (s : string) | LRel (s : string) | LAnchor (s : string)
| LSizes (s : string) | LHreflang (s : string).

(** src/builder.rs 1818-1848, [LinkBuilder] calls *)
Definition link_step (o : link_op) (s : link_b) : option link_b :=
  match o with
  | LHref v => match lb_href s with None => Some (set_lb_href s (Some v)) | Some _ => None end
  | LType v => Some (set_lb_type s (Some v))
  | LRel v => Some (set_lb_rel s (Some v))
  | LAnchor v => Some (set_lb_anchor s (Some v))
  | LSizes v => Some (set_lb_sizes s (Some v))
  | LHreflang v => Some (set_lb_hreflang s (lb_hreflang s ++ [v]))
  end.

(** A chain of calls. No line of its own in /repo: method calls one after another. *)
Fixpoint orun {O S} (step : O -> S -> option S) (p : list O) (s : S) : option S :=
  match p with
  | [] => Some s
  | o :: p' => let? s' := step o s in orun step p' s'
  end.

(** ** Security schemes *)

(** The type parameter of [SecuritySchemeBuilder<S>], src/builder.rs 1867-1898,
    with the value it holds. [SKNone] is [()]. *)
Inductive sec_kind :=
| SKNone
| SKEmptyCombo
| SKSub (t : sec_subtype).

(** src/builder.rs 1867-1875, [SecuritySchemeBuilder] *)
Record sec_b := {
  sb_attype : option (list string);
  sb_description : option string;
  sb_descriptions : option multilang;
  sb_proxy : option string;
  sb_name : option string;
  sb_kind : sec_kind;
  sb_required : bool;
}.

(** Record updates. *)
(** Assignment to [attype], src/builder.rs 1868 *)
Definition set_sb_attype (s : sec_b) v : sec_b :=
    {| sb_attype := v; sb_description := sb_description s; sb_descriptions := sb_descriptions s; sb_proxy := sb_proxy s; sb_name := sb_name s; sb_kind := sb_kind s; sb_required := sb_required s |}.
(** Assignment to [description], src/builder.rs 1869 *)
Definition set_sb_description (s : sec_b) v : sec_b :=
    {| sb_attype := sb_attype s; sb_description := v; sb_descriptions := sb_descriptions s; sb_proxy := sb_proxy s; sb_name := sb_name s; sb_kind := sb_kind s; sb_required := sb_required s |}.
(** Assignment to [descriptions], src/builder.rs 1870 *)
Definition set_sb_descriptions (s : sec_b) v : sec_b :=
    {| sb_attype := sb_attype s; sb_description := sb_description s; sb_descriptions := v; sb_proxy := sb_proxy s; sb_name := sb_name s; sb_kind := sb_kind s; sb_required := sb_required s |}.
(** Assignment to [proxy], src/builder.rs 1871 *)
Definition set_sb_proxy (s : sec_b) v : sec_b :=
    {| sb_attype := sb_attype s; sb_description := sb_description s; sb_descriptions := sb_descriptions s; sb_proxy := v; sb_name := sb_name s; sb_kind := sb_kind s; sb_required := sb_required s |}.
(** Assignment to [name], src/builder.rs 1872 *)
Definition set_sb_name (s : sec_b) v : sec_b :=
    {| sb_attype := sb_attype s; sb_description := sb_description s; sb_descriptions := sb_descriptions s; sb_proxy := sb_proxy s; sb_name := v; sb_kind := sb_kind s; sb_required := sb_required s |}.
(** Assignment to [subtype], src/builder.rs 1873 *)
Definition set_sb_kind (s : sec_b) v : sec_b :=
    {| sb_attype := sb_attype s; sb_description := sb_description s; sb_descriptions := sb_descriptions s; sb_proxy := sb_proxy s; sb_name := sb_name s; sb_kind := v; sb_required := sb_required s |}.
(** Assignment to [required], src/builder.rs 1874 *)
Definition set_sb_required (s : sec_b) v : sec_b :=
    {| sb_attype := sb_attype s; sb_description := sb_description s; sb_descriptions := sb_descriptions s; sb_proxy := sb_proxy s; sb_name := sb_name s; sb_kind := sb_kind s; sb_required := v |}.

(** src/builder.rs 1331-1339, the initial builder of [ThingBuilder::security] *)
Definition sec_new : sec_b :=
  {| sb_attype := None; sb_description := None; sb_descriptions := None; sb_proxy := None;
     sb_name := None; sb_kind := SKNone; sb_required := false |}.

(** Calls of [SecuritySchemeBuilder], src/builder.rs 1900-2185, 2292-2576 *)
Inductive sec_op :=
| SNoSec | SAuto | SCombo | SBasic | SDigest | SBearer | SPsk | SOAuth2 (flow : string) | SApiKey
| SCustom (scheme : string)
| SAttype (s : string) | SDescription (s : string) | SDescriptions (adds : list (string * string))
| SProxy (s : string) | SWithKey (s : string) | SRequired
| SName (s : string) | SLocation (l : location)
| SAllOf (l : list string) | SOneOf (l : list string) | SExtend (l : list string) | SPush (s : string)
| SQop (q : qop) | SAuthorization (s : string) | SAlg (s : string) | SFormat (s : string)
| SToken (s : string) | SRefresh (s : string) | SScope (s : string)
| SData (j : json).

(** [Default] of the scheme structs: src/thing.rs 1224-1231 basic, 1282-1290
    digest, 1316-1323 api key, 1349-1359 bearer. *)
Definition basic_default : loc_name := {| ln_loc := LHeader; ln_name := None |}.
(** src/thing.rs 1316-1323, [ApiKeySecurityScheme::default] *)
Definition apikey_default : loc_name := {| ln_loc := LQuery; ln_name := None |}.
(** src/thing.rs 1349-1359, [BearerSecurityScheme::default] *)
Definition bearer_default : bearer :=
  {| be_auth := None; be_alg := "ES256"; be_format := "jwt"; be_loc := LHeader; be_name := None |}.
(** src/thing.rs 1414-1424, [OAuth2SecurityScheme::new] *)
Definition oauth2_new (flow : string) : oauth2 :=
  {| oa_auth := None; oa_token := None; oa_refresh := None; oa_scopes := None; oa_flow := flow |}.

(** [name_mut], src/builder.rs 2245-2290 *)
Definition known_set_name (v : option string) (k : known_sec) : option known_sec :=
  match k with
  | KBasic b => Some (KBasic {| ln_loc := ln_loc b; ln_name := v |})
  | KDigest q b => Some (KDigest q {| ln_loc := ln_loc b; ln_name := v |})
  | KApiKey b => Some (KApiKey {| ln_loc := ln_loc b; ln_name := v |})
  | KBearer b => Some (KBearer {| be_auth := be_auth b; be_alg := be_alg b; be_format := be_format b;
                                  be_loc := be_loc b; be_name := v |})
  | _ => None
  end.

(** [location_mut], src/builder.rs 2245-2290 *)
Definition known_set_loc (v : location) (k : known_sec) : option known_sec :=
  match k with
  | KBasic b => Some (KBasic {| ln_loc := v; ln_name := ln_name b |})
  | KDigest q b => Some (KDigest q {| ln_loc := v; ln_name := ln_name b |})
  | KApiKey b => Some (KApiKey {| ln_loc := v; ln_name := ln_name b |})
  | KBearer b => Some (KBearer {| be_auth := be_auth b; be_alg := be_alg b; be_format := be_format b;
                                  be_loc := v; be_name := be_name b |})
  | _ => None
  end.

(** src/builder.rs 1900-2142: the choice of a scheme, available on [SecuritySchemeBuilder<()>] only *)
Definition sec_start (t : sec_subtype) (s : sec_b) : option sec_b :=
  match sb_kind s with SKNone => Some (set_sb_kind s (SKSub t)) | _ => None end.

(** src/builder.rs 2292-2576: a setter of some known schemes *)
Definition sec_known (f : known_sec -> option known_sec) (s : sec_b) : option sec_b :=
  match sb_kind s with
  | SKSub (Known k) => let? k' := f k in Some (set_sb_kind s (SKSub (Known k')))
  | _ => None
  end.

(** src/builder.rs 1900-2142 (choice of the scheme), 2144-2185 (common setters),
    2292-2576 (scheme specific setters).  [name] sets the scheme member [name] for
    basic/digest/apikey/bearer (2297) and the key of the definition for combos
    (2479, 2507). *)
Definition sec_step (o : sec_op) (s : sec_b) : option sec_b :=
  match o with
  | SNoSec => sec_start (Known KNoSec) s
  | SAuto => sec_start (Known KAuto) s
  | SCombo => match sb_kind s with SKNone => Some (set_sb_kind s SKEmptyCombo) | _ => None end
  | SBasic => sec_start (Known (KBasic basic_default)) s
  | SDigest => sec_start (Known (KDigest QAuth basic_default)) s
  | SBearer => sec_start (Known (KBearer bearer_default)) s
  | SPsk => sec_start (Known (KPsk None)) s
  | SOAuth2 flow => sec_start (Known (KOAuth2 (oauth2_new flow))) s
  | SApiKey => sec_start (Known (KApiKey apikey_default)) s
  | SCustom scheme => sec_start (Unknown scheme JNull) s
  | SAttype v => Some (set_sb_attype s (opush (sb_attype s) v))
  | SDescription v => Some (set_sb_description s (Some v))
  | SDescriptions l => Some (set_sb_descriptions s (Some (ml_of l)))
  | SProxy v => Some (set_sb_proxy s (Some v))
  | SWithKey v => Some (set_sb_name s (Some v))
  | SRequired => Some (set_sb_required s true)
  | SName v =>
      match sb_kind s with
      | SKEmptyCombo => Some (set_sb_name s (Some v))
      | SKSub (Known (KCombo _)) => Some (set_sb_name s (Some v))
      | _ => sec_known (known_set_name (Some v)) s
      end
  | SLocation v => sec_known (known_set_loc v) s
  | SAllOf l =>
      match sb_kind s with
      | SKEmptyCombo => Some (set_sb_kind s (SKSub (Known (KCombo (CAllOf l)))))
      | _ => None
      end
  | SOneOf l =>
      match sb_kind s with
      | SKEmptyCombo => Some (set_sb_kind s (SKSub (Known (KCombo (COneOf l)))))
      | _ => None
      end
  | SExtend l =>
      sec_known (fun k => match k with
                          | KCombo (COneOf l0) => Some (KCombo (COneOf (l0 ++ l)))
                          | KCombo (CAllOf l0) => Some (KCombo (CAllOf (l0 ++ l)))
                          | _ => None
                          end) s
  | SPush v =>
      sec_known (fun k => match k with
                          | KCombo (COneOf l0) => Some (KCombo (COneOf (l0 ++ [v])))
                          | KCombo (CAllOf l0) => Some (KCombo (CAllOf (l0 ++ [v])))
                          | _ => None
                          end) s
  | SQop q =>
      sec_known (fun k => match k with KDigest _ b => Some (KDigest q b) | _ => None end) s
  | SAuthorization v =>
      sec_known (fun k =>
        match k with
        | KBearer b => Some (KBearer {| be_auth := Some v; be_alg := be_alg b; be_format := be_format b;
                                        be_loc := be_loc b; be_name := be_name b |})
        | KOAuth2 a => Some (KOAuth2 {| oa_auth := Some v; oa_token := oa_token a;
                                        oa_refresh := oa_refresh a; oa_scopes := oa_scopes a;
                                        oa_flow := oa_flow a |})
        | _ => None
        end) s
  | SAlg v =>
      sec_known (fun k =>
        match k with
        | KBearer b => Some (KBearer {| be_auth := be_auth b; be_alg := v; be_format := be_format b;
                                        be_loc := be_loc b; be_name := be_name b |})
        | _ => None
        end) s
  | SFormat v =>
      sec_known (fun k =>
        match k with
        | KBearer b => Some (KBearer {| be_auth := be_auth b; be_alg := be_alg b; be_format := v;
                                        be_loc := be_loc b; be_name := be_name b |})
        | _ => None
        end) s
  | SToken v =>
      sec_known (fun k =>
        match k with
        | KOAuth2 a => Some (KOAuth2 {| oa_auth := oa_auth a; oa_token := Some v;
                                        oa_refresh := oa_refresh a; oa_scopes := oa_scopes a;
                                        oa_flow := oa_flow a |})
        | _ => None
        end) s
  | SRefresh v =>
      sec_known (fun k =>
        match k with
        | KOAuth2 a => Some (KOAuth2 {| oa_auth := oa_auth a; oa_token := oa_token a;
                                        oa_refresh := Some v; oa_scopes := oa_scopes a;
                                        oa_flow := oa_flow a |})
        | _ => None
        end) s
  | SScope v =>
      sec_known (fun k =>
        match k with
        | KOAuth2 a => Some (KOAuth2 {| oa_auth := oa_auth a; oa_token := oa_token a;
                                        oa_refresh := oa_refresh a; oa_scopes := opush (oa_scopes a) v;
                                        oa_flow := oa_flow a |})
        | _ => None
        end) s
  | SData j =>
      match sb_kind s with
      | SKSub (Unknown scheme _) => Some (set_sb_kind s (SKSub (Unknown scheme j)))
      | _ => None
      end
  end.

(** src/builder.rs 1360-1374, the name of a definition without [with_key] *)
Definition sec_default_name (t : sec_subtype) : string :=
  match t with
  | Known KNoSec => "nosec"
  | Known KAuto => "auto"
  | Known (KCombo _) => "combo"
  | Known (KBasic _) => "basic"
  | Known (KDigest _ _) => "digest"
  | Known (KBearer _) => "bearer"
  | Known (KPsk _) => "psk"
  | Known (KOAuth2 _) => "oauth2"
  | Known (KApiKey _) => "apikey"
  | Unknown scheme _ => scheme
  end.

(** src/builder.rs 1341-1379: name, whether it is required, and the scheme
    ([UncheckedSecurityScheme] 2949-2955 differs from [SecurityScheme] only in the
    language tags). *)
Definition sec_finish (s : sec_b) : option (string * bool * security_scheme) :=
  match sb_kind s with
  | SKSub t =>
      let name := match sb_name s with Some n => n | None => sec_default_name t end in
      Some (name, sb_required s,
            {| ss_attype := sb_attype s; ss_description := sb_description s;
               ss_descriptions := sb_descriptions s; ss_proxy := sb_proxy s; ss_subtype := t |})
  | _ => None
  end.

(** src/builder.rs 1324-1382: a closure given to [security] *)
Definition sec_run (p : list sec_op) : option (string * bool * security_scheme) :=
  let? s := orun sec_step p sec_new in sec_finish s.

(** ** Additional responses *)

(** Calls of [AdditionalExpectedResponseBuilder], src/builder.rs 2921-2947 *)
Inductive resp_op := RSuccess | RCtype (s : string) | RSchema (s : string).

(** src/builder.rs 2921-2947, [AdditionalExpectedResponseBuilder] *)
Definition resp_step (o : resp_op) (r : add_resp) : add_resp :=
  match o with
  | RSuccess => {| ar_success := true; ar_ctype := ar_ctype r; ar_schema := ar_schema r |}
  | RCtype v => {| ar_success := ar_success r; ar_ctype := Some v; ar_schema := ar_schema r |}
  | RSchema v => {| ar_success := ar_success r; ar_ctype := ar_ctype r; ar_schema := Some v |}
  end.

(** src/builder.rs 2922-2928, [AdditionalExpectedResponseBuilder::new] *)
Definition resp_new : add_resp := {| ar_success := false; ar_ctype := None; ar_schema := None |}.

(** src/builder.rs 2760-2780: a closure given to [additional_response] *)
Definition resp_run (p : list resp_op) : add_resp := fold_left (fun r o => resp_step o r) p resp_new.

(** src/builder.rs 1739-1742, [Context] *)
Inductive context := CtxSimple (s : string) | CtxMap (m : amap string).

Section Builders.
  Variable E : env.
  Variable X : exts.
  Notation dsx := (dsx X).
  Notation dsop := (dsop (pty (x_ds X)) (pty (x_as X)) (pty (x_os X))).
  Notation dstate := (dstate (pty (x_ds X)) (pty (x_as X)) (pty (x_os X))).

  (** ** Forms *)

  (** src/builder.rs 2582-2596, [FormBuilder]; [fb_href = None] is
      [FormBuilder<_, (), _>].  Simplification: the extension value is given when
      the builder is created instead of being assembled by [ext] calls. *)
  Record form_b := {
    fb_op : form_ops;
    fb_href : option string;
    fb_ctype : option string;
    fb_ccoding : option string;
    fb_subprotocol : option string;
    fb_security : option (list string);
    fb_scopes : option (list string);
    fb_response : option (exp_resp (pty (x_er X)));
    fb_additional : list add_resp;
    fb_other : pty (x_f X);
  }.

  (** Record updates. *)
  (** Assignment to [op], src/builder.rs 2583 *)
  Definition set_fb_op (s : form_b) v : form_b :=
    {| fb_op := v; fb_href := fb_href s; fb_ctype := fb_ctype s; fb_ccoding := fb_ccoding s; fb_subprotocol := fb_subprotocol s; fb_security := fb_security s; fb_scopes := fb_scopes s; fb_response := fb_response s; fb_additional := fb_additional s; fb_other := fb_other s |}.
  (** Assignment to [href], src/builder.rs 2584 *)
  Definition set_fb_href (s : form_b) v : form_b :=
    {| fb_op := fb_op s; fb_href := v; fb_ctype := fb_ctype s; fb_ccoding := fb_ccoding s; fb_subprotocol := fb_subprotocol s; fb_security := fb_security s; fb_scopes := fb_scopes s; fb_response := fb_response s; fb_additional := fb_additional s; fb_other := fb_other s |}.
  (** Assignment to [content_type], src/builder.rs 2585 *)
  Definition set_fb_ctype (s : form_b) v : form_b :=
    {| fb_op := fb_op s; fb_href := fb_href s; fb_ctype := v; fb_ccoding := fb_ccoding s; fb_subprotocol := fb_subprotocol s; fb_security := fb_security s; fb_scopes := fb_scopes s; fb_response := fb_response s; fb_additional := fb_additional s; fb_other := fb_other s |}.
  (** Assignment to [content_coding], src/builder.rs 2586 *)
  Definition set_fb_ccoding (s : form_b) v : form_b :=
    {| fb_op := fb_op s; fb_href := fb_href s; fb_ctype := fb_ctype s; fb_ccoding := v; fb_subprotocol := fb_subprotocol s; fb_security := fb_security s; fb_scopes := fb_scopes s; fb_response := fb_response s; fb_additional := fb_additional s; fb_other := fb_other s |}.
  (** Assignment to [subprotocol], src/builder.rs 2587 *)
  Definition set_fb_subprotocol (s : form_b) v : form_b :=
    {| fb_op := fb_op s; fb_href := fb_href s; fb_ctype := fb_ctype s; fb_ccoding := fb_ccoding s; fb_subprotocol := v; fb_security := fb_security s; fb_scopes := fb_scopes s; fb_response := fb_response s; fb_additional := fb_additional s; fb_other := fb_other s |}.
  (** Assignment to [security], src/builder.rs 2588 *)
  Definition set_fb_security (s : form_b) v : form_b :=
    {| fb_op := fb_op s; fb_href := fb_href s; fb_ctype := fb_ctype s; fb_ccoding := fb_ccoding s; fb_subprotocol := fb_subprotocol s; fb_security := v; fb_scopes := fb_scopes s; fb_response := fb_response s; fb_additional := fb_additional s; fb_other := fb_other s |}.
  (** Assignment to [scopes], src/builder.rs 2589 *)
  Definition set_fb_scopes (s : form_b) v : form_b :=
    {| fb_op := fb_op s; fb_href := fb_href s; fb_ctype := fb_ctype s; fb_ccoding := fb_ccoding s; fb_subprotocol := fb_subprotocol s; fb_security := fb_security s; fb_scopes := v; fb_response := fb_response s; fb_additional := fb_additional s; fb_other := fb_other s |}.
  (** Assignment to [response], src/builder.rs 2590 *)
  Definition set_fb_response (s : form_b) v : form_b :=
    {| fb_op := fb_op s; fb_href := fb_href s; fb_ctype := fb_ctype s; fb_ccoding := fb_ccoding s; fb_subprotocol := fb_subprotocol s; fb_security := fb_security s; fb_scopes := fb_scopes s; fb_response := v; fb_additional := fb_additional s; fb_other := fb_other s |}.
  (** Assignment to [additional_responses], src/builder.rs 2591 *)
  Definition set_fb_additional (s : form_b) v : form_b :=
    {| fb_op := fb_op s; fb_href := fb_href s; fb_ctype := fb_ctype s; fb_ccoding := fb_ccoding s; fb_subprotocol := fb_subprotocol s; fb_security := fb_security s; fb_scopes := fb_scopes s; fb_response := fb_response s; fb_additional := v; fb_other := fb_other s |}.

  (** src/builder.rs 2603-2619, [FormBuilder::new] *)
  Definition form_new (x : pty (x_f X)) : form_b :=
    {| fb_op := OpDefault; fb_href := None; fb_ctype := None; fb_ccoding := None;
       fb_subprotocol := None; fb_security := None; fb_scopes := None; fb_response := None;
       fb_additional := []; fb_other := x |}.

  (** Calls of [FormBuilder], src/builder.rs 2622-2780, 2835-2872 *)
  Inductive fop :=
  | FHref (s : string) | FCtype (s : string) | FCcoding (s : string) | FSubprotocol (s : string)
  | FOp (o : form_op) | FSecurity (s : string) | FScope (s : string)
  | FResponse (ctype : string) (x : pty (x_er X))
  | FAdditional (p : list resp_op).

  (** src/builder.rs 2622-2657 [href], 2659-2780 setters, 2835-2872 [response] *)
  Definition fstep (o : fop) (s : form_b) : option form_b :=
    match o with
    | FHref v => match fb_href s with None => Some (set_fb_href s (Some v)) | Some _ => None end
    | FCtype v => Some (set_fb_ctype s (Some v))
    | FCcoding v => Some (set_fb_ccoding s (Some v))
    | FSubprotocol v => Some (set_fb_subprotocol s (Some v))
    | FOp v =>
        Some (set_fb_op s (match fb_op s with
                           | OpDefault => OpCustom [v]
                           | OpCustom l => OpCustom (l ++ [v])
                           end))
    | FSecurity v => Some (set_fb_security s (opush (fb_security s) v))
    | FScope v => Some (set_fb_scopes s (opush (fb_scopes s) v))
    | FResponse c x => Some (set_fb_response s (Some {| er_ctype := c; er_other := x |}))
    | FAdditional p => Some (set_fb_additional s (fb_additional s ++ [resp_run p]))
    end.

  (** src/builder.rs 2874-2911, [From<FormBuilder<Other, String, _>> for Form].  A
      form builder without [href] has another type: [None]. *)
  Definition form_build (s : form_b) : option (form X) :=
    let? h := fb_href s in
    Some {| f_op := fb_op s; f_href := h; f_ctype := fb_ctype s; f_ccoding := fb_ccoding s;
            f_subprotocol := fb_subprotocol s; f_security := fb_security s;
            f_scopes := fb_scopes s; f_response := fb_response s;
            f_additional := nonempty (fb_additional s); f_other := fb_other s |}.

  (** A closure given to [form].  The builder it returns is stored and converted
      to a [Form] later ([From], or field by field in [build_form_from_builder]);
      the conversion only touches [additional_responses], so the stored builders
      are represented by the converted forms.  Simplification: [forms] of the
      builders therefore hold [form]s, whose empty [additional_responses] is
      [None]. src/builder.rs 1485-1494, 971-1063. *)
  Definition form_run (x : pty (x_f X)) (p : list fop) : option (form X) :=
    let? s := orun fstep p (form_new x) in form_build s.

  (** ** Interaction affordances *)

  (** src/builder/affordance.rs 163-172, [PartialInteractionAffordanceBuilder] *)
  Record ia_b := {
    ib_forms : list (form X);
    ib_uri : amap dsx;
    ib_other : pty (x_ia X);
  }.

  (** Calls of [BuildableInteractionAffordance], src/builder/affordance.rs 308-342 *)
  Inductive ia_op :=
  | IForm (x : pty (x_f X)) (p : list fop)
  | IUri (name : string) (p : list dsop).

  (** src/builder/affordance.rs 308-342, [form], [uri_variable] *)
  Definition ia_step (o : ia_op) (s : ia_b) : option ia_b :=
    match o with
    | IForm x p =>
        let? f := form_run x p in
        Some {| ib_forms := ib_forms s ++ [f]; ib_uri := ib_uri s; ib_other := ib_other s |}
    | IUri name p =>
        let? d := dbuild p in
        Some {| ib_forms := ib_forms s; ib_uri := minsert name d (ib_uri s); ib_other := ib_other s |}
    end.

  (** src/builder/affordance.rs 190-201, [empty] *)
  Definition ia_new (x : pty (x_ia X)) : ia_b := {| ib_forms := []; ib_uri := []; ib_other := x |}.

  (** src/builder/affordance.rs 526-539, [PropertyAffordanceBuilder]; its [info]
      is [b_info] of [pb_ds]. *)
  Record property_b := {
    pb_ia : ia_b;
    pb_ds : dstate;
    pb_observable : option bool;
    pb_other : pty (x_pa X);
  }.

  (** Calls of [PropertyAffordanceBuilder], src/builder/affordance.rs 344-382, 1000-1030, 1533-1848 *)
  Inductive pop :=
  | PDs (o : dsop)          (* data schema and human readable calls *)
  | PIa (o : ia_op)
  | PObservable (b : bool).

  (** The data schema calls a [PropertyAffordanceBuilder] delegates:
      src/builder/affordance.rs 1000-1030 and 1548-1848.  There is no delegation of
      the setters of [StringDataSchemaBuilder]. *)
  Definition delegated (o : dsop) : bool :=
    match o with
    | DMinLength _ | DMaxLength _ | DPattern _ | DEncoding _ | DMedia _ => false
    | _ => true
    end.

  (** src/builder/affordance.rs 1542 [observable], 344-382 interaction calls,
      1000-1030 and 1548-1848 data schema calls, all delegated *)
  Definition pstep (o : pop) (s : property_b) : option property_b :=
    match o with
    | PDs o =>
        let? d := if delegated o then dstep o (pb_ds s) else None in
        Some {| pb_ia := pb_ia s; pb_ds := d; pb_observable := pb_observable s; pb_other := pb_other s |}
    | PIa o =>
        let? i := ia_step o (pb_ia s) in
        Some {| pb_ia := i; pb_ds := pb_ds s; pb_observable := pb_observable s; pb_other := pb_other s |}
    | PObservable b =>
        Some {| pb_ia := pb_ia s; pb_ds := pb_ds s; pb_observable := Some b; pb_other := pb_other s |}
    end.

  (** src/builder/affordance.rs 979-988 [UsablePropertyAffordanceBuilder]: the data
      schema is a [PartialDataSchema]; together with [info] this is a schema. *)
  Record uproperty := {
    up_ia : ia_b;
    up_ds : dsx;
    up_observable : option bool;
    up_other : pty (x_pa X);
  }.

  (** src/builder/affordance.rs 1329-1359, [into_usable] *)
  Definition prop_run (xi : pty (x_ia X)) (xp : pty (x_pa X)) (p : list pop) : option uproperty :=
    let? s := orun pstep p {| pb_ia := ia_new xi; pb_ds := dempty; pb_observable := None;
                              pb_other := xp |} in
    let? d := to_ds (pb_ds s) in
    Some {| up_ia := pb_ia s; up_ds := d; up_observable := pb_observable s; up_other := pb_other s |}.

  (** src/builder/affordance.rs 699-713, [ActionAffordanceBuilder] with its
      [InteractionAffordanceBuilder] (257-260) *)
  Record action_b := {
    ab_info : info;
    ab_ia : ia_b;
    ab_input : option dsx;
    ab_output : option dsx;
    ab_safe : bool;
    ab_idempotent : bool;
    ab_synchronous : option bool;
    ab_other : pty (x_aa X);
  }.

  (** Record updates. *)
  (** Assignment to [info] of [interaction], src/builder/affordance.rs 257-260, 704 *)
  Definition set_ab_info (s : action_b) v : action_b :=
    {| ab_info := v; ab_ia := ab_ia s; ab_input := ab_input s; ab_output := ab_output s; ab_safe := ab_safe s; ab_idempotent := ab_idempotent s; ab_synchronous := ab_synchronous s; ab_other := ab_other s |}.
  (** Assignment to the rest of [interaction], src/builder/affordance.rs 704 *)
  Definition set_ab_ia (s : action_b) v : action_b :=
    {| ab_info := ab_info s; ab_ia := v; ab_input := ab_input s; ab_output := ab_output s; ab_safe := ab_safe s; ab_idempotent := ab_idempotent s; ab_synchronous := ab_synchronous s; ab_other := ab_other s |}.
  (** Assignment to [input], src/builder/affordance.rs 705 *)
  Definition set_ab_input (s : action_b) v : action_b :=
    {| ab_info := ab_info s; ab_ia := ab_ia s; ab_input := v; ab_output := ab_output s; ab_safe := ab_safe s; ab_idempotent := ab_idempotent s; ab_synchronous := ab_synchronous s; ab_other := ab_other s |}.
  (** Assignment to [output], src/builder/affordance.rs 706 *)
  Definition set_ab_output (s : action_b) v : action_b :=
    {| ab_info := ab_info s; ab_ia := ab_ia s; ab_input := ab_input s; ab_output := v; ab_safe := ab_safe s; ab_idempotent := ab_idempotent s; ab_synchronous := ab_synchronous s; ab_other := ab_other s |}.
  (** Assignment to [safe], src/builder/affordance.rs 707 *)
  Definition set_ab_safe (s : action_b) v : action_b :=
    {| ab_info := ab_info s; ab_ia := ab_ia s; ab_input := ab_input s; ab_output := ab_output s; ab_safe := v; ab_idempotent := ab_idempotent s; ab_synchronous := ab_synchronous s; ab_other := ab_other s |}.
  (** Assignment to [idempotent], src/builder/affordance.rs 708 *)
  Definition set_ab_idempotent (s : action_b) v : action_b :=
    {| ab_info := ab_info s; ab_ia := ab_ia s; ab_input := ab_input s; ab_output := ab_output s; ab_safe := ab_safe s; ab_idempotent := v; ab_synchronous := ab_synchronous s; ab_other := ab_other s |}.
  (** Assignment to [synchronous], src/builder/affordance.rs 709 *)
  Definition set_ab_synchronous (s : action_b) v : action_b :=
    {| ab_info := ab_info s; ab_ia := ab_ia s; ab_input := ab_input s; ab_output := ab_output s; ab_safe := ab_safe s; ab_idempotent := ab_idempotent s; ab_synchronous := v; ab_other := ab_other s |}.

  (** Calls of [ActionAffordanceBuilder], src/builder/affordance.rs 1850-2030 *)
  Inductive aop :=
  | AInfo (o : info_op)
  | AIa (o : ia_op)
  | AInput (p : list dsop)
  | AOutput (p : list dsop)
  | ASafe
  | AIdempotent
  | ASynchronous (b : bool).

  (** src/builder/affordance.rs 1850-2030 *)
  Definition astep (o : aop) (s : action_b) : option action_b :=
    match o with
    | AInfo o => Some (set_ab_info s (info_step o (ab_info s)))
    | AIa o => let? i := ia_step o (ab_ia s) in Some (set_ab_ia s i)
    | AInput p => let? d := dbuild p in Some (set_ab_input s (Some d))
    | AOutput p => let? d := dbuild p in Some (set_ab_output s (Some d))
    | ASafe => Some (set_ab_safe s true)
    | AIdempotent => Some (set_ab_idempotent s true)
    | ASynchronous b => Some (set_ab_synchronous s (Some b))
    end.

  (** src/builder/affordance.rs 741-755, [ActionAffordanceBuilder::empty] *)
  Definition action_new (xi : pty (x_ia X)) (xa : pty (x_aa X)) : action_b :=
    {| ab_info := no_info; ab_ia := ia_new xi; ab_input := None; ab_output := None; ab_safe := false;
       ab_idempotent := false; ab_synchronous := None; ab_other := xa |}.

  (** A closure given to [action], src/builder.rs 1602-1629 *)
  Definition action_run xi xa (p : list aop) : option action_b := orun astep p (action_new xi xa).

  (** src/builder/affordance.rs 891-910, [EventAffordanceBuilder] *)
  Record event_b := {
    eb_info : info;
    eb_ia : ia_b;
    eb_subscription : option dsx;
    eb_data : option dsx;
    eb_data_response : option dsx;
    eb_cancellation : option dsx;
    eb_other : pty (x_ea X);
  }.

  (** Record updates. *)
  (** Assignment to [info] of [interaction], src/builder/affordance.rs 257-260, 896 *)
  Definition set_eb_info (s : event_b) v : event_b :=
    {| eb_info := v; eb_ia := eb_ia s; eb_subscription := eb_subscription s; eb_data := eb_data s; eb_data_response := eb_data_response s; eb_cancellation := eb_cancellation s; eb_other := eb_other s |}.
  (** Assignment to the rest of [interaction], src/builder/affordance.rs 896 *)
  Definition set_eb_ia (s : event_b) v : event_b :=
    {| eb_info := eb_info s; eb_ia := v; eb_subscription := eb_subscription s; eb_data := eb_data s; eb_data_response := eb_data_response s; eb_cancellation := eb_cancellation s; eb_other := eb_other s |}.
  (** Assignment to [subscription], src/builder/affordance.rs 897 *)
  Definition set_eb_subscription (s : event_b) v : event_b :=
    {| eb_info := eb_info s; eb_ia := eb_ia s; eb_subscription := v; eb_data := eb_data s; eb_data_response := eb_data_response s; eb_cancellation := eb_cancellation s; eb_other := eb_other s |}.
  (** Assignment to [data], src/builder/affordance.rs 898 *)
  Definition set_eb_data (s : event_b) v : event_b :=
    {| eb_info := eb_info s; eb_ia := eb_ia s; eb_subscription := eb_subscription s; eb_data := v; eb_data_response := eb_data_response s; eb_cancellation := eb_cancellation s; eb_other := eb_other s |}.
  (** Assignment to [data_response], src/builder/affordance.rs 900 *)
  Definition set_eb_data_response (s : event_b) v : event_b :=
    {| eb_info := eb_info s; eb_ia := eb_ia s; eb_subscription := eb_subscription s; eb_data := eb_data s; eb_data_response := v; eb_cancellation := eb_cancellation s; eb_other := eb_other s |}.
  (** Assignment to [cancellation], src/builder/affordance.rs 899 *)
  Definition set_eb_cancellation (s : event_b) v : event_b :=
    {| eb_info := eb_info s; eb_ia := eb_ia s; eb_subscription := eb_subscription s; eb_data := eb_data s; eb_data_response := eb_data_response s; eb_cancellation := v; eb_other := eb_other s |}.

  (** Calls of [EventAffordanceBuilder], src/builder/affordance.rs 2032-2335 *)
  Inductive eop :=
  | EInfo (o : info_op)
  | EIa (o : ia_op)
  | ESubscription (p : list dsop)
  | EData (p : list dsop)
  | EDataResponse (p : list dsop)
  | ECancellation (p : list dsop).

  (** src/builder/affordance.rs 2032-2335 *)
  Definition estep (o : eop) (s : event_b) : option event_b :=
    match o with
    | EInfo o => Some (set_eb_info s (info_step o (eb_info s)))
    | EIa o => let? i := ia_step o (eb_ia s) in Some (set_eb_ia s i)
    | ESubscription p => let? d := dbuild p in Some (set_eb_subscription s (Some d))
    | EData p => let? d := dbuild p in Some (set_eb_data s (Some d))
    | EDataResponse p => let? d := dbuild p in Some (set_eb_data_response s (Some d))
    | ECancellation p => let? d := dbuild p in Some (set_eb_cancellation s (Some d))
    end.

  (** src/builder/affordance.rs 918-927, [EventAffordanceBuilder::empty] *)
  Definition event_new (xi : pty (x_ia X)) (xe : pty (x_ea X)) : event_b :=
    {| eb_info := no_info; eb_ia := ia_new xi; eb_subscription := None; eb_data := None;
       eb_data_response := None; eb_cancellation := None; eb_other := xe |}.

  (** A closure given to [event], src/builder.rs 1632-1659 *)
  Definition event_run xi xe (p : list eop) : option event_b := orun estep p (event_new xi xe).

  (** ** The thing builder *)

  (** src/builder.rs 259-286, [ThingBuilder]; [tb_extended] is the [Status] type
      parameter.  Simplification: [other] is given at creation instead of being
      assembled by [ext] calls (in status [ToExtend] the members [ext_with]
      (637-697) resets are empty anyway, see [Extend.v]). *)
  Record tstate := {
    tb_context : list context;
    tb_id : option string;
    tb_attype : option (list string);
    tb_title : string;
    tb_titles : option multilang;
    tb_description : option string;
    tb_descriptions : option multilang;
    tb_version : option version_info;
    tb_created : option (date E);
    tb_modified : option (date E);
    tb_support : option string;
    tb_base : option string;
    tb_properties : list (string * uproperty);
    tb_actions : list (string * action_b);
    tb_events : list (string * event_b);
    tb_links : option (list link_b);
    tb_forms : option (list (form X));
    tb_uri : option (amap dsx);
    tb_security : list string;
    tb_secdefs : list (string * security_scheme);
    tb_profile : list string;
    tb_schemas : amap dsx;
    tb_other : pty (x_t X);
    tb_extended : bool;
  }.

  (** Record updates. *)
  (** Assignment to [context], src/builder.rs 260 *)
  Definition set_tb_context (s : tstate) v : tstate :=
    {| tb_context := v; tb_id := tb_id s; tb_attype := tb_attype s; tb_title := tb_title s; tb_titles := tb_titles s; tb_description := tb_description s; tb_descriptions := tb_descriptions s; tb_version := tb_version s; tb_created := tb_created s; tb_modified := tb_modified s; tb_support := tb_support s; tb_base := tb_base s; tb_properties := tb_properties s; tb_actions := tb_actions s; tb_events := tb_events s; tb_links := tb_links s; tb_forms := tb_forms s; tb_uri := tb_uri s; tb_security := tb_security s; tb_secdefs := tb_secdefs s; tb_profile := tb_profile s; tb_schemas := tb_schemas s; tb_other := tb_other s; tb_extended := tb_extended s |}.
  (** Assignment to [id], src/builder.rs 261 *)
  Definition set_tb_id (s : tstate) v : tstate :=
    {| tb_context := tb_context s; tb_id := v; tb_attype := tb_attype s; tb_title := tb_title s; tb_titles := tb_titles s; tb_description := tb_description s; tb_descriptions := tb_descriptions s; tb_version := tb_version s; tb_created := tb_created s; tb_modified := tb_modified s; tb_support := tb_support s; tb_base := tb_base s; tb_properties := tb_properties s; tb_actions := tb_actions s; tb_events := tb_events s; tb_links := tb_links s; tb_forms := tb_forms s; tb_uri := tb_uri s; tb_security := tb_security s; tb_secdefs := tb_secdefs s; tb_profile := tb_profile s; tb_schemas := tb_schemas s; tb_other := tb_other s; tb_extended := tb_extended s |}.
  (** Assignment to [attype], src/builder.rs 262 *)
  Definition set_tb_attype (s : tstate) v : tstate :=
    {| tb_context := tb_context s; tb_id := tb_id s; tb_attype := v; tb_title := tb_title s; tb_titles := tb_titles s; tb_description := tb_description s; tb_descriptions := tb_descriptions s; tb_version := tb_version s; tb_created := tb_created s; tb_modified := tb_modified s; tb_support := tb_support s; tb_base := tb_base s; tb_properties := tb_properties s; tb_actions := tb_actions s; tb_events := tb_events s; tb_links := tb_links s; tb_forms := tb_forms s; tb_uri := tb_uri s; tb_security := tb_security s; tb_secdefs := tb_secdefs s; tb_profile := tb_profile s; tb_schemas := tb_schemas s; tb_other := tb_other s; tb_extended := tb_extended s |}.
  (** Assignment to [titles], src/builder.rs 264 *)
  Definition set_tb_titles (s : tstate) v : tstate :=
    {| tb_context := tb_context s; tb_id := tb_id s; tb_attype := tb_attype s; tb_title := tb_title s; tb_titles := v; tb_description := tb_description s; tb_descriptions := tb_descriptions s; tb_version := tb_version s; tb_created := tb_created s; tb_modified := tb_modified s; tb_support := tb_support s; tb_base := tb_base s; tb_properties := tb_properties s; tb_actions := tb_actions s; tb_events := tb_events s; tb_links := tb_links s; tb_forms := tb_forms s; tb_uri := tb_uri s; tb_security := tb_security s; tb_secdefs := tb_secdefs s; tb_profile := tb_profile s; tb_schemas := tb_schemas s; tb_other := tb_other s; tb_extended := tb_extended s |}.
  (** Assignment to [description], src/builder.rs 265 *)
  Definition set_tb_description (s : tstate) v : tstate :=
    {| tb_context := tb_context s; tb_id := tb_id s; tb_attype := tb_attype s; tb_title := tb_title s; tb_titles := tb_titles s; tb_description := v; tb_descriptions := tb_descriptions s; tb_version := tb_version s; tb_created := tb_created s; tb_modified := tb_modified s; tb_support := tb_support s; tb_base := tb_base s; tb_properties := tb_properties s; tb_actions := tb_actions s; tb_events := tb_events s; tb_links := tb_links s; tb_forms := tb_forms s; tb_uri := tb_uri s; tb_security := tb_security s; tb_secdefs := tb_secdefs s; tb_profile := tb_profile s; tb_schemas := tb_schemas s; tb_other := tb_other s; tb_extended := tb_extended s |}.
  (** Assignment to [descriptions], src/builder.rs 266 *)
  Definition set_tb_descriptions (s : tstate) v : tstate :=
    {| tb_context := tb_context s; tb_id := tb_id s; tb_attype := tb_attype s; tb_title := tb_title s; tb_titles := tb_titles s; tb_description := tb_description s; tb_descriptions := v; tb_version := tb_version s; tb_created := tb_created s; tb_modified := tb_modified s; tb_support := tb_support s; tb_base := tb_base s; tb_properties := tb_properties s; tb_actions := tb_actions s; tb_events := tb_events s; tb_links := tb_links s; tb_forms := tb_forms s; tb_uri := tb_uri s; tb_security := tb_security s; tb_secdefs := tb_secdefs s; tb_profile := tb_profile s; tb_schemas := tb_schemas s; tb_other := tb_other s; tb_extended := tb_extended s |}.
  (** Assignment to [version], src/builder.rs 267 *)
  Definition set_tb_version (s : tstate) v : tstate :=
    {| tb_context := tb_context s; tb_id := tb_id s; tb_attype := tb_attype s; tb_title := tb_title s; tb_titles := tb_titles s; tb_description := tb_description s; tb_descriptions := tb_descriptions s; tb_version := v; tb_created := tb_created s; tb_modified := tb_modified s; tb_support := tb_support s; tb_base := tb_base s; tb_properties := tb_properties s; tb_actions := tb_actions s; tb_events := tb_events s; tb_links := tb_links s; tb_forms := tb_forms s; tb_uri := tb_uri s; tb_security := tb_security s; tb_secdefs := tb_secdefs s; tb_profile := tb_profile s; tb_schemas := tb_schemas s; tb_other := tb_other s; tb_extended := tb_extended s |}.
  (** Assignment to [created], src/builder.rs 268 *)
  Definition set_tb_created (s : tstate) v : tstate :=
    {| tb_context := tb_context s; tb_id := tb_id s; tb_attype := tb_attype s; tb_title := tb_title s; tb_titles := tb_titles s; tb_description := tb_description s; tb_descriptions := tb_descriptions s; tb_version := tb_version s; tb_created := v; tb_modified := tb_modified s; tb_support := tb_support s; tb_base := tb_base s; tb_properties := tb_properties s; tb_actions := tb_actions s; tb_events := tb_events s; tb_links := tb_links s; tb_forms := tb_forms s; tb_uri := tb_uri s; tb_security := tb_security s; tb_secdefs := tb_secdefs s; tb_profile := tb_profile s; tb_schemas := tb_schemas s; tb_other := tb_other s; tb_extended := tb_extended s |}.
  (** Assignment to [modified], src/builder.rs 269 *)
  Definition set_tb_modified (s : tstate) v : tstate :=
    {| tb_context := tb_context s; tb_id := tb_id s; tb_attype := tb_attype s; tb_title := tb_title s; tb_titles := tb_titles s; tb_description := tb_description s; tb_descriptions := tb_descriptions s; tb_version := tb_version s; tb_created := tb_created s; tb_modified := v; tb_support := tb_support s; tb_base := tb_base s; tb_properties := tb_properties s; tb_actions := tb_actions s; tb_events := tb_events s; tb_links := tb_links s; tb_forms := tb_forms s; tb_uri := tb_uri s; tb_security := tb_security s; tb_secdefs := tb_secdefs s; tb_profile := tb_profile s; tb_schemas := tb_schemas s; tb_other := tb_other s; tb_extended := tb_extended s |}.
  (** Assignment to [support], src/builder.rs 270 *)
  Definition set_tb_support (s : tstate) v : tstate :=
    {| tb_context := tb_context s; tb_id := tb_id s; tb_attype := tb_attype s; tb_title := tb_title s; tb_titles := tb_titles s; tb_description := tb_description s; tb_descriptions := tb_descriptions s; tb_version := tb_version s; tb_created := tb_created s; tb_modified := tb_modified s; tb_support := v; tb_base := tb_base s; tb_properties := tb_properties s; tb_actions := tb_actions s; tb_events := tb_events s; tb_links := tb_links s; tb_forms := tb_forms s; tb_uri := tb_uri s; tb_security := tb_security s; tb_secdefs := tb_secdefs s; tb_profile := tb_profile s; tb_schemas := tb_schemas s; tb_other := tb_other s; tb_extended := tb_extended s |}.
  (** Assignment to [base], src/builder.rs 271 *)
  Definition set_tb_base (s : tstate) v : tstate :=
    {| tb_context := tb_context s; tb_id := tb_id s; tb_attype := tb_attype s; tb_title := tb_title s; tb_titles := tb_titles s; tb_description := tb_description s; tb_descriptions := tb_descriptions s; tb_version := tb_version s; tb_created := tb_created s; tb_modified := tb_modified s; tb_support := tb_support s; tb_base := v; tb_properties := tb_properties s; tb_actions := tb_actions s; tb_events := tb_events s; tb_links := tb_links s; tb_forms := tb_forms s; tb_uri := tb_uri s; tb_security := tb_security s; tb_secdefs := tb_secdefs s; tb_profile := tb_profile s; tb_schemas := tb_schemas s; tb_other := tb_other s; tb_extended := tb_extended s |}.
  (** Assignment to [properties], src/builder.rs 272 *)
  Definition set_tb_properties (s : tstate) v : tstate :=
    {| tb_context := tb_context s; tb_id := tb_id s; tb_attype := tb_attype s; tb_title := tb_title s; tb_titles := tb_titles s; tb_description := tb_description s; tb_descriptions := tb_descriptions s; tb_version := tb_version s; tb_created := tb_created s; tb_modified := tb_modified s; tb_support := tb_support s; tb_base := tb_base s; tb_properties := v; tb_actions := tb_actions s; tb_events := tb_events s; tb_links := tb_links s; tb_forms := tb_forms s; tb_uri := tb_uri s; tb_security := tb_security s; tb_secdefs := tb_secdefs s; tb_profile := tb_profile s; tb_schemas := tb_schemas s; tb_other := tb_other s; tb_extended := tb_extended s |}.
  (** Assignment to [actions], src/builder.rs 273 *)
  Definition set_tb_actions (s : tstate) v : tstate :=
    {| tb_context := tb_context s; tb_id := tb_id s; tb_attype := tb_attype s; tb_title := tb_title s; tb_titles := tb_titles s; tb_description := tb_description s; tb_descriptions := tb_descriptions s; tb_version := tb_version s; tb_created := tb_created s; tb_modified := tb_modified s; tb_support := tb_support s; tb_base := tb_base s; tb_properties := tb_properties s; tb_actions := v; tb_events := tb_events s; tb_links := tb_links s; tb_forms := tb_forms s; tb_uri := tb_uri s; tb_security := tb_security s; tb_secdefs := tb_secdefs s; tb_profile := tb_profile s; tb_schemas := tb_schemas s; tb_other := tb_other s; tb_extended := tb_extended s |}.
  (** Assignment to [events], src/builder.rs 274 *)
  Definition set_tb_events (s : tstate) v : tstate :=
    {| tb_context := tb_context s; tb_id := tb_id s; tb_attype := tb_attype s; tb_title := tb_title s; tb_titles := tb_titles s; tb_description := tb_description s; tb_descriptions := tb_descriptions s; tb_version := tb_version s; tb_created := tb_created s; tb_modified := tb_modified s; tb_support := tb_support s; tb_base := tb_base s; tb_properties := tb_properties s; tb_actions := tb_actions s; tb_events := v; tb_links := tb_links s; tb_forms := tb_forms s; tb_uri := tb_uri s; tb_security := tb_security s; tb_secdefs := tb_secdefs s; tb_profile := tb_profile s; tb_schemas := tb_schemas s; tb_other := tb_other s; tb_extended := tb_extended s |}.
  (** Assignment to [links], src/builder.rs 275 *)
  Definition set_tb_links (s : tstate) v : tstate :=
    {| tb_context := tb_context s; tb_id := tb_id s; tb_attype := tb_attype s; tb_title := tb_title s; tb_titles := tb_titles s; tb_description := tb_description s; tb_descriptions := tb_descriptions s; tb_version := tb_version s; tb_created := tb_created s; tb_modified := tb_modified s; tb_support := tb_support s; tb_base := tb_base s; tb_properties := tb_properties s; tb_actions := tb_actions s; tb_events := tb_events s; tb_links := v; tb_forms := tb_forms s; tb_uri := tb_uri s; tb_security := tb_security s; tb_secdefs := tb_secdefs s; tb_profile := tb_profile s; tb_schemas := tb_schemas s; tb_other := tb_other s; tb_extended := tb_extended s |}.
  (** Assignment to [forms], src/builder.rs 276 *)
  Definition set_tb_forms (s : tstate) v : tstate :=
    {| tb_context := tb_context s; tb_id := tb_id s; tb_attype := tb_attype s; tb_title := tb_title s; tb_titles := tb_titles s; tb_description := tb_description s; tb_descriptions := tb_descriptions s; tb_version := tb_version s; tb_created := tb_created s; tb_modified := tb_modified s; tb_support := tb_support s; tb_base := tb_base s; tb_properties := tb_properties s; tb_actions := tb_actions s; tb_events := tb_events s; tb_links := tb_links s; tb_forms := v; tb_uri := tb_uri s; tb_security := tb_security s; tb_secdefs := tb_secdefs s; tb_profile := tb_profile s; tb_schemas := tb_schemas s; tb_other := tb_other s; tb_extended := tb_extended s |}.
  (** Assignment to [uri_variables], src/builder.rs 277 *)
  Definition set_tb_uri (s : tstate) v : tstate :=
    {| tb_context := tb_context s; tb_id := tb_id s; tb_attype := tb_attype s; tb_title := tb_title s; tb_titles := tb_titles s; tb_description := tb_description s; tb_descriptions := tb_descriptions s; tb_version := tb_version s; tb_created := tb_created s; tb_modified := tb_modified s; tb_support := tb_support s; tb_base := tb_base s; tb_properties := tb_properties s; tb_actions := tb_actions s; tb_events := tb_events s; tb_links := tb_links s; tb_forms := tb_forms s; tb_uri := v; tb_security := tb_security s; tb_secdefs := tb_secdefs s; tb_profile := tb_profile s; tb_schemas := tb_schemas s; tb_other := tb_other s; tb_extended := tb_extended s |}.
  (** Assignment to [security], src/builder.rs 278 *)
  Definition set_tb_security (s : tstate) v : tstate :=
    {| tb_context := tb_context s; tb_id := tb_id s; tb_attype := tb_attype s; tb_title := tb_title s; tb_titles := tb_titles s; tb_description := tb_description s; tb_descriptions := tb_descriptions s; tb_version := tb_version s; tb_created := tb_created s; tb_modified := tb_modified s; tb_support := tb_support s; tb_base := tb_base s; tb_properties := tb_properties s; tb_actions := tb_actions s; tb_events := tb_events s; tb_links := tb_links s; tb_forms := tb_forms s; tb_uri := tb_uri s; tb_security := v; tb_secdefs := tb_secdefs s; tb_profile := tb_profile s; tb_schemas := tb_schemas s; tb_other := tb_other s; tb_extended := tb_extended s |}.
  (** Assignment to [security_definitions], src/builder.rs 279 *)
  Definition set_tb_secdefs (s : tstate) v : tstate :=
    {| tb_context := tb_context s; tb_id := tb_id s; tb_attype := tb_attype s; tb_title := tb_title s; tb_titles := tb_titles s; tb_description := tb_description s; tb_descriptions := tb_descriptions s; tb_version := tb_version s; tb_created := tb_created s; tb_modified := tb_modified s; tb_support := tb_support s; tb_base := tb_base s; tb_properties := tb_properties s; tb_actions := tb_actions s; tb_events := tb_events s; tb_links := tb_links s; tb_forms := tb_forms s; tb_uri := tb_uri s; tb_security := tb_security s; tb_secdefs := v; tb_profile := tb_profile s; tb_schemas := tb_schemas s; tb_other := tb_other s; tb_extended := tb_extended s |}.
  (** Assignment to [profile], src/builder.rs 280 *)
  Definition set_tb_profile (s : tstate) v : tstate :=
    {| tb_context := tb_context s; tb_id := tb_id s; tb_attype := tb_attype s; tb_title := tb_title s; tb_titles := tb_titles s; tb_description := tb_description s; tb_descriptions := tb_descriptions s; tb_version := tb_version s; tb_created := tb_created s; tb_modified := tb_modified s; tb_support := tb_support s; tb_base := tb_base s; tb_properties := tb_properties s; tb_actions := tb_actions s; tb_events := tb_events s; tb_links := tb_links s; tb_forms := tb_forms s; tb_uri := tb_uri s; tb_security := tb_security s; tb_secdefs := tb_secdefs s; tb_profile := v; tb_schemas := tb_schemas s; tb_other := tb_other s; tb_extended := tb_extended s |}.
  (** Assignment to [schema_definitions], src/builder.rs 281 *)
  Definition set_tb_schemas (s : tstate) v : tstate :=
    {| tb_context := tb_context s; tb_id := tb_id s; tb_attype := tb_attype s; tb_title := tb_title s; tb_titles := tb_titles s; tb_description := tb_description s; tb_descriptions := tb_descriptions s; tb_version := tb_version s; tb_created := tb_created s; tb_modified := tb_modified s; tb_support := tb_support s; tb_base := tb_base s; tb_properties := tb_properties s; tb_actions := tb_actions s; tb_events := tb_events s; tb_links := tb_links s; tb_forms := tb_forms s; tb_uri := tb_uri s; tb_security := tb_security s; tb_secdefs := tb_secdefs s; tb_profile := tb_profile s; tb_schemas := v; tb_other := tb_other s; tb_extended := tb_extended s |}.
  (** Assignment to [_marker], src/builder.rs 285 *)
  Definition set_tb_extended (s : tstate) v : tstate :=
    {| tb_context := tb_context s; tb_id := tb_id s; tb_attype := tb_attype s; tb_title := tb_title s; tb_titles := tb_titles s; tb_description := tb_description s; tb_descriptions := tb_descriptions s; tb_version := tb_version s; tb_created := tb_created s; tb_modified := tb_modified s; tb_support := tb_support s; tb_base := tb_base s; tb_properties := tb_properties s; tb_actions := tb_actions s; tb_events := tb_events s; tb_links := tb_links s; tb_forms := tb_forms s; tb_uri := tb_uri s; tb_security := tb_security s; tb_secdefs := tb_secdefs s; tb_profile := tb_profile s; tb_schemas := tb_schemas s; tb_other := tb_other s; tb_extended := v |}.

  (** src/builder.rs 434-506, [ThingBuilder::new], [new_empty] *)
  Definition thing_new (title : string) (x : pty (x_t X)) : tstate :=
    {| tb_context := [CtxSimple TD_CONTEXT_11]; tb_id := None; tb_attype := None; tb_title := title;
       tb_titles := None; tb_description := None; tb_descriptions := None; tb_version := None;
       tb_created := None; tb_modified := None; tb_support := None; tb_base := None;
       tb_properties := []; tb_actions := []; tb_events := []; tb_links := None; tb_forms := None;
       tb_uri := None; tb_security := []; tb_secdefs := []; tb_profile := []; tb_schemas := [];
       tb_other := x; tb_extended := false |}.

  (** Calls of [ThingBuilder], lines as for [tstep] below (src/builder.rs 533-589, 1065-1388, 1485-1680) *)
  Inductive top :=
  | TId (s : string) | TDescription (s : string) | TVersion (v : version_info)
  | TCreated (d : date E) | TModified (d : date E) | TSupport (s : string) | TBase (s : string)
  | TContext (s : string) | TContextMap (adds : list (string * string))
  | TAttype (s : string)
  | TTitles (adds : list (string * string)) | TDescriptions (adds : list (string * string))
  | TLink (href : string) | TLinkWith (p : list link_op)
  | TSecurity (p : list sec_op)
  | TProfile (s : string)
  | TFinish                                 (* finish_extend *)
  | TForm (x : pty (x_f X)) (p : list fop)
  | TUri (name : string) (p : list dsop)
  | TProperty (name : string) (xi : pty (x_ia X)) (xp : pty (x_pa X)) (p : list pop)
  | TAction (name : string) (xi : pty (x_ia X)) (xa : pty (x_aa X)) (p : list aop)
  | TEvent (name : string) (xi : pty (x_ia X)) (xe : pty (x_ea X)) (p : list eop)
  | TSchema (name : string) (p : list dsop).

  (** A closure given to [link_with]: must set [href], src/builder.rs 1259-1283 *)
  Definition link_run (p : list link_op) : option link_b :=
    let? l := orun link_step p link_new in
    match lb_href l with Some _ => Some l | None => None end.

  (** src/builder.rs 1391, 1497: [impl ThingBuilder<Other, Extended>] *)
  Definition when_extended {A} (s : tstate) (r : option A) : option A :=
    if tb_extended s then r else None.

  (** src/builder.rs: simple setters 1065-1073, [context] 1076-1087, [context_map]
      1121-1130, [attype] 1133, [titles] 1185, [descriptions] 1199, [link] 1210,
      [link_with] 1259, [security] 1324-1382, [profile] 1385, [finish_extend]
      533-589, and in status [Extended] only: [form] 1485, [uri_variable] 1537,
      [property] 1566, [action] 1602, [event] 1632, [schema_definition] 1662. *)
  Definition tstep (o : top) (s : tstate) : option tstate :=
    match o with
    | TId v => Some (set_tb_id s (Some v))
    | TDescription v => Some (set_tb_description s (Some v))
    | TVersion v => Some (set_tb_version s (Some v))
    | TCreated v => Some (set_tb_created s (Some v))
    | TModified v => Some (set_tb_modified s (Some v))
    | TSupport v => Some (set_tb_support s (Some v))
    | TBase v => Some (set_tb_base s (Some v))
    | TContext v =>
        if String.eqb v TD_CONTEXT_11 then Some s
        else Some (set_tb_context s (tb_context s ++ [CtxSimple v]))
    | TContextMap l => Some (set_tb_context s (tb_context s ++ [CtxMap (mof l)]))
    | TAttype v => Some (set_tb_attype s (opush (tb_attype s) v))
    | TTitles l => Some (set_tb_titles s (Some (ml_of l)))
    | TDescriptions l => Some (set_tb_descriptions s (Some (ml_of l)))
    | TLink h => Some (set_tb_links s (opush (tb_links s) (set_lb_href link_new (Some h))))
    | TLinkWith p => let? l := link_run p in Some (set_tb_links s (opush (tb_links s) l))
    | TSecurity p =>
        let? r := sec_run p in
        let '(name, required, scheme) := r in
        let s := if required then set_tb_security s (tb_security s ++ [name]) else s in
        Some (set_tb_secdefs s (tb_secdefs s ++ [(name, scheme)]))
    | TProfile v => Some (set_tb_profile s (tb_profile s ++ [v]))
    | TFinish => if tb_extended s then None else Some (set_tb_extended s true)
    | TForm x p =>
        when_extended s (let? f := form_run x p in Some (set_tb_forms s (opush (tb_forms s) f)))
    | TUri name p =>
        when_extended s
          (let? d := dbuild p in
           Some (set_tb_uri s (Some (minsert name d (match tb_uri s with Some m => m | None => [] end)))))
    | TProperty name xi xp p =>
        when_extended s
          (let? a := prop_run xi xp p in Some (set_tb_properties s (tb_properties s ++ [(name, a)])))
    | TAction name xi xa p =>
        when_extended s
          (let? a := action_run xi xa p in Some (set_tb_actions s (tb_actions s ++ [(name, a)])))
    | TEvent name xi xe p =>
        when_extended s
          (let? a := event_run xi xe p in Some (set_tb_events s (tb_events s ++ [(name, a)])))
    | TSchema name p =>
        when_extended s (let? d := dbuild p in Some (set_tb_schemas s (minsert name d (tb_schemas s))))
    end.

  (** A chain of calls; no line of its own in /repo *)
  Definition trun (p : list top) (s : tstate) : option tstate := orun tstep p s.

  (** ** build *)

  Section Build.
    Variable ord : order.
    Notation ml_build := (ml_build ord (tag_parse E)).
    Notation info_build := (info_build ord (tag_parse E)).
    Notation ds_build := (@ds_build (pty (x_ds X)) (pty (x_as X)) (pty (x_os X)) ord (tag_parse E)).

    (** src/builder.rs 2957-2981, [TryFrom<UncheckedSecurityScheme>] *)
    Definition sec_build (s : security_scheme) : result error security_scheme :=
      let! d := ropt ml_build (ss_descriptions s) in
      Ok {| ss_attype := ss_attype s; ss_description := ss_description s; ss_descriptions := d;
            ss_proxy := ss_proxy s; ss_subtype := ss_subtype s |}.

    (** src/builder.rs 791-804: the definitions, in call order; duplicates are errors *)
    Fixpoint secdefs_build (l : list (string * security_scheme)) (acc : amap security_scheme)
      : result error (amap security_scheme) :=
      match l with
      | [] => Ok acc
      | (name, s) :: l' =>
          let! s' := sec_build s in
          if mhas name acc then Err (DuplicatedSecurityDefinition name)
          else secdefs_build l' (minsert name s' acc)
      end.

    (** src/builder.rs 807-817: the names a combo refers to *)
    Definition combo_names (s : security_scheme) : list string :=
      match ss_subtype s with
      | Known (KCombo (COneOf l)) => l
      | Known (KCombo (CAllOf l)) => l
      | _ => []
      end.

    (** src/builder.rs 806-822 *)
    Definition check_combos (defs : amap security_scheme) : result error unit :=
      rfor_each (fun n => if mhas n defs then Ok tt else Err (MissingSchemaDefinition n))
        (flat_map (fun kv => combo_names (snd kv)) (ord defs)).

    (** src/builder.rs 993-1004 and src/builder/affordance.rs 2515-2525 *)
    Definition check_security {A} (defs : amap A) (sec : option (list string)) : result error unit :=
      match sec with
      | Some l => rfor_each (fun n => if mhas n defs then Ok tt else Err (UndefinedSecurity n)) l
      | None => Ok tt
      end.

    (** src/builder.rs 1011-1025: operations allowed in thing-level forms *)
    Definition op_thing (o : form_op) : bool :=
      match o with
      | ReadAllProperties | WriteAllProperties | ReadMultipleProperties | WriteMultipleProperties
      | ObserveAllProperties | UnobserveAllProperties | SubscribeAllEvents | UnsubscribeAllEvents
      | QueryAllActions => true
      | _ => false
      end.

    (** src/builder.rs 889-898, 906-913, 928-931: operations allowed in the forms of
        properties, actions and events *)
    Definition op_property (o : form_op) : bool :=
      match o with
      | ReadProperty | WriteProperty | ObserveProperty | UnobserveProperty => true
      | _ => false
      end.
    (** src/builder.rs 906-913 *)
    Definition op_action (o : form_op) : bool :=
      match o with InvokeAction | QueryAction | CancelAction => true | _ => false end.
    (** src/builder.rs 928-931 *)
    Definition op_event (o : form_op) : bool :=
      match o with SubscribeEvent | UnsubscribeEvent => true | _ => false end.

    (** src/builder.rs 889-932: which of the three is used *)
    Definition op_allowed (t : affordance_type) : form_op -> bool :=
      match t with AProperty => op_property | AAction => op_action | AEvent => op_event end.

    (** [iter.find(|op| !allowed(op))] and the error for what it finds. src/builder.rs 1009-1033, 889-932. *)
    Definition check_ops (c : form_context) (allowed : form_op -> bool) (l : list form_op)
      : result error unit :=
      match find (fun o => negb (allowed o)) l with
      | Some o => Err (InvalidOpInForm c o)
      | None => Ok tt
      end.

    (** src/builder.rs 971-1063, [build_form_from_builder] *)
    Definition thing_form_build (defs : amap security_scheme) (schemas : amap dsx) (f : form X)
      : result error (form X) :=
      let! _ := check_security defs (f_security f) in
      let! _ := match f_op f with
                | OpDefault => Err MissingOpInForm
                | OpCustom l => check_ops CtxThing op_thing l
                end in
      let! _ :=
        rfor_each (fun r =>
          match ar_schema r with
          | Some n => if mhas n schemas then Ok tt else Err (MissingSchemaDefinition n)
          | None => Ok tt
          end) (match f_additional f with Some l => l | None => [] end) in
      Ok f.

    (** src/builder/affordance.rs 2493-2529, [check_form_builders] *)
    Definition check_form (defs : amap security_scheme) (t : affordance_type) (f : form X)
      : result error unit :=
      let! _ := match f_op f with
                | OpCustom l => check_ops (ctx_of t) (op_allowed t) l
                | OpDefault => Ok tt
                end in
      check_security defs (f_security f).

    (** src/builder/affordance.rs 2441-2491, [check] of the interaction builders *)
    Definition ia_check (defs : amap security_scheme) (t : affordance_type) (i : ia_b)
      : result error unit :=
      let! _ := rfor_each (check_form defs t) (ib_forms i) in
      if uri_has_aggregates ord (ib_uri i) then Err InvalidUriVariables else Ok tt.

    (** [uri_variables] of an affordance: [None] when empty,
        src/builder/affordance.rs 2363, 2579-2586, 2656-2666 *)
    Definition ia_uri_build (m : amap dsx) : result error (option (amap dsx)) :=
      ropt (map_build ord ds_build) (nonempty m).

    (** src/builder/affordance.rs 2337-2377, 2542-2600: interaction of actions and
        events *)
    Definition ia_build (i : info) (s : ia_b) : result error (interaction X) :=
      let! i' := info_build i in
      let! u := ia_uri_build (ib_uri s) in
      Ok {| ia_info := i'; ia_forms := ib_forms s; ia_uri := u; ia_other := ib_other s |}.

    (** src/builder/affordance.rs 2608-2706.  The Rust code converts titles and
        descriptions once and clones them into the interaction and the data
        schema; [ds_build] converts them again, with the same result. *)
    Definition property_build (p : uproperty) : result error (property X) :=
      let! ia := ia_build (ds_info (up_ds p)) (up_ia p) in
      let! d := ds_build (up_ds p) in
      Ok {| pa_ia := ia; pa_ds := d; pa_observable := up_observable p; pa_other := up_other p |}.

    (** src/builder/affordance.rs 2751-2786 *)
    Definition action_build (a : action_b) : result error (action X) :=
      let! ia := ia_build (ab_info a) (ab_ia a) in
      let! i := ropt ds_build (ab_input a) in
      let! o := ropt ds_build (ab_output a) in
      Ok {| aa_ia := ia; aa_input := i; aa_output := o; aa_safe := ab_safe a;
            aa_idempotent := ab_idempotent a; aa_synchronous := ab_synchronous a;
            aa_other := ab_other a |}.

    (** src/builder/affordance.rs 2708-2749 *)
    Definition event_build (e : event_b) : result error (event X) :=
      let! ia := ia_build (eb_info e) (eb_ia e) in
      let! su := ropt ds_build (eb_subscription e) in
      let! da := ropt ds_build (eb_data e) in
      let! ca := ropt ds_build (eb_cancellation e) in
      let! dr := ropt ds_build (eb_data_response e) in
      Ok {| ea_ia := ia; ea_subscription := su; ea_data := da; ea_data_response := dr;
            ea_cancellation := ca; ea_other := eb_other e |}.

    (** src/builder.rs 1683-1737, [try_build_affordance]: the fold *)
    Fixpoint affordances_fold {A B} (defs : amap security_scheme) (t : affordance_type)
      (get_ia : A -> ia_b) (get_ds : A -> list (option dsx)) (bld : A -> result error B)
      (l : list (string * A)) (acc : amap B) : result error (amap B) :=
      match l with
      | [] => Ok acc
      | (name, a) :: l' =>
          let! _ := ia_check defs t (get_ia a) in
          let! _ := rfor_each (fun o => match o with Some d => check ord d | None => Ok tt end) (get_ds a) in
          if mhas name acc then Err (DuplicatedAffordance t name)
          else
            let! b := bld a in
            affordances_fold defs t get_ia get_ds bld l' (minsert name b acc)
      end.

    (** src/builder.rs 1683-1737, [try_build_affordance]: nothing for no affordance *)
    Definition affordances_build {A B} (defs : amap security_scheme) (t : affordance_type)
      (get_ia : A -> ia_b) (get_ds : A -> list (option dsx)) (bld : A -> result error B)
      (l : list (string * A)) : result error (option (amap B)) :=
      match l with
      | [] => Ok None
      | _ => let! m := affordances_fold defs t get_ia get_ds bld l [] in Ok (Some m)
      end.

    (** src/builder.rs 2996-3028, [TryFrom<UncheckedLink> for Link] *)
    Definition link_build (l : link_b) : result error link :=
      match lb_href l with
      | None => Err EPanic                  (* not an [UncheckedLink] *)
      | Some href =>
          let bad := match lb_sizes l, lb_rel l with
                     | Some _, Some r => negb (String.eqb r "icon")
                     | Some _, None => true
                     | None, _ => false
                     end in
          if bad then Err SizesWithRelNotIcon
          else
            let! hl := rmap_all (parse_tag (tag_parse E)) (lb_hreflang l) in
            Ok {| l_href := href; l_type := lb_type l; l_rel := lb_rel l; l_anchor := lb_anchor l;
                  l_sizes := lb_sizes l; l_hreflang := nonempty hl |}
      end.

    (** src/builder.rs 854-865: [Value] of one context *)
    Definition context_value (c : context) : json :=
      match c with
      | CtxSimple s => JStr s
      | CtxMap m => JObj (mof (map (fun kv => (fst kv, JStr (snd kv))) (ord m)))
      end.

    (** src/builder.rs 850-866; [into_simple().unwrap()] panics on a map *)
    Definition context_build (l : list context) : result error json :=
      match l with
      | [CtxSimple s] => Ok (JStr s)
      | [CtxMap _] => Err EPanic
      | _ => Ok (JArr (map context_value l))
      end.

    (** src/builder.rs 761-969, [ThingBuilder::build] *)
    Definition tbuild (s : tstate) : result error (thing E X) :=
      let! defs := secdefs_build (tb_secdefs s) [] in
      let! _ := check_combos defs in
      let! schemas := map_build ord ds_build (tb_schemas s) in
      let! forms := ropt (rmap_all (thing_form_build defs schemas)) (tb_forms s) in
      let! ctx := context_build (tb_context s) in
      let! _ := match tb_uri s with
                | Some m => if uri_has_aggregates ord m then Err InvalidUriVariables else Ok tt
                | None => Ok tt
                end in
      let! uri := ropt (map_build ord ds_build) (tb_uri s) in
      let! props :=
        affordances_build defs AProperty up_ia (fun p => [Some (up_ds p)]) property_build
          (tb_properties s) in
      let! acts :=
        affordances_build defs AAction ab_ia (fun a => [ab_input a; ab_output a]) action_build
          (tb_actions s) in
      let! evs :=
        affordances_build defs AEvent eb_ia
          (fun e => [eb_subscription e; eb_data e; eb_cancellation e]) event_build
          (tb_events s) in
      let! links := ropt (rmap_all link_build) (tb_links s) in
      let! titles := ropt ml_build (tb_titles s) in
      let! descriptions := ropt ml_build (tb_descriptions s) in
      Ok {| t_context := ctx; t_id := tb_id s; t_attype := tb_attype s; t_title := tb_title s;
            t_titles := titles; t_description := tb_description s; t_descriptions := descriptions;
            t_version := tb_version s; t_created := tb_created s; t_modified := tb_modified s;
            t_support := tb_support s; t_base := tb_base s; t_properties := props; t_actions := acts;
            t_events := evs; t_links := links; t_forms := forms; t_security := tb_security s;
            t_secdefs := defs; t_uri := uri; t_profile := nonempty (tb_profile s);
            t_schemas := nonempty schemas; t_other := tb_other s |}.

    (** [ThingBuilder::new(title)], a chain of calls, [build()].  [None]: the chain
        does not type check. src/builder.rs 436-469, 761. *)
    Definition thing_program (title : string) (x : pty (x_t X)) (p : list top)
      : option (result error (thing E X)) :=
      let? s := trun p (thing_new title x) in Some (tbuild s).
  End Build.
End Builders.

Arguments FHref {X}.
Arguments FCtype {X}.
Arguments FCcoding {X}.
Arguments FSubprotocol {X}.
Arguments FOp {X}.
Arguments FSecurity {X}.
Arguments FScope {X}.
Arguments FResponse {X}.
Arguments FAdditional {X}.
Arguments IForm {X}.
Arguments IUri {X}.
Arguments PDs {X}.
Arguments PIa {X}.
Arguments PObservable {X}.
Arguments AInfo {X}.
Arguments AIa {X}.
Arguments AInput {X}.
Arguments AOutput {X}.
Arguments ASafe {X}.
Arguments AIdempotent {X}.
Arguments ASynchronous {X}.
Arguments EInfo {X}.
Arguments EIa {X}.
Arguments ESubscription {X}.
Arguments EData {X}.
Arguments EDataResponse {X}.
Arguments ECancellation {X}.
Arguments TId {E X}.
Arguments TDescription {E X}.
Arguments TVersion {E X}.
Arguments TCreated {E X}.
Arguments TModified {E X}.
Arguments TSupport {E X}.
Arguments TBase {E X}.
Arguments TContext {E X}.
Arguments TContextMap {E X}.
Arguments TAttype {E X}.
Arguments TTitles {E X}.
Arguments TDescriptions {E X}.
Arguments TLink {E X}.
Arguments TLinkWith {E X}.
Arguments TSecurity {E X}.
Arguments TProfile {E X}.
Arguments TFinish {E X}.
Arguments TForm {E X}.
Arguments TUri {E X}.
Arguments TProperty {E X}.
Arguments TAction {E X}.
Arguments TEvent {E X}.
Arguments TSchema {E X}.
