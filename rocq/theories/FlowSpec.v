(** FlowSpec.v: what has to be in place for the code flow to work. *)
From Verif Require Import Base Monad Types SessionKey Token Grant GrantSpec Database DatabaseSpec Manager Ctx ScopesSpec Claims ClaimsSpec World Minting
  TokenEndpoint Uri UriSpec Authz UserInfo ManagerSpec AuthzEndpoint SetupAuth SetupAuthSpec.
Local Open Scope Z_scope.

(** ** The configuration *)
(** Claim requests by name *)
Definition claim_requests (d : msg) : Prop := proper d /\ forall k spec, In (k, spec) d -> claim_request spec.

(** What is configured about claims has the documented types, and the scopes listed for the client (whose record is [cli])
    are ones the provider knows. *)
Record claims_set_up (cx : ctx) (cli : msg) : Prop := {
  cs_base : forall usage v, In usage usages -> module_kwarg cx usage "base_claims" = Some v -> exists d, v = VDict d /\ claim_requests d;
  cs_client : forall usage v, In usage usages -> dget (usage ++ "_claims")%string cli = Some v -> exists l, v = VList l;
  cs_supported : list_or_absent "scopes_supported" (cx_provider_info cx);
  cs_allowed : dget "allowed_scopes" cli = None \/
    exists l, dget "allowed_scopes" cli = Some (VList l) /\ forall s, In (VStr s) l -> In s (dkeys (cx_scope2claims cx)) }.

(** The claims the client asks for in its request are well-formed. *)
Definition claims_asked (request : msg) : Prop :=
  dget "claims" request = None \/
  exists cl, dget "claims" request = Some (VDict cl) /\
    forall usage v, In usage ["id_token"; "userinfo"]%string -> dget usage cl = Some v -> exists d, v = VDict d /\ claim_requests d.

(** ** Usage rules *)
(** The rules for a kind of token *)
Definition rule (R : grules) (ty : string) : urules := match dget ty (gr_types R) with Some r => r | None => no_rules end.
(** Codes may be used for [ty]: the rules say so, or nothing. *)
Definition code_gives (R : grules) (ty : string) : Prop :=
  match ur_mints (rule R "authorization_code") with
  | Some l => In ty l
  | None => In ty ["access_token"; "refresh_token"]%string
  end.
(** What was made at [then_] under a rule is not too old at [now_]. *)
Definition in_time (lifetime : option Z) (then_ now_ : Z) : Prop :=
  match lifetime with Some n => n = 0 \/ now_ <= then_ + n | None => True end.
(** It may be used at least once. *)
Definition usable_once (r : urules) : Prop := match ur_max_usage r with Some n => 0 < n | None => True end.

(** ** The token handlers *)
(** Values can be made for the session, and are recognised as belonging to it. *)
Definition handles (sid_of : string -> result string) (mt : minting) (sid : string) : Prop :=
  forall p, exists v, mt_value mt sid p = Ok v /\ sid_of v = Ok sid.
(** Two kinds of values are different. *)
Definition told_apart (m1 m2 : minting) (sid : string) : Prop :=
  forall p1 p2 v1 v2, mt_value m1 sid p1 = Ok v1 -> mt_value m2 sid p2 = Ok v2 -> v1 <> v2.

(** ID Tokens can be made for the session, as long as its grant is there; the client's record is not changed by that. *)
Definition id_tokens_made (make : store -> string -> ST cdb string) (u c g : string) (cli : msg) : Prop :=
  forall s gr clients, view s [u; c; g] = Some (EGrant gr) -> dget c clients = Some cli ->
    exists x clients', make s (session_key [u; c; g]) clients = (Ok x, clients') /\ dget c clients' = Some cli.

(** ** The token request *)
(** The verifier that comes with the token request is the one the challenge in the authorization request was made from. *)
Definition answers_challenge (b64hash : string -> string -> string) (ar request : msg) : Prop :=
  dget "code_challenge" ar = None \/
  exists verifier challenge m,
    dget "code_verifier" request = Some (VStr verifier) /\ dget "code_challenge" ar = Some (VStr challenge) /\
    dget "code_challenge_method" ar = Some (VStr m) /\
    ((m = "plain"%string /\ verifier = challenge) \/
     (In m ["S256"; "S384"; "S512"]%string /\ is_ascii verifier = true /\ b64hash m verifier = challenge)).
(** A token request for [code], which was given out for the authorization request [ar] *)
Record code_request (b64hash : string -> string -> string) (pkce : bool) (ar request : msg) (code : string) : Prop := {
  cr_type : dget "grant_type" request = Some (VStr "authorization_code");
  cr_code : dget "code" request = Some (VStr code);
  cr_address : dget "redirect_uri" ar = None \/
    exists uri, dget "redirect_uri" ar = Some (VStr uri) /\ dget "redirect_uri" request = Some (VStr uri);
  cr_client : dget "client_id" request <> None \/ dget "client_id" ar <> None;
  cr_pkce : pkce = true -> answers_challenge b64hash ar request }.
(** After [n] more mintings another is possible at time [now]. *)
Definition mintable (now n : Z) (g : grant) : Prop :=
  usable_at now (gr_max_usage (g_rules g)) (g_used g + n) (g_revoked g) (g_not_before g) (g_expires_at g).

(** ** In between *)
(** Whatever happened between [w] and [w'], it has not touched this session, nor the client's record. *)
Definition undisturbed (u c g : string) (w w' : world) : Prop :=
  view (w_db w') [u; c; g] = view (w_db w) [u; c; g] /\ dget c (w_cdb w') = dget c (w_cdb w) /\
  kinds_ok (w_db w') /\ linked (w_db w').

(** ** The authorization request *)
(** The form of the response that is asked for is one a code may have. *)
Definition mode_for_code (request : msg) : Prop :=
  dget "response_mode" request = None \/ dget "response_mode" request = Some (VStr "query") \/
  dget "response_mode" request = Some (VStr "form_post").
(** With session management, its cookie and the origin of the client can be made. *)
Definition managed (e : authz_env) (uri : string) (valid_until : Z) : Prop :=
  az_iframe e = true -> az_later e < valid_until /\ (forall t, exists o, az_opbs e t = Ok o) /\ exists o, az_origin e uri = Ok o.
(** The rules, the end and the scope of a new grant after the authorization: AuthzHandling takes the first two from the
    configuration and the last from the request; Implicit, which is used without configuration, does nothing. *)
Definition rules_then (az : authz_env) (R : grules) : grules :=
  match az_handler az, gc_rules (cx_grant_config (az_cx az)) with AHandling, Some r => r | _, _ => R end.
Definition end_then (az : authz_env) : Z :=
  match az_handler az, gc_expires_in (cx_grant_config (az_cx az)) with AHandling, Some n => az_clock az + n | _, _ => 0 end.
Definition scope_then (az : authz_env) (asked : list string) : list string :=
  match az_handler az with AHandling => asked | AImplicit _ => [] end.

(** The user [u] sends a request of client [c] to the authorization endpoint and is recognised by the method [m], without
    having a session. [cli] is what is known about the client. *)
Record recognised (is_user : string -> Prop) (e : auth_env) (az : authz_env) (oidc : bool) (w : world) (request : msg)
    (c : string) (cli : msg) (uri u : string) (m : method) : Prop := {
  re_store : well_formed is_user (w_db w);
  re_names : good u /\ good c /\ good (au_newid e) /\ is_user u /\ ~ is_user c;
  re_entered : entered e az oidc w request c cli (VStr uri);
  re_method : exists name acr, method_for e request name acr m;
  re_found : exists id ts, finds e m request id ts /\ dget "uid" id = Some (VStr u) /\ dget "sid" id = None }.
(** The request asks for a code, to be sent to a registered address. *)
Record asks_code (az : authz_env) (w : world) (request : msg) (c uri : string) (scopes : list string) : Prop := {
  ac_type : mget_list "response_type" request = Some ["code"]%string;
  ac_scope : dget "scope" request = Some (vstrs scopes);
  ac_claims : claims_asked request;
  ac_mode : mode_for_code request;
  ac_uri : exists l, registered (w_cdb w) c "redirect_uris" l /\ Forall proper_entry l /\ NoDup (map base_of l) /\
    matches (az_u az) l (ul_unquote (az_u az) uri) }.
(** The rules of the grant of a new session *)
Definition rules_of (e : auth_env) (az : authz_env) (w : world) (c : string) : grules :=
  rules_then az (match au_rules e (w_cdb w) c with Some r => r | None => no_grules end).
(** [n] tokens may be made, and the grant is not over at [now]. *)
Definition leaves (e : auth_env) (az : authz_env) (w : world) (c : string) (n now : Z) : Prop :=
  (forall k, gr_max_usage (rules_of e az w c) = Some k -> n <= k) /\
  (end_then az <> 0 -> now <= end_then az).
(** The endpoint can do its part. (A grant_config for Implicit makes it fail; see C83.) *)
Record code_provided (sid_of : string -> result string) (e : auth_env) (az : authz_env) (w : world) (c : string) (cli : msg)
    (uri u : string) (m : method) : Prop := {
  cp_claims : claims_set_up (az_cx az) cli;
  cp_query : forall q, proper_query (ul_qs (az_u az) q);
  cp_grant : leaves e az w c 1 (mt_clock (az_code az));
  cp_handler : handles sid_of (az_code az) (session_key [u; c; au_newid e]);
  cp_cookie : forall state, exists k, az_cookie az (session_key [u; c; au_newid e]) state = Ok k;
  cp_managed : managed az uri (au_now e + lifetime m);
  cp_authz : az_handler az = AHandling \/ az_handler az = AImplicit [] }.
(** The rules and times allow a code, made at the authorization endpoint, to be used for a token of type [ty] at time [now],
    as the [n]th token of the grant. *)
Definition exchangeable (e : auth_env) (az : authz_env) (w : world) (c ty : string) (n now : Z) : Prop :=
  code_gives (rules_of e az w c) ty /\ leaves e az w c n now /\
  in_time (ur_expires_in (rule (rules_of e az w c) "authorization_code")) (mt_clock (az_code az)) now.
(** The token endpoint can do its part at time [now]; [m1] and [m2] make access and refresh tokens. *)
Record tokens_provided (sid_of : string -> result string) (e : auth_env) (az : authz_env) (w : world) (c : string) (cli : msg) (u : string)
    (scopes : list string) (idt : store -> string -> ST cdb string) (helpers : dict helper) (m1 m2 : minting) (ir : option bool) (now : Z) : Prop := {
  tp_helper : dget "authorization_code" helpers = Some HCode;
  tp_code : forall p v, mt_value (az_code az) (session_key [u; c; au_newid e]) p = Ok v -> blank_to_plus v = v;
  tp_now : exchangeable e az w c "access_token" 2 now;
  tp_access : exchangeable e az w c "access_token" 2 (mt_clock m1);
  tp_handler : handles sid_of m1 (session_key [u; c; au_newid e]);
  tp_apart : told_apart (az_code az) m1 (session_key [u; c; au_newid e]);
  tp_refresh : match ir with Some b => b | None => smem "offline_access" (scope_then az scopes) end = true ->
    exchangeable e az w c "refresh_token" 3 (mt_clock m2) /\ handles sid_of m2 (session_key [u; c; au_newid e]);
  tp_id_token : In "openid"%string scopes -> id_tokens_made idt u c (au_newid e) cli }.
