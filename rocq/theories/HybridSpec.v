(** HybridSpec.v: what has to be in place for the other flows to work: those in which the authorization endpoint itself gives
    out an access token or an ID Token, with a code or without. *)
From Verif Require Import Base Monad Types SessionKey Token Grant GrantSpec Database DatabaseSpec Manager Ctx ScopesSpec Claims ClaimsSpec World Minting
  TokenEndpoint Uri UriSpec Authz UserInfo UserInfoSpec ManagerSpec AuthzEndpoint AuthzEndpointSpec SetupAuth SetupAuthSpec FlowSpec.
Local Open Scope Z_scope.

(** A response type: one or more of the three, in whatever order *)
Definition response_type (rt : list string) : Prop := rt <> [] /\ forall x, In x rt -> In x ["code"; "token"; "id_token"]%string.
(** Something other than a code is asked for. *)
Definition more_than_code (rt : list string) : Prop := exists x, In x rt /\ x <> "code"%string.
(** The form of the response that is asked for is one such a response may have. *)
Definition mode_for (rt : list string) (request : msg) : Prop :=
  dget "response_mode" request = None \/ dget "response_mode" request = Some (VStr "form_post") \/
  (dget "response_mode" request = Some (VStr "query") /\ ~ more_than_code rt) \/
  (dget "response_mode" request = Some (VStr "fragment") /\ more_than_code rt).

(** The request asks for that, to be sent to a registered address. *)
Record asks (az : authz_env) (w : world) (request : msg) (c uri : string) (scopes rt : list string) : Prop := {
  as_type : mget_list "response_type" request = Some rt;
  as_known : response_type rt;
  as_scope : dget "scope" request = Some (vstrs scopes);
  as_claims : claims_asked request;
  as_mode : mode_for rt request;
  as_uri : exists l, registered (w_cdb w) c "redirect_uris" l /\ Forall proper_entry l /\ NoDup (map base_of l) /\
    matches (az_u az) l (ul_unquote (az_u az) uri) }.

(** How many tokens the authorization endpoint makes *)
Definition made_there (rt : list string) : Z := (if smem "code" rt then 1 else 0) + (if smem "token" rt then 1 else 0).

(** The authorization endpoint can make ID Tokens for the session as long as its grant is there; the client's record is not
    changed by that. *)
Definition id_tokens_there (az : authz_env) (u c g : string) (cli : msg) : Prop :=
  forall s gr clients code access, view s [u; c; g] = Some (EGrant gr) -> dget c clients = Some cli ->
    exists x clients', az_idtoken az s (session_key [u; c; g]) code access clients = (Ok (Some x), clients') /\ dget c clients' = Some cli.

(** The endpoint can do its part: make what is asked for. With a code, the access token is made from the code. *)
Record provided (sid_of : string -> result string) (e : auth_env) (az : authz_env) (w : world) (c : string) (cli : msg)
    (uri u : string) (m : method) (rt : list string) : Prop := {
  pr_claims : claims_set_up (az_cx az) cli;
  pr_query : forall q, proper_query (ul_qs (az_u az) q);
  pr_code : In "code"%string rt -> leaves e az w c 1 (mt_clock (az_code az)) /\ handles sid_of (az_code az) (session_key [u; c; au_newid e]);
  pr_token : In "token"%string rt -> leaves e az w c (made_there rt) (mt_clock (az_access az)) /\
    handles sid_of (az_access az) (session_key [u; c; au_newid e]);
  pr_both : In "code"%string rt -> In "token"%string rt ->
    exchangeable e az w c "access_token" 2 (mt_clock (az_access az)) /\ told_apart (az_code az) (az_access az) (session_key [u; c; au_newid e]);
  pr_id_token : In "id_token"%string rt -> id_tokens_there az u c (au_newid e) cli;
  pr_cookie : forall state, exists k, az_cookie az (session_key [u; c; au_newid e]) state = Ok k;
  pr_managed : managed az uri (au_now e + lifetime m);
  pr_authz : az_handler az = AHandling \/ az_handler az = AImplicit [] }.

(** What is asked for is there, and nothing else of that kind. *)
Definition as_asked {A} (name : string) (rt : list string) (o : option A) : Prop := o <> None <-> In name rt.
Record gives (rt : list string) (args : msg) (code access : option token) (id_token : option string) : Prop := {
  gv_code : as_asked "code" rt code;
  gv_token : as_asked "token" rt access;
  gv_id_token : as_asked "id_token" rt id_token;
  gv_code_shown : dget "code" args = option_map (fun t => VStr (t_value t)) code;
  gv_token_shown : dget "access_token" args = option_map (fun t => VStr (t_value t)) access;
  gv_type_shown : dget "token_type" args = option_map (fun _ => VStr "Bearer") access;
  gv_id_token_shown : dget "id_token" args = option_map VStr id_token;
  gv_rest : forall k, dget k args <> None ->
    In k ["code"; "access_token"; "token_type"; "expires_in"; "id_token"; "state"; "scope"; "iss"; "client_id"; "session_state"]%string }.

(** The token endpoint can make more of the code later, at time [now]: those are not the first tokens of the grant. *)
Record more_provided (sid_of : string -> result string) (e : auth_env) (az : authz_env) (w : world) (c : string) (cli : msg) (u : string)
    (scopes rt : list string) (idt : store -> string -> ST cdb string) (helpers : dict helper) (m1 m2 : minting) (ir : option bool) (now : Z) : Prop := {
  mp_helper : dget "authorization_code" helpers = Some HCode;
  mp_code : forall p v, mt_value (az_code az) (session_key [u; c; au_newid e]) p = Ok v -> blank_to_plus v = v;
  mp_now : exchangeable e az w c "access_token" (made_there rt + 1) now;
  mp_access : exchangeable e az w c "access_token" (made_there rt + 1) (mt_clock m1);
  mp_handler : handles sid_of m1 (session_key [u; c; au_newid e]);
  mp_apart : told_apart (az_code az) m1 (session_key [u; c; au_newid e]) /\
    (In "token"%string rt -> told_apart (az_access az) m1 (session_key [u; c; au_newid e]));
  mp_refresh : match ir with Some b => b | None => smem "offline_access" (scope_then az scopes) end = true ->
    exchangeable e az w c "refresh_token" (made_there rt + 2) (mt_clock m2) /\ handles sid_of m2 (session_key [u; c; au_newid e]);
  mp_id_token : In "openid"%string scopes -> id_tokens_made idt u c (au_newid e) cli }.

(** What the userinfo endpoint tells about the user: the subject of the session, and exactly those claims that are wanted and
    that the user has. (The claims come only with the authorization handler AuthzHandling.) *)
Definition tells (e : auth_env) (az : authz_env) (w : world) (request : msg) (scopes : list string) (u c : string) (claims : msg) : Prop :=
  dget "sub" claims = Some (VStr (public_id (au_sha e) u (au_salt e))) /\
  forall k x, k <> "sub"%string -> (dget k claims = Some x <->
    az_handler az = AHandling /\ user_has (az_cx az) u k x /\
    exists spec, wanted (az_cx az) (w_cdb w) c (Some request) scopes "userinfo" k (Some spec) /\ admits spec x).
(** An access token, made at the time [then_], can be used at the userinfo endpoint from [w1] on, as long as the session is not
    touched, until it or the authentication is too old. *)
Definition serves (sid_of : string -> result string) (e : auth_env) (az : authz_env) (w : world) (request : msg) (scopes : list string) (u c : string)
    (m : method) (then_ : Z) (w1 : world) (token : string) : Prop :=
  forall w2 later userinfo_request,
    undisturbed u c (au_newid e) w1 w2 -> dget "access_token" userinfo_request = Some (VStr token) ->
    usable_once (rule (rules_of e az w c) "access_token") ->
    in_time (ur_expires_in (rule (rules_of e az w c) "access_token")) then_ later -> later < au_now e + lifetime m ->
    exists claims, userinfo_process sid_of (az_cx az) (w_cdb w2) later userinfo_request (w_db w2) = (Ok (AOk claims (Some c)), w_db w2) /\
      tells e az w request scopes u c claims.
