(** NewClientSpec.v: registration requests that should be accepted, and what a client does with what it is given. *)
From Verif Require Import Base Monad Types SessionKey Ctx ScopesSpec Uri ClaimsSpec World Minting ClientAuthn ClientAuthnSpec TokenEndpoint Registration RegistrationSpec
  Authz AuthzRequest AuthzRequestSpec AuthzEndpoint SetupAuth SetupAuthSpec Fronts FrontsSpec AuthzFront FlowSpec FrontFlowSpec.
Local Open Scope Z_scope.

(** ** Registering *)
(** Every capability that is asked for is a str or a list of str, and the provider lists it as supported. *)
Definition supported (provider rq : msg) : Prop :=
  forall pref prov v, In (pref, prov) capabilities -> dget pref rq = Some v ->
    ((exists s, v = VStr s) \/ exists l, v = vstrs l) /\
    exists l, dget prov provider = Some (vstrs l) /\
      (by_words pref -> offered_words v (map VStr l)) /\ (~ by_words pref -> offered v (map VStr l)).
(** An address as the rules want it. One with a scheme of its own has no query part. *)
Definition good_address (u : urllib) (rq : msg) (uri : string) : Prop :=
  exists p, ul_split u uri = Ok p /\ scheme_ok rq p /\ up_fragment p = ""%string /\
    (own_scheme p -> up_query p = ""%string /\ up_base p = uri).
(** the part of an address before the query *)
Definition before_query (u : urllib) (uri : string) : option string :=
  match ul_split u uri with Ok p => Some (up_base p) | Raise _ => None end.

(** The other addresses, as the rules want them: those to return to after logout have no fragment, those of request objects no query (and one mark
    before the fragment), the pages shown to users are on the site of a redirect URI, and the list of the sector names all redirect URIs. What comes
    before the query of a redirect URI is an address on the same site. *)
Definition page_of (u : urllib) (uris : list string) (v : val) : Prop :=
  exists url p uri q, v = VStr url /\ ul_split u url = Ok p /\ In uri uris /\ ul_split u uri = Ok q /\ up_scheme p = up_scheme q /\ up_netloc p = up_netloc q.
Record good_others (c : rconf) (rq : msg) (uris : list string) : Prop := {
  go_post_logout : forall v, dget "post_logout_redirect_uris" rq = Some v -> exists l, v = vstrs l /\
    forall uri, In uri l -> exists p, ul_split (rc_url c) uri = Ok p /\ up_fragment p = ""%string;
  go_request : forall v, dget "request_uris" rq = Some v -> exists l, v = vstrs l /\
    forall uri, In uri l -> exists p, ul_split (rc_url c) uri = Ok p /\ up_query p = ""%string /\ (up_fragment p = ""%string \/ length (split "#" uri) = 2%nat);
  go_sector : forall v, dget "sector_identifier_uri" rq = Some v -> exists l, rc_fetch c v = Ok (vstrs l) /\ incl uris l;
  go_pages : forall item v, In item ["policy_uri"; "logo_uri"; "tos_uri"]%string -> dget item rq = Some v -> page_of (rc_url c) uris v;
  go_sites : forall uri p, In uri uris -> ul_split (rc_url c) uri = Ok p ->
    exists q, ul_split (rc_url c) (up_base p) = Ok q /\ up_scheme q = up_scheme p /\ up_netloc q = up_netloc p }.
(** Members it is not for the client to say *)
Definition not_its_business : list string :=
  ["client_secret"; "client_secret_expires_at"; "auth_method"; "allowed_scopes"; "userinfo_claims"; "id_token_claims"; "introspection_claims";
   "access_token_claims"]%string.

(** The request [rq], as it is carried out, registers the addresses [uris]. *)
Record registrable (c : rconf) (rq : msg) (uris : list string) : Prop := {
  rb_members : NoDup (dkeys rq);
  rb_plain : forall k, In k not_its_business -> dget k rq = None;
  rb_others : good_others c rq uris;
  rb_supported : supported (rc_provider c) rq;
  rb_keys : forall item v, In item ["id_token_signed_response_alg"; "userinfo_signed_response_alg"]%string -> dget item rq = Some v ->
    exists b, rc_has_key c v = Ok b;
  rb_load : forall i, rc_load c i (dget_or "jwks_uri" (VStr "") rq) (dget_or "jwks" VNone rq) = Ok tt;
  rb_uris : dget "redirect_uris" rq = Some (vstrs uris) /\ Forall (good_address (rc_url c) rq) uris;
  rb_query : forall q, UriSpec.proper_query (ul_qs (rc_url c) q) }.
(** The client is for the code flow, among others. *)
Definition registers_code (rq : msg) : Prop :=
  dget "response_types" rq = None \/ exists l, dget "response_types" rq = Some (vstrs l) /\ In "code"%string l.
(** The secret is good at time [now]. *)
Definition secret_lasts (c : rconf) (d : draw) (now : Z) : Prop := rc_expires c = false \/ now <= dr_now d + rc_expires_in c.

(** ** Using what was registered: the parts of [arrives], [asks_code], [code_provided] and [authenticates] that are not about the record *)
Record comes (gt : gate) (re : reqenv) (az : authz_env) (pk : option pkce) (rq request : msg) (c : string) : Prop := {
  co_open : asks_nothing (gt_ep gt);
  co_client : dget "client_id" rq = Some (VStr c);
  co_check : gt_check gt (VStr c) rq = CkOk request;
  co_direct : dget "request_uri" request = None;
  co_type : dget "response_type" request = Some (vstrs ["code"]%string);
  co_pkce : challenge_fits pk request;
  co_url : re_u re = az_u az }.
Record wants_code (request : msg) (scopes : list string) : Prop := {
  wc_scope : dget "scope" request = Some (vstrs scopes);
  wc_claims : claims_asked request;
  wc_mode : mode_for_code request }.
Record claims_configured (cx : ctx) : Prop := {
  cc_base : forall usage v, In usage usages -> module_kwarg cx usage "base_claims" = Some v -> exists d, v = VDict d /\ claim_requests d;
  cc_supported : list_or_absent "scopes_supported" (cx_provider_info cx) }.
Record codes_made (sid_of : string -> result string) (e : auth_env) (az : authz_env) (w : world) (c uri u : string) (m : method) : Prop := {
  cm_claims : claims_configured (az_cx az);
  cm_grant : leaves e az w c 1 (mt_clock (az_code az));
  cm_handler : handles sid_of (az_code az) (session_key [u; c; au_newid e]);
  cm_cookie : forall state, exists k, az_cookie az (session_key [u; c; au_newid e]) state = Ok k;
  cm_managed : managed az uri (au_now e + lifetime m);
  cm_authz : az_handler az = AHandling \/ az_handler az = AImplicit [] }.
(** The client proves itself with this secret (or with a key of its own). *)
Record shows_secret (gt : gate) (seen : dict Z) (c secret : string) (rq : msg) (auth : authz_data) (request : msg) : Prop := {
  ss_named : ep_named (gt_ep gt) = true;
  ss_known : c <> ""%string /\ gt_aka gt = [];
  ss_proof : exists l1 m l2, ep_methods (gt_ep gt) = l1 ++ Some m :: l2 /\ (forall m', In (Some m') l1 -> passed_over (gt_out gt) rq (authz_str auth) m') /\
    proves (gt_out gt) (gt_ep gt) seen rq (authz_str auth) m c [("client_secret", VStr secret)]%string;
  ss_check : gt_check gt (VStr c) (dset "client_id" (VStr c) rq) = CkOk request }.
