(** Provider.v: setting up a provider and what it publishes about itself (endpoint_context.py, util.py, the first part of endpoint.py,
    oidc/provider_config.py, oidc/discovery.py). *)
From Verif Require Import Base Types Ctx Response.
From Verif Require Registration.

(** What cryptojwt supports: SIGNER_ALGS, jwe.SUPPORTED["alg"], jwe.SUPPORTED["enc"] *)
Record algs := mkAlgs { al_sign : list string; al_alg : list string; al_enc : list string }.

(** endpoint.py:81 *)
Definition ALG_SORT_ORDER : dict Z := [("RS", 0); ("ES", 1); ("HS", 2); ("PS", 3); ("no", 4)]%Z.
(** endpoint.py:84-97: alg1 does not come after alg2 *)
Definition alg_rank (a : string) : option Z := dget (stake 2 a) ALG_SORT_ORDER.
Definition alg_leb (a b : string) : bool :=
  match alg_rank a, alg_rank b with
  | Some x, Some y => (x <? y)%Z || ((x =? y)%Z && String.leb a b)
  | _, _ => false
  end.
Fixpoint insert_alg (a : string) (l : list string) : list string :=
  match l with [] => [a] | b :: l' => if alg_leb a b then a :: l else b :: insert_alg a l' end.
(** sorted(..): every element of a list of two or more is compared, and an unknown prefix is then a KeyError *)
Definition sort_algs (l : list string) : result (list string) :=
  match l with
  | [] | [_] => Ok l
  | _ => if forallb (fun a => match alg_rank a with Some _ => true | None => false end) l
         then Ok (fold_right insert_alg [] l) else Raise EKey
  end.

Inductive algtype := SigningAlg | EncryptionAlg | EncryptionEnc.
(** endpoint.py:100-109 *)
Definition assign_algorithms (al : algs) (t : algtype) : result (list string) :=
  match t with
  | SigningAlg => sort_algs (al_sign al)
  | EncryptionAlg => Ok (al_alg al)
  | EncryptionEnc => Ok (al_enc al)
  end.
(** endpoint.py:121, 131, 133 and 138, 140, 142 *)
Definition algs_of (attr : string) : option algtype :=
  if contains "signing_alg_values_supported" attr then Some SigningAlg
  else if contains "encryption_alg_values_supported" attr then Some EncryptionAlg
  else if contains "encryption_enc_values_supported" attr then Some EncryptionEnc
  else None.

(** [_permitted.issuperset(set(_proposal))] *)
Definition issuperset (permitted : list string) (proposal : val) : result bool :=
  let* l := Registration.iter_val proposal in
  if forallb Registration.hashable l
  then Ok (forallb (fun x => match x with VStr s => smem s permitted | _ => false end) l)
  else Raise EType.

(** endpoint.py:116-152, one attribute. (The text of the ValueError is made with __format__, which raises a ValueError, too.) *)
Definition info_entry (al : algs) (kwargs : msg) (attr : string) (default : val) : result (option val) :=
  match dget attr kwargs with
  | None =>
      match default with
      | VNone =>
          match algs_of attr with
          | Some t =>
              let* l := assign_algorithms al t in
              Ok (Some (vstrs (if String.eqb attr "token_endpoint_auth_signing_alg_values_supported" then sremove "none" l else l)))
          | None => Ok None
          end
      | v => Ok (Some v)
      end
  | Some proposal =>
      let* permitted := match algs_of attr with Some t => rmap Some (assign_algorithms al t) | None => Ok None end in
      let* fine := match permitted with Some (x :: l) => issuperset (x :: l) proposal | _ => Ok true end in
      if fine then Ok (Some proposal) else Raise EValue
  end.
(** endpoint.py:112-155 *)
Fixpoint info_entries (al : algs) (kwargs defaults info : msg) : result msg :=
  match defaults with
  | [] => Ok info
  | (attr, default) :: rest =>
      let* e := info_entry al kwargs attr default in
      info_entries al kwargs rest (match e with Some v => dset attr v info | None => info end)
  end.
Definition construct_endpoint_info (al : algs) (defaults : option msg) (kwargs : msg) : result (option msg) :=
  match defaults with
  | Some d => rmap Some (info_entries al kwargs d [])
  | None => Ok None
  end.

(** A class of endpoints. [ec_pre issuer kwargs]: what its constructor does before Endpoint.__init__ (to the keyword arguments);
    [ec_post kwargs info]: what it does afterwards (to endpoint_info). Both may raise anything, as may client_auth_setup in
    Endpoint.__init__ (endpoint.py:193-203) and configure_grant_types. *)
Record eclass := mkClass {
  ec_name : string; ec_endpoint_name : string; ec_defaults : option msg;
  ec_pre : string -> msg -> result msg;
  ec_post : msg -> option msg -> result (option msg) }.

(** endpoint_context.py:28-38 *)
Definition add_path (url path : string) : string :=
  if ends_with "/" url then
    if starts_with "/" path then url ++ sdrop 1 path else url ++ path
  else if starts_with "/" path then url ++ path
  else url ++ "/" ++ path.

(** oidc/session.py:88-92 *)
Definition session_pre (issuer : string) (kwargs : msg) : result msg :=
  match truthy_get "check_session_iframe" kwargs with
  | Some (VStr s) => Ok (if starts_with "http" s then kwargs else dset "check_session_iframe" (VStr (add_path issuer s)) kwargs)
  | Some _ => Raise EAttr
  | None => Ok kwargs
  end.
(** oidc/token.py:329-332 *)
Definition token_post (kwargs : msg) (info : option msg) : result (option msg) :=
  match dget "client_authn_method" kwargs with
  | Some v => match info with Some i => Ok (Some (dset "token_endpoint_auth_methods_supported" v i)) | None => Raise EType end
  | None => Ok info
  end.

(** The classes of the library: oauth2/authorization.py:273-286, oidc/authorization.py:77-98, oidc/token.py:322-324,
    oidc/userinfo.py:28-36, oidc/session.py:78-86, oidc/registration.py:129-130, oidc/read_registration.py:16,
    oauth2/introspection.py:19-20, oauth2/pushed_authorization.py:11-16, oidc/provider_config.py:15-16, oidc/discovery.py:15.
    (PushedAuthorization inherits the capabilities of the authorization endpoint.) *)
Definition request_capabilities : msg :=
  [("claims_parameter_supported", VBool true); ("request_parameter_supported", VBool true); ("request_uri_parameter_supported", VBool true)].
Definition object_capabilities : msg :=
  [("response_modes_supported", vstrs ["query"; "fragment"; "form_post"]);
   ("request_object_signing_alg_values_supported", VNone); ("request_object_encryption_alg_values_supported", VNone);
   ("request_object_encryption_enc_values_supported", VNone); ("grant_types_supported", vstrs ["authorization_code"; "implicit"])].
Definition oauth2_capabilities : msg :=
  request_capabilities ++ [("response_types_supported", vstrs ["code"; "token"; "code token"])] ++ object_capabilities ++ [("scopes_supported", VList [])].
Definition oidc_capabilities : msg :=
  request_capabilities ++
  [("response_types_supported", vstrs ["code"; "token"; "id_token"; "code token"; "code id_token"; "id_token token"; "code id_token token"])] ++
  object_capabilities ++ [("claim_types_supported", vstrs ["normal"; "aggregated"; "distributed"])].
Section Classes.
  (** What else the constructors do with their keyword arguments: client_auth_setup, configure_grant_types *)
  Variable init : string -> msg -> result unit.
  Definition plain_pre (name issuer : string) (kwargs : msg) : result msg := let* _ := init name kwargs in Ok kwargs.
  Definition plain_post (kwargs : msg) (info : option msg) : result (option msg) := Ok info.
  Definition plain (name endpoint_name : string) (defaults : option msg) : eclass :=
    mkClass name endpoint_name defaults (plain_pre name) plain_post.
  Definition OAuth2Authorization := plain "authorization" "authorization_endpoint" (Some oauth2_capabilities).
  Definition Authorization := plain "authorization" "authorization_endpoint" (Some oidc_capabilities).
  Definition TokenEP := mkClass "token" "token_endpoint" (Some [("token_endpoint_auth_signing_alg_values_supported", VNone)]) (plain_pre "token") token_post.
  Definition UserInfoEP := plain "userinfo" "userinfo_endpoint"
    (Some [("claim_types_supported", vstrs ["normal"; "aggregated"; "distributed"]); ("userinfo_signing_alg_values_supported", VNone);
           ("userinfo_encryption_alg_values_supported", VNone); ("userinfo_encryption_enc_values_supported", VNone);
           ("client_authn_method", vstrs ["bearer_header"])]).
  Definition SessionEP := mkClass "session" "end_session_endpoint"
    (Some [("frontchannel_logout_supported", VBool true); ("frontchannel_logout_session_supported", VBool true);
           ("backchannel_logout_supported", VBool true); ("backchannel_logout_session_supported", VBool true); ("check_session_iframe", VNone)])
    (fun issuer kwargs => let* kwargs := session_pre issuer kwargs in plain_pre "session" issuer kwargs) plain_post.
  Definition RegistrationEP := plain "registration" "registration_endpoint" None.
  Definition RegistrationReadEP := plain "registration_read" "" None.
  Definition IntrospectionEP := plain "introspection" "introspection_endpoint" None.
  Definition PushedEP := plain "pushed_authorization" "pushed_authorization_request_endpoint" (Some oauth2_capabilities).
  Definition ProviderConfigEP := plain "provider_config" "" (Some [("require_request_uri_registration", VNone)]).
  Definition DiscoveryEP := plain "discovery" "" None.
  Definition library : list eclass :=
    [OAuth2Authorization; Authorization; TokenEP; UserInfoEP; SessionEP; RegistrationEP; RegistrationReadEP; IntrospectionEP; PushedEP;
     ProviderConfigEP; DiscoveryEP].
End Classes.

(** An entry of conf["endpoint"]: [es_class]: the class, or what importing it raises; [es_kwargs] and [es_path]: None if absent *)
Record espec := mkSpec { es_class : result eclass; es_kwargs : option msg; es_path : option string }.
(** An endpoint: endpoint_path, full_path and endpoint_info *)
Record inst := mkInst { in_class : eclass; in_path : string; in_full_path : string; in_info : option msg }.

(** util.py:53-56 *)
Definition base_url (issuer : string) : string :=
  if ends_with "/" issuer then stake (slen issuer - 1) issuer else issuer.
(** util.py:59-85, with Endpoint.__init__ (endpoint.py:205-207) *)
Definition make_endpoint (al : algs) (issuer : string) (spec : espec) : result inst :=
  let kwargs := match es_kwargs spec with Some k => k | None => [] end in
  let* c := es_class spec in
  let* kwargs := ec_pre c issuer kwargs in
  let* info := construct_endpoint_info al (ec_defaults c) kwargs in
  let* info := ec_post c kwargs info in
  let* path := of_option EKey (es_path spec) in
  let full := (base_url issuer ++ "/" ++ path)%string in
  Ok (mkInst c path full
       (if nonempty (ec_endpoint_name c)
        then Some (dset (ec_endpoint_name c) (VStr full) (match info with Some i => i | None => [] end)) else info)).
(** util.py:58-89: endpoints with the same name replace each other *)
Fixpoint build_endpoints (al : algs) (issuer : string) (specs : list espec) (endpoint : dict inst) : result (dict inst) :=
  match specs with
  | [] => Ok endpoint
  | spec :: specs' => let* i := make_endpoint al issuer spec in build_endpoints al issuer specs' (dset (ec_name (in_class i)) i endpoint)
  end.

(** The configuration, as far as it matters here. [cf_keys]: there are keys; [cf_acrs]: the acr values of the authentication methods
    ([]: no methods); [cf_id_token]: the keyword arguments of IDToken; [cf_refresh]: there is a handler for refresh tokens;
    [cf_scope2claims], [cf_standard]: SCOPE2CLAIMS and STANDARD_CLAIMS. *)
Record conf := mkConf {
  cf_issuer : string; cf_capabilities : option msg; cf_endpoints : list espec; cf_jwks_path : string; cf_keys : bool;
  cf_acrs : list val; cf_id_token : msg; cf_refresh : bool; cf_scope2claims : dict (list string); cf_standard : list string }.

(** [if key not in _cap: _cap[key] = val] *)
Definition set_default (cap : msg) (kv : string * val) : msg :=
  if dmem (fst kv) cap then cap else dset (fst kv) (snd kv) cap.
(** endpoint_context.py:368-379 *)
Definition add_info (cap : msg) (e : string * inst) : msg :=
  if smem (fst e) ["webfinger"; "provider_config"] then cap
  else match in_info (snd e) with Some info => fold_left set_default info cap | None => cap end.

(** endpoint_context.py:191-198. (The issuer is a str.) *)
Definition jwks_uri (cf : conf) : string :=
  if ends_with "/" (cf_issuer cf) then cf_issuer cf ++ cf_jwks_path cf else cf_issuer cf ++ "/" ++ cf_jwks_path cf.

(** id_token.py:107-120 *)
Definition id_token_capabilities : msg :=
  [("id_token_signing_alg_values_supported", VNone); ("id_token_encryption_alg_values_supported", VNone); ("id_token_encryption_enc_values_supported", VNone)].

(** endpoint_context.py:388-415 *)
Definition create_providerinfo (cf : conf) (idtoken : msg) (capabilities : msg) : msg :=
  let pi := dset "version" (VStr "3.0") (dset "issuer" (VStr (cf_issuer cf)) capabilities) in
  let pi := if is_nil (cf_acrs cf) then pi else dset "acr_values_supported" (VList (cf_acrs cf)) pi in
  let pi := if cf_keys cf then dset "jwks_uri" (VStr (jwks_uri cf)) pi else pi in
  let pi := dupdate pi idtoken in
  let pi := if dmem "scopes_supported" pi then pi else dset "scopes_supported" (vstrs (dkeys (cf_scope2claims cf))) pi in
  if dmem "claims_supported" pi then pi else dset "claims_supported" (vstrs (cf_standard cf)) pi.

(** util.py:176-199. [capabilities]: conf["capabilities"] as it is by then. handler["refresh_token"] is looked up first, and is only there when
    there is such a handler. *)
Definition allow_refresh_token (refresh : bool) (capabilities : option msg) : result bool :=
  if negb refresh then Raise EKey
  else match capabilities with
       | None | Some [] => Ok false
       | Some cap => let* gts := dsub "grant_types_supported" cap in val_in (VStr "refresh_token") gts
       end.

(** [pv_capabilities]: conf["capabilities"], which is the dict that becomes provider_info *)
Record provider := mkProvider { pv_info : msg; pv_capabilities : option msg; pv_endpoints : dict inst; pv_allow_refresh : option bool }.
(** endpoint_context.py:313-318, 363-379, 212-218. Add-ons come afterwards (Scopes.add_custom_scopes). *)
Definition provider_setup (al : algs) (cf : conf) : result provider :=
  let* idtoken := info_entries al (cf_id_token cf) id_token_capabilities [] in
  let* endpoints := build_endpoints al (cf_issuer cf) (cf_endpoints cf) [] in
  let cap := fold_left add_info endpoints (match cf_capabilities cf with Some c => c | None => [] end) in
  let info := create_providerinfo cf idtoken cap in
  let capabilities := match cf_capabilities cf with Some _ => Some info | None => None end in
  let* allow := if dmem "token" endpoints then rmap Some (allow_refresh_token (cf_refresh cf) capabilities) else Ok None in
  Ok (mkProvider info capabilities endpoints allow).

(** The context the other parts of the model use *)
Definition provider_ctx (cf : conf) (pv : provider) (modules users : dict msg) (gc : gconf) : ctx :=
  mkCtx (cf_issuer cf) (pv_info pv) (pv_capabilities pv) (cf_scope2claims cf) modules users gc.

(** oidc/provider_config.py:22-33. [request] is response_args, that is provider_info itself. *)
Definition add_endpoints (endpoints : dict inst) (request : msg) : msg :=
  fold_left (fun (rq : msg) e =>
      if smem (fst e) ["authorization_endpoint"; "registration_endpoint"; "token_endpoint"; "userinfo_endpoint"; "end_session_endpoint"]
      then dset (fst e) (VStr (in_path (snd e))) rq else rq) endpoints request.
(** oidc/provider_config.py:35-36 and do_response; [cls]: ProviderConfigurationResponse. The answer and provider_info afterwards. *)
Definition provider_document (en : encoding) (cls : msg -> result msg) (pv : provider) (kw : kwargs) : result response * msg :=
  (do_response en (mkEP "body" "json" "" (fun args => cls (add_endpoints (pv_endpoints pv) args))) (pv_info pv) "" kw,
   add_endpoints (pv_endpoints pv) (pv_info pv)).

(** oidc/discovery.py:7, 27-29, 38-39: the subject and links of the JRD *)
Definition OIC_ISSUER := "http://openid.net/specs/connect/1.0/issuer".
Definition discovery (issuer : string) (request : msg) : result (val * list msg) :=
  let* resource := dsub "resource" request in
  Ok (resource, [[("href", VStr issuer); ("rel", VStr OIC_ISSUER)]]).

(** util.py:140-158. [verify in [True, False]]: also 1 and 0. cert is (cert, key) or cert. *)
Definition get_http_params (config : msg) : msg :=
  let verify := match dget_or "verify" VNone config with VNone => dget_or "verify_ssl" VNone config | v => v end in
  let params := if existsb (val_eqb verify) [VBool true; VBool false] then [("verify", verify)] else [] in
  match truthy_get "client_cert" config with
  | Some cert => match truthy_get "client_key" config with
                 | Some key => params ++ [("cert", VList [cert; key])]
                 | None => params ++ [("cert", cert)]
                 end
  | None => params
  end.
(** endpoint_context.py:231-236 *)
Definition httpc_params (config : msg) : result msg :=
  match truthy_get "httpc_params" config with
  | Some (VDict c) => Ok (get_http_params c)
  | Some _ => Raise EAttr
  | None => Ok [("verify", dget_or "verify_ssl" VNone config)]
  end.
