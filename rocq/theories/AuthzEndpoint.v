(** AuthzEndpoint.v: the authorization endpoint after the authentication (oauth2/authorization.py:603-904): the
    authorization, the tokens and the response. *)
From Verif Require Import Base Monad Types SessionKey Token Grant Database Manager Ctx Claims Authz UserInfo World Minting
  Uri FormPost Cookie Response.
Local Open Scope Z_scope.

(** What this part of the endpoint takes from outside.
    [az_clock], [az_later]: the time at the authorization, and later; [az_idtoken store sid code access_token]:
    idtoken.make, None for the two exceptions caught at 705; [az_cookie sid state]: new_cookie (785-790);
    [az_opbs time]: the session management cookie and its value (855-866), None without a cookie dealer;
    [az_sha]: sha256 as hex; [az_origin uri]: scheme and authority; [az_show]: how str.format writes a value;
    [az_text]: how it writes the arguments of an exception; [az_iframe]: check_session_iframe is configured;
    [az_handler]: the authorization handler. *)
Record authz_env := mkAZ {
  az_cx : ctx; az_u : urllib; az_sharing : bool; az_clock : Z; az_later : Z; az_salt : string;
  az_code : minting; az_access : minting;
  az_idtoken : store -> string -> option string -> option string -> ST cdb (option string);
  az_cookie : string -> option val -> result val;
  az_opbs : Z -> result (option (string * val));
  az_sha : string -> string; az_origin : string -> result string;
  az_show : val -> string; az_text : exn -> string; az_iframe : bool;
  az_handler : authorizer }.

(** The dict the endpoint hands over to do_response *)
Record rinfo := mkRI {
  ri_args : msg;                        (* response_args *)
  ri_fragment : option bool;            (* fragment_enc *)
  ri_sid : option string;               (* session_id *)
  ri_uri : option string;               (* return_uri *)
  ri_ready : option string;             (* response_msg, with content_type text/html and response_placement body *)
  ri_cookie : option val }.
Definition no_info : rinfo := mkRI [] None None None None None.
Definition with_args (a : msg) (r : rinfo) : rinfo :=
  mkRI a (ri_fragment r) (ri_sid r) (ri_uri r) (ri_ready r) (ri_cookie r).
Definition with_cookie (c : val) (r : rinfo) : rinfo :=
  mkRI (ri_args r) (ri_fragment r) (ri_sid r) (ri_uri r) (ri_ready r) (Some c).

(** the members of an error message *)
Definition error_args (error description : string) : msg :=
  [("error", VStr error); ("error_description", VStr description)].
(** oauth2/authorization.py:636-641 *)
Definition error_response (r : rinfo) (error description : string) : rinfo := with_args (error_args error description) r.

(** oauth2/authorization.py:606-634. InvalidRequest is [EInvalidRequest]. Simplification: to_dict of the
    message gives the members as they are. *)
Definition response_mode (e : authz_env) (mode : val) (r : rinfo) : result rinfo :=
  if val_eqb mode (VStr "form_post") then
    let* uri := of_option EKey (ri_uri r) in
    let page := form_post uri (map (fun kv => (fst kv, az_show e (snd kv))) (ri_args r)) in
    Ok (mkRI (ri_args r) (ri_fragment r) (ri_sid r) (ri_uri r) (Some page) (ri_cookie r))
  else if val_eqb mode (VStr "fragment") then
    match ri_fragment r with
    | Some true => Ok r
    | Some false => Raise EInvalidRequest
    | None => Ok (mkRI (ri_args r) (Some true) (ri_sid r) (ri_uri r) (ri_ready r) (ri_cookie r))
    end
  else if val_eqb mode (VStr "query") then
    match ri_fragment r with
    | Some true => Raise EInvalidRequest
    | _ => Ok r
    end
  else Raise EInvalidRequest.

(** [l == [x]] *)
Definition only (x : string) (l : list string) : bool :=
  match l with [y] => String.eqb y x | _ => false end.

(** oauth2/authorization.py:674-682 *)
Definition code_part (e : authz_env) (sid : string) (g : grant) (rt : list string) (aresp : msg)
    : W (option token * grant * msg) :=
  if smem "code" rt then
    '(o, g2) <-- endpoint_mint (az_cx e) (az_code e) sid g "authorization_code" None ;;
    match o with
    | None => raise EAttr
    | Some t => ret (Some t, g2, dset "code" (VStr (t_value t)) aresp)
    end
  else ret (None, g, aresp).

(** oauth2/authorization.py:684-700 *)
Definition token_part (e : authz_env) (sid : string) (g : grant) (rt : list string) (code : option token) (aresp : msg)
    : W (option token * msg) :=
  if smem "token" rt then
    '(o, _) <-- endpoint_mint (az_cx e) (az_access e) sid g "access_token" code ;;
    match o with
    | None => raise EAttr
    | Some t =>
        let aresp := dset "token_type" (VStr "Bearer") (dset "access_token" (VStr (t_value t)) aresp) in
        ret (Some t, if t_expires_at t =? 0 then aresp
                     else dset "expires_in" (VInt (t_expires_at t - az_later e)) aresp)
    end
  else ret (None, aresp).

(** oauth2/authorization.py:702-724: None after the error *)
Definition id_part (e : authz_env) (i : session_info) (rt : list string) (code access : option token) (aresp : msg)
    : W (option msg) :=
  if smem "id_token" rt then
    s <-- gets w_db ;;
    o <-- in_cdb (az_idtoken e s (in_sid i) (option_map t_value code) (option_map t_value access)) ;;
    match o with
    | None => ret None
    | Some x =>
        in_db (db_update [in_uid i; in_cid i] [("id_token", VStr x)]) ;;;
        ret (Some (dset "id_token" (VStr x) aresp))
    end
  else ret (Some aresp).

(** oauth2/authorization.py:643-735. The response_type is a list of str (oidcmsg). *)
Definition create_authn_response (e : authz_env) (request : msg) (sid : string) : W rinfo :=
  let aresp := match truthy_get "state" request with Some v => [("state", v)] | None => [] end in
  if match mget_list "response_type" request with Some l => only "none" l | None => false end then
    ret (mkRI aresp (Some false) None None None None)
  else
    i <-- in_db (get_session_info sid false false true false false) ;;
    let aresp := match truthy_get "scope" request with Some v => dset "scope" v aresp | None => aresp end in
    rt <-- lift (of_option EKey (mget_list "response_type" request)) ;;
    let fragment := negb (set_eqb rt ["code"]) in
    g <-- in_db (grant_of i) ;;
    '(code, g, aresp) <-- code_part e (in_sid i) g rt aresp ;;
    '(access, aresp) <-- token_part e (in_sid i) g rt code aresp ;;
    o <-- id_part e i rt code access aresp ;;
    match o with
    | None => ret (mkRI (error_args "invalid_request" "Could not sign/encrypt id_token") (Some fragment) None None None None)
    | Some aresp =>
        if forallb (fun x => smem x ["code"; "token"; "id_token"]) rt
        then ret (mkRI aresp (Some fragment) None None None None)
        else ret (mkRI (error_args "invalid_request" "unsupported_response_type") (Some fragment) None None None None)
    end.

(** authz/__init__.py:55-90 on the grant in the store *)
Definition handling (e : authz_env) (sid : string) (request : msg) : W grant :=
  i <-- in_db (get_session_info sid false false true false false) ;;
  g <-- in_db (grant_of i) ;;
  fun w =>
    let '(r, (clients, g')) := authz_call (az_cx e) (az_clock e) (in_cid i) request None (w_cdb w, g) in
    let w := snd (in_db (poke (az_sharing e) (session_key [in_uid i; in_cid i; in_gid i]) (EGrant g'))
                        (mkW (w_db w) clients)) in
    match r with Ok _ => (Ok g', w) | Raise x => (Raise x, w) end.

(** authz/__init__.py:93-100. Simplification: of a key with two characters the second is not assigned to the first. *)
Definition implicit (keys : list string) (sid : string) : W grant :=
  g <-- in_db (get_grant sid) ;;
  if forallb two_characters keys then ret g else raise EValue.
(** endpoint_context.authz *)
Definition authorize (e : authz_env) (sid : string) (request : msg) : W grant :=
  match az_handler e with
  | AHandling => handling e sid request
  | AImplicit keys => implicit keys sid
  end.

(** [try: m except Exception] *)
Definition attempt {A} (m : W A) : W (result A) :=
  fun w => let (r, w') := m w in (Ok r, w').

(** oauth2/authorization.py:737-815 *)
Definition post_authentication (e : authz_env) (request : msg) (sid : string) : W rinfo :=
  o <-- attempt (authorize e sid request) ;;
  match o with
  | Raise x => ret (error_response no_info "access_denied" (az_text e x))
  | Ok g =>
      '(u, c, gid) <-- lift (unpack3 sid) ;;
      o <-- attempt (in_db (db_store [u; c; gid] (EGrant g))) ;;
      match o with
      | Raise x => ret (error_response no_info "server_error" (az_text e x))
      | Ok _ =>
          lift (dsub "response_type" request) ;;;
          r <-- create_authn_response e request sid ;;
          let r := mkRI (ri_args r) (ri_fragment r) (Some sid) None None None in
          clients <-- gets w_cdb ;;
          match get_uri (az_u e) clients request "redirect_uri" with
          | Raise ERedirectURI => ret (error_response r "invalid_request" (az_text e ERedirectURI))
          | Raise EParameter => ret (error_response r "invalid_request" (az_text e EParameter))
          | Raise x => raise x
          | Ok uri =>
              let r := mkRI (ri_args r) (ri_fragment r) (Some sid) (Some uri) None None in
              cookie <-- lift (az_cookie e sid (dget "state" request)) ;;
              match dget "response_mode" request with
              | None => ret (with_cookie (VList [cookie]) r)
              | Some mode =>
                  match response_mode e mode r with
                  | Ok r => ret (with_cookie (VList [cookie]) r)
                  | Raise EInvalidRequest => ret (error_response r "invalid_request" (az_text e EInvalidRequest))
                  | Raise x => raise x
                  end
              end
          end
      end
  end.

(** cookies: oauth2/authorization.py:889-896 *)
Definition add_cookie (c : val) (r : rinfo) : rinfo :=
  match ri_cookie r with
  | Some (VList l) => with_cookie (VList (l ++ [c])) r
  | _ => with_cookie c r
  end.

(** oauth2/authorization.py:829-904 *)
Definition authz_part2 (e : authz_env) (request : msg) (sid : string) : W rinfo :=
  o <-- attempt (post_authentication e request sid) ;;
  match o with
  | Raise x => ret (error_response no_info "server_error" (az_text e x))
  | Ok r =>
      let finish (r : rinfo) : W rinfo :=
        cid <-- lift (dsub "client_id" request) ;;
        ret (with_args (dset "client_id" cid (dset "iss" (VStr (cx_issuer (az_cx e))) (ri_args r))) r) in
      if az_iframe e then
        o <-- attempt (in_db (get_authentication_event sid)) ;;
        match o with
        | Raise EKey => ret (error_response no_info "server_error" "No such session")
        | Raise x => raise x
        | Ok None => raise EAttr
        | Ok (Some ae) =>
            if negb (az_later e <? ae_valid_until ae)
            then ret (error_response no_info "server_error" "Authentication has timed out")
            else
              o <-- lift (az_opbs e (ae_authn_time ae)) ;;
              let opbs := match o with Some (v, _) => v | None => "" end in
              cid <-- lift (msub_str "client_id" request) ;;
              uri <-- lift (of_option EKey (ri_uri r)) ;;
              origin <-- lift (az_origin e uri) ;;
              let state := compute_session_state (az_sha e) opbs (az_salt e) cid origin in
              let r := match o with
                       | Some (v, c) => if nonempty v then add_cookie c r else r
                       | None => r
                       end in
              finish (with_args (dset "session_state" (VStr state) (ri_args r)) r)
        end
      else finish r
  end.

(** do_response with that dict (endpoint.py:381-479) *)
Definition kwargs_of (r : rinfo) : kwargs :=
  mkKw None (ri_ready r) (option_map (fun _ => "body"%string) (ri_ready r)) (option_map (fun _ => "text/html"%string) (ri_ready r))
       (ri_fragment r) None (ri_uri r) None (ri_cookie r).
Definition respond (en : encoding) (ep : endp) (r : rinfo) : result response :=
  do_response en ep (ri_args r) "" (kwargs_of r).
(** The authorization endpoint (oauth2/authorization.py:268-274, oidc/authorization.py:71-78); construct makes a
    message of the response_args, without additions (no add-on registers one) *)
Definition authorization_endpoint : endp := mkEP "url" "urlencoded" "urlencoded" (fun m => Ok m).
