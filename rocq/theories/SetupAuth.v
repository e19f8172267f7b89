(** SetupAuth.v: who the user is (oauth2/authorization.py:444-601), the supplied authentication methods
    (user_authn/user.py), the authentication event (authn_event.py) and the authorization endpoint as a whole
    (oauth2/authorization.py:909-954). *)
From Verif Require Import Base Monad Types PyInt SessionKey Token Grant Database Manager Ctx Scopes Claims Authz World
  Minting AuthnBroker Response AuthzEndpoint.
Local Open Scope Z_scope.

(** ** Authentication events *)
(** authn_event.py:7 *)
Definition DEFAULT_AUTHN_EXPIRES_IN : Z := 3600.
(** authn_event.py:29-67. [timestamp] is kwargs.get("timestamp"), 0 for None. *)
Definition create_authn_event (now : Z) (uid : string) (info : option string) (authn_time valid_until expires_in timestamp : Z)
           (sub : string) : authn_event :=
  let time := if negb (authn_time =? 0) then authn_time else if negb (timestamp =? 0) then timestamp else now in
  mkAE uid info time
       (if negb (valid_until =? 0) then valid_until
        else if negb (expires_in =? 0) then time + expires_in
        else time + DEFAULT_AUTHN_EXPIRES_IN)
       (if nonempty sub then Some sub else None).
(** authn_event.py:19-23 *)
Definition ae_is_valid (now : Z) (ae : authn_event) : bool := now <? ae_valid_until ae.

(** ** The supplied methods *)
(** [int(v)] *)
Definition int_of (v : val) : result Z :=
  match v with
  | VInt z => Ok z
  | VBool b => Ok (Z.b2z b)
  | VStr s => of_option EValue (py_int s)
  | _ => Raise EType
  end.

(** What get_cookie_value gives for the session cookie: value, time stamp and type (Cookie.v); without a cookie
    dealer it is an AttributeError. *)
Definition found := result (option (string * string * string)).
(** user_authn/user.py:76-82, 302-308. (InvalidCookieSign is not raised anywhere.) *)
Definition read_cookie (v : found) : found :=
  match v with Raise EAttr | Raise EAssertion => Ok None | _ => v end.

(** An answer of authenticated_as: the identity and the time *)
Definition whoami := result (option msg * val).

(** user_authn/user.py:70-104: UserAuthnMethod, also for UserPassJinja2. (The cookie is never None here:
    oauth2/authorization.py:927.) A CookieDealer has no attribute ttl, so line 90 is an AttributeError. *)
Definition authenticated_as (now : Z) (cookie : found) (max_age : val) : whoami :=
  let* v := read_cookie cookie in
  match v with
  | None => Ok (None, VInt 0)
  | Some (uid, ts, typ) =>
      if String.eqb typ "uam" then Raise EAttr
      else if truthy max_age then
        let* t := of_option EValue (py_int ts) in
        let* n := int_of max_age in
        if t + n <? now then Raise EToOld else Ok (Some [("uid", VStr uid)], VStr ts)
      else Ok (Some [("uid", VStr uid)], VStr ts)
  end.

(** user_authn/user.py:287-320: NoAuthn, with fail None. [sent]: there is a cookie; [info value]: cookie_value
    (cookie.py:593-597). Simplification: the time is an int. *)
Definition no_authn (now : Z) (user : string) (sent : bool) (cookie : found) (info : string -> val) : whoami :=
  if sent then
    let* v := read_cookie cookie in
    match v with
    | None => Ok (None, VInt 0)
    | Some (b64val, _, _) =>
        let res := [("uid", VStr user)] in
        Ok (Some (match info b64val with
                  | VDict d => dupdate res d
                  | _ => dset "value" (VStr b64val) res
                  end), VInt now)
    end
  else Ok (Some [("uid", VStr user)], VInt now).

(** Python's two kinds of strings *)
Inductive pytext := PStr (s : string) | PBytes (s : string).
(** [x.split(sep)]: both of the same kind *)
Definition py_split (x sep : pytext) : result (list pytext) :=
  match x, sep with
  | PStr a, PStr b => Ok (map PStr (split b a))
  | PBytes a, PBytes b => Ok (map PBytes (split b a))
  | _, _ => Raise EType
  end.
(** [(a, b) = l] *)
Definition pair_of (l : list pytext) : result (pytext * pytext) :=
  match l with [a; b] => Ok (a, b) | _ => Raise EValue end.
Definition text_of (p : pytext) : string := match p with PStr s => s | PBytes s => s end.

Section Header.
  (** base64.b64decode: bytes *)
  Variable b64decode : string -> result string.
  (** urllib.parse.unquote *)
  Variable unquote : string -> string.

  (** user_authn/user.py:228-246: BasicAuthn *)
  Definition basic_authn (passwd : dict string) (now : Z) (authorization : string) : whoami :=
    let a := if String.prefix "Basic" authorization then sdrop 6 authorization else authorization in
    let* raw := b64decode a in
    let* parts := py_split (PBytes raw) (PStr ":") in
    let* up := pair_of parts in
    let user := unquote (text_of (fst up)) in
    let* pwd := dsub user passwd in
    if String.eqb (text_of (snd up)) pwd then Ok (Some [("uid", VStr user)], VInt now) else Raise EFailedAuthentication.

  (** user_authn/user.py:261-276: SymKeyAuthn; [decrypt]: AESGCM *)
  Definition symkey_authn (decrypt : string -> string -> result string) (now : Z) (authorization : string) : whoami :=
    let* raw := b64decode authorization in
    let* parts := py_split (PBytes raw) (PStr ":") in
    let* mi := pair_of parts in
    match decrypt (text_of (snd mi)) (text_of (fst mi)) with
    | Ok user => Ok (Some [("uid", VStr user)], VInt now)
    | Raise EAssertion | Raise EKey => Raise EFailedAuthentication
    | Raise x => Raise x
    end.
End Header.

(** user_authn/user.py:214-219: UserPassJinja2 *)
Definition verify_password (user_db : dict val) (username : string) (password : val) : result string :=
  match dget username user_db with
  | Some v => if val_eqb v password then Ok username else Raise EFailedAuthentication
  | None => Raise EFailedAuthentication
  end.

(** ** Setting up *)
(** A method object: authenticated_as for the cookie and the header that came with the request, as a function of
    max_age, and kwargs.get("expires_in"), 0 for None. *)
Record method := mkMethod { me_auth : val -> whoami; me_expires : Z }.

(** What this part takes from outside. [au_now]: the time (simplification: it stands still during the call);
    [au_decode uid]: b64d and json.loads, None for BadSyntax; [au_same]: equality of messages;
    [au_query]: to_urlencoded of the request; [au_rules]: authz.usage_rules (Authz.v);
    [au_method_id], [au_acr]: keyword arguments of process_request; [au_lookup]: subscripting the
    login_hint_lookup, None without one. *)
Record auth_env := mkAU {
  au_now : Z; au_broker : broker; au_hint2acrs : option (val -> result val);
  au_method_id : option string; au_acr : option string; au_methods : dict method;
  au_decode : val -> result (option val); au_same : msg -> msg -> bool; au_query : msg -> string;
  au_rules : cdb -> string -> option grules; au_lookup : option (val -> result val);
  au_sha : string -> string; au_salt : string; au_uuid4 : string; au_newid : string }.

(** oauth2/authorization.py:83-85 *)
Definition max_age (request : msg) : result val :=
  let* inner := match dget (verified "request") request with
                | None => Ok None
                | Some (VDict d) => Ok (dget "max_age" d)
                | Some _ => Raise EAttr
                end in
  Ok (match inner with
      | Some v => if truthy v then v else dget_or "max_age" (VInt 0) request
      | None => dget_or "max_age" (VInt 0) request
      end).

(** oauth2/authorization.py:483-486 *)
Definition age_limit (request : msg) : result val :=
  match dget "upm_answer" request with
  | Some v => if val_eqb v (VStr "true") then Ok (VInt 0) else max_age request
  | None => max_age request
  end.

(** oauth2/authorization.py:481-517. (NoSuchAuthentication and TamperAllert are not raised anywhere; nor is
    Revoked by the session manager.) A SessionInfo has no is_active. *)
Definition identify (e : auth_env) (m : method) (request : msg) : W (option msg * val) :=
  limit <-- lift (age_limit request) ;;
  match me_auth m limit with
  | Raise EToOld | Raise EUnknownToken => ret (None, VInt 0)
  | Raise x => raise x
  | Ok (None, ts) => ret (None, ts)
  | Ok (Some [], ts) => ret (Some [], ts)
  | Ok (Some id, ts) =>
      uid <-- lift (dsub "uid" id) ;;
      o <-- lift (au_decode e uid) ;;
      match o with
      | None => ret (Some id, ts)
      | Some (VDict id2) =>
          x <-- match dget "sid" id2 with Some (VStr sid) => in_db (mget sid) | _ => raise EAttr end ;;
          g <-- in_db (as_grant x) ;;
          ret (if g_active (au_now e) g then Some id2 else None, ts)
      | Some _ => raise EAttr
      end
  end.

(** oauth2/authorization.py:213-248 *)
Definition authn_args (e : auth_env) (request : msg) (acr : string) (cinfo : msg) (req_user : option val) : result msg :=
  let* uri := dsub "redirect_uri" request in
  let pick (from : msg) (l : list string) (m : msg) : msg :=
    fold_left (fun m k => match truthy_get k from with Some v => dset k v m | None => m end) l m in
  let m := [("authn_class_ref", VStr acr); ("return_uri", uri); ("query", VStr (au_query e request))] in
  let m := match req_user with Some u => dset "as_user" (VList [u]) m | None => m end in
  Ok (pick request ["ui_locales"; "acr_values"; "login_hint"] (pick cinfo ["policy_uri"; "logo_uri"; "tos_uri"] m)).

(** ["prompt" in request and "none" in request["prompt"]] *)
Definition asks_none (request : msg) : result bool :=
  match dget "prompt" request with None => Ok false | Some v => val_in (VStr "none") v end.

(** oauth2/authorization.py:977-978. (oidc/authorization.py:62-67 is not called by anything.) *)
Definition re_authenticate (request : msg) : bool := false.

(** The request after the method has been picked: the acr values may have been put in a list
    (user_authn/authn_context.py:125-126) *)
Definition changed (e : auth_env) (request : msg) : msg :=
  match au_method_id e, au_acr e with
  | Some (String _ _), _ | _, Some (String _ _) => request
  | _, _ => listed_acrs (au_broker e) request
  end.

(** What setup_auth returns: an error, a call of the method, or a session *)
Inductive setup :=
| SError (info : msg)
| SLogin (method : string) (args : msg)
| SDone (sid : string) (identity : msg) (user : val).

Definition str_of (v : val) : result string := match v with VStr s => Ok s | _ => Raise EType end.

(** a new grant: session/manager.py:85-121 with the default sub_type *)
Definition sub_of (e : auth_env) (user : string) (request : msg) : result string :=
  make_sub (au_sha e) "public" user (sector_of (Some request)) (au_salt e) (au_uuid4 e).

(** the event of a session when it is valid: oauth2/authorization.py:571-573 and 582-584 *)
Definition valid_event (e : auth_env) (sid : string) : W (option authn_event) :=
  o <-- in_db (get_authentication_event sid) ;;
  match o with
  | None => raise EAttr
  | Some ae => ret (if ae_is_valid (au_now e) ae then Some ae else None)
  end.

(** oauth2/authorization.py:559-579: the session to go on with; None: log in *)
Definition known_session (e : auth_env) (request : msg) (user : val) (v : val) : W (option string) :=
  sid <-- lift (match v with VStr s => Ok s | _ => Raise EAttr end) ;;
  '(_, c, _) <-- lift (unpack3 sid) ;;
  cid <-- lift (dsub "client_id" request) ;;
  if negb (val_eqb cid (VStr c)) then ret None
  else
    x <-- in_db (mget sid) ;;
    g <-- in_db (as_grant x) ;;
    if negb (g_active (au_now e) g) then ret None
    else if match g_authreq g with Some r => au_same e request r | None => false end then ret (Some sid)
    else
      o <-- valid_event e sid ;;
      match o with
      | None => ret None
      | Some ae =>
          u <-- lift (str_of user) ;;
          c <-- lift (str_of cid) ;;
          sid <-- in_db (create_grant (au_now e) (au_newid e) (Some ae) (Some request) u c (sub_of e u request) None None) ;;
          ret (Some sid)
      end.

(** oauth2/authorization.py:586-599. The time stamp of the method is passed under a name create_authn_event does
    not know (589). *)
Definition first_session (e : auth_env) (m : method) (acr : string) (request : msg) (user : val) : W string :=
  u <-- lift (str_of user) ;;
  let ae := create_authn_event (au_now e) u (Some acr) 0 0 0 0 "" in
  let ae := if me_expires m =? 0 then ae
            else mkAE (ae_uid ae) (ae_authn_info ae) (ae_authn_time ae) (au_now e + me_expires m) (ae_sub ae) in
  c <-- lift (msub_str "client_id" request) ;;
  clients <-- gets w_cdb ;;
  in_db (login_session (au_sha e) (au_salt e) (au_uuid4 e) (au_now e) (au_newid e) ae request [] u c (au_rules e clients c)).

(** oauth2/authorization.py:464-601 *)
Definition setup_auth (e : auth_env) (request : msg) (redirect_uri : val) (cinfo : msg) (req_user : option val) : W setup :=
  '(name, acr) <-- lift (pick_authn_method (au_broker e) (au_hint2acrs e) request (au_method_id e) (au_acr e)) ;;
  let request := changed e request in
  m <-- lift (dsub name (au_methods e)) ;;
  '(identity, _) <-- identify e m request ;;
  args <-- lift (authn_args e request acr cinfo req_user) ;;
  match identity with
  | None =>
      none <-- lift (asks_none request) ;;
      if none : bool then
        rt <-- lift (dsub "response_type" request) ;;
        ret (SError [("error", VStr "login_required"); ("return_uri", redirect_uri); ("return_type", rt)])
      else ret (SLogin name args)
  | Some id =>
      if re_authenticate request then ret (SLogin name args)
      else
        user <-- lift (dsub "uid" id) ;;
        if match req_user with Some r => negb (val_eqb user r) | None => false end then
          none <-- lift (asks_none request) ;;
          ret (if none : bool then SError [("error", VStr "login_required"); ("return_uri", redirect_uri)]
               else SLogin name args)
        else
          o <-- match dget "sid" id with
                | Some v => known_session e request user v
                | None => ret (Some ""%string)
                end ;;
          match o with
          | None => ret (SLogin name args)
          | Some sid =>
              if nonempty sid then
                v <-- valid_event e sid ;;
                ret (match v with None => SLogin name args | Some _ => SDone sid id user end)
              else
                sid <-- first_session e m acr request user ;;
                ret (SDone sid id user)
          end
  end.

(** ** The endpoint *)
(** oidc/authorization.py:15-19 *)
Definition proposed_user (request : msg) : result val :=
  match truthy_get (verified "it_token_hint") request with
  | Some (VDict d) => Ok (dget_or "sub" (VStr "") d)
  | Some _ => Raise EAttr
  | None => Ok (VStr "")
  end.
(** oidc/authorization.py:135-145; oauth2/authorization.py:906-907 never names a user *)
Definition do_request_user (e : auth_env) (request : msg) : result (option val) :=
  let* p := proposed_user request in
  if truthy p then Ok (Some p)
  else match truthy_get "login_hint" request, au_lookup e with
       | Some hint, Some f => let* u := f hint in Ok (Some u)
       | _, _ => Ok None
       end.
(** login_hint.py:4-16: a LoginHintLookup can be called, not subscripted *)
Definition supplied_lookup : val -> result val := fun _ => Raise EType.

(** What process_request returns: an error dict; an interaction (http_response and return_uri); the information
    for the response *)
Inductive answer :=
| AError (info : msg)
| AInteraction (method : string) (args : msg) (return_uri : val)
| AResponse (r : rinfo).

(** oauth2/authorization.py:909-954. [inl]: the error message of the parsing. Whatever the method raises when it is
    called is answered with a page, too (952-954). *)
Definition process_request (e : auth_env) (az : authz_env) (oidc : bool) (request : msg + msg) : W answer :=
  match request with
  | inl m => ret (AError m)
  | inr request =>
      cid <-- lift (msub_str "client_id" request) ;;
      clients <-- gets w_cdb ;;
      cinfo <-- lift (dsub cid clients) ;;
      (if is_nil cinfo then ret tt
       else scope <-- lift (of_option EKey (mget_list "scope" request)) ;;
            lift (check_unknown_scopes_policy (az_cx az) scope cinfo)) ;;;
      req_user <-- lift (if oidc then do_request_user e request else Ok None) ;;
      uri <-- lift (dsub "redirect_uri" request) ;;
      s <-- setup_auth e request uri cinfo req_user ;;
      match s with
      | SError info => ret (AError info)
      | SLogin name args => ret (AInteraction name args uri)
      | SDone sid _ _ => r <-- authz_part2 az (changed e request) sid ;; ret (AResponse r)
      end
  end.

(** do_response with the members of an error dict of this endpoint *)
Definition respond_error (en : encoding) (ep : endp) (info : msg) : result response :=
  let* error := msub_str "error" info in
  do_response en ep [] error
    (mkKw (dget "error_description" info) None None None None (mget_list "return_type" info) (mget_str "return_uri" info) None None).
