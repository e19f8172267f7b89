(** TokenEndpoint.v: the token endpoint (oidc/token.py), from the hooks of parse_request on; and PKCE
    (oidc/add_on/pkce.py). Client authentication comes before, see ClientAuthn.v. *)
From Verif Require Import Base Monad Types SessionKey Token Grant Database Manager Ctx UserInfo World Minting.
Local Open Scope Z_scope.

(** What the hooks of parse_request return: the request or an error message *)
Inductive parsed := PReq (request : msg) | PErr (error description : string).

(** [s.replace(" ", "+")] *)
Fixpoint blank_to_plus (s : string) : string :=
  match s with
  | EmptyString => EmptyString
  | String a s' => String (if Ascii.eqb a " " then "+"%char else a) (blank_to_plus s')
  end.

Section Endpoint.
  Variable sid_of : string -> result string.      (* see UserInfo.v *)

  (** [except KeyError], [except (KeyError, UnknownToken)] *)
  Definition is_key_or_unknown (e : exn) : bool :=
    match e with EUnknownToken => true | _ => is_key_error e end.
  (** [get_session_info_by_token(request[name], grant=True)]: the session and its grant *)
  Definition session_by (value : string) : DB (session_info * grant) :=
    i <-- get_session_info_by_token sid_of value false false true false false ;;
    g <-- grant_of i ;;
    ret (i, g).
  Definition look (name : string) (request : msg) (catches : exn -> bool) : DB (option (string * session_info)) :=
    catch (v <-- lift (msub_str name request) ;;
           i <-- get_session_info_by_token sid_of v false false true false false ;;
           ret (Some (v, i)))
          catches (ret None).

  (** oidc/token.py:168-207 *)
  Definition code_parse (clock : Z) (request : msg) : DB parsed :=
    o <-- look "code" request is_key_or_unknown ;;
    match o with
    | None => ret (PErr "invalid_grant" "Unknown code")
    | Some (v, i) =>
        g <-- grant_of i ;;
        match get_token v g with
        | None => ret (PErr "invalid_request" "Wrong token type")
        | Some t =>
            if negb (tclass_eqb (t_class t) CCode) then ret (PErr "invalid_request" "Wrong token type")
            else if negb (t_active clock t) then ret (PErr "invalid_request" "Code inactive")
            else if dmem "client_id" request then ret (PReq request)
            else
              match g_authreq g with
              | None => raise EType
              | Some ar => c <-- lift (dsub "client_id" ar) ;; ret (PReq (dset "client_id" c request))
              end
        end
    end.

  (** oidc/token.py:263-305. Simplification: of the verification at 281 only the presence of the
      required refresh_token is kept. *)
  Definition refresh_parse (clock : Z) (request : msg) : DB parsed :=
    if negb (dmem "refresh_token" request) then raise EOther        (* MissingRequiredAttribute *)
    else
      o <-- look "refresh_token" request is_key_error ;;
      match o with
      | None => ret (PErr "invalid_grant" "")
      | Some (v, i) =>
          g <-- grant_of i ;;
          match get_token v g with
          | None => ret (PErr "invalid_request" "Wrong token type")
          | Some t =>
              if negb (tclass_eqb (t_class t) CRefresh) then ret (PErr "invalid_request" "Wrong token type")
              else if negb (t_active clock t) then ret (PErr "invalid_request" "Refresh token inactive")
              else ret (PReq request)
          end
      end.

  (** *** Grant types *)
  (** [HClass]: the class itself instead of an instance of it (oidc/token.py:349) *)
  Inductive helper := HCode | HRefresh | HClass.
  (** What the configuration says about a grant type: None or True; False; a dict with a class (one of the two
      of this module); anything else *)
  Inductive gt_option := GDefault | GOff | GBuilt (h : helper) | GBad.
  (** oidc/token.py:308-311 *)
  Definition HELPER_BY_GRANT_TYPE : dict helper := [("authorization_code", HCode); ("refresh_token", HRefresh)].
  (** oidc/token.py:337-374; ProcessError is [EOther] *)
  Definition configure_one (gt : string) (o : gt_option) (acc : dict helper) : result (dict helper) :=
    match o with
    | GDefault => if dmem gt HELPER_BY_GRANT_TYPE then Ok (dset gt HClass acc) else Raise EOther
    | GOff => Ok acc
    | GBuilt h => Ok (dset gt h acc)
    | GBad => Raise EOther
    end.
  Fixpoint configure_go (l : dict gt_option) (acc : dict helper) : result (dict helper) :=
    match l with
    | [] => Ok acc
    | (gt, o) :: l' => let* acc := configure_one gt o acc in configure_go l' acc
    end.
  Definition configure_grant_types (conf : option (dict gt_option)) : result (dict helper) :=
    match conf with
    | None => Ok HELPER_BY_GRANT_TYPE
    | Some l => configure_go l []
    end.

  (** oidc/token.py:376-385. A class called in place of an instance: the request is taken for [self], which
      has no attribute endpoint_context. *)
  Definition token_post_parse (helpers : dict helper) (clock : Z) (request : msg) : DB parsed :=
    gt <-- lift (msub_str "grant_type" request) ;;
    match dget gt helpers with
    | None => ret (PErr "invalid_request" ("Unsupported grant_type: " ++ gt)%string)
    | Some HCode => code_parse clock request
    | Some HRefresh => refresh_parse clock request
    | Some HClass => raise EAttr
    end.

  (** *** PKCE *)
  (** [b64e(h(x).digest())] of the three hash functions; [x.encode("ascii")] fails on other characters *)
  Variable b64hash : string -> string -> string.
  Definition is_ascii (s : string) : bool := forallb (fun a => (nat_of_ascii a <? 128)%nat) (list_ascii_of_string s).
  (** pkce.py:20-25, 77 *)
  Definition cc_method (m : string) (verifier : string) : result string :=
    if String.eqb m "plain" then Ok verifier
    else if smem m ["S256"; "S384"; "S512"] then
      if is_ascii verifier then Ok (b64hash m verifier) else Raise EValue
    else Raise EKey.
  (** pkce.py:66-82 *)
  Definition verify_code_challenge (verifier challenge m : string) : result bool :=
    let* x := cc_method m verifier in Ok (String.eqb x challenge).

  Record pkce := mkPkce { pk_essential : bool; pk_methods : list string }.
  (** pkce.py:126-157, the configuration; [None] when code_challenge_methods is not given *)
  Definition CC_METHODS : list string := ["plain"; "S256"; "S384"; "S512"].
  Definition add_pkce_support (essential : option bool) (methods : option (list string)) : result pkce :=
    let ms := match methods with Some l => l | None => CC_METHODS end in
    if forallb (fun m => smem m CC_METHODS) ms
    then Ok (mkPkce (match essential with Some b => b | None => false end) ms)
    else Raise EValue.

  (** pkce.py:28-63, a hook of the authorization endpoint *)
  Definition post_authn_parse (p : pkce) (request : msg) : parsed :=
    if pk_essential p && negb (dmem "code_challenge" request) then
      PErr "invalid_request" "Missing required code_challenge"
    else
      let request := if dmem "code_challenge_method" request then request
                     else dset "code_challenge_method" (VStr "plain") request in
      if dmem "code_challenge" request &&
         negb (match dget "code_challenge_method" request with
               | Some (VStr m) => smem m (pk_methods p)
               | _ => false
               end)
      then PErr "invalid_request" "Unsupported code_challenge_method"
      else PReq request.

  (** pkce.py:85-123, a hook of the token endpoint *)
  Definition post_token_parse (request : msg) : DB parsed :=
    o <-- look "code" request is_key_error ;;
    match o with
    | None => ret (PErr "invalid_grant" "Unknown access grant")
    | Some (_, i) =>
        g <-- grant_of i ;;
        match g_authreq g with
        | None => raise EType
        | Some ar =>
            if dmem "code_challenge" ar then
              if negb (dmem "code_verifier" request) then ret (PErr "invalid_grant" "Missing code_verifier")
              else
                m <-- lift (msub_str "code_challenge_method" ar) ;;
                v <-- lift (msub_str "code_verifier" request) ;;
                ch <-- lift (msub_str "code_challenge" ar) ;;
                ok <-- lift (verify_code_challenge v ch m) ;;
                ret (if ok then PReq request else PErr "invalid_grant" "PKCE check failed")
            else ret (PReq request)
        end
    end.

  (** endpoint.py:323-330 with the hooks of the token endpoint (oidc/token.py:328, pkce.py:142) *)
  Definition token_parse (helpers : dict helper) (with_pkce : bool) (clock : Z) (request : msg) : DB parsed :=
    r <-- token_post_parse helpers clock request ;;
    match r with
    | PErr e d => ret (PErr e d)
    | PReq rq => if with_pkce then post_token_parse rq else ret (PReq rq)
    end.

  (** *** Processing *)
  Variable cx : ctx.
  (** [idtoken.make(session_id)], see IDToken.v. It may change the client database (through get_claims);
      a JWEException or NoSuitableSigningKeys is [EServiceError]. *)
  Variable make_id_token : store -> string -> ST cdb string.

  Definition id_token_for (sid : string) : W string :=
    w <-- gets id ;; in_cdb (make_id_token (w_db w) sid).
  (** oidc/token.py:153-164, 248-259 *)
  Definition add_id_token (sid : string) (resp : msg) : W answer :=
    o <-- catch (t <-- id_token_for sid ;; ret (Some t))
                (fun e => match e with EServiceError => true | _ => false end) (ret None) ;;
    match o with
    | Some t => ret (AOk (dset "id_token" (VStr t) resp) None)
    | None => ret (AError "invalid_request" "Could not sign/encrypt id_token")
    end.

  (** [x.value], [x.expires_at] of what may be None *)
  Definition the_token (o : option token) : W token := lift (of_option EAttr o).
  (** [k in authn_req], [authn_req[k]] of what may be None *)
  Definition the_request (o : option msg) : W msg := lift (of_option EType o).

  (** oidc/token.py:82-166. [issue_refresh] is the keyword argument of that name. *)
  Definition code_process (m1 m2 : minting) (issue_refresh : option bool) (req : msg) : W answer :=
    gt <-- lift (msub_str "grant_type" req) ;;
    if negb (String.eqb gt "authorization_code") then ret (AError "invalid_request" "Unknown grant_type")
    else if negb (dmem "code" req) then ret (AError "invalid_request" "Missing code")
    else
      raw <-- lift (msub_str "code" req) ;;
      let access_code := blank_to_plus raw in
      '(i, g) <-- in_db (session_by access_code) ;;
      let code := get_token access_code g in
      ar <-- the_request (g_authreq g) ;;
      mismatch <-- (match dget "redirect_uri" ar with
                    | Some u => u' <-- lift (dsub "redirect_uri" req) ;; ret (negb (val_eqb u' u))
                    | None => ret false
                    end) ;;
      if mismatch : bool then ret (AError "invalid_request" "redirect_uri mismatch")
      else
        let refresh := match issue_refresh with Some b => b | None => smem "offline_access" (g_scope g) end in
        let resp := [("token_type", VStr "Bearer"); ("scope", vstrs (g_scope g))] in
        '(o, g1) <-- endpoint_mint cx m1 (in_sid i) g "access_token" code ;;
        at_ <-- the_token o ;;
        let resp := dset "expires_in" (VInt (t_expires_at at_ - mt_clock m1))
                      (dset "access_token" (VStr (t_value at_)) resp) in
        '(g2, resp) <-- (if refresh then
                           '(o, g2) <-- endpoint_mint cx m2 (in_sid i) g1 "refresh_token" code ;;
                           rt <-- the_token o ;;
                           ret (g2, dset "refresh_token" (VStr (t_value rt)) resp)
                         else ret (g1, resp)) ;;
        (match code with Some _ => ret tt | None => raise EAttr end) ;;;
        in_db (mset (in_sid i) (EGrant (upd_token access_code register_usage g2))) ;;;
        scope <-- lift (dsub "scope" ar) ;;
        openid <-- lift (val_in (VStr "openid") scope) ;;
        if openid : bool then add_id_token (in_sid i) resp else ret (AOk resp None).

  (** oidc/token.py:211-261. The rules given to the new refresh token at 245 come after the grant was
      written. *)
  Definition refresh_process (sharing : bool) (m1 m2 : minting) (req : msg) : W answer :=
    gt <-- lift (msub_str "grant_type" req) ;;
    if negb (String.eqb gt "refresh_token") then ret (AError "invalid_request" "Wrong grant_type")
    else
      value <-- lift (msub_str "refresh_token" req) ;;
      '(i, g) <-- in_db (session_by value) ;;
      let token := get_token value g in
      '(o, g1) <-- endpoint_mint cx m1 (in_sid i) g "access_token" token ;;
      at_ <-- the_token o ;;
      let resp := [("access_token", VStr (t_value at_)); ("token_type", VStr "Bearer"); ("scope", vstrs (g_scope g1))] in
      let resp := if t_expires_at at_ =? 0 then resp
                  else dset "expires_in" (VInt (t_expires_at at_ - mt_clock m1)) resp in
      t <-- the_token token ;;
      mints <-- lift (of_option EType (ur_mints (t_rules t))) ;;
      resp <-- (if smem "refresh_token" mints then
                  '(o, g2) <-- endpoint_mint cx m2 (in_sid i) g1 "refresh_token" token ;;
                  rt <-- the_token o ;;
                  in_db (poke sharing (session_key (unpack_session_key (in_sid i))) (EGrant (upd_newest (t_set_rules (t_rules t)) g2))) ;;;
                  ret (dset "refresh_token" (VStr (t_value rt)) resp)
                else ret resp) ;;
      if smem "id_token" mints then add_id_token (in_sid i) resp else ret (AOk resp None).

  (** oidc/token.py:387-429. The cookie is left out; making it changes no state. *)
  Definition token_process (sharing : bool) (helpers : dict helper) (m1 m2 : minting) (issue_refresh : option bool)
             (request : parsed) : W answer :=
    match request with
    | PErr e d => ret (AError e d)
    | PReq rq =>
        gt <-- lift (msub_str "grant_type" rq) ;;
        match dget gt helpers with
        | None => ret (AError "invalid_request" ("Unsupported grant_type: " ++ gt)%string)
        | Some HClass => raise EType          (* process_request() missing an argument *)
        | Some h =>
            a <-- (match h with
                   | HCode => code_process m1 m2 issue_refresh rq
                   | _ => refresh_process sharing m1 m2 rq
                   end) ;;
            match a with
            | AError e d => ret (AError e d)
            | AOk args _ =>
                v <-- lift (msub_str "access_token" args) ;;
                in_db (session_by v) ;;;
                ret (AOk args None)
            end
        end
    end.
End Endpoint.
