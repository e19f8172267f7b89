(** UserInfo.v: the userinfo endpoint (oidc/userinfo.py) and the introspection endpoint
    (oauth2/introspection.py), the parts that act on a parsed request. *)
From Verif Require Import Base Types Monad Token Grant Database Manager Ctx Claims.

(** What an endpoint's [process_request] returns: an error message, or response_args (and the client id) *)
Inductive answer :=
| AError (error description : string)
| AOk (response_args : msg) (client_id : option string).

Section Endpoint.
  (** [token_handler.info(value)["sid"]], see TokenHandler.v [th_sid] *)
  Variable sid_of : string -> result string.

  (** session/manager.py:374-388 *)
  Definition get_session_info_by_token (value : string) (usi csi grant ae ar : bool) : DB session_info :=
    sid <-- lift (sid_of value) ;;
    get_session_info sid usi csi grant ae ar.

  (** the grant of [_session_info["grant"]] *)
  Definition grant_of (i : session_info) : DB Types.grant :=
    match in_grant i with Some e => as_grant e | None => raise EKey end.

  (** oidc/userinfo.py:50-52 *)
  Definition get_client_id_from_token (value : string) : DB string :=
    i <-- get_session_info_by_token value false false false false false ;;
    ret (in_cid i).

  (** The claims under a usage in [grant.claims.get(usage)]; [None] and {} are the same to the callers. *)
  Definition grant_claims (clients : cdb) (usage : string) (g : Types.grant) : msg :=
    match dget usage (g_claims g) with Some r => resolve clients r | None => [] end.

  (** oidc/userinfo.py:109-154 *)
  Definition userinfo_process (cx : ctx) (clients : cdb) (clock : Z) (request : msg) : DB answer :=
    value <-- lift (msub_str "access_token" request) ;;
    i <-- get_session_info_by_token value false false true false false ;;
    g <-- grant_of i ;;
    match get_token value g with
    | Some t =>
        if negb (tclass_eqb (t_class t) CAccess) then ret (AError "invalid_token" "Wrong type of token")
        else if negb (t_active clock t) then ret (AError "invalid_token" "Invalid Token")
        else
          match g_authn g with
          | None => raise EType
          | Some ae =>
              if (clock <? ae_valid_until ae)%Z then
                info <-- lift (get_user_claims cx (in_uid i) (grant_claims clients "userinfo" g)) ;;
                ret (AOk (dset "sub" (VStr (g_sub g)) info) (Some (in_cid i)))
              else
                ret (AOk [("error", VStr "invalid_request"); ("error_description", VStr "Access not granted")]
                         (Some (in_cid i)))
          end
    | None => ret (AError "invalid_token" "Wrong type of token")
    end.

  (** oidc/userinfo.py:54-107: how the answer is packed. *)
  Inductive packing := PJson | PJwt (sign_alg : option val) (enc : option (val * val)).
  Definition userinfo_packing (clients : cdb) (client_id : string) : result packing :=
    if negb (nonempty client_id) then Raise EOther      (* MissingValue *)
    else
      let* cinfo := dsub client_id clients in
      let sign := dget "userinfo_signed_response_alg" cinfo in
      let enc := match dget "userinfo_encrypted_response_enc" cinfo, dget "userinfo_encrypted_response_alg" cinfo with
                 | Some e, Some a => Some (e, a)
                 | _, _ => None
                 end in
      Ok (match sign, enc with None, None => PJson | _, _ => PJwt sign enc end).

  (** oauth2/introspection.py:26-54 *)
  Definition introspect (cx : ctx) (clock : Z) (t : token) (client_id : string) (g : Types.grant) : option msg :=
    if negb (smem (t_type t) ["access_token"; "refresh_token"]) then None
    else if negb (t_active clock t) then None
    else
      let scope := if is_nil (t_scope t) then g_scope g else t_scope t in
      let aud := if is_nil (t_resources t) then g_resources g else t_resources t in
      let m := [("active", VBool true); ("scope", VStr (join " " scope)); ("client_id", VStr client_id);
                ("token_type", VStr (t_type t)); ("exp", VInt (t_expires_at t)); ("iat", VInt (t_issued_at t));
                ("sub", VStr (g_sub g)); ("iss", VStr (cx_issuer cx))] in
      Some (if is_nil aud then m else dset "aud" (vstrs aud) m).

  (** oauth2/introspection.py:56-102. [username] tells whether the endpoint is configured to release
      it (82-87). [weed] (90) drops names that are not standard; there are none. That a request with a member
      "error" is handed back (66-67) is in Fronts.v. *)
  Definition introspection_process (cx : ctx) (clients : cdb) (clock : Z) (username : bool) (request : msg) : DB answer :=
    value <-- lift (msub_str "token" request) ;;
    let no := AOk [("active", VBool false)] None in
    s <-- gets id ;;
    match fst (get_session_info_by_token value false false true false false s) with
    | Raise EUnknownToken => ret no
    | Raise e => raise e
    | Ok i =>
        g <-- grant_of i ;;
        match get_token value g with
        | None => raise EAttr
        | Some t =>
            match introspect cx clock t (in_cid i) g with
            | None => ret no
            | Some info =>
                let info := if username then dset "username" (VStr (in_uid i)) info else info in
                let resp := dupdate [("active", VBool false)] info in
                let restriction := grant_claims clients "introspection" g in
                ui <-- lift (if is_nil restriction then Ok [] else get_user_claims cx (in_uid i) restriction) ;;
                ret (AOk (dset "active" (VBool true) (dupdate resp ui)) None)
            end
        end
    end.
End Endpoint.
