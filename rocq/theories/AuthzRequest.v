(** AuthzRequest.v: parsing of authorization requests after the message has been verified: requests by reference
    (pushed or fetched), the response type and the redirect URI (oauth2/authorization.py:300-309, 334-442,
    endpoint.py:323-330), and pushing a request (oauth2/pushed_authorization.py). *)
From Verif Require Import Base Monad Types Ctx Uri Registration AuthnBroker.

(** What parsing looks at. [re_fetch client uri]: the HTTP GET, the verification of the JWT with the keys of the
    client and the check of its algorithms (oauth2/authorization.py:366-389); [re_par]: the provider has a
    pushed_authorization endpoint; [re_supported]: the setting request_uri_parameter_supported. *)
Record reqenv := mkRE {
  re_u : urllib;
  re_cdb : cdb;
  re_par : bool;
  re_supported : bool;
  re_fetch : option string -> string -> result msg }.

(** endpoint_context.par_db: a dict from URN to request. *)
Definition pardb := dict msg.
Definition P A := ST pardb A.

(** l[0] *)
Definition first_item (v : val) : result val :=
  match v with
  | VList (x :: _) => Ok x
  | VList [] => Raise EIndex
  | VStr (String c _) => Ok (VStr (String c ""))
  | VStr "" => Raise EIndex
  | VDict _ => Raise EKey
  | _ => Raise EType
  end.

(** cdb[client_id]; None stands for the client id None *)
Definition client_sub (db : cdb) (client_id : option string) : result msg :=
  match client_id with
  | Some c => of_option EKey (dget c db)
  | None => Raise EKey
  end.

(** oauth2/authorization.py:352-393: requests by reference that are not pushed ones. The setting
    request_uri_parameter_supported is read (353-355) and not used. *)
Definition fetch_request (e : reqenv) (client_id : option string) (uri : string) (rq : msg) : result msg :=
  let* cinfo := client_sub (re_cdb e) client_id in
  let* _ :=
    match truthy_get "request_uris" cinfo with
    | None => Ok tt
    | Some v =>
        let* l := iter_val v in
        let* bases := Registration.rmap first_item l in
        if existsb (val_eqb (VStr (hd "" (split "#" uri)))) bases then Ok tt else Raise EValue
    end in
  let* ver := re_fetch e client_id uri in
  Ok (dset (verified "request") (VDict ver) (dupdate rq ver)).

(** oauth2/authorization.py:334-395 *)
Definition do_request_uri (e : reqenv) (client_id : option string) (rq : msg) : P msg :=
  match truthy_get "request_uri" rq with
  | None => ret rq
  | Some (VStr uri) =>
      if re_par e && starts_with "urn:uuid:" uri then
        db <-- gets (fun p : pardb => p) ;;
        match @dget msg uri db with
        | Some ((_ :: _) as req) => modify (@ddel msg uri) ;;; ret req
        | _ => raise EValue
        end
      else lift (fetch_request e client_id uri rq)
  | Some _ => raise EAttr
  end.

(** oauth2/authorization.py:300-309. Simplification: a response_type with members that are not str is a
    TypeError. *)
Definition word_sets (v : val) : result (list (list string)) :=
  let* l := iter_val v in
  Registration.rmap (fun x => let* s := as_str EAttr x in Ok (split " " s)) l.
Definition verify_response_type (rq cinfo : msg) : result bool :=
  let* reg := word_sets (dget_or "response_types" (VList []) cinfo) in
  let reg := match reg with [] => [["code"]] | _ => reg end in
  let* v := dsub "response_type" rq in
  let* l := iter_val v in
  let* rt := Registration.rmap (as_str EType) l in
  Ok (existsb (set_eqb rt) reg).

(** A parsed request or an error message (error_cls) *)
Inductive parsed := Refused (error : string) | Parsed (m : msg).

(** oauth2/authorization.py:397-442; the descriptions of the errors are left out *)
Definition post_parse (e : reqenv) (client_id : option string) (rq : msg) : result parsed :=
  match rq with
  | [] => Ok (Refused "invalid_request")
  | _ =>
      match client_sub (re_cdb e) client_id with
      | Ok ((_ :: _) as cinfo) =>
          let* ok := verify_response_type rq cinfo in
          if negb ok then Ok (Refused "invalid_request")
          else match get_uri (re_u e) (re_cdb e) rq "redirect_uri" with
               | Ok uri => Ok (Parsed (dset "redirect_uri" (VStr uri) rq))
               | Raise ERedirectURI | Raise EParameter | Raise EUnknownClient => Ok (Refused "invalid_request")
               | Raise x => Raise x
               end
      | _ => let* _ := dsub "client_id" rq in Ok (Refused "unauthorized_client")
      end
  end.

(** endpoint.py:323-330 with the hooks of oauth2.Authorization (oauth2/authorization.py:288-291); a request that has
    been refused is not looked at any more *)
Definition stage (e : reqenv) (client_id : option string) (p : parsed) : P parsed :=
  match p with
  | Refused x => ret (Refused x)
  | Parsed rq => rq' <-- do_request_uri e client_id rq ;; lift (post_parse e client_id rq')
  end.
Definition parse_authz (e : reqenv) (client_id : option string) (rq : msg) : P parsed :=
  stage e client_id (Parsed rq).
(** oidc/authorization.py:100-104: the hooks are added a second time *)
Definition parse_authn (e : reqenv) (client_id : option string) (rq : msg) : P parsed :=
  p <-- stage e client_id (Parsed rq) ;; stage e client_id p.
(** oauth2/pushed_authorization.py:18-22: the second hook is added again *)
Definition parse_push (e : reqenv) (client_id : option string) (rq : msg) : P parsed :=
  p <-- stage e client_id (Parsed rq) ;;
  match p with
  | Refused x => ret (Refused x)
  | Parsed rq' => lift (post_parse e client_id rq')
  end.

(** oauth2/pushed_authorization.py:24-38: the URN, once the request is stored *)
Definition urn (uuid : string) : string := ("urn:uuid:" ++ uuid)%string.
Definition push_request (uuid : string) (rq : msg) : P string :=
  modify (dset (urn uuid) rq) ;;;
  _ <-- lift (dsub "redirect_uri" rq) ;;
  ret (urn uuid).
