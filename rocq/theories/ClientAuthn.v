(** ClientAuthn.v: how a request is tied to a client. Models client_authn.py and the authentication
    part of endpoint.py.

    Not modelled: authentication methods given as a class path (client_authn.py:440-447) and client
    database entries that are strings (aliases): for these [valid_client_info] raises
    AttributeError (client_authn.py:392-397, 315), so no request of such a client is accepted. *)
From Verif Require Import Base Types Monad Ctx.

(** client_authn.py:300-309, the classes a configuration can name; [None] ("none") is the absence of a
    class, hence methods of an endpoint are a [list (option cmethod)]. *)
Inductive cmethod := MBasic | MPost | MBearerHeader | MBearerBody | MSecretJwt | MPrivateJwt | MRequestParam.

Definition tag (m : cmethod) : string :=
  match m with
  | MBasic => "client_secret_basic"
  | MPost => "client_secret_post"
  | MBearerHeader => "bearer_header"
  | MBearerBody => "bearer_body"
  | MSecretJwt => "client_secret_jwt"
  | MPrivateJwt => "private_key_jwt"
  | MRequestParam => "request_param"
  end.

(** client_authn.py:430-449, endpoint.py:192-203. What the configuration gives for
    client_authn_method: missing (or None), something empty, or a list of names. [EAttr]: a name that
    is not known is imported as a class path (not modelled); "none" is written in lower case, and an item that is
    a dict (a class with arguments) is not modelled. When the key is missing the class's
    default_capabilities decide, here [default]. *)
Definition method_of (name : string) : result (option cmethod) :=
  if String.eqb name "client_secret_basic" then Ok (Some MBasic)
  else if String.eqb name "client_secret_post" then Ok (Some MPost)
  else if String.eqb name "bearer_header" then Ok (Some MBearerHeader)
  else if String.eqb name "bearer_body" then Ok (Some MBearerBody)
  else if String.eqb name "client_secret_jwt" then Ok (Some MSecretJwt)
  else if String.eqb name "private_key_jwt" then Ok (Some MPrivateJwt)
  else if String.eqb name "request_param" then Ok (Some MRequestParam)
  else if String.eqb name "none" then Ok None
  else Raise EAttr.
Fixpoint client_auth_setup (l : list string) : result (list (option cmethod)) :=
  match l with
  | [] => Ok []
  | n :: l' => let* m := method_of n in let* r := client_auth_setup l' in Ok (m :: r)
  end.
Definition endpoint_methods (conf default : option (list string)) : result (list (option cmethod)) :=
  match conf with
  | Some [] => Ok [None]
  | Some l => client_auth_setup l
  | None => match default with
            | Some l => client_auth_setup l
            | None => Ok []
            end
  end.

(** A verified and decoded JWT (cryptojwt's [JWT.unpack] with oidcmsg's JsonWebToken): the header
    values and claims that are read. *)
Record jwt := mkJwt {
  jw_alg : option string;
  jw_kid : option string;
  jw_iss : option string;
  jw_aud : option (list string);
  jw_jti : option string }.

(** What is outside: base64 decoding of a str to a str (base64.b64decode, as_unicode), unquote_plus,
    [JWT.unpack] with the key jar of the moment, the "oct" keys the key jar holds for an issuer and
    key id, and the clock. *)
Record outside := mkOut {
  o_b64 : string -> result string;
  o_unquote : string -> string;
  o_unpack : string -> result jwt;
  o_oct : string -> option string -> list string;
  o_now : Z }.

(** What changes: the client database and the JWT ids seen. Both are dicts here (they are what
    init_storage returns, endpoint_context.py:106-114, 253-255). *)
Record castate := mkCA { ca_cdb : cdb; ca_jti : dict Z }.

(** [auth_info]; the member "jwt" is read by nothing and left out. *)
Record auth_info := mkAI {
  ai_client : option val;
  ai_token : option val;
  ai_method : string }.

(** The endpoint as its methods see it. [ep_named]: verify_client got the keyword [endpoint].
    [ep_targets]: [allowed_target_uris()], endpoint.py:481-488. *)
Record ep := mkEp {
  ep_methods : list (option cmethod);
  ep_named : bool;
  ep_targets : list string;
  ep_issuer : string }.

(** the str without its first [n] characters *)
Fixpoint drop (n : nat) (s : string) : string :=
  match n, s with
  | S n', String _ s' => drop n' s'
  | _, _ => s
  end.

(** client_authn.py:71-82 *)
Definition basic_authn (o : outside) (authn : string) : result (string * string) :=
  if negb (starts_with "Basic " authn) then Raise EOther
  else
    let* tok := o_b64 o (drop 6 authn) in
    match map (o_unquote o) (split ":" tok) with
    | [i; s] => Ok (i, s)
    | _ => Raise EValue
    end.

(** [cdb[client]["client_secret"] == secret] *)
Definition secret_is (db : cdb) (client : string) (secret : val) : result bool :=
  let* info := dsub client db in
  let* s := dsub "client_secret" info in
  Ok (val_eqb s secret).

(** the [is_usable] methods: client_authn.py:94-97, 121-126, 144-147, 160-163, 178-183, 273-275 *)
Definition is_usable (m : cmethod) (rq : msg) (auth : option string) : bool :=
  match m with
  | MBasic => match auth with Some a => starts_with "Basic " a | None => false end
  | MPost => dmem "client_id" rq && dmem "client_secret" rq
  | MBearerHeader => match auth with Some a => starts_with "Bearer " a | None => false end
  | MBearerBody => dmem "access_token" rq
  | MSecretJwt | MPrivateJwt => dmem "client_assertion" rq
  | MRequestParam => dmem "request" rq
  end.

(** client_authn.py:99-108 *)
Definition basic_verify (o : outside) (auth : option string) : ST castate auth_info :=
  a <-- lift (of_option EAttr auth) ;;
  '(c, secret) <-- lift (basic_authn o a) ;;
  db <-- gets ca_cdb ;;
  ok <-- lift (secret_is db c (VStr secret)) ;;
  if ok : bool then ret (mkAI (Some (VStr c)) None (tag MBasic)) else raise EOther.

(** client_authn.py:128-135. A client_id that is not a str is not a key of the database. *)
Definition post_verify (rq : msg) : ST castate auth_info :=
  c <-- lift (msub_str "client_id" rq) ;;
  secret <-- lift (dsub "client_secret" rq) ;;
  db <-- gets ca_cdb ;;
  ok <-- lift (secret_is db c secret) ;;
  if ok : bool then ret (mkAI (Some (VStr c)) None (tag MPost)) else raise EOther.

(** client_authn.py:149-150; the header starts with "Bearer " *)
Definition bearer_header_verify (auth : option string) : ST castate auth_info :=
  a <-- lift (of_option EAttr auth) ;;
  ret (mkAI None (Some (VStr (drop 7 a))) (tag MBearerHeader)).

(** client_authn.py:165-174 *)
Definition bearer_body_verify (rq : msg) : ST castate auth_info :=
  match dget "access_token" rq with
  | None | Some VNone => raise EOther
  | Some t =>
      ret (mkAI (match dget "client_id" rq with
                 | Some c => if truthy c then Some c else None
                 | None => None
                 end) (Some t) (tag MBearerBody))
  end.

(** client_authn.py:224-231, 285-292: one-time use of the JWT ids *)
Definition jti_once (o : outside) (j : jwt) : ST castate unit :=
  match jw_jti j with
  | None | Some "" => ret tt
  | Some t =>
      iss <-- lift (of_option EKey (jw_iss j)) ;;
      let key := (iss ++ ":" ++ t)%string in
      seen <-- gets ca_jti ;;
      if dmem key seen then raise EMultipleUsage
      else modify (fun s => mkCA (ca_cdb s) (dset key (o_now o) (ca_jti s)))
  end.

(** client_authn.py:193-207: does the algorithm fit the method, and is the key the client's secret? *)
Definition key_check (o : outside) (private : bool) (j : jwt) (db : cdb) : result unit :=
  if match jw_alg j with Some a => starts_with "HS" a | None => false end then
    if private then Raise EAttr
    else
      let* iss := of_option EKey (jw_iss j) in
      let keys := o_oct o iss (jw_kid j) in
      let* info := dsub iss db in
      match dget "client_secret" info with
      | None => Ok tt
      | Some sec =>
          if truthy sec then
            match keys, sec with
            | k :: _, VStr s => if String.eqb k s then Ok tt else Raise EAttr
            | [], _ => Raise EIndex
            | _, _ => Raise EAttr
            end
          else Ok tt
      end
  else if private then Ok tt else Raise EAttr.

(** client_authn.py:210-222 *)
Definition aud_check (e : ep) (j : jwt) : result unit :=
  let* aud := of_option EKey (jw_aud j) in
  if ep_named e then
    if existsb (fun a => smem a (ep_targets e)) aud then Ok tt else Raise ENotForMe
  else if smem (ep_issuer e) aud then Ok tt else Raise ENotForMe.

(** client_authn.py:185-236, 249-253, 263-267. All errors of [unpack] are one exception: each ends the
    attempt. [kwargs] never holds a client_id (the only caller is verify_client:357). *)
Definition jws_verify (o : outside) (e : ep) (private : bool) (rq : msg) : ST castate auth_info :=
  s <-- lift (msub_str "client_assertion" rq) ;;
  j <-- lift (o_unpack o s) ;;
  db <-- gets ca_cdb ;;
  lift (key_check o private j db) ;;;
  lift (aud_check e j) ;;;
  jti_once o j ;;;
  iss <-- lift (of_option EKey (jw_iss j)) ;;
  ret (mkAI (Some (VStr iss)) None (tag (if private then MPrivateJwt else MSecretJwt))).

(** client_authn.py:277-297 *)
Definition request_param_verify (o : outside) (rq : msg) : ST castate auth_info :=
  s <-- lift (msub_str "request" rq) ;;
  j <-- lift (o_unpack o s) ;;
  jti_once o j ;;;
  iss <-- lift (of_option EKey (jw_iss j)) ;;
  ret (mkAI (Some (VStr iss)) None (tag MRequestParam)).

Definition verify (o : outside) (e : ep) (m : cmethod) (rq : msg) (auth : option string) : ST castate auth_info :=
  match m with
  | MBasic => basic_verify o auth
  | MPost => post_verify rq
  | MBearerHeader => bearer_header_verify auth
  | MBearerBody => bearer_body_verify rq
  | MSecretJwt => jws_verify o e false rq
  | MPrivateJwt => jws_verify o e true rq
  | MRequestParam => request_param_verify o rq
  end.

(** client_authn.py:355-372: the first usable method that verifies; what fails is passed over *)
Fixpoint try_methods (o : outside) (e : ep) (l : list (option cmethod)) (rq : msg) (auth : option string)
  : ST castate (option auth_info) :=
  match l with
  | [] => ret None
  | None :: l' => try_methods o e l' rq auth
  | Some m :: l' =>
      if is_usable m rq auth
      then catch (x <-- verify o e m rq auth ;; ret (Some x)) (fun _ => true) (try_methods o e l' rq auth)
      else try_methods o e l' rq auth
  end.

(** client_authn.py:314-318. An expiry time that is not an int (or bool) cannot be compared. *)
Definition valid_client_info (now : Z) (info : msg) : result bool :=
  match dget "client_secret_expires_at" info with
  | None => Ok true
  | Some (VInt z) => Ok ((z =? 0)%Z || negb (z <? now)%Z)
  | Some (VBool b) => Ok ((Z.b2z b =? 0)%Z || negb (Z.b2z b <? now)%Z)
  | Some _ => Raise EType
  end.

(** client_authn.py:402-413: the method is noted at the client's entry, per request class *)
Definition note_method (cls : string) (c method : string) (info : msg) : ST castate unit :=
  match truthy_get "auth_method" info with
  | Some (VDict d) =>
      modify (fun s => mkCA (dset c (dset "auth_method" (VDict (dset cls (VStr method) d)) info) (ca_cdb s))
                            (ca_jti s))
  | Some _ => raise EType
  | None =>
      modify (fun s => mkCA (dset c (dset "auth_method" (VDict [(cls, VStr method)]) info) (ca_cdb s))
                            (ca_jti s))
  end.

(** client_authn.py:388-413: a client id that was reported *)
Definition known_client (o : outside) (cls : string) (cid : val) (method : string) : ST castate unit :=
  match cid with
  | VStr c =>
      db <-- gets ca_cdb ;;
      match dget c db with
      | None => raise EUnknownClient
      | Some info =>
          ok <-- lift (valid_client_info (o_now o) info) ;;
          if ok : bool then note_method cls c method info else raise EInvalidClient
      end
  | VList _ | VDict _ => raise EType
  | _ => raise EUnknownClient
  end.

(** client_authn.py:343-345: a dict of authorization data is made one str *)
Inductive authz_data := NoAuthz | AuthzStr (s : string) | AuthzDict (d : dict string).
Definition authz_str (a : authz_data) : option string :=
  match a with
  | NoAuthz => None
  | AuthzStr s => Some s
  | AuthzDict d => Some (join " " (map (fun kv => (fst kv ++ " " ++ snd kv)%string) d))
  end.

(** Two dicts: [also_known_as]; an empty one counts as absent. *)
Definition alias (aka : dict string) (client : option val) : result (option val) :=
  if is_nil aka then Ok client
  else match client with
       | Some (VStr c) => let* d := dsub c aka in Ok (Some (VStr d))
       | Some (VList _) | Some (VDict _) => Raise EType
       | _ => Raise EKey
       end.

(** client_authn.py:321-427. [None] is the empty dict. [cls] is the name of the request's class,
    [of_token] the callback (it gets the token; a KeyError becomes a ValueError). *)
Definition verify_client (o : outside) (e : ep) (cls : string) (of_token : option (val -> result val))
           (aka : dict string) (rq : msg) (auth : authz_data) : ST castate (option auth_info) :=
  let a := authz_str auth in
  let methods := if ep_named e then ep_methods e else [] in
  found <-- try_methods o e methods rq a ;;
  match match found with
        | Some ai => Some ai
        | None => if existsb (fun m => match m with None => true | Some _ => false end) methods
                  then Some (mkAI (Some (match dget "client_id" rq with Some v => v | None => VNone end))
                                  None "none")
                  else None
        end with
  | None => ret None
  | Some ai =>
      cid <-- lift (alias aka (ai_client ai)) ;;
      let ai := mkAI cid (ai_token ai) (ai_method ai) in
      if match cid with Some v => truthy v | None => false end then
        known_client o cls (match cid with Some v => v | None => VNone end) (ai_method ai) ;;;
        ret (Some ai)
      else
        match of_token with
        | None => ret (Some ai)
        | Some f =>
            match ai_token ai with
            | None => raise EValue
            | Some t =>
                if truthy t then
                  c <-- lift (match f t with
                              | Raise err => if is_key_error err then Raise EValue else Raise err
                              | Ok c => Ok c
                              end) ;;
                  ret (Some (mkAI (Some c) (Some t) (ai_method ai)))
                else raise EValue
            end
        end
  end.

(** endpoint.py:284-321. The list of methods never holds the str "none" (client_authn.py:430-449), so
    the exceptions caught at 303 are raised again. *)
Definition client_authentication (o : outside) (e : ep) (cls : string) (of_token : val -> result val)
           (aka : dict string) (rq : msg) (auth : authz_data) : ST castate (option auth_info) :=
  r <-- verify_client o e cls (Some of_token) aka rq auth ;;
  match r with
  | None => if is_nil (ep_methods e) then ret None else raise EUnAuthorizedClient
  | Some ai => ret (Some ai)
  end.

(** endpoint.py:246-266: the request as the rest of the endpoint sees it, and the client id given to the
    hooks. (UnknownOrNoAuthnMethod is raised by nothing that is called.) *)
Definition parse_auth (o : outside) (e : ep) (cls : string) (of_token : msg -> val -> result val)
           (aka : dict string) (rq : msg) (auth : authz_data) : ST castate (msg * val) :=
  r <-- client_authentication o e cls (of_token rq) aka rq auth ;;
  match r with
  | Some (mkAI (Some c) _ _) => ret (dset "client_id" c rq, c)
  | _ => ret (rq, match dget "client_id" rq with Some v => v | None => VNone end)
  end.
