(** IDToken.v: the ID Token (id_token.py). *)
From Verif Require Import Base Monad Types SessionKey Token Grant Database Manager Ctx Claims UserInfo.
Local Open Scope Z_scope.

(** id_token.py:14-21 *)
Definition DEF_SIGN_ALG : dict string :=
  [("id_token", "RS256"); ("userinfo", "RS256"); ("request_object", "RS256"); ("client_secret_jwt", "HS256"); ("private_key_jwt", "RS256")].
Definition DEF_LIFETIME : Z := 300.

(** id_token.py:24-51. A [where_] is "front" or "back". The client database maps to dicts. *)
Definition include_session_id (cx : ctx) (clients : cdb) (client_id where_ : string) : bool :=
  let supported p := match dget p (cx_provider_info cx) with Some v => truthy v | None => false end in
  supported (where_ ++ "channel_logout_supported")%string && supported (where_ ++ "channel_logout_session_supported")%string &&
  match dget client_id clients with
  | Some info => dmem (where_ ++ "channel_logout_uri")%string info
  | None => false
  end.

(** [v[0]] *)
Definition first_of (v : val) : result val :=
  match v with
  | VList (x :: _) => Ok x
  | VList [] => Raise EIndex
  | VStr (String c _) => Ok (VStr (String c ""))
  | VStr EmptyString => Raise EIndex
  | VDict _ => Raise EKey
  | _ => Raise EType
  end.
(** [jwx_def[what][payload_type]], None for a KeyError *)
Definition jwx_get (jwx : msg) (what payload_type : string) : result (option val) :=
  match dget what jwx with
  | None => Ok None
  | Some (VDict d) => Ok (dget payload_type d)
  | Some _ => Raise EType
  end.

Record algs := mkAlgs { al_sign : option val; al_encrypt : option (val * val) }.   (* sign_alg; enc_alg, enc_enc *)

(** id_token.py:58-75 *)
Definition choose_sign (cx : ctx) (jwx cinfo : msg) (payload_type : string) : result val :=
  match dget (payload_type ++ "_signed_response_alg")%string cinfo with
  | Some v => Ok v
  | None =>
      let* o := jwx_get jwx "signing_alg" payload_type in
      match o with
      | Some v => Ok v
      | None =>
          let* d := of_option EKey (dget payload_type DEF_SIGN_ALG) in
          let* supported := dsub (payload_type ++ "_signing_alg_values_supported")%string (cx_provider_info cx) in
          let* b := val_in (VStr d) supported in
          if b then Ok (VStr d) else first_of supported
      end
  end.
(** id_token.py:78-88 and 91-102 *)
Definition choose_enc (cx : ctx) (jwx cinfo : msg) (payload_type registered what supported : string) : result val :=
  match dget (payload_type ++ registered)%string cinfo with
  | Some v => Ok v
  | None =>
      let* o := jwx_get jwx what payload_type in
      match o with
      | Some v => Ok v
      | None => let* l := dsub (payload_type ++ supported)%string (cx_provider_info cx) in first_of l
      end
  end.
(** id_token.py:54-104 *)
Definition get_algorithms (cx : ctx) (jwx cinfo : msg) (payload_type : string) (sign encrypt : bool) : result algs :=
  let* s := (if sign then let* v := choose_sign cx jwx cinfo payload_type in Ok (Some v) else Ok None) in
  let* e := (if encrypt then
               let* a := choose_enc cx jwx cinfo payload_type "_encrypted_response_alg" "encryption_alg" "_encryption_alg_values_supported" in
               let* n := choose_enc cx jwx cinfo payload_type "_encrypted_response_enc" "encryption_enc" "_encryption_enc_values_supported" in
               Ok (Some (a, n))
             else Ok None) in
  Ok (mkAlgs s e).

(** What the ID Token maker takes from outside: endpoint_context.jwx_def; the keyword lifetime; left_hash
    (cryptojwt), by hash algorithm and text; JWT(keyjar, iss, lifetime, algorithms).pack(payload, recv), where
    [EServiceError] stands for JWEException and NoSuitableSigningKeys. *)
Record idconf := mkIC {
  ic_jwx : msg;
  ic_lifetime : option Z;
  ic_hash : string -> string -> result val;
  ic_pack : string -> Z -> algs -> msg -> string -> result string }.

(** [s[-3:]] *)
Definition last3 (s : string) : string := substring (String.length s - 3) 3 s.

(** id_token.py:168 *)
Definition reserved : list string := ["iss"; "sub"; "aud"; "exp"; "acr"; "nonce"; "auth_time"].

(** id_token.py:144-148 *)
Definition event_claims (ae : option authn_event) : msg :=
  match ae with
  | Some ae =>
      (if ae_authn_time ae =? 0 then [] else [("auth_time", VInt (ae_authn_time ae))]) ++
      match ae_authn_info ae with Some a => if nonempty a then [("acr", VStr a)] else [] | None => [] end
  | None => []
  end.

(** id_token.py:150-159 *)
Definition id_user_info (cx : ctx) (clients : cdb) (user_id : string) (g : grant) (args : msg) : result msg :=
  match option_map (resolve clients) (dget "id_token" (g_claims g)) with
  | None | Some [] => Ok []
  | Some restriction =>
      let* info := get_user_claims cx user_id restriction in
      match dget "acr" restriction, dget "acr" args with
      | Some spec, Some acr => let* m := claims_match (Some acr) spec in if m then Ok info else Raise EValue
      | _, _ => Ok info
      end
  end.

Definition add_hash (ic : idconf) (name halg : string) (x : option string) (args : msg) : result msg :=
  match x with
  | Some x => if nonempty x then let* h := ic_hash ic halg x in Ok (dset name h args) else Ok args
  | None => Ok args
  end.

(** id_token.py:122-193 *)
Definition payload (ic : idconf) (cx : ctx) (clients : cdb) (s : store) (sid alg : string) (code access_token : option string)
    (extra_claims : option msg) : result msg :=
  let* i := fst (get_session_info sid false false true false false s) in
  let* g := fst (grant_of i s) in
  let args := ("sub", VStr (g_sub g)) :: event_claims (g_authn g) in
  let* info := id_user_info cx clients (in_uid i) g args in
  let args := dupdate args (fold_left (fun m k => ddel k m) reserved info) in
  let args := match extra_claims with Some x => dupdate args x | None => args end in
  let halg := ("HS" ++ last3 alg)%string in
  let* args := add_hash ic "c_hash" halg code args in
  let* args := add_hash ic "at_hash" halg access_token args in
  Ok (match g_authreq g with
      | Some ar => match dget "nonce" ar with Some v => dset "nonce" v args | None => args end
      | None => args
      end).

(** id_token.py:195-242 with sign=True, encrypt=False, as make calls it. Simplification: a sign_alg that is not a str is a
    TypeError. *)
Definition sign_encrypt (ic : idconf) (cx : ctx) (clients : cdb) (s : store) (sid client_id : string) (code access_token : option string)
    (extra_claims : option msg) : result string :=
  let* cinfo := of_option EKey (dget client_id clients) in
  let* al := get_algorithms cx (ic_jwx ic) cinfo "id_token" true false in
  let* alg := match al_sign al with Some (VStr a) => Ok a | Some _ => Raise EType | None => Raise EKey end in
  let* p := payload ic cx clients s sid alg code access_token extra_claims in
  ic_pack ic (cx_issuer cx) (match ic_lifetime ic with Some n => n | None => DEF_LIFETIME end) al p client_id.

(** id_token.py:244-276. Line 255: uuid4() gives a UUID, and those have no get_hex (since Python 3). *)
Definition make (ic : idconf) (cx : ctx) (clients : cdb) (s : store) (sid : string) (code access_token : option string) : result string :=
  let* ucg := unpack3 sid in
  let '(_, client_id, _) := ucg in
  if include_session_id cx clients client_id "back" || include_session_id cx clients client_id "front" then Raise EAttr
  else sign_encrypt ic cx clients s sid client_id code access_token (Some []).

(** as the token endpoint calls it (oidc/token.py:155, 250) *)
Definition make_for_token (ic : idconf) (cx : ctx) : store -> string -> ST cdb string :=
  fun s sid clients => (make ic cx clients s sid None None, clients).
(** as the authorization endpoint calls it (oauth2/authorization.py:702-712) *)
Definition make_for_authz (ic : idconf) (cx : ctx) : store -> string -> option string -> option string -> ST cdb (option string) :=
  fun s sid code access_token clients =>
    (match make ic cx clients s sid code access_token with
     | Ok t => Ok (Some t)
     | Raise EServiceError => Ok None
     | Raise x => Raise x
     end, clients).
