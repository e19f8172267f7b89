(** SetupAuthSpec.v: what is said about finding out who the user is. *)
From Verif Require Import Base Monad Types SessionKey Token Grant Database DatabaseSpec Manager Ctx Scopes World
  AuthnBroker Response AuthzEndpoint SetupAuth.
Local Open Scope Z_scope.

(** The request has the value [p] in its prompt parameter. *)
Definition prompts (p : string) (request : msg) : Prop :=
  exists l, dget "prompt" request = Some (VList l) /\ In (VStr p) l.

(** The method [m], registered as [name] with the class [acr], is the one to use. *)
Definition method_for (e : auth_env) (request : msg) (name acr : string) (m : method) : Prop :=
  pick_authn_method (au_broker e) (au_hint2acrs e) request (au_method_id e) (au_acr e) = Ok (name, acr) /\
  dget name (au_methods e) = Some m.

(** The authentication the client asks for may not be older than [n] seconds: the request object says so, or else
    the request. *)
Definition asked_age (request : msg) (n : Z) : Prop :=
  match dget "__verified_request" request with
  | None => dget "max_age" request = Some (VInt n)
  | Some (VDict d) => match dget "max_age" d with
                      | Some v => v = VInt n
                      | None => dget "max_age" request = Some (VInt n)
                      end
  | Some _ => False
  end.

(** What came with the request tells the method that the user is as in [id], at time [ts], and what it tells is not the
    encoding of something else. *)
Definition finds (e : auth_env) (m : method) (request : msg) (id : msg) (ts : val) : Prop :=
  exists limit uid, age_limit request = Ok limit /\ me_auth m limit = Ok (Some id, ts) /\
    dget "uid" id = Some uid /\ au_decode e uid = Ok None.

(** Nothing is known about the user, or what is known is too old. *)
Definition nobody (m : method) (request : msg) : Prop :=
  exists limit, age_limit request = Ok limit /\
    ((exists ts, me_auth m limit = Ok (None, ts)) \/ me_auth m limit = Raise EToOld \/ me_auth m limit = Raise EUnknownToken).

(** The request of client [cid] passes the checks made first; [cinfo] is what is known about the client. *)
Definition entered (e : auth_env) (az : authz_env) (oidc : bool) (w : world) (request : msg) (cid : string) (cinfo : msg)
           (uri : val) : Prop :=
  dget "client_id" request = Some (VStr cid) /\ dget cid (w_cdb w) = Some cinfo /\
  (cinfo = [] \/ exists scope, mget_list "scope" request = Some scope /\ check_unknown_scopes_policy (az_cx az) scope cinfo = Ok tt) /\
  dget "redirect_uri" request = Some uri /\
  (if oidc then do_request_user e request else Ok None) = Ok None.

(** How long an authentication with method [m] lasts *)
Definition lifetime (m : method) : Z := if me_expires m =? 0 then 3600 else me_expires m.

(** The event recorded in a session *)
Definition event_of (s : store) (u c g : string) : option authn_event :=
  match view s [u; c; g] with Some (EGrant gr) => g_authn gr | _ => None end.
