(** AuthzFront.v: the authorization endpoint from the received request to the answer: parse_request with the client
    authentication (endpoint.py:213-279), the hooks, also that of PKCE, and process_request. *)
From Verif Require Import Base Monad Types Ctx World ClientAuthn TokenEndpoint Uri AuthzRequest AuthzEndpoint SetupAuth Fronts.
Local Open Scope Z_scope.

(** The sessions, clients and JWT ids seen, and the pushed requests *)
Record astate := mkAS { as_front : fstate; as_pushed : pardb }.
Definition A X := ST astate X.
Definition in_front {X} (m : F X) : A X := fun a => let (r, f) := m (as_front a) in (r, mkAS f (as_pushed a)).
Definition in_pushed {X} (m : P X) : A X := fun a => let (r, p) := m (as_pushed a) in (r, mkAS (as_front a) p).

(** The hooks of the authorization endpoint: oauth2/authorization.py:290-291, oidc/authorization.py:103-104 and, with the PKCE
    add-on, pkce.py:141, called as in endpoint.py:323-330 *)
Definition authz_hooks (re : reqenv) (oidc : bool) (pk : option pkce) (client_id : option string) (rq : msg) : P AuthzRequest.parsed :=
  r <-- (if oidc then parse_authn else parse_authz) re client_id rq ;;
  ret (match r, pk with
       | Parsed m, Some k => match post_authn_parse k m with PReq m' => Parsed m' | PErr e _ => Refused e end
       | _, _ => r
       end).

(** What parsing looks at, with the present clients *)
Definition with_clients (re : reqenv) (clients : cdb) : reqenv := mkRE (re_u re) clients (re_par re) (re_supported re) (re_fetch re).

(** endpoint.py:213-279, oauth2/authorization.py:909-954. The request is parsed already. Simplification: a client id that is no str
    is looked up like a missing one. The descriptions of the errors of parsing are left out. *)
Definition authorization_request (gt : gate) (re : reqenv) (oidc : bool) (pk : option pkce) (e : auth_env) (az : authz_env) (rq : msg) (auth : authz_data) : A answer :=
  '(rq', cid) <-- in_front (in_auth (parse_auth (gt_out gt) (gt_ep gt) (gt_cls gt) (fun _ _ => Ok (VStr "")) (gt_aka gt) rq auth)) ;;
  p <-- (match gt_check gt cid rq' with
         | CkRaise x => raise x
         | CkBad => ret (Refused "invalid_request")
         | CkOk m =>
             clients <-- in_front (in_world (gets w_cdb)) ;;
             in_pushed (authz_hooks (with_clients re clients) oidc pk (match cid with VStr c => Some c | _ => None end) m)
         end) ;;
  in_front (in_world (process_request e az oidc (match p with Refused err => inl [("error", VStr err)]%string | Parsed m => inr m end))).
