(** Fronts.v: the token and the introspection endpoint from the received request to the answer: parse_request with the client
    authentication (endpoint.py:213-279), the hooks and process_request. *)
From Verif Require Import Base Monad Types Token Grant Database Ctx World Minting ClientAuthn UserInfo TokenEndpoint.
Local Open Scope Z_scope.

(** The sessions and clients, and the JWT ids seen *)
Record fstate := mkFS { fs_world : world; fs_jti : dict Z }.
Definition F A := ST fstate A.
Definition in_world {A} (m : W A) : F A := fun f => let (r, w) := m (fs_world f) in (r, mkFS w (fs_jti f)).
Definition in_auth {A} (m : ST castate A) : F A :=
  fun f => let (r, ca) := m (mkCA (w_cdb (fs_world f)) (fs_jti f)) in (r, mkFS (mkW (w_db (fs_world f)) (ca_cdb ca)) (ca_jti ca)).

(** [req.verify(keyjar, opponent_id)] of the class of the request (oidcmsg): the request, which it may add to, one of the exceptions caught
    at endpoint.py:273, or another. *)
Inductive checked := CkOk (m : msg) | CkBad | CkRaise (x : exn).

(** What an endpoint has: the outside, its methods, the name of the request class, also_known_as and the check of requests. *)
Record gate := mkGate { gt_out : outside; gt_ep : ep; gt_cls : string; gt_aka : dict string; gt_check : val -> msg -> checked }.

(** endpoint.py:213-279 before the hooks; the request is parsed already. [None]: the error message invalid_request. endpoint.py:281-282: with a
    token and no client id the client id is "". *)
Definition received (gt : gate) (rq : msg) (auth : authz_data) : ST castate (option msg) :=
  '(rq', cid) <-- parse_auth (gt_out gt) (gt_ep gt) (gt_cls gt) (fun _ _ => Ok (VStr "")) (gt_aka gt) rq auth ;;
  match gt_check gt cid rq' with
  | CkOk m => ret (Some m)
  | CkBad => ret None
  | CkRaise x => raise x
  end.

Section Token.
  Variable sid_of : string -> result string.
  Variable b64hash : string -> string -> string.
  Variable cx : ctx.
  Variable idt : store -> string -> ST cdb string.
  (** The token endpoint: endpoint.py:279, then oidc/token.py:387-429 with what parse_request returned *)
  Definition token_request (gt : gate) (sharing : bool) (helpers : dict helper) (with_pkce : bool) (clock : Z) (m1 m2 : minting) (issue_refresh : option bool)
      (rq : msg) (auth : authz_data) : F answer :=
    r <-- in_auth (received gt rq auth) ;;
    p <-- (match r with
           | None => ret (PErr "invalid_request" "")
           | Some m => in_world (in_db (token_parse sid_of b64hash helpers with_pkce clock m))
           end) ;;
    in_world (token_process sid_of cx idt sharing helpers m1 m2 issue_refresh p).

  (** The introspection endpoint: no hooks; a request with a member "error" is handed back (oauth2/introspection.py:64-65). *)
  Inductive ianswer := IRefused (error : string) | IBack (request : msg) | IAnswer (args : msg).
  Definition introspection_request (gt : gate) (clock : Z) (username : bool) (rq : msg) (auth : authz_data) : F ianswer :=
    r <-- in_auth (received gt rq auth) ;;
    match r with
    | None => ret (IRefused "invalid_request")
    | Some m =>
        if dmem "error" m then ret (IBack m)
        else
          clients <-- in_world (gets w_cdb) ;;
          a <-- in_world (in_db (introspection_process sid_of cx clients clock username m)) ;;
          ret (match a with AOk args _ => IAnswer args | AError e _ => IRefused e end)
    end.
End Token.
