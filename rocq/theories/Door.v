(** Door.v: the endpoints of one provider on one state, from the received requests on. A history is any sequence of received
    requests, of logouts, of revocations through the session manager and of changes of the client database. *)
From Verif Require Import Base Monad Types SessionKey Token Grant Database Manager ManagerSpec Ctx World Minting ClientAuthn TokenEndpoint
  Uri AuthzRequest AuthzEndpoint Logout Fronts AuthzFront System.
From Verif Require UserInfo UserinfoFront SetupAuth.
Local Open Scope Z_scope.

(** The endpoint for pushed authorization requests: endpoint.py:213-279, oauth2/pushed_authorization.py:18-38. The request is parsed
    already; the web layer answers an error message itself and calls process_request with requests only. The client id is looked at as in
    [authorization_request]. *)
Definition pushed_request (gt : gate) (re : reqenv) (uuid : string) (rq : msg) (auth : authz_data) : A (string + string) :=
  '(rq', cid) <-- in_front (in_auth (parse_auth (gt_out gt) (gt_ep gt) (gt_cls gt) (fun _ _ => Ok (VStr "")) (gt_aka gt) rq auth)) ;;
  match gt_check gt cid rq' with
  | CkRaise x => raise x
  | CkBad => ret (inl "invalid_request"%string)
  | CkOk m =>
      clients <-- in_front (in_world (gets w_cdb)) ;;
      p <-- in_pushed (parse_push (with_clients re clients) (match cid with VStr c => Some c | _ => None end) m) ;;
      match p with
      | Refused err => ret (inl err)
      | Parsed m' => u <-- in_pushed (push_request uuid m') ;; ret (inr u)
      end
  end.

(** The userinfo endpoint on this state (UserinfoFront.v) *)
Definition userinfo_at (y : setup_of) (gt : gate) (clock : Z) (rq : msg) (auth : authz_data) : F UserinfoFront.uanswer :=
  fun f =>
    let (r, s) := UserinfoFront.userinfo_request (sy_sid_of y) (gt_out gt) (gt_ep gt) (gt_cls gt) (gt_aka gt) (sy_cx y) clock rq auth
                    (UserinfoFront.mkFr (mkCA (w_cdb (fs_world f)) (fs_jti f)) (w_db (fs_world f))) in
    (r, mkFS (mkW (UserinfoFront.fr_db s) (ca_cdb (UserinfoFront.fr_ca s))) (ca_jti (UserinfoFront.fr_ca s))).

(** What arrives. Each endpoint has its gate; what it sees of the outside (the clock, keys, new ids, cookies) may be another each time. *)
Inductive knock :=
| KAuthorize (gt : gate) (re : reqenv) (oidc : bool) (pk : option pkce) (e : SetupAuth.auth_env) (az : authz_env) (rq : msg) (auth : authz_data)
| KPush (gt : gate) (re : reqenv) (uuid : string) (rq : msg) (auth : authz_data)
| KToken (gt : gate) (clock : Z) (m1 m2 : minting) (issue_refresh : option bool) (rq : msg) (auth : authz_data)
| KUserinfo (gt : gate) (clock : Z) (rq : msg) (auth : authz_data)
| KIntrospect (gt : gate) (clock : Z) (username : bool) (rq : msg) (auth : authz_data)
| KLogout (e : lo_env) (sid : string) (alla : bool)
| KRevoke (op : mop)
| KClients (f : cdb -> cdb).

(** The token endpoint of the provider *)
Definition token_at (y : setup_of) (gt : gate) (clock : Z) (m1 m2 : minting) (ir : option bool) (rq : msg) (auth : authz_data) : F UserInfo.answer :=
  token_request (sy_sid_of y) (sy_b64hash y) (sy_cx y) (sy_idtoken y) gt (sy_sharing y) (sy_helpers y) (sy_pkce y) clock m1 m2 ir rq auth.

(** The state after it *)
Definition dstep (y : setup_of) (k : knock) (a : astate) : astate :=
  match k with
  | KAuthorize gt re oidc pk e az rq auth => snd (authorization_request gt re oidc pk e az rq auth a)
  | KPush gt re uuid rq auth => snd (pushed_request gt re uuid rq auth a)
  | KToken gt clock m1 m2 ir rq auth => snd (in_front (token_at y gt clock m1 m2 ir rq auth) a)
  | KUserinfo gt clock rq auth => snd (in_front (userinfo_at y gt clock rq auth) a)
  | KIntrospect gt clock username rq auth => snd (in_front (introspection_request (sy_sid_of y) (sy_cx y) gt clock username rq auth) a)
  | KLogout e sid alla => snd (in_front (in_world (fun w => (Ok tt, snd (do_verified_logout e sid alla w)))) a)
  | KRevoke op => snd (in_front (in_world (in_db (mstep (sy_sharing y) op))) a)
  | KClients f => snd (in_front (in_world (fun w => (Ok tt, mkW (w_db w) (f (w_cdb w))))) a)
  end.

(** What has arrived, each with the state it found, the last one first *)
Definition dpast := list (knock * astate).
