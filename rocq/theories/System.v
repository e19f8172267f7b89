(** System.v: the endpoints of one provider on one state. A history is any sequence of calls: authorization requests,
    token requests (parsed, and processed at any later time), userinfo and introspection requests, logouts, revocations
    through the session manager, and changes of the client database by whoever administers it or registers clients. *)
From Verif Require Import Base Monad Types SessionKey Token Grant Database Manager ManagerSpec Ctx UserInfo World Minting TokenEndpoint
  AuthzEndpoint Logout.
From Verif Require SetupAuth.
Local Open Scope Z_scope.

(** How the provider is set up: what the endpoints take from outside in every call (see the files of the endpoints). *)
Record setup_of := mkSy {
  sy_sid_of : string -> result string;
  sy_b64hash : string -> string -> string;
  sy_cx : ctx;
  sy_idtoken : store -> string -> ST cdb string;
  sy_sharing : bool;
  sy_helpers : dict helper;
  sy_pkce : bool }.

(** A call. What changes from call to call (the clock, new ids, the methods' view of cookies and headers) comes with it. *)
Inductive call :=
| SAuthorize (e : SetupAuth.auth_env) (az : authz_env) (oidc : bool) (request : msg + msg)   (* oauth2/authorization.py:909-954 *)
| SParse (clock : Z) (request : msg)                                      (* oidc/token.py:376-385, pkce.py:85-123 *)
| SProcess (m1 m2 : minting) (issue_refresh : option bool) (n : nat)      (* oidc/token.py:387-429, the [n]-th request accepted *)
| SUserinfo (clock : Z) (request : msg)                                   (* oidc/userinfo.py:109-154 *)
| SIntrospect (clock : Z) (username : bool) (request : msg)               (* oauth2/introspection.py:56-102 *)
| SLogout (e : lo_env) (sid : string) (alla : bool)                       (* oidc/session.py:365-391 *)
| SRevoke (op : mop)                                                      (* session/manager.py:227-243, 274-300, 430-432 *)
| SClients (f : cdb -> cdb).

(** What comes of it *)
Inductive outcome :=
| OAuthorize (r : result SetupAuth.answer)
| OParse (r : result parsed)
| OProcess (request : msg) (r : result answer)
| OInfo (r : result answer)
| ONothing.

Record sys := mkSys { ss_world : world; ss_accepted : list msg }.

Definition sstep (y : setup_of) (o : call) (s : sys) : sys * outcome :=
  match o with
  | SAuthorize e az oidc request =>
      let (r, w) := SetupAuth.process_request e az oidc request (ss_world s) in (mkSys w (ss_accepted s), OAuthorize r)
  | SParse clock request =>
      let (r, w) := in_db (token_parse (sy_sid_of y) (sy_b64hash y) (sy_helpers y) (sy_pkce y) clock request) (ss_world s) in
      (mkSys w (match r with Ok (PReq rq) => ss_accepted s ++ [rq] | _ => ss_accepted s end), OParse r)
  | SProcess m1 m2 issue_refresh n =>
      match nth_error (ss_accepted s) n with
      | Some rq =>
          let (r, w) := token_process (sy_sid_of y) (sy_cx y) (sy_idtoken y) (sy_sharing y) (sy_helpers y) m1 m2 issue_refresh (PReq rq)
                          (ss_world s) in
          (mkSys w (ss_accepted s), OProcess rq r)
      | None => (s, ONothing)
      end
  | SUserinfo clock request =>
      let (r, w) := in_db (userinfo_process (sy_sid_of y) (sy_cx y) (w_cdb (ss_world s)) clock request) (ss_world s) in
      (mkSys w (ss_accepted s), OInfo r)
  | SIntrospect clock username request =>
      let (r, w) := in_db (introspection_process (sy_sid_of y) (sy_cx y) (w_cdb (ss_world s)) clock username request) (ss_world s) in
      (mkSys w (ss_accepted s), OInfo r)
  | SLogout e sid alla => (mkSys (snd (do_verified_logout e sid alla (ss_world s))) (ss_accepted s), ONothing)
  | SRevoke op => (mkSys (snd (in_db (mstep (sy_sharing y) op) (ss_world s))) (ss_accepted s), ONothing)
  | SClients f => (mkSys (mkW (w_db (ss_world s)) (f (w_cdb (ss_world s)))) (ss_accepted s), ONothing)
  end.

(** The calls with their outcomes, the last one first *)
Definition past := list (call * outcome).
(** Nothing has happened yet; the client database is any. *)
Definition fresh (clients : cdb) : sys := mkSys (mkW [] clients) [].
(** The state and the past after the calls in [l] *)
Fixpoint srun (y : setup_of) (l : list call) (s : sys) (p : past) : sys * past :=
  match l with
  | [] => (s, p)
  | o :: l' => let (s', r) := sstep y o s in srun y l' s' ((o, r) :: p)
  end.
