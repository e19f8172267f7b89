(** DoorSpec.v: where sessions and tokens come from, in terms of what was received. *)
From Verif Require Import Base Monad Types SessionKey Token Grant Database Manager ManagerSpec Ctx World Minting ClientAuthn TokenEndpoint
  WorldSpec Uri AuthzRequest AuthzEndpoint SetupAuthSpec System SystemSpec Fronts FrontsSpec AuthzFront Door.
From Verif Require Import SetupAuth.
Local Open Scope Z_scope.

Definition clients_of (a : astate) : cdb := w_cdb (fs_world (as_front a)).
Definition sessions_of (a : astate) : store := w_db (fs_world (as_front a)).

(** What parse_request of the authorization endpoint makes of the received request: [m]. *)
Definition understood (gt : gate) (re : reqenv) (oidc : bool) (pk : option pkce) (rq : msg) (auth : authz_data) (a : astate) (m : msg) : Prop :=
  exists rq' cid ca m0 p,
    parse_auth (gt_out gt) (gt_ep gt) (gt_cls gt) (fun _ _ => Ok (VStr "")) (gt_aka gt) rq auth (mkCA (clients_of a) (fs_jti (as_front a))) = (Ok (rq', cid), ca) /\
    gt_check gt cid rq' = CkOk m0 /\
    authz_hooks (with_clients re (ca_cdb ca)) oidc pk (match cid with VStr c => Some c | _ => None end) m0 (as_pushed a) = (Ok (Parsed m), p).

(** An authorization request of client [c], registered at that time, was received and the user was recognised as [id]. *)
Definition dvisit (h : knock * astate) (e : auth_env) (az : authz_env) (c : string) (id : msg) : Prop :=
  exists gt re oidc pk rq auth m, fst h = KAuthorize gt re oidc pk e az rq auth /\ understood gt re oidc pk rq auth (snd h) m /\
    dget "client_id" m = Some (VStr c) /\ (exists info, dget c (clients_of (snd h)) = Some info) /\ recognises e m id.

(** User [u] came with client [c]; the session [g] was made, in which they are called [sub]. *)
Definition dopened (dp : dpast) (u c g sub : string) : Prop :=
  exists h e az id, In h dp /\ dvisit h e az c id /\ dget "uid" id = Some (VStr u) /\ g = au_newid e /\ sub = public_id (au_sha e) u (au_salt e).

(** User [u] came with client [c], whose request was understood to be [m]; the session [g] was made. *)
Definition came_with (dp : dpast) (u c g : string) (m : msg) : Prop :=
  exists h gt re oidc pk e az rq auth id, In h dp /\ fst h = KAuthorize gt re oidc pk e az rq auth /\ understood gt re oidc pk rq auth (snd h) m /\
    dget "client_id" m = Some (VStr c) /\ recognises e m id /\ dget "uid" id = Some (VStr u) /\ g = au_newid e.

(** The value [v] was made for the session, in a visit of its user or of someone whose identity names the session. *)
Definition dhands_out (h : knock * astate) (u c g : string) (k : tclass) (v : string) : Prop :=
  exists e az id payload, dvisit h e az c id /\
    (dget "uid" id = Some (VStr u) /\ g = au_newid e \/ dget "sid" id = Some (VStr (session_key [u; c; g]))) /\
    (k = CCode /\ mt_value (az_code az) (session_key [u; c; g]) payload = Ok v \/
     k = CAccess /\ mt_value (az_access az) (session_key [u; c; g]) payload = Ok v).

(** Where the endpoint asks for credentials, the request shows those of a registered client. *)
Definition credentials (gt : gate) (rq : msg) (auth : authz_data) (a : astate) : Prop :=
  asks (gt_ep gt) -> gt_aka gt = [] -> exists c, shows (gt_out gt) (gt_ep gt) (clients_of a) rq auth c.

(** The value [v] was made for the session by the token endpoint, for the received request [rq]. *)
Definition dexchanges (h : knock * astate) (u c g : string) (k : tclass) (v : string) (rq : msg) : Prop :=
  exists gt clock m1 m2 ir auth payload, fst h = KToken gt clock m1 m2 ir rq auth /\ credentials gt rq auth (snd h) /\
    (k = CAccess /\ mt_value m1 (session_key [u; c; g]) payload = Ok v \/
     k = CRefresh /\ mt_value m2 (session_key [u; c; g]) payload = Ok v).
(** Its call ended in an exception. *)
Definition breaks (y : setup_of) (h : knock * astate) : Prop :=
  exists gt clock m1 m2 ir rq auth x f, fst h = KToken gt clock m1 m2 ir rq auth /\
    token_at y gt clock m1 m2 ir rq auth (as_front (snd h)) = (Raise x, f).

(** Where a token value of a session comes from: from a visit; or from the token endpoint, which received, with credentials where it asks
    for them, a value of the same session that was there before; or it was made there and, because the call ended in an exception,
    given to nobody. *)
Inductive dtraced (y : setup_of) : dpast -> string -> string -> string -> tclass -> string -> Prop :=
| dt_old h dp u c g k v : dtraced y dp u c g k v -> dtraced y (h :: dp) u c g k v
| dt_visit h dp u c g k v : dhands_out h u c g k v -> dtraced y (h :: dp) u c g k v
| dt_exchange h dp u c g k v rq k0 k1 v0 : dexchanges h u c g k v rq -> presents rq k0 v0 -> dtraced y dp u c g k1 v0 -> dtraced y (h :: dp) u c g k v
| dt_lost h dp u c g k v rq : dexchanges h u c g k v rq -> breaks y h -> dtraced y (h :: dp) u c g k v.

(** ** What is assumed of what arrives *)
(** Users, clients and sessions have unambiguous names (C01), as far as they are recognised or named; the check of token and introspection
    requests keeps what is read; the session manager is used to revoke and remove only. *)
Definition knock_ok (k : knock) (a : astate) : Prop :=
  match k with
  | KAuthorize gt re oidc pk e az rq auth => forall m, understood gt re oidc pk rq auth a m -> call_ok (SAuthorize e az oidc (inr m))
  | KToken gt _ _ _ _ _ _ => keeps (gt_check gt)
  | KRevoke op => call_ok (SRevoke op)
  | _ => True
  end.

(** A state of the provider with what has arrived so far; at the beginning there are no sessions. *)
Inductive arrivals (y : setup_of) : astate -> dpast -> Prop :=
| ar_start clients jti pushed : arrivals y (mkAS (mkFS (mkW [] clients) jti) pushed) []
| ar_step a dp k : arrivals y a dp -> knock_ok k a -> arrivals y (dstep y k a) ((k, a) :: dp).
