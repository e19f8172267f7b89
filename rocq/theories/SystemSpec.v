(** SystemSpec.v: where sessions and tokens come from. *)
From Verif Require Import Base Monad Types SessionKey Token Grant Database DatabaseSpec Manager ManagerSpec Ctx UserInfo World Minting
  TokenEndpoint WorldSpec AuthzEndpoint SetupAuthSpec System.
From Verif Require Import SetupAuth.
Local Open Scope Z_scope.

(** The authentication method in charge of the request takes the user for [id]: this is what the method says, or what is
    encoded in it. *)
Definition recognises (e : auth_env) (request : msg) (id : msg) : Prop :=
  exists name acr m limit id0 ts, method_for e request name acr m /\ age_limit request = Ok limit /\ me_auth m limit = Ok (Some id0, ts) /\
    (id = id0 \/ exists uid, dget "uid" id0 = Some uid /\ au_decode e uid = Ok (Some (VDict id))).

(** The call is an authorization request of client [c] in which the user was recognised as [id]. *)
Definition visit (o : call) (e : auth_env) (az : authz_env) (c : string) (id : msg) : Prop :=
  exists oidc request, o = SAuthorize e az oidc (inr request) /\ dget "client_id" request = Some (VStr c) /\ recognises e request id.

(** User [u] came with client [c]; the session [g] was made, in which they are called [sub]. *)
Definition opens (o : call) (u c g sub : string) : Prop :=
  exists e az id, visit o e az c id /\ dget "uid" id = Some (VStr u) /\ g = au_newid e /\ sub = public_id (au_sha e) u (au_salt e).

(** The value [v] was made for the session, in a visit of its user or of someone whose identity names the session. *)
Definition hands_out (o : call) (u c g : string) (k : tclass) (v : string) : Prop :=
  exists e az id payload, visit o e az c id /\
    (dget "uid" id = Some (VStr u) /\ g = au_newid e \/ dget "sid" id = Some (VStr (session_key [u; c; g]))) /\
    (k = CCode /\ mt_value (az_code az) (session_key [u; c; g]) payload = Ok v \/
     k = CAccess /\ mt_value (az_access az) (session_key [u; c; g]) payload = Ok v).

(** The token request presents the value [p]. *)
Definition presents (request : msg) (k : tclass) (p : string) : Prop :=
  (k = CCode /\ dget "grant_type" request = Some (VStr "authorization_code") /\
   exists raw, dget "code" request = Some (VStr raw) /\ p = blank_to_plus raw) \/
  (k = CRefresh /\ dget "grant_type" request = Some (VStr "refresh_token") /\ dget "refresh_token" request = Some (VStr p)).

(** The value [v] was made for the session [u], [c], [g] by the token endpoint, for a request with [p]. *)
Definition exchanges (h : call * outcome) (u c g : string) (k : tclass) (v : string) (request : msg) (r : result UserInfo.answer) : Prop :=
  exists m1 m2 ir n payload, h = (SProcess m1 m2 ir n, OProcess request r) /\
    (k = CAccess /\ mt_value m1 (session_key [u; c; g]) payload = Ok v \/
     k = CRefresh /\ mt_value m2 (session_key [u; c; g]) payload = Ok v).

(** The session was opened by its user at its client. *)
Definition opened (p : past) (u c g sub : string) : Prop := exists h, In h p /\ opens (fst h) u c g sub.

(** The request was accepted by the token endpoint. *)
Definition accepted (p : past) (request : msg) : Prop := exists clock r0, In (SParse clock r0, OParse (Ok (PReq request))) p.

(** Where a token value of a session comes from: from a visit; or from the token endpoint, which was given, in an accepted
    request, a value of the same session that was there before; or it was made there and, because the call ended in an
    exception, given to nobody. *)
Inductive traced : past -> string -> string -> string -> tclass -> string -> Prop :=
| tr_old h p u c g k v : traced p u c g k v -> traced (h :: p) u c g k v
| tr_visit h p u c g k v : hands_out (fst h) u c g k v -> traced (h :: p) u c g k v
| tr_exchange h p u c g k v request r k0 k1 v0 : exchanges h u c g k v request r -> accepted p request ->
    presents request k0 v0 -> traced p u c g k1 v0 -> traced (h :: p) u c g k v
| tr_lost h p u c g k v request x : exchanges h u c g k v request (Raise x) -> accepted p request -> traced (h :: p) u c g k v.

(** ** What is assumed *)
(** Users, clients and sessions have unambiguous names (C01), as far as they are recognised or named. The session manager
    is used to revoke and remove only. *)
Definition named_sid (v : val) : Prop := forall s, v = VStr s -> exists u c g, good u /\ good c /\ good g /\ s = session_key [u; c; g].
Definition call_ok (o : call) : Prop :=
  match o with
  | SAuthorize e az _ (inr request) => good (au_newid e) /\ (forall c, dget "client_id" request = Some (VStr c) -> good c) /\
      forall id, recognises e request id -> (forall u, dget "uid" id = Some (VStr u) -> good u) /\ (forall v, dget "sid" id = Some v -> named_sid v)
  | SRevoke op => match op with
                  | ORevokeClient u c g | ORevokeGrant u c g | ORevokeToken _ u c g _ _ | ORemove u c g => good u /\ good c /\ good g
                  | _ => False
                  end
  | _ => True
  end.
