(** ScopesAskedSpec.v: where the scope of a session comes from, in terms of what was received. *)
From Verif Require Import Base Types SessionKey ClientAuthn TokenEndpoint Uri AuthzRequest AuthzEndpoint SetupAuthSpec System SystemSpec Fronts AuthzFront Door DoorSpec.
From Verif Require Import SetupAuth.

(** The request [m] of client [c] was received in a visit of the session [g] of user [u]: in the one in which the session was made, or in one by someone whose
    identity names the session. *)
Definition came_for (dp : dpast) (u c g : string) (m : msg) : Prop :=
  exists h gt re oidc pk e az rq auth id, In h dp /\ fst h = KAuthorize gt re oidc pk e az rq auth /\ understood gt re oidc pk rq auth (snd h) m /\
    dget "client_id" m = Some (VStr c) /\ recognises e m id /\
    (dget "uid" id = Some (VStr u) /\ g = au_newid e \/ dget "sid" id = Some (VStr (session_key [u; c; g]))).
(** These are the scopes of such a request, or there are none. *)
Definition was_asked (dp : dpast) (u c g : string) (scopes : list string) : Prop :=
  scopes = [] \/ exists m, came_for dp u c g m /\ mget_list "scope" m = Some scopes.
