(** IDTokenSpec.v: what an ID Token says. *)
From Verif Require Import Base Types SessionKey Token Grant Database DatabaseSpec Ctx Claims ClaimsSpec UserInfoSpec.
Local Open Scope Z_scope.

(** the authentication context class and the time of the authentication of a grant, if known *)
Definition acr_of (g : grant) : option val :=
  match g_authn g with
  | Some ae => match ae_authn_info ae with Some ""%string | None => None | Some a => Some (VStr a) end
  | None => None
  end.
Definition auth_time_of (g : grant) : option val :=
  match g_authn g with
  | Some ae => if ae_authn_time ae =? 0 then None else Some (VInt (ae_authn_time ae))
  | None => None
  end.
(** the nonce of the authorization request of a grant *)
Definition nonce_of (g : grant) : option val :=
  match g_authreq g with Some ar => dget "nonce" ar | None => None end.

(** the claims with a meaning of their own, which no user attribute may stand for *)
Definition protocol_claims : list string := ["iss"; "sub"; "aud"; "exp"; "acr"; "nonce"; "auth_time"].

(** The claim [k] of the ID Token of [g] is the user attribute [x]. *)
Definition attribute (cx : ctx) (clients : cdb) (u : string) (g : grant) (k : string) (x : val) : Prop :=
  user_has cx u k x /\ exists spec, listed clients g "id_token" k spec /\ admits spec x.

(** A code or token is handed over. *)
Definition handed (x : option string) : Prop := exists y, x = Some y /\ y <> ""%string.

(** The claims of an ID Token for grant [g], made with a code and an access token, either of which may be missing;
    [hash]: the claim for a text. *)
Record id_claims (hash : string -> val -> Prop) (g : grant) (code access_token : option string) (m : msg) : Prop := {
  ic_sub : dget "sub" m = Some (VStr (g_sub g));
  ic_nonce : dget "nonce" m = nonce_of g;
  ic_acr : dget "acr" m = acr_of g;
  ic_time : dget "auth_time" m = auth_time_of g;
  ic_free : dget "iss" m = None /\ dget "aud" m = None /\ dget "exp" m = None;   (* to be set by the JWT library *)
  ic_c_hash : forall y, code = Some y -> y <> ""%string -> exists h, hash y h /\ dget "c_hash" m = Some h;
  ic_at_hash : forall y, access_token = Some y -> y <> ""%string -> exists h, hash y h /\ dget "at_hash" m = Some h }.

(** ** Algorithms *)
(** The provider wide setting for a kind of payload *)
Definition provider_wide (jwx : msg) (what payload_type : string) (o : option val) : Prop :=
  match dget what jwx with
  | Some (VDict d) => o = dget payload_type d
  | Some _ => False
  | None => o = None
  end.
(** The default if it is supported, else what is supported first *)
Definition fallback (default : string) (supported : list string) (a : string) : Prop :=
  (In default supported /\ a = default) \/ (~ In default supported /\ exists l, supported = a :: l).
(** The signing algorithm for a kind of payload: the client's registered one if any, else the provider wide one if any,
    else the default or what the provider supports *)
Definition negotiated (provider_info jwx cinfo : msg) (payload_type default : string) (alg : val) : Prop :=
  match dget (payload_type ++ "_signed_response_alg")%string cinfo with
  | Some registered => alg = registered
  | None => exists o, provider_wide jwx "signing_alg" payload_type o /\
      match o with
      | Some wide => alg = wide
      | None => forall l, dget (payload_type ++ "_signing_alg_values_supported")%string provider_info = Some (vstrs l) ->
          exists a, alg = VStr a /\ fallback default l a
      end
  end.

(** The provider offers logout of this kind ("back" or "front") with session identifiers, and the client has a URI for it. *)
Definition wants_logout (provider_info : msg) (clients : cdb) (c where_ : string) : Prop :=
  (exists v, dget (where_ ++ "channel_logout_supported")%string provider_info = Some v /\ truthy v = true) /\
  (exists v, dget (where_ ++ "channel_logout_session_supported")%string provider_info = Some v /\ truthy v = true) /\
  exists cinfo, dget c clients = Some cinfo /\ dmem (where_ ++ "channel_logout_uri")%string cinfo = true.
