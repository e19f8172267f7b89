(** LogoutSpec.v: what logging out should do. *)
From Verif Require Import Base Types SessionKey Database DatabaseSpec Ctx Uri Logout ResponseHeadSpec.

(** ** Sessions *)
(** A client session, revoked. *)
Definition stopped (i : sinfo) : sinfo := mkSInfo (si_kind i) (si_id i) (si_sub i) true (si_extra i).

(** A client that has registered a URI for being told about a logout. *)
Definition told_at (kind : string) (clients : dict msg) (c : string) : Prop :=
  exists info v, dget c clients = Some info /\ dget kind info = Some v.
Definition told (clients : dict msg) (c : string) : Prop :=
  told_at "backchannel_logout_uri" clients c \/ told_at "frontchannel_logout_uri" clients c.

(** [s'] is [s], but the sessions of [u] at the clients [P] (and no others) are revoked. *)
Definition logs_out (u : string) (P : string -> Prop) (s s' : store) : Prop :=
  (forall c, P c -> exists i, view s [u; c] = Some (EInfo i) /\ view s' [u; c] = Some (EInfo (stopped i))) /\
  forall q, good_path q -> (forall c, P c -> q <> [u; c]) -> view s' q = view s q.

(** ** Messages *)
(** The algorithm logout tokens are signed with: the one registered for ID Tokens, else the provider's first. *)
Definition signing_alg (provider info : msg) (alg : val) : Prop :=
  dget "id_token_signed_response_alg" info = Some alg \/
  (dget "id_token_signed_response_alg" info = None /\
   exists l, dget "id_token_signing_alg_values_supported" provider = Some (VList (alg :: l))).

(** The logout token [t] for the session [sid] at [c], and where to send it. *)
Definition logout_message (e : lo_env) (clients : dict msg) (sid c uri t : string) : Prop :=
  exists info enc alg cid, dget c clients = Some info /\ dget "backchannel_logout_uri" info = Some (VStr uri) /\
    lo_encrypt e sid = Ok enc /\ signing_alg (lo_provider e) info alg /\ dget "client_id" info = Some cid /\
    lo_sign e alg [("sid", VStr enc); ("events", VDict [("http://schemas.openid.net/event/backchannel-logout", VDict [])])] cid = Ok t.

(** The frame for the session [sid] at [c], a client without a back-channel. (C68 is about what is in it.) *)
Definition logout_frame (e : lo_env) (clients : dict msg) (sid c f : string) : Prop :=
  exists info, dget c clients = Some info /\ dget "backchannel_logout_uri" info = None /\ dget "frontchannel_logout_uri" info <> None /\
    iframe (lo_url e) info (lo_issuer e) sid = Ok (Some f).

(** Everything needed to tell client [c] is there: the URI is a text, the token can be signed. *)
Definition can_tell (e : lo_env) (clients : dict msg) (u c : string) : Prop :=
  exists info, dget c clients = Some info /\
    ((dget "backchannel_logout_uri" info <> None /\ exists uri t, logout_message e clients (session_key [u; c]) c uri t) \/
     (dget "backchannel_logout_uri" info = None /\
      forall v, dget "frontchannel_logout_uri" info = Some v -> exists uri p, v = VStr uri /\ ul_split (lo_url e) uri = Ok p)).

(** ** Redirects *)
(** The page at [path] below the issuer. *)
Definition own_page (issuer path uri : string) : Prop :=
  ((exists i, issuer = (i ++ "/")%string) /\ uri = (issuer ++ path)%string) \/
  (~ (exists i, issuer = (i ++ "/")%string) /\ uri = (issuer ++ "/" ++ path)%string).

(** The query of [uri] has the (encoded) parameters [text], alone or after others. *)
Definition carries (uri text : string) : Prop :=
  query_of uri = Some text \/ exists q, query_of uri = Some (q ++ "&" ++ text)%string.

(** ** Frames *)
(** The address a browser reads in an iframe: what is between the quotes. *)
Definition quote : ascii := """".
Definition addresses (frame src : string) : Prop :=
  free quote src /\ exists rest, frame = ("<iframe src=" ++ String quote (src ++ String quote rest))%string.

(** The parameters of a front-channel logout: those registered, but issuer and session as given. *)
Definition logout_params (iss sid : string) (registered : dict (list string)) (k v : string) : Prop :=
  (k = "iss"%string /\ v = iss) \/ (k = "sid"%string /\ v = sid) \/
  (k <> "iss"%string /\ k <> "sid"%string /\ exists l, In (k, l) registered /\ In v l).
