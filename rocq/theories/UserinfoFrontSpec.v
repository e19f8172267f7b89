(** UserinfoFrontSpec.v: how a token comes to the userinfo endpoint. *)
From Verif Require Import Base Types Ctx ClientAuthn.

(** The Authorization header holds the token as a bearer token, and the endpoint looks there. *)
Definition in_header (e : ep) (auth : authz_data) (v : string) : Prop :=
  In (Some MBearerHeader) (ep_methods e) /\ authz_str auth = Some ("Bearer " ++ v)%string.
(** The request holds the token, and the endpoint looks there. *)
Definition in_body (e : ep) (request : msg) (v : string) : Prop :=
  In (Some MBearerBody) (ep_methods e) /\ dget "access_token" request = Some (VStr v).
Definition presented (e : ep) (request : msg) (auth : authz_data) (v : string) : Prop := in_header e auth v \/ in_body e request v.
(** What the endpoint is set up with if nothing is said (oidc/userinfo.py:34) *)
Definition by_default (e : ep) : Prop := ep_named e = true /\ ep_methods e = [Some MBearerHeader].
