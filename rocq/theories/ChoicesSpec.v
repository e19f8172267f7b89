(** ChoicesSpec.v: what the configuration and a client's entry choose: the authentication methods of an endpoint, the
    algorithms of a JWT, the URI that is used when a request names none; and what is noted of an authentication. *)
From Verif Require Import Base Types Ctx ClientAuthn IDTokenSpec.

(** The name by which a method is configured *)
Definition configured_as (m : option cmethod) : string :=
  match m with
  | None => "none"
  | Some MBasic => "client_secret_basic"
  | Some MPost => "client_secret_post"
  | Some MBearerHeader => "bearer_header"
  | Some MBearerBody => "bearer_body"
  | Some MSecretJwt => "client_secret_jwt"
  | Some MPrivateJwt => "private_key_jwt"
  | Some MRequestParam => "request_param"
  end.
(** The methods an endpoint has: those configured, in order. An empty setting stands for "none"; where there is no setting
    those of the endpoint's class; where there are none of these either there are no methods. *)
Definition methods_are (conf default : option (list string)) (ms : list (option cmethod)) : Prop :=
  match conf, default with
  | Some [], _ => ms = [None]
  | Some l, _ => map configured_as ms = l
  | None, Some l => map configured_as ms = l
  | None, None => ms = []
  end.

(** The method that is noted for requests of a class at the entry of a client *)
Definition note_for (cls : string) (info : msg) : option val :=
  match dget "auth_method" info with
  | Some (VDict d) => dget cls d
  | _ => None
  end.
(** The entry of the client is there before and after; for the class [cls] it notes [method], and it notes the same as
    before for all others. *)
Definition notes_method (cls method : string) (c : string) (before after : cdb) : Prop :=
  exists info info', dget c before = Some info /\ dget c after = Some info' /\
    note_for cls info' = Some (VStr method) /\ forall k, k <> cls -> note_for k info' = note_for k info.

(** The algorithms kinds of payload are signed with by default *)
Definition signed_by_default (payload_type alg : string) : Prop :=
  (In payload_type ["id_token"; "userinfo"; "request_object"; "private_key_jwt"] /\ alg = "RS256") \/
  (payload_type = "client_secret_jwt" /\ alg = "HS256").
(** An algorithm for encryption: what the client registered under [registered] if anything, else the provider wide one if
    any, else what the provider supports first *)
Definition negotiated_encryption (provider_info jwx cinfo : msg) (payload_type registered wide supported : string) (alg : val) : Prop :=
  match dget (payload_type ++ registered)%string cinfo with
  | Some r => alg = r
  | None => exists o, provider_wide jwx wide payload_type o /\
      match o with
      | Some w => alg = w
      | None => forall a l, dget (payload_type ++ supported)%string provider_info = Some (vstrs (a :: l)) -> alg = VStr a
      end
  end.

(** All the parameters of a query that was parsed: each name with each of its values *)
Definition parameters (q : dict (list string)) : list (string * string) :=
  flat_map (fun nv => map (fun v => (fst nv, v)) (snd nv)) q.
