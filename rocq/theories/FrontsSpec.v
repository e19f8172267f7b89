(** FrontsSpec.v: who is authenticated. *)
From Verif Require Import Base Monad Types Database Ctx Minting TokenEndpoint ClientAuthn ClientAuthnSpec Fronts.

(** The endpoint asks for a secret or for an assertion: client_secret_basic, client_secret_post, client_secret_jwt or private_key_jwt. *)
Definition asks (e : ep) : Prop :=
  ep_methods e <> [] /\ forall x, In x (ep_methods e) -> In x [Some MBasic; Some MPost; Some MSecretJwt; Some MPrivateJwt].
(** It asks for nothing: no method is configured. *)
Definition asks_nothing (e : ep) : Prop := ep_methods e = [].

(** The request shows the credentials of the registered client [c], which have not expired. *)
Definition shows (o : outside) (e : ep) (db : cdb) (rq : msg) (auth : authz_data) (c : string) : Prop :=
  c <> "" /\ standing (o_now o) db c /\
  ((exists header secret, authz_str auth = Some header /\ basic_credentials o header c secret /\ secret_on_record db c (VStr secret)) \/
   (exists sent secret, dget "client_id" rq = Some (VStr c) /\ dget "client_secret" rq = Some sent /\ secret_on_record db c secret /\ val_eqb secret sent = true) \/
   (exists a j private, dget "client_assertion" rq = Some (VStr a) /\ o_unpack o a = Ok j /\ jw_iss j = Some c /\ for_us e j /\ key_fits o private j db)).

(** The check of the message may add to a request; the members that are read stay what they were. *)
Definition read_members : list string := ["grant_type"; "code"; "refresh_token"; "token"; "code_verifier"].
Definition keeps (check : val -> msg -> checked) : Prop :=
  forall c m m', check c m = CkOk m' -> forall k, In k read_members -> dget k m' = dget k m.

(** The endpoint asks for an assertion: client_secret_jwt or private_key_jwt. *)
Definition asks_jwt (e : ep) : Prop :=
  ep_methods e <> [] /\ forall x, In x (ep_methods e) -> In x [Some MSecretJwt; Some MPrivateJwt].

(** Two JWTs of one issuer with one id, which is not empty *)
Definition same_id (j1 j2 : jwt) : Prop :=
  jw_iss j1 = jw_iss j2 /\ jw_jti j1 = jw_jti j2 /\ exists t, jw_jti j1 = Some t /\ t <> "".

(** The check refuses the request, whichever client it is taken to come from. *)
Definition malformed (gt : gate) (rq : msg) : Prop :=
  (forall c, gt_check gt c rq = CkBad) /\ (forall c, gt_check gt c (dset "client_id" c rq) = CkBad).

(** What may happen between two requests: any token and introspection requests, at any endpoints of the provider, and anything done to the
    sessions and clients. *)
Section Later.
  Variable sid_of : string -> result string.
  Variable b64hash : string -> string -> string.
  Variable cx : ctx.
  Variable idt : store -> string -> ST cdb string.
  Inductive later : fstate -> fstate -> Prop :=
  | LaNow f : later f f
  | LaWorld f w f2 : later (mkFS w (fs_jti f)) f2 -> later f f2
  | LaToken f gt sharing helpers pkce clock m1 m2 ir rq auth r f1 f2 :
      token_request sid_of b64hash cx idt gt sharing helpers pkce clock m1 m2 ir rq auth f = (r, f1) -> later f1 f2 -> later f f2
  | LaIntrospection f gt clock username rq auth r f1 f2 :
      introspection_request sid_of cx gt clock username rq auth f = (r, f1) -> later f1 f2 -> later f f2.
End Later.
