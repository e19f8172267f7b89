(** ClientAuthnSpec.v: what client authentication is meant to establish. *)
From Verif Require Import Base Types Monad Ctx ClientAuthn.
Local Open Scope Z_scope.

(** no ":" in the str *)
Fixpoint no_colon (s : string) : Prop :=
  match s with
  | "" => True
  | String c s' => c <> ":"%char /\ no_colon s'
  end.

(** The header is HTTP Basic for this client id and secret: "Basic " and the base64 form of
    id ":" secret, both URL quoted. *)
Definition basic_credentials (o : outside) (header c secret : string) : Prop :=
  exists b p q, header = ("Basic " ++ b)%string /\ o_b64 o b = Ok (p ++ ":" ++ q)%string /\
    no_colon p /\ no_colon q /\ o_unquote o p = c /\ o_unquote o q = secret.

(** The registration has not expired; 0 means never *)
Definition not_expired (now : Z) (info : msg) : Prop :=
  forall v, dget "client_secret_expires_at" info = Some v ->
  exists z, val_eqb v (VInt z) = true /\ (z = 0 \/ now <= z).

(** The client is known and its registration has not expired. *)
Definition standing (now : Z) (db : cdb) (c : string) : Prop :=
  exists info, dget c db = Some info /\ not_expired now info.

Definition secret_on_record (db : cdb) (c : string) (secret : val) : Prop :=
  exists info, dget c db = Some info /\ dget "client_secret" info = Some secret.

(** The client that is reported for one that was authenticated: another name, if names are translated. *)
Definition named (aka : dict string) (c d : string) : Prop :=
  if is_nil aka then d = c else dget c aka = Some d.

(** The request carries credentials for the method ... *)
Definition carries (rq : msg) (auth : option string) (m : cmethod) : Prop :=
  match m with
  | MBasic => exists b, auth = Some ("Basic " ++ b)%string
  | MPost => (exists v, dget "client_id" rq = Some v) /\ (exists v, dget "client_secret" rq = Some v)
  | MBearerHeader => exists b, auth = Some ("Bearer " ++ b)%string
  | MBearerBody => exists v, dget "access_token" rq = Some v
  | MSecretJwt | MPrivateJwt => exists v, dget "client_assertion" rq = Some v
  | MRequestParam => exists v, dget "request" rq = Some v
  end.

(** ... a JWT signed with a shared key, or another. *)
Definition hmac (j : jwt) : Prop := exists a, jw_alg j = Some ("HS" ++ a)%string.

(** The JWT is for this endpoint. *)
Definition for_us (e : ep) (j : jwt) : Prop :=
  exists aud, jw_aud j = Some aud /\ exists a, In a aud /\ In a (if ep_named e then ep_targets e else [ep_issuer e]).

(** The key is of the kind the method asks for; a shared key is the client's secret, if it has one *)
Definition key_fits (o : outside) (private : bool) (j : jwt) (db : cdb) : Prop :=
  if private then ~ hmac j
  else hmac j /\ exists iss info, jw_iss j = Some iss /\ dget iss db = Some info /\
       forall sec, dget "client_secret" info = Some sec -> truthy sec = true ->
       exists k ks, o_oct o iss (jw_kid j) = k :: ks /\ sec = VStr k.

(** The JWT has no id, or one that has not been seen with this issuer. *)
Definition first_use (seen : dict Z) (c : string) (j : jwt) : Prop :=
  forall t, jw_jti j = Some t -> t <> "" -> dget (c ++ ":" ++ t)%string seen = None.

(** The request proves, with the method, that it comes from client [c] with this record: by the secret, or by an assertion that it has signed with
    the secret or with a key of its own, that is for this endpoint and is used for the first time. *)
Definition proves (o : outside) (e : ep) (seen : dict Z) (rq : msg) (auth : option string) (m : cmethod) (c : string) (info : msg) : Prop :=
  match m with
  | MBasic => exists secret header, dget "client_secret" info = Some (VStr secret) /\ auth = Some header /\ basic_credentials o header c secret
  | MPost => exists secret, dget "client_secret" info = Some (VStr secret) /\ dget "client_id" rq = Some (VStr c) /\ dget "client_secret" rq = Some (VStr secret)
  | MSecretJwt => exists a j k ks, dget "client_assertion" rq = Some (VStr a) /\ o_unpack o a = Ok j /\ jw_iss j = Some c /\ for_us e j /\ first_use seen c j /\
      hmac j /\ o_oct o c (jw_kid j) = k :: ks /\ dget "client_secret" info = Some (VStr k)
  | MPrivateJwt => exists a j, dget "client_assertion" rq = Some (VStr a) /\ o_unpack o a = Ok j /\ jw_iss j = Some c /\ for_us e j /\ first_use seen c j /\
      ~ hmac j
  | _ => False
  end.
(** A method that is passed over: the request carries nothing for it, or an assertion signed with the other kind of key. *)
Definition passed_over (o : outside) (rq : msg) (auth : option string) (m : cmethod) : Prop :=
  ~ carries rq auth m \/
  exists a j, dget "client_assertion" rq = Some (VStr a) /\ o_unpack o a = Ok j /\ ((m = MSecretJwt /\ ~ hmac j) \/ (m = MPrivateJwt /\ hmac j)).

(** The credentials of the request for this method do not verify *)
Definition fails o e rq auth s m : Prop := is_ok (fst (verify o e m rq auth s)) = false.

(** What authentication may do to the client database: note the method at the entry of the client. *)
Definition only_noted (c : string) (before after : cdb) : Prop :=
  (forall d, d <> c -> dget d after = dget d before) /\
  (forall k, k <> "auth_method" ->
     match dget c before, dget c after with
     | Some i, Some i' => dget k i' = dget k i
     | None, None => True
     | _, _ => False
     end).
(** ... and to the JWT ids seen: add. *)
Definition grows (before after : dict Z) : Prop := forall k v, dget k before = Some v -> dget k after = Some v.

(** ** Histories: any calls, with any surroundings, and any changes to the client database in between *)
Record call := mkCall {
  cl_out : outside; cl_ep : ep; cl_cls : string; cl_token : option (val -> result val); cl_aka : dict string;
  cl_rq : msg; cl_auth : authz_data }.
Inductive event := Auth (c : call) | Cdb (db : cdb).

Definition run_call (c : call) (s : castate) : result (option auth_info) * castate :=
  verify_client (cl_out c) (cl_ep c) (cl_cls c) (cl_token c) (cl_aka c) (cl_rq c) (cl_auth c) s.

(** Every call that was made, with its outcome *)
Fixpoint run (h : list event) (s : castate) : list (call * result (option auth_info)) * castate :=
  match h with
  | [] => ([], s)
  | Auth c :: h' =>
      let '(r, s1) := run_call c s in
      let '(l, s2) := run h' s1 in ((c, r) :: l, s2)
  | Cdb db :: h' => run h' (mkCA db (ca_jti s))
  end.

(** The signed JWT that the call was accepted for *)
Definition accepted_jwt (x : call * result (option auth_info)) : option string :=
  match snd x with
  | Ok (Some ai) =>
      if smem (ai_method ai) ["client_secret_jwt"; "private_key_jwt"]
      then mget_str "client_assertion" (cl_rq (fst x))
      else if String.eqb (ai_method ai) "request_param" then mget_str "request" (cl_rq (fst x))
      else None
  | _ => None
  end.

(** The issuer and id a JWT carries do not depend on when it is read (whether it is accepted may). *)
Definition stable (claims : string -> jwt) (h : list event) : Prop :=
  forall c s j, In (Auth c) h -> o_unpack (cl_out c) s = Ok j ->
  jw_iss j = jw_iss (claims s) /\ jw_jti j = jw_jti (claims s).

(** The request carries this str where a JWT is expected. *)
Definition bears (rq : msg) (a : string) : Prop :=
  dget "client_assertion" rq = Some (VStr a) \/ dget "request" rq = Some (VStr a).
