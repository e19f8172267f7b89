(** ProviderSpec.v: what a provider should publish about itself, without the functions that collect it. *)
From Verif Require Import Base Types Ctx Provider.
From Coq Require Import Sorted Permutation.

(** The address of an endpoint: the issuer, one "/", the path. One "/" at the end of the issuer is that one. *)
Definition address (issuer path url : string) : Prop :=
  (exists base, issuer = (base ++ "/")%string /\ url = (base ++ "/" ++ path)%string) \/
  ((forall base, issuer <> (base ++ "/")%string) /\ url = (issuer ++ "/" ++ path)%string).

(** An endpoint of class [c] is configured at [path]. *)
Definition configured (cf : conf) (c : eclass) (path : string) : Prop :=
  exists s, In s (cf_endpoints cf) /\ es_class s = Ok c /\ es_path s = Some path.
(** All endpoints are of classes of the library. *)
Definition of_library (init : string -> msg -> result unit) (cf : conf) : Prop :=
  Forall (fun s => exists c, es_class s = Ok c /\ In c (library init)) (cf_endpoints cf).
(** No two endpoints have the same name. *)
Definition distinct (cf : conf) : Prop :=
  NoDup (map (fun s => match es_class s with Ok c => ec_name c | Raise _ => ""%string end) (cf_endpoints cf)).
(** A configured capability *)
Definition capable (cf : conf) (k : string) : option val :=
  match cf_capabilities cf with Some c => dget k c | None => None end.

Definition endpoint_names : list string :=
  ["authorization_endpoint"; "token_endpoint"; "userinfo_endpoint"; "end_session_endpoint"; "registration_endpoint"; "introspection_endpoint";
   "pushed_authorization_request_endpoint"].
Definition id_token_names : list string :=
  ["id_token_signing_alg_values_supported"; "id_token_encryption_alg_values_supported"; "id_token_encryption_enc_values_supported"].
(** What the provider says for itself *)
Definition says_itself (cf : conf) (k : string) : Prop :=
  k = "issuer" \/ k = "version" \/ (k = "acr_values_supported" /\ cf_acrs cf <> []) \/ (k = "jwks_uri" /\ cf_keys cf = true) \/ In k id_token_names.

(** The algorithms of the library for an attribute *)
Definition supported (al : algs) (k : string) (l : list string) : Prop :=
  if contains "signing_alg_values_supported" k then l = al_sign al
  else if contains "encryption_alg_values_supported" k then l = al_alg al
  else contains "encryption_enc_values_supported" k = true /\ l = al_enc al.

(** The preferred order: RSA, elliptic curves, shared keys, RSA-PSS, none; by name within each *)
Definition rank (a : string) (n : nat) : Prop :=
  nth_error ["RS"; "ES"; "HS"; "PS"; "no"] n = Some (stake 2 a).
Definition before (a b : string) : Prop :=
  exists m n, rank a m /\ rank b n /\ (m < n \/ m = n /\ String.leb a b = true).
Definition in_order (l l' : list string) : Prop := Permutation l l' /\ Sorted before l'.
