(** RegistrationSpec.v: what a registration may do, and what a registered client may be. *)
From Verif Require Import Base Types Ctx Uri ClientAuthn Registration.
Local Open Scope Z_scope.

(** Nothing but the entries of client [i] and of the token [t] differs between the two states, and if [t]'s
    does, it is because it now belongs to [i]. *)
Definition only_client (i t : string) (s s' : rgstate) : Prop :=
  (forall k, k <> i -> dget k (rg_cdb s') = dget k (rg_cdb s)) /\
  ca_jti (rg_ca s') = ca_jti (rg_ca s) /\
  (forall k, k <> t -> dget k (rg_rat s') = dget k (rg_rat s)) /\
  (dget t (rg_rat s') = dget t (rg_rat s) \/ dget t (rg_rat s') = Some i) /\
  (forall k, k <> i -> dget k (rg_sym s') = dget k (rg_sym s)) /\
  (forall k, k <> i -> dget k (rg_jwks s') = dget k (rg_jwks s)).

(** The id a call gives: the first drawn that is not in use; or, if the caller asks for no new id, the one in the request. *)
Definition given_id (new_id : bool) (d : draw) (db : cdb) (rq : msg) (i : string) : Prop :=
  if new_id then
    exists before after, dr_ids d = before ++ i :: after /\ dget i db = None /\ Forall (fun j => dget j db <> None) before
  else dget "client_id" rq = Some (VStr i) /\ i <> ""%string.

(** what the server itself notes of a new client *)
Definition server_value (c : rconf) (d : draw) (new_id set_secret : bool) (i k : string) : option val :=
  if String.eqb k "client_id" then Some (VStr i)
  else if String.eqb k "client_salt" then Some (VStr (dr_salt d))
  else if String.eqb k "registration_access_token" then
    match rc_read_path c with Some _ => Some (VStr (dr_rat d)) | None => None end
  else if String.eqb k "registration_client_uri" then
    match rc_read_path c with Some path => Some (VStr (path ++ "?client_id=" ++ i)%string) | None => None end
  else if String.eqb k "client_id_issued_at" then if new_id then Some (VInt (dr_now d)) else None
  else if String.eqb k "client_secret" then if set_secret then Some (VStr (dr_secret d)) else None
  else if String.eqb k "client_secret_expires_at" then
    if set_secret && rc_expires c && negb (dr_now d + rc_expires_in c =? 0)
    then Some (VInt (dr_now d + rc_expires_in c)) else None
  else None.

(** members of a request that are checked, changed or computed; all others are taken over as they are *)
Definition special : list string :=
  ["redirect_uris"; "policy_uri"; "logo_uri"; "tos_uri"; "post_logout_redirect_uris"; "request_uris";
   "si_redirects"; "sector_id"; "id_token_signed_response_alg"; "userinfo_signed_response_alg"]%string.

(** the request that is carried out: verified, without blanks and, for a new id, without client_id *)
Definition effective (c : rconf) (new_id : bool) (rq rq' : msg) : Prop :=
  exists v, rc_verify c rq = Ok v /\
    rq' = (if new_id then ddel "client_id" else fun m => m) (filter (fun kv => truthy (snd kv)) v).

(** ** Policy *)

(** A value, or each of a list of values, is one of those the provider lists. *)
Definition offered (v : val) (supported : list val) : Prop :=
  match v with
  | VStr s => In (VStr s) supported
  | VList l => forall s, In (VStr s) l -> In (VStr s) supported
  | _ => True
  end.
(** Values made of words: each equals one the provider lists up to the order of words. A single str is the list of its words. *)
Definition words (v : val) : list (list string) :=
  match v with
  | VList l => flat_map (fun x => match x with VStr s => [split " " s] | _ => [] end) l
  | VStr s => map (fun w => [w]) (split " " s)
  | _ => []
  end.
Definition offered_words (v : val) (supported : list val) : Prop :=
  forall w, In w (words v) -> exists s, In (VStr s) supported /\ (forall x, In x w <-> In x (split " " s)).

(** The preferences of a client that are to be supported, with the provider's member that lists what is: OpenID Connect
    Dynamic Client Registration, section 2, and Discovery, section 3. *)
Definition capabilities : list (string * string) :=
  [("response_types", "response_types_supported"); ("grant_types", "grant_types_supported");
   ("subject_type", "subject_types_supported"); ("default_acr_values", "acr_values_supported");
   ("id_token_signed_response_alg", "id_token_signing_alg_values_supported");
   ("id_token_encrypted_response_alg", "id_token_encryption_alg_values_supported");
   ("id_token_encrypted_response_enc", "id_token_encryption_enc_values_supported");
   ("userinfo_signed_response_alg", "userinfo_signing_alg_values_supported");
   ("userinfo_encrypted_response_alg", "userinfo_encryption_alg_values_supported");
   ("userinfo_encrypted_response_enc", "userinfo_encryption_enc_values_supported");
   ("request_object_signing_alg", "request_object_signing_alg_values_supported");
   ("request_object_encryption_alg", "request_object_encryption_alg_values_supported");
   ("request_object_encryption_enc", "request_object_encryption_enc_values_supported");
   ("token_endpoint_auth_method", "token_endpoint_auth_methods_supported");
   ("token_endpoint_auth_signing_alg", "token_endpoint_auth_signing_alg_values_supported")]%string.
Definition by_words (pref : string) : Prop := pref = "response_types"%string \/ pref = "default_acr_values"%string.
Definition policy (provider rq : msg) : Prop :=
  forall pref prov v l, In (pref, prov) capabilities -> dget pref rq = Some v -> dget prov provider = Some (VList l) ->
    (by_words pref -> offered_words v l) /\ (~ by_words pref -> offered v l).

(** A redirect URI of a client of type [app]: a native client has a scheme of its own or http at the local host;
    others have http or https, and https if they are "web" and not restricted to the code flow; and no
    fragment. *)
Definition local (p : urlparts) : Prop :=
  up_scheme p = "http"%string /\ (up_host p = Some "localhost"%string \/ up_host p = Some "127.0.0.1"%string).
Definition own_scheme (p : urlparts) : Prop := up_scheme p <> "http"%string /\ up_scheme p <> "https"%string.
Definition code_only (rq : msg) : Prop := dget "response_types" rq = Some (VList [VStr "code"]).
Definition app_type (rq : msg) (app : val) : Prop :=
  dget "application_type" rq = Some app \/ (dget "application_type" rq = None /\ app = VStr "web").
Definition scheme_ok (rq : msg) (p : urlparts) : Prop :=
  exists app, app_type rq app /\
    ((app = VStr "native" /\ (own_scheme p \/ local p)) \/
     (app <> VStr "native" /\ (up_scheme p = "https"%string \/
        (up_scheme p = "http"%string /\ (app <> VStr "web" \/ code_only rq))))).
Definition is_native (rq : msg) : Prop := dget "application_type" rq = Some (VStr "native").
(** what is kept of a redirect URI *)
Definition kept (u : urllib) (rq : msg) (uri : string) (p : urlparts) (e : val) : Prop :=
  (is_native rq /\ own_scheme p /\ e = VList [VStr uri; VDict []]) \/
  (~ (is_native rq /\ own_scheme p) /\
   exists q, e = VList [VStr (up_base p); q] /\
     q = (if nonempty (up_query p) then match ul_qs u (up_query p) with [] => VDict [] | d => vquery d end else VDict [])).

(** ** Histories of the registration endpoints: registrations, reads, and whatever else is done to the client database and
    the JWT ids. *)
Inductive revent :=
| Reg (c : rconf) (d : draw) (new_id set_secret : bool) (rq : msg)
| Read (c : rconf) (o : outside) (e : ep) (aka : dict string) (rq : msg) (auth : authz_data)
| Other (ca : castate).
Definition rstep (x : revent) (s : rgstate) : rgstate :=
  match x with
  | Reg c d n ss rq => snd (client_registration_setup c d n ss rq s)
  | Read c o e aka rq auth => snd (registration_read c o e aka rq auth s)
  | Other ca => mkRG ca (rg_rat s) (rg_sym s) (rg_jwks s)
  end.
Fixpoint rrun (h : list revent) (s : rgstate) : rgstate :=
  match h with [] => s | x :: h' => rrun h' (rstep x s) end.

(** In the history [h] from [s], a registration drew the token [t] while it gave the id [i]. *)
Definition issued (h : list revent) (s : rgstate) (t i : string) : Prop :=
  exists h1 c d n ss rq h2 rq', h = h1 ++ Reg c d n ss rq :: h2 /\ dr_rat d = t /\
    effective c n rq rq' /\ given_id n d (rg_cdb (rrun h1 s)) rq' i.
