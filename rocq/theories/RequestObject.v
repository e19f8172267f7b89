(** RequestObject.v: fetching a request object and checking its algorithms (oauth2/authorization.py:45-58, 362-393, 957-974). *)
From Verif Require Import Base Monad Types Ctx Uri AuthzRequest.
Local Open Scope Z_scope.

(** oauth2/authorization.py:45-58: for each use the registered and the supported parameter *)
Definition alg_params (kind : string) : option (string * string) :=
  dget kind
    [("sign", ("request_object_signing_alg", "request_object_signing_alg_values_supported"));
     ("enc_alg", ("request_object_encryption_alg", "request_object_encryption_alg_values_supported"));
     ("enc_enc", ("request_object_encryption_enc", "request_object_encryption_enc_values_supported"))]%string.

(** [d.get(k)]: None for a missing member and for None *)
Definition get_some (k : string) (d : msg) : val := match dget k d with Some v => v | None => VNone end.

(** oauth2/authorization.py:957-974. [alg] may be None. *)
Definition allowed_algorithms (db : cdb) (pinfo : msg) (client_id : option string) (alg : val) (kind : string) : result unit :=
  let* cinfo := client_sub db client_id in
  let* (reg, sup) := of_option EKey (alg_params kind) in
  let allowed := match get_some reg cinfo with VNone => get_some sup pinfo | v => v end in
  let* ok := val_in alg allowed in
  if ok then Ok tt else Raise EValue.

(** A request object that was read: its members, and the headers of the signature and of the encryption, if there were. *)
Record robject := mkRO { ro_items : msg; ro_jws : option msg; ro_jwe : option msg }.

(** What fetching takes from outside. [fo_get uri]: the HTTP GET, status and text; [fo_read client text]:
    [from_jwt(text, keyjar, issuer=client)], the deserialisation with the keys of the client; [fo_pinfo]: provider_info. *)
Record fetcher := mkFO {
  fo_get : string -> result (Z * string);
  fo_read : option string -> string -> result robject;
  fo_pinfo : msg }.

(** oauth2/authorization.py:366-393 up to the members that overwrite those of the request. Simplification: for another status the
    exception is ServiceError (the attribute asked for at 393, status, is one the response may not have; it is an exception
    all the same). *)
Definition fetch_object (f : fetcher) (db : cdb) (client_id : option string) (uri : string) : result msg :=
  let* (status, text) := fo_get f uri in
  if Z.eqb status 200 then
    let* o := fo_read f client_id text in
    let* jws := of_option EAttr (ro_jws o) in
    let* _ := allowed_algorithms db (fo_pinfo f) client_id (match dget "alg" jws with Some v => v | None => VStr "RS256" end) "sign" in
    let* _ := match ro_jwe o with
              | None => Ok tt
              | Some _ =>
                  let* _ := allowed_algorithms db (fo_pinfo f) client_id (get_some "alg" jws) "enc_alg" in
                  allowed_algorithms db (fo_pinfo f) client_id (get_some "enc" jws) "enc_enc"
              end in
    Ok (ro_items o)
  else Raise EServiceError.

(** Parsing with that *)
Definition with_objects (f : fetcher) (e : reqenv) : reqenv :=
  mkRE (re_u e) (re_cdb e) (re_par e) (re_supported e) (fetch_object f (re_cdb e)).
