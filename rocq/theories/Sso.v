(** Sso.v: the cookie of a session as the authorization endpoint makes it, and how it comes back. *)
From Verif Require Import Base Types Cookie.

Section Crypto.
  Variables (mac_sign : string -> string -> string) (gcm_enc : string -> string -> string -> string * string) (b64 : string -> string).
  (** as_unicode(b64e(as_bytes(json.dumps(kwargs)))) *)
  Variable pack : msg -> string.

  (** cookie.py:583-590. [ttl]: endpoint_context.sso_ttl *)
  Definition new_cookie (now : Z) (iv : string) (d : option dealer) (ttl : Z) (name typ : string) (kwargs : msg) : result (option simple_cookie) :=
    match d with
    | Some d =>
        let* c := create_cookie mac_sign gcm_enc b64 now iv d (pack kwargs) typ name ttl false "" true in
        Ok (Some c)
    | None => Ok None
    end.

  (** oauth2/authorization.py:794-799. [name]: endpoint_context.cookie_name["session"]; the type is the default one
      (cookie.py:583). *)
  Definition session_cookie (now : Z) (iv : string) (d : option dealer) (ttl : Z) (name : string) (sid : string) (state : option val)
      : result (option simple_cookie) :=
    new_cookie now iv d ttl name "sso"
      [("sid", VStr sid); ("state", match state with Some v => v | None => VNone end)].
End Crypto.
