(** SsoSpec.v: what is said about the session cookie coming back. *)
From Verif Require Import Base Types Cookie CookieSpec CookieProofs AuthzEndpoint SetupAuth Sso.
Local Open Scope Z_scope.

(** The cryptography and the coding of a provider *)
Record coding := mkCoding {
  co_sign : string -> string -> string; co_verify : string -> string -> string -> bool;
  co_enc : string -> string -> string -> string * string;
  co_dec : string -> string -> string -> string -> option string;
  co_b64 : string -> string; co_unb64 : string -> option string;
  co_pack : msg -> string }.
(** They give back what was put in; base64 text has none of the separators. *)
Record sound (k : coding) : Prop := {
  so_mac : forall key m, co_verify k key m (co_sign k key m) = true;
  so_gcm : forall key iv m, co_dec k key iv (fst (co_enc k key iv m)) (snd (co_enc k key iv m)) = Some m;
  so_b64 : forall x, co_unb64 k (co_b64 k x) = Some x;
  so_bar : forall x, no_bar (co_b64 k x) = true;
  so_space : b64_text (co_b64 k);
  so_pack : forall m, plain_value (co_pack k m) /\ no_bar (co_pack k m) = true }.

(** The session cookie an endpoint sends is made by the dealer [d] at time [at_], under [name]. [show]: what stands for a
    cookie in the information for the response. *)
Definition sends (k : coding) (d : dealer) (at_ : Z) (name : string) (show : option simple_cookie -> val) (az : authz_env) : Prop :=
  exists iv ttl, forall sid state,
    az_cookie az sid state =
      (let* c := session_cookie (co_sign k) (co_enc k) (co_b64 k) (co_pack k) at_ iv (Some d) ttl name sid state in Ok (show c)).

(** The browser sends the cookie back: the header [text] has its value under its name, which is how it is found there
    ([header_value]: the parsing of Cookie headers). *)
Definition sent_back (header_value : string -> string -> option string) (name text : string) (c : simple_cookie) : Prop :=
  text <> ""%string /\ exists m, dget name c = Some m /\ header_value name text = Some (mo_value m).

(** A login method that goes by the cookie alone, as the method with user name and password does *)
Definition by_cookie (k : coding) (d : dealer) (header_value : string -> string -> option string) (name text : string) (now : Z) (m : method) : Prop :=
  me_auth m = authenticated_as now (get_cookie_value (co_verify k) (co_dec k) (co_unb64 k) header_value d name text).
(** The method for tests, which lets in [user] *)
Definition for_tests (k : coding) (d : dealer) (header_value : string -> string -> option string) (name text : string) (now : Z)
    (user : string) (info : string -> val) (m : method) : Prop :=
  me_auth m = (fun _ => no_authn now user true (get_cookie_value (co_verify k) (co_dec k) (co_unb64 k) header_value d name text) info).

(** The client asks for no younger authentication than that. *)
Definition young_enough (request : msg) (now at_ : Z) : Prop :=
  exists limit, age_limit request = Ok limit /\ (truthy limit = false \/ exists n, limit = VInt n /\ now <= at_ + n).
Definition too_old (request : msg) (now at_ : Z) : Prop :=
  exists n, age_limit request = Ok (VInt n) /\ n <> 0 /\ at_ + n < now.
(** It does not say that the user must not be asked. *)
Definition may_ask (request : msg) : Prop := asks_none request = Ok false.

(** The decoding of the endpoint opens what was packed for a session. *)
Definition opens (k : coding) (e : auth_env) (sid : string) (state : option val) : Prop :=
  let content := [("sid", VStr sid); ("state", match state with Some v => v | None => VNone end)] in
  au_decode e (VStr (co_pack k content)) = Ok (Some (VDict content)).
