(** TokenSetupSpec.v: what the configuration of the token handlers asks for. *)
From Verif Require Import Base Types TokenHandler TokenSetup.
Local Open Scope string_scope.

(** Where the arguments of a handler are written: under kwargs, or beside it *)
Definition given (spec : msg) : msg := match dget "kwargs" spec with Some (VDict d) => d | _ => spec end.
(** The lifetime in force, in seconds *)
Definition life (h : handler) : Z := match h with HDefault _ _ n | HJwt _ _ n => n end.
Definition typ (h : handler) : string := match h with HDefault _ t _ | HJwt _ t _ => t end.
(** The handler's tokens have the lifetime that is written, or 300 seconds. *)
Definition lives_as_given (spec : msg) (h : handler) : Prop :=
  forall n, dget "lifetime" (given spec) = Some (VInt n) \/ (dget "lifetime" (given spec) = None /\ n = 300%Z) -> life h = n.
(** A default handler's password: the key with the key id if there is one, else the one that is written *)
Definition keyed (keyjar : option (string -> option string)) (kid : string) (spec : msg) (pw : string) : Prop :=
  (exists keys, keyjar = Some keys /\ keys kid = Some pw) \/
  ((forall keys, keyjar = Some keys -> keys kid = None) /\ dget "password" (given spec) = Some (VStr pw)).
(** The member of the configuration for a handler *)
Definition member (name : string) : string := if String.eqb name "code" then "code" else if String.eqb name "access_token" then "token" else "refresh".
Definition kind_letter (name : string) : string := if String.eqb name "code" then "A" else if String.eqb name "access_token" then "T" else "R".
(** The key jar that is configured *)
Definition keys_of (init_key_jar : msg -> result (string -> option string)) (args : msg) (keyjar : option (string -> option string)) : Prop :=
  (exists d keys, dget "jwks_def" args = Some (VDict d) /\ d <> [] /\ init_key_jar d = Ok keys /\ keyjar = Some keys) \/
  ((dget "jwks_def" args = None \/ exists v, dget "jwks_def" args = Some v /\ truthy v = false) /\ keyjar = None).
