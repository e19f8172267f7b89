(** TokenSetup.v: how the token handlers are made from the configuration (endpoint_context.py, token/handler.py,
    session/manager.py). *)
From Verif Require Import Base Types TokenHandler.
Local Open Scope string_scope.

(** endpoint_context.py:67-81: the keys and lifetimes when nothing is configured *)
Definition key_def (kid : string) : val :=
  VDict [("type", VStr "oct"); ("bytes", VStr "24"); ("use", VList [VStr "enc"]); ("kid", VStr kid)].
Definition default_jwks : msg :=
  [("private_path", VStr "private/token_jwks.json"); ("key_defs", VList [key_def "code"; key_def "token"; key_def "refresh"]);
   ("read_only", VBool false)].
Definition default_args : msg :=
  [("jwks_def", VDict default_jwks); ("code", VDict [("lifetime", VInt 600)]); ("token", VDict [("lifetime", VInt 3600)]);
   ("refresh", VDict [("lifetime", VInt 86400)])].

(** endpoint_context.py:65-84 *)
Definition get_token_handlers (conf : msg) : val :=
  match dget "token_handler_args" conf with
  | Some v => if truthy v then v else VDict default_args
  | None => VDict default_args
  end.

(** The classes of the library *)
Inductive kind := KDefault | KJwt.

Section Setup.
  (** importer; init_key_jar (cryptojwt): the first symmetric encryption key with a key id, as text; what a JWT is
      signed with: key jar, issuer and algorithm among the arguments, or of the provider *)
  Variables (importer : val -> result kind) (init_key_jar : msg -> result (string -> option string)) (jwt_key : msg -> string).

  (** token/handler.py:92-100; the configuration itself is changed. (A key jar counts as true.) *)
  Definition add_passwd (keyjar : option (string -> option string)) (conf : msg) (kid : string) : result msg :=
    match keyjar with
    | None => Ok conf
    | Some keys =>
        match keys kid with
        | None => Ok conf
        | Some pw =>
            match dget "kwargs" conf with
            | Some (VDict d) => Ok (dset "kwargs" (VDict (dset "password" (VStr pw) d)) conf)
            | Some _ => Raise EType
            | None => Ok (dset "password" (VStr pw) conf)
            end
        end
    end.

  (** token/__init__.py:52-55, 99-103 and jwt_token.py:20-43, called with typ and endpoint_context. Simplification: a
      lifetime that is no number is refused here (in the code it is when a token is made). *)
  Definition new_handler (k : kind) (typ : string) (kwargs : msg) : result handler :=
    if dmem "self" kwargs || dmem "typ" kwargs || dmem "endpoint_context" kwargs then Raise EType
    else
      let* lifetime := match dget "lifetime" kwargs with
                       | None => Ok 300%Z
                       | Some (VInt n) => Ok n
                       | Some _ => Raise EType
                       end in
      match k with
      | KDefault =>
          match dget "password" kwargs with
          | None => Raise EType
          | Some (VStr pw) => Ok (HDefault pw typ lifetime)
          | Some _ => Raise EAttr
          end
      | KJwt => Ok (HJwt (jwt_key kwargs) typ lifetime)
      end.

  (** token/handler.py:71-89 *)
  Definition init_token_handler (spec : msg) (typ : string) : result handler :=
    let* k := match dget "class" spec with None => Ok KDefault | Some c => importer c end in
    let* kwargs := match dget "kwargs" spec with
                   | None | Some VNone => Ok spec
                   | Some (VDict d) => Ok d
                   | Some _ => Raise EType
                   end in
    new_handler k typ kwargs.

  (** one of the three *)
  Definition handler_from (keyjar : option (string -> option string)) (spec : val) (kid typ : string) : result handler :=
    match spec with
    | VDict d => let* d := add_passwd keyjar d kid in init_token_handler d typ
    | _ => Raise EType
    end.

  (** token/handler.py:103-137. The arguments are given as [**th_args], so they are a dict. *)
  Definition handler_factory (args : msg) : result (handlers * list string) :=
    if dmem "ec" args then Raise EType
    else
      let* keyjar := match dget "jwks_def" args with
                     | None => Ok None
                     | Some v => if truthy v then match v with
                                                  | VDict d => rmap Some (init_key_jar d)
                                                  | _ => Raise EType
                                                  end
                                 else Ok None
                     end in
      let* code := match dget "code" args with
                   | None => Ok None
                   | Some v => if truthy v then rmap Some (handler_from keyjar v "code" "A") else Ok None
                   end in
      let* access := match dget "token" args with
                     | None => Ok None
                     | Some v => if truthy v then rmap Some (handler_from keyjar v "token" "T") else Ok None
                     end in
      let* refresh := match dget "refresh" args with
                      | None | Some VNone => Ok None
                      | Some v => rmap Some (handler_from keyjar v "refresh" "R")
                      end in
      Ok (token_handler code access refresh).

  (** endpoint_context.py:156, 353-361, session/manager.py:435-437 *)
  Definition session_handlers (conf : msg) : result (handlers * list string) :=
    match get_token_handlers conf with
    | VDict args => handler_factory args
    | _ => Raise EType
    end.
End Setup.
