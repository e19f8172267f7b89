(** TokenHandler.v: token values (token/__init__.py, token/jwt_token.py, token/handler.py). *)
From Verif Require Import Base Types PyInt LV.

(** What [info] returns: type, sid, exp, and the handler object, named by its place in the
    handler dict. *)
Record tinfo := mkTI { ti_type : string; ti_sid : string; ti_exp : string; ti_handler : string }.

(** token/__init__.py:22-28 *)
Definition is_expired (clock : Z) (exp when : Z) : bool :=
  if (exp <? 0)%Z then false
  else let when := if (when =? 0)%Z then clock else when in (exp <? when)%Z.

Section Crypto.
  (** Fernet and base64: [fenc password nonce text] is a token text, [fdec] undoes it or fails. *)
  Variables (fenc : string -> string -> string -> string) (fdec : string -> string -> option string).
  (** JWT: [jsign key payload], [jverify key text]; both include the algorithm. *)
  Variables (jsign : string -> msg -> string) (jverify : string -> string -> result msg).

  Fixpoint spaces (n : nat) : string := match n with O => "" | S n => String " " (spaces n) end.
  (** [rstrip(b" ")] *)
  Fixpoint rstrip_sp (s : string) : string :=
    match s with
    | "" => ""
    | String c s' =>
        match rstrip_sp s' with
        | "" => if Ascii.eqb c " " then "" else String c ""
        | r => String c r
        end
    end.

  (** token/__init__.py:38-43. Simplification: the length is counted in characters, not in UTF-8
      bytes; only the number of spaces added depends on it. *)
  Definition crypt_encrypt (pw nonce text : string) : string :=
    let m := Nat.modulo (slen text) 16 in
    fenc pw nonce (if Nat.eqb m 0 then text else text ++ spaces (16 - m))%string.
  (** token/__init__.py:45-48 *)
  Definition crypt_decrypt (pw t : string) : option string := option_map rstrip_sp (fdec pw t).

  (** A handler: DefaultToken(password, typ, lifetime) or JWTToken(typ, key, lifetime) *)
  Inductive handler :=
  | HDefault (password typ : string) (lifetime : Z)
  | HJwt (key typ : string) (lifetime : Z).

  (** token/__init__.py:115-118, jwt_token.py:58-61 *)
  Definition token_kind (typ ttype : string) : string :=
    if negb (nonempty ttype) && nonempty typ then typ else "A".

  (** token/__init__.py:105-132 and jwt_token.py:45-73; [nonce] and [rnd] are random.
      The payload of a DefaultToken is not used. For a JWT, signer.pack (cryptojwt) adds iss, iat
      and, when the lifetime is not 0, exp; iss and iat are left out here. *)
  Definition make_token (clock : Z) (nonce rnd : string) (h : handler) (sid ttype : string) (payload : msg) : string :=
    match h with
    | HDefault pw typ lifetime =>
        let exp := if (0 <=? lifetime)%Z then py_str (clock + lifetime) else "-1" in
        crypt_encrypt pw nonce (lv_pack [rnd; token_kind typ ttype; sid; exp])
    | HJwt key typ lifetime =>
        let p := dset "ttype" (VStr (token_kind typ ttype)) (dset "sid" (VStr sid) payload) in
        jsign key (if (lifetime =? 0)%Z then p else dset "exp" (VInt (clock + lifetime)) p)
    end.

  (** token/__init__.py:146-152 *)
  Definition split_token (pw t : string) : result (list string) :=
    match crypt_decrypt pw t with
    | None => Raise EUnknownToken
    | Some plain => lv_unpack plain
    end.

  (** token/__init__.py:154-166 and jwt_token.py:75-98. In the second the type is not compared. *)
  Definition handler_info (clock : Z) (name : string) (h : handler) (t : string) : result tinfo :=
    match h with
    | HDefault pw typ _ =>
        let* parts := split_token pw t in
        match parts with
        | [] | [_] => Raise EKey
        | _ :: ty :: rest =>
            if negb (String.eqb ty typ) then Raise EWrongTokenType
            else Ok (mkTI ty (nth 0 rest "") (nth 1 rest "") name)
        end
    | HJwt key typ _ =>
        let* p := jverify key t in
        match dget "exp" p with
        | Some (VInt e) =>
            if is_expired clock e 0 then Raise EToOld
            else let* sid := msub_str "sid" p in
                 let* ty := msub_str "ttype" p in
                 Ok (mkTI ty sid (py_str e) name)
        | _ => Raise EKey
        end
    end.

  (** token/handler.py:53-65: [except (KeyError, WrongTokenType, InvalidToken, UnknownToken, Invalid)] *)
  Definition caught (e : exn) : bool :=
    is_key_error e ||
    match e with EWrongTokenType | EUnknownToken | EInvalid => true | _ => false end.

  (** The handler dict; a missing code or access token handler is None (handler.py:24). *)
  Definition handlers := dict (option handler).

  Fixpoint get_handler (clock : Z) (hs : handlers) (order : list string) (t : string)
    : result (option tinfo) :=
    match order with
    | [] => Ok None
    | typ :: order' =>
        match dget typ hs with
        | None => get_handler clock hs order' t           (* KeyError *)
        | Some None => Raise EAttr                        (* None.info *)
        | Some (Some h) =>
            match handler_info clock typ h t with
            | Ok i => Ok (Some i)
            | Raise e => if caught e then get_handler clock hs order' t else Raise e
            end
        end
    end.

  (** token/handler.py:20-30: the dict and the default order *)
  Definition token_handler (code access refresh : option handler) : handlers * list string :=
    match refresh with
    | Some r => ([("code", code); ("access_token", access); ("refresh_token", Some r)],
                 ["code"; "access_token"; "refresh_token"])
    | None => ([("code", code); ("access_token", access)], ["code"; "access_token"])
    end.

  (** token/handler.py:38-45 *)
  Definition th_info (clock : Z) (th : handlers * list string) (t : string) : result tinfo :=
    let* o := get_handler clock (fst th) (snd th) t in
    of_option EUnknownToken o.
  (** token/handler.py:47-48, session/manager.py:390-392 *)
  Definition th_sid (clock : Z) (th : handlers * list string) (t : string) : result string :=
    rmap ti_sid (th_info clock th t).

  (** token/__init__.py:168-174 *)
  Definition default_is_expired (clock : Z) (name : string) (h : handler) (t : string) (when : Z) : result bool :=
    let* i := handler_info clock name h t in
    if String.eqb (ti_exp i) "-1" then Ok false
    else match py_int (ti_exp i) with
         | Some e => Ok (is_expired clock e when)
         | None => Raise EValue
         end.

  (** token/jwt_token.py:100-111. The type of the token is not looked at. *)
  Definition jwt_is_expired (clock : Z) (key t : string) (when : Z) : result bool :=
    let* p := jverify key t in
    match dget "exp" p with
    | Some (VInt e) => Ok (is_expired clock e when)
    | Some _ => Raise EType
    | None => Raise EKey
    end.
End Crypto.

(** token/handler.py:103-137: the types given by [factory] *)
Definition TTYPE (name : string) : string :=
  if String.eqb name "code" then "A"
  else if String.eqb name "access_token" then "T"
  else "R".
