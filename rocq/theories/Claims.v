(** Claims.v: session/claims.py and user_info/__init__.py. *)
From Verif Require Import Base Types Monad Ctx Scopes.

(** [isinstance(x, dict)] contents, for [d.update(x)] *)
Definition as_dict (v : val) : result msg :=
  match v with VDict d => Ok d | VList [] => Ok [] | VNone => Raise EType | _ => Raise EValue end.

(** session/claims.py:35-41; the authorization request of the grant is given *)
Definition authorization_request_claims (authreq : option msg) (usage : string) : result (option val) :=
  if smem usage ["id_token"; "userinfo"] then
    match authreq with
    | None => Raise EType
    | Some ar =>
        match dget "claims" ar with
        | Some (VDict cl) => Ok (dget usage cl)
        | Some _ => Raise EAttr
        | None => Ok None
        end
    end
  else Ok None.

(** The name under which a client's claims are kept, session/claims.py:45 *)
Definition claims_key (usage : string) : string := (usage ++ "_claims")%string.

(** session/claims.py:43-48. [CClient] is the dict in the client database itself. *)
Definition get_client_claims (clients : cdb) (client_id usage : string) : result cref :=
  match dget client_id clients with
  | None => Ok (CVal [])
  | Some info =>
      match dget (claims_key usage) info with
      | None => Ok (CVal [])
      | Some (VList l) => Ok (CVal (none_of (strs_of l)))
      | Some (VDict _) => Ok (CClient client_id usage)
      | Some _ => Raise EAttr
      end
  end.

(** What a reference stands for now *)
Definition resolve (clients : cdb) (r : cref) : msg :=
  match r with
  | CVal c => c
  | CClient client_id usage =>
      match dget client_id clients with
      | Some info => match dget (claims_key usage) info with Some (VDict d) => d | _ => [] end
      | None => []
      end
  end.

(** [r.update(d)] *)
Definition cupdate (r : cref) (d : msg) : ST cdb cref :=
  match r with
  | CVal c => ret (CVal (dupdate c d))
  | CClient client_id usage =>
      clients <-- gets id ;;
      match dget client_id clients with
      | Some info =>
          modify (fun cs => dset client_id (dset (claims_key usage) (VDict (dupdate (resolve clients r) d)) info) cs) ;;;
          ret r
      | None => ret r
      end
  end.

(** session/claims.py:50-112. [client_id] and [authreq] come from the session (lines 82, 37-38). *)
Definition get_claims (cx : ctx) (client_id : string) (authreq : option msg) (scopes : list string)
           (usage : string) : ST cdb cref :=
  let module := if smem usage ["userinfo"; "id_token"; "introspection"; "access_token"]
                then dget usage (cx_modules cx) else None in
  let kwarg k := match module with Some kw => dget k kw | None => None end in
  let on k := match kwarg k with Some v => truthy v | None => false end in
  clients <-- gets id ;;
  claims <-- (if on "enable_claims_per_client" then lift (get_client_claims clients client_id usage)
              else ret (CVal [])) ;;
  base <-- lift (match kwarg "base_claims" with Some v => as_dict v | None => Ok [] end) ;;
  claims <-- cupdate claims base ;;
  claims <-- (if on "add_claims_by_scope" && negb (is_nil scopes) then
                clients <-- gets id ;;
                sc <-- lift (filter_scopes cx clients client_id scopes) ;;
                cl <-- lift (convert_scopes2claims sc None (cx_scope2claims cx) []) ;;
                cupdate claims cl
              else ret claims) ;;
  rq <-- lift (authorization_request_claims authreq usage) ;;
  match rq with
  | Some v => if truthy v then d <-- lift (as_dict v) ;; cupdate claims d else ret claims
  | None => ret claims
  end.

(** session/claims.py:137-174 *)
Fixpoint match_items (value : val) (items : msg) : result bool :=
  match items with
  | [] => Ok false
  | (key, v) :: items' =>
      let* m := if String.eqb key "value" then Ok (val_eqb value v)
                else if String.eqb key "values" then val_in value v
                else Ok false in
      if m then Ok true else match_items value items'
  end.
Definition claims_match (value : option val) (claimspec : val) : result bool :=
  match value with
  | None | Some VNone => Ok false
  | Some value =>
      match claimspec with
      | VNone => Ok true
      | VDict items =>
          let* m := match_items value items in
          if m then Ok true
          else Ok (match items with [(k, _)] => String.eqb k "essential" | _ => false end)
      | _ => Raise EAttr
      end
  end.

(** user_info/__init__.py:41-72, called without user_info_claims: a copy of the record, {} for an unknown user *)
Definition userinfo (cx : ctx) (user_id : string) : msg := @dget_or msg user_id [] (cx_users cx).

(** session/claims.py:120-134 *)
Fixpoint release (info : msg) (restriction : msg) : result msg :=
  match restriction with
  | [] => Ok []
  | (k, v) :: r =>
      let* m := claims_match (dget k info) v in
      let* rest := release info r in
      Ok (if m then match dget k info with Some x => (k, x) :: rest | None => rest end else rest)
  end.
Definition get_user_claims (cx : ctx) (user_id : string) (restriction : msg) : result msg :=
  release (userinfo cx user_id) restriction.

(** user_info/__init__.py:41-72 with a claims specification *)
Definition user_filter (info : msg) (wanted : option msg) : msg :=
  match wanted with
  | None => info
  | Some w => fold_left (fun acc kv => match dget (fst kv) info with Some v => dset (fst kv) v acc | None => acc end) w []
  end.
