(** Manager.v: the session manager (session/manager.py) on top of the session store.

    Every function takes [sharing], see Database.v. The token handler is modelled elsewhere.
    [clock] is the current time, [newid] the value of uuid1().hex for a new grant. *)
From Verif Require Import Base Monad Types SessionKey Token Grant Database.

(** ** Subject identifiers *)
Section Sub.
  (** [hashlib.sha256(x.encode("utf-8")).hexdigest()] *)
  Variable sha256hex : string -> string.

  (** session/manager.py:26-27: ["%s%s%s" % (uid, sector_identifier, salt)]; None prints as None *)
  Definition pairwise_id (uid : string) (sector : option string) (salt : string) : string :=
    sha256hex (uid ++ (match sector with Some s => s | None => "None" end) ++ salt)%string.
  (** session/manager.py:30-31 *)
  Definition public_id (uid salt : string) : string := sha256hex (uid ++ salt)%string.
  (** session/manager.py:34-35: a random value [uuid4] *)
  Definition ephemeral_id (uuid4 : string) : string := uuid4.

  (** session/manager.py:48-61, 112: [self.sub_func[sub_type](user_id, salt=.., sector_identifier=..)]
      with the default functions. *)
  Definition make_sub (sub_type uid : string) (sector : option string) (salt uuid4 : string) : result string :=
    if String.eqb sub_type "public" then Ok (public_id uid salt)
    else if String.eqb sub_type "pairwise" then Ok (pairwise_id uid sector salt)
    else if String.eqb sub_type "ephemeral" then Ok (ephemeral_id uuid4)
    else Raise EKey.
End Sub.

(** session/manager.py:105-108: [auth_req.get("sector_identifier_uri")], "" for a request that is None.
    Simplification: a value that is not a str is treated like None. *)
Definition sector_of (auth_req : option msg) : option string :=
  match auth_req with
  | None => Some ""
  | Some m => mget_str "sector_identifier_uri" m
  end.

(** ** Reading *)
(** session/manager.py:173-174 [mngr[session_id]] *)
Definition mget (sid : string) : DB entry := db_read (unpack_session_key sid).
(** session/manager.py:176-177 [mngr[session_id] = value] *)
Definition mset (sid : string) (v : entry) : DB unit := db_store (unpack_session_key sid) v.

Definition is_user_info (e : entry) : bool :=
  match e with EInfo i => match si_kind i with SUser => true | _ => false end | _ => false end.
Definition is_client_info (e : entry) : bool :=
  match e with EInfo i => match si_kind i with SClient => true | _ => false end | _ => false end.

(** session/manager.py:63-68 *)
Definition get_user_info (uid : string) : DB entry :=
  usi <-- db_read [uid] ;; if is_user_info usi then ret usi else raise EValue.

(** [grant.issued_token], [grant.authentication_event]: attributes a SessionInfo does not have *)
Definition as_grant (e : entry) : DB grant :=
  match e with EGrant g => ret g | EInfo _ => raise EAttr end.

(** session/manager.py:70-83 *)
Definition find_token (sid value : string) : DB (option token) :=
  '(u, c, g) <-- lift (unpack3 sid) ;;
  e <-- db_read [u; c; g] ;;
  gr <-- as_grant e ;;
  ret (get_token value gr).

(** session/manager.py:179-191 *)
Definition get_client_session_info (sid : string) : DB entry :=
  '(u, c, _) <-- lift (unpack3 sid) ;;
  csi <-- db_read [u; c] ;; if is_client_info csi then ret csi else raise EValue.
(** session/manager.py:193-205 *)
Definition get_user_session_info (sid : string) : DB entry :=
  '(u, _, _) <-- lift (unpack3 sid) ;;
  usi <-- db_read [u] ;; if is_user_info usi then ret usi else raise EValue.
(** session/manager.py:207-219 *)
Definition get_grant (sid : string) : DB grant :=
  '(u, c, g) <-- lift (unpack3 sid) ;;
  e <-- db_read [u; c; g] ;;
  match e with EGrant gr => ret gr | EInfo _ => raise EValue end.

(** session/manager.py:302-320; exactly one of the two ways of naming the client session *)
Definition grants_of (u c : string) : DB (list entry) :=
  csi <-- db_read [u; c] ;;
  sub <-- lift (subordinate csi) ;;
  mapM (fun gid => db_read [u; c; gid]) sub.
Definition grants (sid u c : string) : DB (list entry) :=
  if nonempty sid then '(u, c, _) <-- lift (unpack3 sid) ;; grants_of u c
  else if nonempty u && nonempty c then grants_of u c
  else raise EAttr.

(** session/manager.py:245-264 *)
Definition get_authentication_events (sid u c : string) : DB (list (option authn_event)) :=
  l <-- grants sid u c ;;
  mapM (fun e => g <-- as_grant e ;; ret (g_authn g)) l.

(** session/manager.py:322-372 *)
Record session_info := mkSI {
  in_sid : string; in_uid : string; in_cid : string; in_gid : string;
  in_usi : option entry; in_csi : option entry; in_grant : option entry;
  in_ae : option (option authn_event); in_ar : option (option msg) }.

Definition get_session_info (sid : string) (user_session_info client_session_info grant
    authentication_event authorization_request : bool) : DB session_info :=
  '(u, c, g) <-- lift (unpack3 sid) ;;
  usi <-- (if user_session_info then e <-- db_read [u] ;; ret (Some e) else ret None) ;;
  csi <-- (if client_session_info then e <-- db_read [u; c] ;; ret (Some e) else ret None) ;;
  gr <-- (if grant then e <-- db_read [u; c; g] ;; ret (Some e) else ret None) ;;
  ae <-- (if authentication_event then
            match gr with
            | Some (EGrant _) => raise EType    (* line 355: a Grant cannot be subscripted *)
            | Some (EInfo _) => raise EKey
            | None => e <-- db_read [u; c; g] ;; x <-- as_grant e ;; ret (Some (g_authn x))
            end
          else ret None) ;;
  ar <-- (if authorization_request then
            match gr with
            | Some e => x <-- as_grant e ;; ret (Some (g_authreq x))
            | None => e <-- db_read [u; c; g] ;; x <-- as_grant e ;; ret (Some (g_authreq x))
            end
          else ret None) ;;
  ret (mkSI sid u c g usi csi gr ae ar).

(** session/manager.py:266-272 *)
Definition get_authorization_request (sid : string) : DB (option msg) :=
  r <-- get_session_info sid false false false false true ;;
  ret (match in_ar r with Some x => x | None => None end).
Definition get_authentication_event (sid : string) : DB (option authn_event) :=
  r <-- get_session_info sid false false false true false ;;
  ret (match in_ae r with Some x => x | None => None end).

(** ** Creating *)
(** session/manager.py:85-121. [sub] is the outcome of the call of line 112. *)
Definition create_grant (clock : Z) (newid : string) (authn : option authn_event) (auth_req : option msg)
    (user_id client_id : string) (sub : result string) (rules : option grules)
    (scopes : option (list string)) : DB string :=
  s <-- lift sub ;;
  let grant := new_grant clock newid s auth_req authn rules scopes in
  db_store [user_id; client_id; newid] (EGrant grant) ;;;
  ret (session_key [user_id; client_id; newid]).

(** session/manager.py:123-171 *)
Definition create_session (clock : Z) (newid : string) (authn : option authn_event) (auth_req : option msg)
    (user_id client_id : string) (sub : result string) (rules : option grules)
    (scopes : option (list string)) : DB string :=
  catch (_ <-- db_read [user_id] ;; ret tt) is_key_error
        (db_store [user_id] (EInfo (UserSessionInfo (Some user_id)))) ;;;
  cid <-- (if nonempty client_id then ret client_id
           else match auth_req with
                | Some m => lift (msub_str "client_id" m)
                | None => raise EType
                end) ;;
  db_store [user_id; cid] (EInfo (ClientSessionInfo (Some cid))) ;;;
  create_grant clock newid authn auth_req user_id cid sub rules scopes.

(** oauth2/authorization.py:597-599: the only place where a session is made. [sub_type] is not
    passed, so the default of session/manager.py:128 is used whatever the client registered;
    oidc/authorization.py:106-133, which looks at the registration, is never called. *)
Definition login_session (sha256hex : string -> string) (salt uuid4 : string) (clock : Z) (newid : string)
    (authn : authn_event) (request : msg) (client_info : msg) (user_id client_id : string)
    (rules : option grules) : DB string :=
  create_session clock newid (Some authn) (Some request) user_id client_id
    (make_sub sha256hex "public" user_id (sector_of (Some request)) salt uuid4) rules None.

(** session/manager.py:394-409; [gr] is the new Grant. In both kinds of storage the id ends up in
    the list twice: [set] has put it there (database.py:56-58), line 407 appends it again. *)
Definition add_grant (user_id client_id : string) (gr : grant) : DB unit :=
  db_store [user_id; client_id; g_id gr] (EGrant gr) ;;;
  csi <-- db_read [user_id; client_id] ;;
  sub <-- lift (subordinate csi) ;;
  db_store [user_id; client_id] (set_subordinate (sub ++ [g_id gr]) csi).

(** ** Revoking and removing *)
(** session/info.py:37-39, session/token.py:62-63: [x.revoke()] *)
Definition revoke_entry (e : entry) : entry :=
  match e with
  | EInfo i => EInfo (mkSInfo (si_kind i) (si_id i) (si_sub i) true (si_extra i))
  | EGrant g => EGrant (g_set_revoked true g)
  end.

(** session/manager.py:274-289. For a Grant at a client path ([_info.revoke()] returns None there)
    the kinds are mixed up already; not distinguished. *)
Definition revoke_client_session (sid : string) : DB unit :=
  '(u, c) <-- match unpack_session_key sid with
              | [u; c] => ret (u, c)
              | [u; c; _] => ret (u, c)
              | _ => raise EValue
              end ;;
  info <-- db_read [u; c] ;;
  db_store [u; c] (revoke_entry info).

(** session/manager.py:291-300 *)
Definition revoke_grant (sid : string) : DB unit :=
  let path := unpack_session_key sid in
  info <-- db_read path ;;
  db_store path (revoke_entry info).

(** session/manager.py:221-225, on the list of issued tokens; [depth] as in Grant.v *)
Section Dep.
  Variables (rec : string -> list token -> list token * result unit) (w : string).
  Fixpoint dloop (i : nat) (rest l : list token) {struct rest} : list token * result unit :=
    match rest with
    | [] => (l, Ok tt)
    | t :: rest' =>
        if opt_eqb (t_based_on t) w then
          match rec (t_value t) (revoke_nth i l) with
          | (l2, Ok _) => dloop (S i) rest' l2
          | (l2, Raise e) => (l2, Raise e)
          end
        else dloop (S i) rest' l
    end.
End Dep.
Fixpoint revoke_dependent (depth : nat) (w : string) (l : list token) {struct depth}
  : list token * result unit :=
  match depth with
  | O => (l, Raise ERecursion)
  | S d => dloop (revoke_dependent d) w 0 l l
  end.

(** session/manager.py:227-243. The objects changed are those read from the store. *)
Definition mgr_revoke_token (sharing : bool) (depth : nat) (sid value : string) (recursive : bool) : DB unit :=
  '(u, c, g) <-- lift (unpack3 sid) ;;
  e <-- db_read [u; c; g] ;;
  gr <-- as_grant e ;;
  match get_token value gr with
  | None => raise EUnknownToken
  | Some _ =>
      poke sharing (session_key [u; c; g]) (EGrant (upd_token value (t_set_revoked true) gr)) ;;;
      if recursive then
        e2 <-- mget sid ;;
        gr2 <-- as_grant e2 ;;
        (let (l, r) := revoke_dependent depth value (g_issued gr2) in
         poke sharing (session_key [u; c; g]) (EGrant (g_set_issued l gr2)) ;;;
         lift r)
      else ret tt
  end.

(** session/manager.py:430-432 *)
Definition remove_session (sharing : bool) (sid : string) : DB unit :=
  '(u, c, g) <-- lift (unpack3 sid) ;;
  db_delete sharing [u; c; g].
