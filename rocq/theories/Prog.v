(** Prog.v: the session manager and the code exchange once more, as programs that use the session store step by step. Database.v, Manager.v
    and TokenEndpoint.v say what a whole call does to the store; here one sees the single reads and writes of a call, so that it
    can be said what is in the store when the provider stops in the middle of a call, or when the calls of several workers mix.

    The storage is one that serialises ([sharing] = false in Database.v): what is read is a copy, and every write of a key
    reaches the storage at once or not at all. ProgProofs.v proves that run to the end without disturbance the programs do
    what the functions of the other files do. *)
From Verif Require Import Base Monad Types SessionKey Token Grant Database Manager Ctx Claims World Minting UserInfo TokenEndpoint.

(** [Get]: [self._db[k]], [self._db.get(k)]; [Put]: [self._db[k] = v]; [Del]: [self._db.__delitem__(k)], the bool tells whether it
    was there; [Act]: something about the client database, which may look at the sessions. Simplification: it is one step. *)
Inductive prog (A : Type) : Type :=
| Done (r : result A)
| Get (k : string) (f : option entry -> prog A)
| Put (k : string) (v : entry) (p : prog A)
| Del (k : string) (f : bool -> prog A)
| Act (B : Type) (m : store -> ST cdb B) (f : result B -> prog A).
Arguments Done {A} r.
Arguments Get {A} k f.
Arguments Put {A} k v p.
Arguments Del {A} k f.
Arguments Act {A} B m f.

(** One step. [None]: the program has ended. *)
Definition pstep {A} (p : prog A) (w : world) : option (prog A * world) :=
  match p with
  | Done _ => None
  | Get k f => Some (f (dget k (w_db w)), w)
  | Put k v p' => Some (p', mkW (dset k v (w_db w)) (w_cdb w))
  | Del k f => Some (f (dmem k (w_db w)), mkW (ddel k (w_db w)) (w_cdb w))
  | Act B m f => let (r, c) := m (w_db w) (w_cdb w) in Some (f r, mkW (w_db w) c)
  end.
(** The whole program, undisturbed *)
Fixpoint exec {A} (p : prog A) (w : world) : result A * world :=
  match p with
  | Done r => (r, w)
  | Get k f => exec (f (dget k (w_db w))) w
  | Put k v p' => exec p' (mkW (dset k v (w_db w)) (w_cdb w))
  | Del k f => exec (f (dmem k (w_db w))) (mkW (ddel k (w_db w)) (w_cdb w))
  | Act B m f => let (r, c) := m (w_db w) (w_cdb w) in exec (f r) (mkW (w_db w) c)
  end.

Fixpoint pbind {A B} (p : prog A) (k : A -> prog B) : prog B :=
  match p with
  | Done (Ok a) => k a
  | Done (Raise e) => Done (Raise e)
  | Get x f => Get x (fun o => pbind (f o) k)
  | Put x v p' => Put x v (pbind p' k)
  | Del x f => Del x (fun b => pbind (f b) k)
  | Act C m f => Act C m (fun r => pbind (f r) k)
  end.
(** [try: p except catches: h] *)
Fixpoint pcatch {A} (p : prog A) (catches : exn -> bool) (h : prog A) : prog A :=
  match p with
  | Done (Ok a) => Done (Ok a)
  | Done (Raise e) => if catches e then h else Done (Raise e)
  | Get x f => Get x (fun o => pcatch (f o) catches h)
  | Put x v p' => Put x v (pcatch p' catches h)
  | Del x f => Del x (fun b => pcatch (f b) catches h)
  | Act C m f => Act C m (fun r => pcatch (f r) catches h)
  end.
Definition pret {A} (a : A) : prog A := Done (Ok a).
Definition praise {A} (e : exn) : prog A := Done (Raise e).
Definition p_sub (k : string) : prog entry := Get k (fun o => Done (of_option EKey o)).
Definition p_get (k : string) : prog (option entry) := Get k pret.
Definition p_set (k : string) (v : entry) : prog unit := Put k v (pret tt).
Definition p_del (k : string) : prog unit := Del k (fun b => if b then pret tt else praise EKey).
Definition p_act {A} (m : store -> ST cdb A) : prog A := Act A m Done.

Declare Scope prog_scope.
Delimit Scope prog_scope with prog.
Notation "x <~ m ;; k" := (pbind m (fun x => k)) (at level 61, m at next level, right associativity) : prog_scope.
Notation "' p <~ m ;; k" := (pbind m (fun x => match x with p => k end)) (at level 61, p pattern, m at next level, right associativity) : prog_scope.
Notation "m ;~ k" := (pbind m (fun _ => k)) (at level 61, right associativity) : prog_scope.
Local Open Scope prog_scope.

Fixpoint p_iter {A} (f : A -> prog unit) (l : list A) : prog unit :=
  match l with
  | [] => pret tt
  | x :: l' => f x ;~ p_iter f l'
  end.

(** ** session/database.py *)
(** session/database.py:41-68 *)
Definition p_store (path : list string) (value : entry) : prog unit :=
  '(uid, client_id, grant_id) <~ Done (eval_path path) ;;
  let cid := str_or_empty client_id in
  let gid := str_or_empty grant_id in
  (if tr grant_id then p_set (session_key [uid; cid; gid]) value else pret tt) ;~
  (if tr client_id then
     let cid_key := session_key [uid; cid] in
     o <~ p_get cid_key ;;
     let cid_info := match o with Some e => e | None => EInfo (ClientSessionInfo None) end in
     if negb (tr grant_id) then p_set cid_key value
     else
       sub <~ Done (subordinate cid_info) ;;
       if negb (smem gid sub) then p_set cid_key (set_subordinate (sub ++ [gid]) cid_info)
       else pret tt
   else pret tt) ;~
  o <~ p_get uid ;;
  let userinfo := match o with Some e => e | None => EInfo (UserSessionInfo None) end in
  (match client_id with None => p_set uid value | Some _ => pret tt end) ;~
  (if tr client_id then
     sub <~ Done (subordinate userinfo) ;;
     if negb (smem cid sub) then p_set uid (set_subordinate (sub ++ [cid]) userinfo) else pret tt
   else pret tt).

(** session/database.py:70-100 *)
Definition p_read (path : list string) : prog entry :=
  '(uid, client_id, grant_id) <~ Done (eval_path path) ;;
  user_info <~ p_sub uid ;;
  match client_id with
  | None => pret user_info
  | Some cid =>
      sub <~ Done (subordinate user_info) ;;
      if negb (smem cid sub) then praise EValue
      else
        csi <~ pcatch (p_sub (session_key [uid; cid])) is_key_error (praise ENoClientSession) ;;
        match grant_id with
        | None => pret csi
        | Some gid =>
            gsub <~ Done (subordinate csi) ;;
            if negb (smem gid gsub) then praise EValue
            else pcatch (p_sub (session_key [uid; cid; gid])) is_key_error (praise ENoGrant)
        end
  end.

(** session/database.py:102-141 *)
Definition p_delete (path : list string) : prog unit :=
  '(uid, client_id, grant_id) <~ Done (eval_path path) ;;
  let cid := str_or_empty client_id in
  let gid := str_or_empty grant_id in
  o <~ p_get uid ;;
  match o with
  | None => pret tt
  | Some user_info =>
      if tr client_id then
        usub <~ Done (subordinate user_info) ;;
        if smem cid usub then
          o <~ p_get (session_key [uid; cid]) ;;
          user_info' <~
            match o with
            | None => pret user_info
            | Some client_info =>
                csub <~ Done (subordinate client_info) ;;
                csub' <~
                  (if tr grant_id then
                     if smem gid csub then
                       pcatch (p_del (session_key [uid; cid; gid])) is_key_error (pret tt) ;~
                       pret (sremove gid csub)
                     else pret csub
                   else
                     p_iter (fun g => p_del (session_key [uid; cid; g])) csub ;~
                     pret []) ;;
                if is_nil csub' then
                  p_del (session_key [uid; cid]) ;~
                  pret (set_subordinate (sremove cid usub) user_info)
                else
                  p_set cid (set_subordinate csub' client_info) ;~
                  pret user_info
            end ;;
          usub' <~ Done (subordinate user_info') ;;
          if is_nil usub' then p_del uid else p_set uid user_info'
        else pret tt
      else p_del uid
  end.

(** session/database.py:143-147 *)
Definition p_update (path : list string) (new_info : msg) : prog unit :=
  e <~ p_read path ;;
  e' <~ match e with
        | EInfo i => pret (EInfo (mkSInfo (si_kind i) (si_id i) (si_sub i) (si_revoked i) (dupdate (si_extra i) new_info)))
        | EGrant g => if is_nil new_info then pret (EGrant g) else praise EType
        end ;;
  p_store path e'.

(** ** session/manager.py *)
(** session/manager.py:85-121 *)
Definition p_create_grant (clock : Z) (newid : string) (authn : option authn_event) (auth_req : option msg)
    (user_id client_id : string) (sub : result string) (rules : option grules) (scopes : option (list string)) : prog string :=
  s <~ Done sub ;;
  p_store [user_id; client_id; newid] (EGrant (new_grant clock newid s auth_req authn rules scopes)) ;~
  pret (session_key [user_id; client_id; newid]).
(** session/manager.py:123-171 *)
Definition p_create_session (clock : Z) (newid : string) (authn : option authn_event) (auth_req : option msg)
    (user_id client_id : string) (sub : result string) (rules : option grules) (scopes : option (list string)) : prog string :=
  pcatch (p_read [user_id] ;~ pret tt) is_key_error (p_store [user_id] (EInfo (UserSessionInfo (Some user_id)))) ;~
  cid <~ (if nonempty client_id then pret client_id
          else match auth_req with
               | Some m => Done (msub_str "client_id" m)
               | None => praise EType
               end) ;;
  p_store [user_id; cid] (EInfo (ClientSessionInfo (Some cid))) ;~
  p_create_grant clock newid authn auth_req user_id cid sub rules scopes.
(** session/manager.py:394-409 *)
Definition p_add_grant (user_id client_id : string) (gr : grant) : prog unit :=
  p_store [user_id; client_id; g_id gr] (EGrant gr) ;~
  csi <~ p_read [user_id; client_id] ;;
  sub <~ Done (subordinate csi) ;;
  p_store [user_id; client_id] (set_subordinate (sub ++ [g_id gr]) csi).
(** session/manager.py:274-289 *)
Definition p_revoke_client_session (sid : string) : prog unit :=
  '(u, c) <~ match unpack_session_key sid with
             | [u; c] => pret (u, c)
             | [u; c; _] => pret (u, c)
             | _ => praise EValue
             end ;;
  info <~ p_read [u; c] ;;
  p_store [u; c] (revoke_entry info).
(** session/manager.py:291-300 *)
Definition p_revoke_grant (sid : string) : prog unit :=
  info <~ p_read (unpack_session_key sid) ;;
  p_store (unpack_session_key sid) (revoke_entry info).
(** session/manager.py:227-243. The token that is revoked is one of a copy. *)
Definition p_revoke_token (depth : nat) (sid value : string) (recursive : bool) : prog unit :=
  '(u, c, g) <~ Done (unpack3 sid) ;;
  e <~ p_read [u; c; g] ;;
  gr <~ Done (match e with EGrant g => Ok g | EInfo _ => Raise EAttr end) ;;
  match get_token value gr with
  | None => praise EUnknownToken
  | Some _ =>
      if recursive then
        e2 <~ p_read (unpack_session_key sid) ;;
        gr2 <~ Done (match e2 with EGrant g => Ok g | EInfo _ => Raise EAttr end) ;;
        Done (snd (revoke_dependent depth value (g_issued gr2)))
      else pret tt
  end.
(** session/manager.py:430-432 *)
Definition p_remove_session (sid : string) : prog unit :=
  '(u, c, g) <~ Done (unpack3 sid) ;;
  p_delete [u; c; g].
(** What endpoints do: session/manager.py:207-219, 176-177 *)
Definition p_get_grant (sid : string) : prog grant :=
  '(u, c, g) <~ Done (unpack3 sid) ;;
  e <~ p_read [u; c; g] ;;
  Done (match e with EGrant gr => Ok gr | EInfo _ => Raise EValue end).
Definition p_mset (sid : string) (v : entry) : prog unit := p_store (unpack_session_key sid) v.
Definition p_write (sid : string) (f : grant -> grant) : prog unit :=
  gr <~ p_get_grant sid ;;
  p_mset sid (EGrant (f gr)).

(** ** The code exchange *)
(** session/grant.py:157-179 *)
Definition p_payload (cx : ctx) (u c : string) (g : grant) (ttype : string) : prog msg :=
  r <~ p_act (fun _ => get_claims cx c (g_authreq g) (g_scope g) ttype) ;;
  clients <~ p_act (fun _ => gets id) ;;
  ui <~ Done (get_user_claims cx u (resolve clients r)) ;;
  pret (dupdate [("scope", vstrs (g_scope g)); ("aud", vstrs (g_resources g))] ui).
(** session/grant.py:181-237 *)
Definition p_mint_in (cx : ctx) (mt : minting) (sid : string) (g : grant) (ttype : string)
           (based_on : option token) (rules : option urules) : prog (option token * grant) :=
  let mint v := mint_token (mt_clock mt) (mt_id mt) g ttype based_on rules None no_kw v in
  r <~ Done (mint (Ok "")) ;;
  match r with
  | (None, _) => pret (None, g)
  | (Some _, _) =>
      '(u, c, _) <~ Done (unpack3 sid) ;;
      payload <~ p_payload cx u c g ttype ;;
      Done (mint (mt_value mt sid payload))
  end.
(** oidc/token.py:50-78 *)
Definition p_mint (cx : ctx) (mt : minting) (sid : string) (g : grant) (ttype : string)
           (based_on : option token) : prog (option token * grant) :=
  let rules := dget ttype (gr_types (g_rules g)) in
  let exp_in := lifetime rules in
  '(o, g1) <~ p_mint_in cx mt sid g ttype based_on rules ;;
  match o with
  | None =>
      if negb (exp_in =? 0)%Z then praise EAttr
      else p_store (unpack_session_key sid) (EGrant g1) ;~ pret (None, g1)
  | Some t =>
      let late := if (exp_in =? 0)%Z then fun t => t else t_set_expires_at (mt_clock mt + exp_in) in
      let g2 := upd_newest late g1 in
      p_store (unpack_session_key sid) (EGrant g2) ;~
      pret (Some (late t), g2)
  end.

Section Exchange.
  Variable sid_of : string -> result string.
  Variable cx : ctx.
  Variable make_id_token : store -> string -> ST cdb string.

  (** session/manager.py:374-388 with grant=True *)
  Definition p_session_by (value : string) : prog (string * grant) :=
    sid <~ Done (sid_of value) ;;
    '(u, c, g) <~ Done (unpack3 sid) ;;
    e <~ p_read [u; c; g] ;;
    gr <~ Done (match e with EGrant g => Ok g | EInfo _ => Raise EAttr end) ;;
    pret (sid, gr).
  (** oidc/token.py:153-164 *)
  Definition p_id_token (sid : string) (resp : msg) : prog answer :=
    o <~ pcatch (t <~ p_act (fun s => make_id_token s sid) ;; pret (Some t))
                (fun e => match e with EServiceError => true | _ => false end) (pret None) ;;
    match o with
    | Some t => pret (AOk (dset "id_token" (VStr t) resp) None)
    | None => pret (AError "invalid_request" "Could not sign/encrypt id_token")
    end.
  (** oidc/token.py:168-207, as far as a code is concerned: it is there and active *)
  Definition p_code_parse (clock : Z) (request : msg) : prog parsed :=
    o <~ pcatch (v <~ Done (msub_str "code" request) ;; '(_, g) <~ p_session_by v ;; pret (Some (v, g)))
                is_key_or_unknown (pret None) ;;
    match o with
    | None => pret (PErr "invalid_grant" "Unknown code")
    | Some (v, g) =>
        match get_token v g with
        | None => pret (PErr "invalid_request" "Wrong token type")
        | Some t =>
            if negb (tclass_eqb (t_class t) CCode) then pret (PErr "invalid_request" "Wrong token type")
            else if negb (t_active clock t) then pret (PErr "invalid_request" "Code inactive")
            else if dmem "client_id" request then pret (PReq request)
            else
              match g_authreq g with
              | None => praise EType
              | Some ar => c <~ Done (dsub "client_id" ar) ;; pret (PReq (dset "client_id" c request))
              end
        end
    end.
  (** oidc/token.py:82-166 *)
  Definition p_code_process (m1 m2 : minting) (issue_refresh : option bool) (req : msg) : prog answer :=
    gt <~ Done (msub_str "grant_type" req) ;;
    if negb (String.eqb gt "authorization_code") then pret (AError "invalid_request" "Unknown grant_type")
    else if negb (dmem "code" req) then pret (AError "invalid_request" "Missing code")
    else
      raw <~ Done (msub_str "code" req) ;;
      let access_code := blank_to_plus raw in
      '(sid, g) <~ p_session_by access_code ;;
      let code := get_token access_code g in
      ar <~ Done (of_option EType (g_authreq g)) ;;
      mismatch <~ (match dget "redirect_uri" ar with
                   | Some u => u' <~ Done (dsub "redirect_uri" req) ;; pret (negb (val_eqb u' u))
                   | None => pret false
                   end) ;;
      if mismatch : bool then pret (AError "invalid_request" "redirect_uri mismatch")
      else
        let refresh := match issue_refresh with Some b => b | None => smem "offline_access" (g_scope g) end in
        let resp := [("token_type", VStr "Bearer"); ("scope", vstrs (g_scope g))] in
        '(o, g1) <~ p_mint cx m1 sid g "access_token" code ;;
        at_ <~ Done (of_option EAttr o) ;;
        let resp := dset "expires_in" (VInt (t_expires_at at_ - mt_clock m1))
                      (dset "access_token" (VStr (t_value at_)) resp) in
        '(g2, resp) <~ (if refresh then
                          '(o, g2) <~ p_mint cx m2 sid g1 "refresh_token" code ;;
                          rt <~ Done (of_option EAttr o) ;;
                          pret (g2, dset "refresh_token" (VStr (t_value rt)) resp)
                        else pret (g1, resp)) ;;
        (match code with Some _ => pret tt | None => praise EAttr end) ;~
        p_mset sid (EGrant (upd_token access_code register_usage g2)) ;~
        scope <~ Done (dsub "scope" ar) ;;
        openid <~ Done (val_in (VStr "openid") scope) ;;
        if openid : bool then p_id_token sid resp else pret (AOk resp None).
  (** oidc/token.py:211-261. What 245 does to the new refresh token it does to a copy. *)
  Definition p_refresh_process (m1 m2 : minting) (req : msg) : prog answer :=
    gt <~ Done (msub_str "grant_type" req) ;;
    if negb (String.eqb gt "refresh_token") then pret (AError "invalid_request" "Wrong grant_type")
    else
      value <~ Done (msub_str "refresh_token" req) ;;
      '(sid, g) <~ p_session_by value ;;
      let token := get_token value g in
      '(o, g1) <~ p_mint cx m1 sid g "access_token" token ;;
      at_ <~ Done (of_option EAttr o) ;;
      let resp := [("access_token", VStr (t_value at_)); ("token_type", VStr "Bearer"); ("scope", vstrs (g_scope g1))] in
      let resp := if (t_expires_at at_ =? 0)%Z then resp
                  else dset "expires_in" (VInt (t_expires_at at_ - mt_clock m1)) resp in
      t <~ Done (of_option EAttr token) ;;
      mints <~ Done (of_option EType (ur_mints (t_rules t))) ;;
      resp <~ (if smem "refresh_token" mints then
                 '(o, g2) <~ p_mint cx m2 sid g1 "refresh_token" token ;;
                 rt <~ Done (of_option EAttr o) ;;
                 pret (dset "refresh_token" (VStr (t_value rt)) resp)
               else pret resp) ;;
      if smem "id_token" mints then p_id_token sid resp else pret (AOk resp None).
End Exchange.
