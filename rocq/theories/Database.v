(** Database.v: the session store (session/database.py) over a dict-like storage.

    [sharing] tells which kind of storage it is: [true] for a Python dict (database.py:25), where
    an object read from the store is the stored object itself, so that a change made to it is a
    change of the store; [false] for a storage that serialises (session/storage.py), where it is
    a copy.
    Simplifications: the object that line 132 stores under a second key is stored as a copy;
    a missing key raises KeyError (a dict, or oidcmsg's AbstractFileSystem), while
    in_memory_db.py:14-15 would answer None. *)
From Verif Require Import Base Monad Types SessionKey.

Definition store := dict entry.
Definition DB A := ST store A.

(** [self._db[k]], [self._db[k] = v], [self._db.__delitem__(k)] *)
Definition db_sub (k : string) : DB entry := fun s => (dsub k s, s).
Definition db_set (k : string) (v : entry) : DB unit := modify (dset k v).
Definition db_del (k : string) : DB unit :=
  fun s => if dmem k s then (Ok tt, ddel k s) else (Raise EKey, s).
(** [self._db.get(k)] *)
Definition db_get (k : string) : DB (option entry) := gets (dget k).
(** In-place change of the object read from key [k], whose new state is [v] *)
Definition poke (sharing : bool) (k : string) (v : entry) : DB unit :=
  modify (fun s => if sharing && dmem k s then dset k v s else s).

(** session/database.py:30-39 *)
Definition eval_path (path : list string) : result (string * option string * option string) :=
  match path with
  | [] => Raise EIndex
  | [uid] => Ok (uid, None, None)
  | [uid; cid] => Ok (uid, Some cid, None)
  | uid :: cid :: gid :: _ => Ok (uid, Some cid, Some gid)
  end.

(** [x['subordinate']]: a Grant cannot be subscripted *)
Definition subordinate (e : entry) : result (list string) :=
  match e with
  | EInfo i => Ok (si_sub i)
  | EGrant _ => Raise EType
  end.
Definition set_subordinate (l : list string) (e : entry) : entry :=
  match e with
  | EInfo i => EInfo (mkSInfo (si_kind i) (si_id i) l (si_revoked i) (si_extra i))
  | EGrant g => EGrant g
  end.

(** session/info.py:22-26, 45-64: fresh objects *)
Definition ClientSessionInfo (client_id : option string) : sinfo := mkSInfo SClient client_id [] false [].
Definition UserSessionInfo (user_id : option string) : sinfo := mkSInfo SUser user_id [] false [].

(** truthiness of an id that may be None *)
Definition tr (o : option string) : bool := match o with Some s => nonempty s | None => false end.
Definition str_or_empty (o : option string) : string := match o with Some s => s | None => "" end.

(** session/database.py:41-68 *)
Definition db_store (path : list string) (value : entry) : DB unit :=
  '(uid, client_id, grant_id) <-- lift (eval_path path) ;;
  let cid := str_or_empty client_id in
  let gid := str_or_empty grant_id in
  (if tr grant_id then db_set (session_key [uid; cid; gid]) value else ret tt) ;;;
  (if tr client_id then
     let cid_key := session_key [uid; cid] in
     o <-- db_get cid_key ;;
     let cid_info := match o with Some e => e | None => EInfo (ClientSessionInfo None) end in
     if negb (tr grant_id) then db_set cid_key value
     else
       sub <-- lift (subordinate cid_info) ;;
       if negb (smem gid sub) then db_set cid_key (set_subordinate (sub ++ [gid]) cid_info)
       else ret tt
   else ret tt) ;;;
  o <-- db_get uid ;;
  let userinfo := match o with Some e => e | None => EInfo (UserSessionInfo None) end in
  (match client_id with None => db_set uid value | Some _ => ret tt end) ;;;
  (if tr client_id then
     sub <-- lift (subordinate userinfo) ;;
     if negb (smem cid sub) then db_set uid (set_subordinate (sub ++ [cid]) userinfo) else ret tt
   else ret tt).

(** session/database.py:70-100 *)
Definition db_read (path : list string) : DB entry :=
  '(uid, client_id, grant_id) <-- lift (eval_path path) ;;
  user_info <-- db_sub uid ;;
  match client_id with
  | None => ret user_info
  | Some cid =>
      sub <-- lift (subordinate user_info) ;;
      if negb (smem cid sub) then raise EValue
      else
        csi <-- catch (db_sub (session_key [uid; cid])) is_key_error (raise ENoClientSession) ;;
        match grant_id with
        | None => ret csi
        | Some gid =>
            gsub <-- lift (subordinate csi) ;;
            if negb (smem gid gsub) then raise EValue
            else catch (db_sub (session_key [uid; cid; gid])) is_key_error (raise ENoGrant)
        end
  end.

(** session/database.py:102-141 *)
Definition db_delete (sharing : bool) (path : list string) : DB unit :=
  '(uid, client_id, grant_id) <-- lift (eval_path path) ;;
  let cid := str_or_empty client_id in
  let gid := str_or_empty grant_id in
  o <-- db_get uid ;;
  match o with
  | None => ret tt
  | Some user_info =>
      if tr client_id then
        usub <-- lift (subordinate user_info) ;;
        if smem cid usub then
          o <-- db_get (session_key [uid; cid]) ;;
          (* 111-132; gives the state of the object _user_info afterwards *)
          user_info' <--
            match o with
            | None => ret user_info
            | Some client_info =>
                csub <-- lift (subordinate client_info) ;;
                csub' <--
                  (if tr grant_id then
                     if smem gid csub then
                       catch (db_del (session_key [uid; cid; gid])) is_key_error (ret tt) ;;;
                       (let csub' := sremove gid csub in
                        poke sharing (session_key [uid; cid]) (set_subordinate csub' client_info) ;;;
                        ret csub')
                     else ret csub
                   else
                     iterM (fun g => db_del (session_key [uid; cid; g])) csub ;;;
                     poke sharing (session_key [uid; cid]) (set_subordinate [] client_info) ;;;
                     ret []) ;;
                if is_nil csub' then
                  db_del (session_key [uid; cid]) ;;;
                  (let u' := set_subordinate (sremove cid usub) user_info in
                   poke sharing uid u' ;;;
                   ret u')
                else
                  db_set cid (set_subordinate csub' client_info) ;;;
                  ret user_info
            end ;;
          usub' <-- lift (subordinate user_info') ;;
          if is_nil usub' then db_del uid else db_set uid user_info'
        else ret tt
      else db_del uid
  end.

(** session/database.py:143-147. Simplification: the keys subordinate, revoked and type
    are not among those updated (no caller does). *)
Definition db_update (path : list string) (new_info : msg) : DB unit :=
  e <-- db_read path ;;
  e' <-- match e with
         | EInfo i => ret (EInfo (mkSInfo (si_kind i) (si_id i) (si_sub i) (si_revoked i)
                                    (dupdate (si_extra i) new_info)))
         | EGrant g => if is_nil new_info then ret (EGrant g) else raise EType
         end ;;
  db_store path e'.
