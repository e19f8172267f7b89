(** Scopes.v: scopes.py and the scope policy of oauth2/authorization.py. *)
From Verif Require Import Base Types Ctx.

(** scopes.py:28-33 *)
Definition available_scopes (cx : ctx) : result (list string) :=
  match truthy_get "scopes_supported" (cx_provider_info cx) with
  | Some sup => rfilter (fun s => val_in (VStr s) sup) (dkeys (cx_scope2claims cx))
  | None => Ok (dkeys (cx_scope2claims cx))
  end.

(** scopes.py:36-53: [None] for every claim of every scope; an unknown scope is a KeyError, unless the
    allowed claims are given. *)
Definition none_of (names : list string) : msg := fold_left (fun d n => dset n VNone d) names [].
Fixpoint convert_scopes2claims (scopes : list string) (allowed : option (list string)) (map : dict (list string))
         (res : msg) : result msg :=
  match scopes with
  | [] => Ok res
  | scope :: scopes' =>
      match allowed with
      | None =>
          let* names := dsub scope map in
          convert_scopes2claims scopes' allowed map (dupdate res (none_of names))
      | Some al =>
          match dget scope map with
          | Some names => convert_scopes2claims scopes' allowed map (dupdate res (none_of (filter (fun n => smem n al) names)))
          | None => convert_scopes2claims scopes' allowed map res
          end
      end
  end.

(** scopes.py:60-75. The client's own value is used as it is: [in] on a str is a substring test. *)
Definition allowed_scopes (cx : ctx) (clients : cdb) (client_id : string) : result val :=
  match dget client_id clients with
  | Some cli => match truthy_get "allowed_scopes" cli with
                | Some v => Ok v
                | None => rmap vstrs (available_scopes cx)
                end
  | None => Ok (VList [])
  end.
(** scopes.py:77-79 *)
Definition filter_scopes (cx : ctx) (clients : cdb) (client_id : string) (scopes : list string) : result (list string) :=
  let* allowed := allowed_scopes cx clients client_id in
  rfilter (fun s => val_in (VStr s) allowed) scopes.

(** oauth2/authorization.py:251-263. UnAuthorizedClientScope is [EUnAuthorizedClient]; a client record
    without client_id ends in a KeyError in the log message (line 261). *)
Fixpoint scope_policy (deny : bool) (allowed : val) (cinfo : msg) (scope : list string) : result unit :=
  match scope with
  | [] => Ok tt
  | s :: scope' =>
      let* bad := if deny then rmap negb (val_in (VStr s) allowed) else Ok false in
      if bad then (if dmem "client_id" cinfo then Raise EUnAuthorizedClient else Raise EKey)
      else scope_policy deny allowed cinfo scope'
  end.
Definition check_unknown_scopes_policy (cx : ctx) (scope : list string) (cinfo : msg) : result unit :=
  let* capabilities := of_option EKey (cx_capabilities cx) in
  let* allowed :=
    match truthy_get "allowed_scopes" cinfo with
    | Some v => Ok v
    | None => dsub "scopes_supported" capabilities
    end in
  let deny := match truthy_get "deny_unknown_scopes" capabilities with Some _ => true | None => false end in
  scope_policy deny allowed cinfo scope.

(** oidc/add_on/custom_scopes.py:8-27, the scope map and the supported scopes. Sets become lists in some
    order; membership is all that is read. *)
Definition add_custom_scopes (standard : dict (list string)) (custom : dict (list string)) (cx : ctx) : ctx :=
  let pi := cx_provider_info cx in
  let sup := match dget "scopes_supported" pi with Some (VList l) => strs_of l | _ => [] end in
  let cls := match dget "claims_supported" pi with Some (VList l) => strs_of l | _ => [] end in
  let pi := dset "scopes_supported" (vstrs (sup ++ dkeys custom)) pi in
  let pi := dset "claims_supported" (vstrs (cls ++ concat (map snd custom))) pi in
  mkCtx (cx_issuer cx) pi (cx_capabilities cx) (dupdate standard custom) (cx_modules cx) (cx_users cx) (cx_grant_config cx).
