(** UsageLookup.v: the usage rules that apply to a token of a grant (session/grant.py), and the arguments of a grant that is added. *)
From Verif Require Import Base Types Monad Token Grant Ctx Scopes Claims Authz.

(** session/grant.py:280-293 *)
Definition DEFAULT_USAGE : dict urules :=
  [("authorization_code", mkURules (Some 1%Z) (Some ["access_token"; "refresh_token"; "id_token"]) (Some 300%Z));
   ("access_token", mkURules None (Some []) (Some 3600%Z));
   ("refresh_token", mkURules None (Some ["access_token"; "refresh_token"; "id_token"]) None)].

(** The rule dicts that live longer than a request: those of Authz.v, and the defaults, which are one dict of the module. *)
Record lookup_env := mkLE { le_rules : rules_env; le_default : dict urules }.

(** session/grant.py:296-316. [m] is [grant.usage_rules]. The dict that is returned is the one that is updated, so it is written where it
    lives: it may be a copy (then no one else sees it), one of a client, or one of the defaults. *)
Definition get_usage_rules (ttype : string) (m : rulemap) (client_id : string) : ST lookup_env urules :=
  e <-- gets id ;;
  let env := le_rules e in
  let from_grant := match rules_at env m ttype with
                    | Some g => if ur_truthy (rules_now env g) then Some (rules_now env g) else None
                    | None => None
                    end in
  let usage := match rules_at env (usage_rules env client_id) ttype with
               | Some r => if ur_truthy (rules_now env r) then Some r else None
               | None => None
               end in
  match usage with
  | Some r =>
      match from_grant with
      | None => ret (rules_now env r)
      | Some g =>
          let new := ur_update (rules_now env r) g in
          modify (fun e => mkLE (rules_write r new (le_rules e)) (le_default e)) ;;; ret new
      end
  | None =>
      d <-- lift (dsub ttype (le_default e)) ;;
      match from_grant with
      | None => ret d
      | Some g =>
          let new := ur_update d g in
          modify (fun e => mkLE (le_rules e) (dset ttype new (le_default e))) ;;; ret new
      end
  end.

(** session/grant.py:54-57, 320-321: [attributes] is the list of the class Grant, to which ExchangeGrant appends when the module is read *)
Definition grant_attributes : list string :=
  ["scope"; "claim"; "resources"; "authorization_details"; "issued_token"; "usage_rules"; "revoked"; "issued_at"; "expires_at"; "sub";
   "authorization_request"; "authentication_event"] ++ ["users"].
(** session/grant.py:60-74 *)
Definition grant_parameters : list string :=
  ["scope"; "claims"; "resources"; "authorization_details"; "authorization_request"; "authentication_event"; "issued_token"; "usage_rules";
   "issued_at"; "expires_in"; "expires_at"; "revoked"; "token_map"; "sub"].
(** session/manager.py:403-404: what Grant is made with. A keyword it does not have is a TypeError. *)
Definition add_grant_arguments {V : Type} (kwargs : dict V) : result (dict V) :=
  let args := filter (fun kv => smem (fst kv) grant_attributes) kwargs in
  if forallb (fun kv => smem (fst kv) grant_parameters) args then Ok args else Raise EType.
