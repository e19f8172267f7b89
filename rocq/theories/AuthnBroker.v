(** AuthnBroker.v: the registry of authentication methods (user_authn/authn_context.py). *)
From Verif Require Import Base Types Ctx Registration.

(** What is registered for a method: the dict with "acr" and "method" (either may be missing). The method
    object is named by a string. Simplification: other members are left out, and acr is a str. *)
Record minfo := mkMI { mi_acr : option string; mi_method : option string }.

(** authn_context.py:23-26 *)
Record broker := mkBroker { br_db : dict minfo; br_acr : dict (list string) }.
Definition empty_broker : broker := mkBroker [] [].

(** authn_context.py:28-43 *)
Definition br_set (key : string) (info : minfo) (b : broker) : result broker :=
  match mi_acr info, mi_method info with
  | Some acr, Some _ =>
      Ok (mkBroker (dset key info (br_db b))
                   (match dget acr (br_acr b) with
                    | Some l => dset acr (l ++ [key]) (br_acr b)
                    | None => dset acr [key] (br_acr b)
                    end))
  | _, _ => Raise EValue
  end.

(** authn_context.py:45-50. An exception half way leaves what was done before. *)
Definition br_del (key : string) (b : broker) : result unit * broker :=
  match dget key (br_db b) with
  | None => (Raise EKey, b)
  | Some info =>
      match mi_acr info with
      | None => (Raise EKey, b)
      | Some acr =>
          let db := ddel key (br_db b) in
          match dget acr (br_acr b) with
          | None => (Raise EKey, mkBroker db (br_acr b))
          | Some l =>
              if smem key l then
                let l' := sremove key l in
                (Ok tt, mkBroker db (if is_nil l' then ddel acr (br_acr b) else dset acr l' (br_acr b)))
              else (Raise EValue, mkBroker db (br_acr b))
          end
      end
  end.

(** authn_context.py:52-53 *)
Definition br_get (key : string) (b : broker) : result minfo := dsub key (br_db b).

(** authn_context.py:55-61 *)
Definition pick_by_class_ref (acr : string) (b : broker) : result (list minfo) :=
  match dget acr (br_acr b) with
  | None => Ok []
  | Some ids => rmap (fun i => dsub i (br_db b)) ids
  end.

(** authn_context.py:104-108 *)
Definition br_default (b : broker) : option minfo :=
  match br_db b with [] => None | (_, i) :: _ => Some i end.
(** authn_context.py:93-95 *)
Definition get_acr_values (b : broker) : result (list string) :=
  rmap (fun kv => of_option EKey (mi_acr (snd kv))) (br_db b).

(** [v[k]] on a value: only a dict can be subscripted with a str *)
Definition vsub (k : string) (v : val) : result val :=
  match v with VDict d => dsub k d | _ => Raise EType end.

(** authn_context.py:151-159: the loop. [pick(None)] is a view of all methods that cannot be indexed
    (87-89); an acr that is not a str is registered for nothing, one that is a list or dict cannot be looked
    up. *)
Fixpoint first_pick (b : broker) (acrs : list val) : result (option minfo) :=
  match acrs with
  | [] => Ok None
  | VStr a :: rest =>
      let* l := pick_by_class_ref a b in
      match l with [] => first_pick b rest | i :: _ => Ok (Some i) end
  | VNone :: rest => if is_nil (br_db b) then first_pick b rest else Raise EType
  | (VList _ | VDict _) :: _ => Raise EType
  | _ :: rest => first_pick b rest
  end.

(** oidcmsg: verified_claim_name("x") *)
Definition verified (n : string) : string := ("__verified_" ++ n)%string.

(** authn_context.py:124-149: the acr values asked for. [None]: none, the default is to be used. *)
Definition wanted_acrs (hint2acrs : option (val -> result val)) (areq : msg) : result (option val) :=
  match dget "acr_values" areq with
  | Some (VList l) => Ok (Some (VList l))
  | Some v => Ok (Some (VList [v]))
  | None =>
      let claims := let* c := dsub "claims" areq in let* i := vsub "id_token" c in
                    let* a := vsub "acr" i in vsub "values" a in
      match claims with
      | Ok v => Ok (Some v)
      | Raise e =>
          if is_key_error e then
            let* acrs :=
              match dget (verified "id_token_hint") areq with
              | Some ith =>
                  rtry (let* a := vsub "acr" ith in Ok (VList [a])) is_key_error (Ok (VList []))
              | None =>
                  match dget "login_hint" areq with
                  | None => Ok (VList [])
                  | Some hint => match hint2acrs with Some f => f hint | None => Ok (VList []) end
                  end
              end in
            Ok (if truthy acrs then Some acrs else None)
          else Raise e
      end
  end.

(** authn_context.py:111-164 with all=False. (The request's acr_values are put in a list, 125-126: done by
    [listed_acrs] below.) KeyErrors are caught at 161. *)
Definition pick_auth (b : broker) (hint2acrs : option (val -> result val)) (areq : msg) : result (option minfo) :=
  rtry (match br_db b with
        | [_] => Ok (br_default b)
        | _ =>
            let* w := wanted_acrs hint2acrs areq in
            match w with
            | None => Ok (br_default b)
            | Some acrs => let* l := iter_val acrs in first_pick b l
            end
        end) is_key_error (Ok None).

(** authn_context.py:125-126: the change made to the request *)
Definition listed_acrs (b : broker) (areq : msg) : msg :=
  match br_db b with
  | [_] => areq
  | _ => match dget "acr_values" areq with
         | None | Some (VList _) => areq
         | Some v => dset "acr_values" (VList [v]) areq
         end
  end.

(** oauth2/authorization.py:444-462. The error dict has no "method": what comes next (477) raises KeyError;
    with [acr] the result is a list and cannot be subscripted with "method" (TypeError), unless it is
    empty. The result is the method and its acr, oauth2/authorization.py:478-479. *)
Definition pick_authn_method (b : broker) (hint2acrs : option (val -> result val)) (areq : msg)
           (auth_method_id acr : option string) : result (string * string) :=
  let* i :=
    match auth_method_id with
    | Some (String _ _ as k) => br_get k b
    | _ =>
        match acr with
        | Some (String _ _ as a) =>
            let* l := pick_by_class_ref a b in
            match l with [] => Raise EKey | _ => Raise EType end
        | _ => let* r := pick_auth b hint2acrs areq in of_option EKey r
        end
    end in
  let* m := of_option EKey (mi_method i) in
  let* a := of_option EKey (mi_acr i) in
  Ok (m, a).
