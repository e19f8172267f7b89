(** AuthzSpec.v: the usage rules that ought to apply. *)
From Verif Require Import Base Types Token Grant Authz.

Definition provider_default (env : rules_env) (ttype : string) : option urules :=
  match re_config env with Some d => dget ttype d | None => None end.
Definition client_rules (env : rules_env) (client_id ttype : string) : option urules :=
  match dget client_id (re_clients env) with Some pc => dget ttype pc | None => None end.

(** The provider's defaults, overridden key by key by the client's rules *)
Definition effective (env : rules_env) (client_id ttype : string) : option urules :=
  match provider_default env ttype, client_rules env client_id ttype with
  | Some d, Some p => Some (ur_update d p)
  | Some d, None => Some d
  | None, o => o
  end.

(** The rules of a token made according to them: the token class adds its defaults *)
Definition token_rules (env : rules_env) (client_id ttype : string) : option urules :=
  match TOKEN_MAP ttype with
  | Some cls => Some (set_defaults cls (match effective env client_id ttype with Some r => r | None => no_rules end))
  | None => None
  end.

(** What the rule map of a grant says about a token type *)
Definition applied (env : rules_env) (m : rulemap) (ttype : string) : option urules :=
  option_map (rules_now env) (rules_at env m ttype).

(** Histories: tokens are made for clients, with the rules that a session got when it was set up or
    with those the authorization handler put there. The aliases in both are the same at any later
    time, for the keys of the dicts do not change (see [same_shape] in AuthzProofs.v). *)
Record rop := mkROp { ro_client : string; ro_type : string; ro_authorized : bool }.
Definition rstep (o : rop) (env : rules_env) : rules_env :=
  let m := usage_rules env (ro_client o) in
  snd (make_rules env (if ro_authorized o then authz_rules env m else m) (ro_type o)).
Definition rrun (ops : list rop) (env : rules_env) : rules_env := fold_left (fun e o => rstep o e) ops env.
