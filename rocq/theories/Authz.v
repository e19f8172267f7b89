(** Authz.v: the authorization handler (authz/__init__.py). *)
From Verif Require Import Base Types Monad Token Grant Ctx Scopes Claims.

(** ** Usage rules, with the identity of the dicts *)
(** The rule dicts that live longer than a request: those of the configuration
    (grant_config["usage_rules"], [None] when there is no such key) and those of the clients
    (cdb[client_id]["token_usage_rules"]). *)
Record rules_env := mkRE { re_config : option (dict urules); re_clients : dict (dict urules) }.

(** A rule dict for one token type: a copy of its own, or one of the long-lived ones *)
Inductive rdict := RNew (r : urules) | RConfig (ttype : string) | RClient (client_id ttype : string).
(** A dict of rule dicts, e.g. [grant.usage_rules] *)
Inductive rulemap := MNew (d : dict rdict) | MConfig | MClient (client_id : string).

Definition config_rules (env : rules_env) : dict urules :=
  match re_config env with Some d => d | None => [] end.

(** authz/__init__.py:24-46 *)
Definition usage_rules (env : rules_env) (client_id : string) : rulemap :=
  let base := config_rules env in
  match dget client_id (re_clients env) with
  | None => MNew (map (fun kr => (fst kr, RNew (snd kr))) base)
  | Some pc =>
      if is_nil base then MClient client_id
      else
        MNew (map (fun kr => (fst kr, RNew (match dget (fst kr) pc with
                                            | Some p => if ur_truthy p then ur_update (snd kr) p else snd kr
                                            | None => snd kr
                                            end))) base
              ++ map (fun k => (k, RClient client_id k)) (filter (fun k => negb (dmem k base)) (dkeys pc)))
  end.

(** [m.get(ttype)] *)
Definition rules_at (env : rules_env) (m : rulemap) (ttype : string) : option rdict :=
  match m with
  | MNew d => dget ttype d
  | MConfig => if dmem ttype (config_rules env) then Some (RConfig ttype) else None
  | MClient c => match dget c (re_clients env) with
                 | Some pc => if dmem ttype pc then Some (RClient c ttype) else None
                 | None => None
                 end
  end.
(** what a rule dict contains now *)
Definition rules_now (env : rules_env) (r : rdict) : urules :=
  match r with
  | RNew r => r
  | RConfig ttype => dget_or ttype no_rules (config_rules env)
  | RClient c ttype => dget_or ttype no_rules (@dget_or (dict urules) c [] (re_clients env))
  end.
(** in-place change *)
Definition rules_write (r : rdict) (new : urules) (env : rules_env) : rules_env :=
  match r with
  | RNew _ => env
  | RConfig ttype => mkRE (option_map (dset ttype new) (re_config env)) (re_clients env)
  | RClient c ttype =>
      match dget c (re_clients env) with
      | Some pc => mkRE (re_config env) (dset c (dset ttype new pc) (re_clients env))
      | None => env
      end
  end.

(** authz/__init__.py:48-53 *)
Definition usage_rules_for (env : rules_env) (client_id ttype : string) : urules :=
  match rules_at env (usage_rules env client_id) ttype with
  | Some r => rules_now env r
  | None => no_rules
  end.

(** authz/__init__.py:74-78 on the attribute usage_rules *)
Definition authz_rules (env : rules_env) (m : rulemap) : rulemap :=
  match re_config env with Some _ => MConfig | None => m end.

(** What making a token of type [ttype] does to its rules: session/token.py:31 [usage_rules or {}],
    87, 145-156, the dict handed over by session/grant.py:213-222, oidc/token.py:53-66 or
    oauth2/authorization.py:313-321. The rules of the token are returned.
    Simplification: a rule dict that has only keys the code never reads counts as empty. *)
Definition make_rules (env : rules_env) (m : rulemap) (ttype : string) : urules * rules_env :=
  match TOKEN_MAP ttype with
  | None => (no_rules, env)
  | Some cls =>
      match rules_at env m ttype with
      | None => (set_defaults cls no_rules, env)
      | Some r =>
          let new := set_defaults cls (rules_now env r) in
          (new, if ur_truthy (rules_now env r) then rules_write r new env else env)
      end
  end.

(** ** Authorizing a grant *)
(** the grant that is worked on and the client database *)
Definition AZ A := ST (cdb * grant) A.
Definition on_cdb {A} (m : ST cdb A) : AZ A :=
  fun s => match m (fst s) with (r, cs) => (r, (cs, snd s)) end.
Definition on_grant (f : grant -> grant) : AZ unit := modify (fun s => (fst s, f (snd s))).

(** authz/__init__.py:55-90. The grant read from the session is given; what is done to it before an
    exception stays done. Simplifications: the assignment of the request's claims to grant.claims
    (62-66) is left out: the four entries that are read are overwritten below. *)
Definition authz_call (cx : ctx) (clock : Z) (client_id : string) (request : msg)
           (resources : option (list string)) : AZ unit :=
  let conf := cx_grant_config cx in
  (match gc_rules conf with Some r => on_grant (g_set_rules r) | None => ret tt end) ;;;
  (match gc_expires_in conf with Some n => on_grant (g_set_expires_at (clock + n)) | None => ret tt end) ;;;
  (match mget_list "scope" request with
   | Some (x :: l) => on_grant (g_set_scope (x :: l))
   | _ => ret tt
   end) ;;;
  on_grant (g_set_resources (match resources with Some l => l | None => [client_id] end)) ;;;
  iterM (fun interface =>
           scopes <-- lift (of_option EKey (mget_list "scope" request)) ;;
           g <-- gets snd ;;
           r <-- on_cdb (get_claims cx client_id (g_authreq g) scopes interface) ;;
           on_grant (fun g => g_set_claims (dset interface r (g_claims g)) g))
        ["userinfo"; "introspection"; "id_token"; "access_token"].

(** The handler in use. endpoint_context.py:381-386: AuthzHandling must be configured; without configuration it is
    Implicit, authz/__init__.py:93-100, of which only the keys of grant_config matter: [for arg, val in args] takes the
    two characters of each key for a name and a value, and sets an attribute that nothing reads. *)
Inductive authorizer := AHandling | AImplicit (keys : list string).
Definition two_characters (k : string) : bool := (String.length k =? 2)%nat.
