(** ClaimsSpec.v: which claims may be released, said without the code. *)
From Verif Require Import Base Types Monad Ctx ScopesSpec Claims.

(** The values a claim request asks for (OpenID Connect Core 5.5.1): any value if nothing is said or
    only whether the claim is essential; else the one, or one of those, that are given. *)
Inductive admits : val -> val -> Prop :=
| admits_any x : admits VNone x
| admits_essential b x : admits (VDict [("essential", b)]) x
| admits_value items v x : In ("value", v) items -> val_eqb x v = true -> admits (VDict items) x
| admits_values items l v x :
    In ("values", VList l) items -> In v l -> val_eqb x v = true -> admits (VDict items) x.

(** A claim request: nothing, or a dict in which "values" is a list *)
Definition claim_request (spec : val) : Prop :=
  spec = VNone \/
  exists items, spec = VDict items /\ forall v, In ("values", v) items -> exists l, v = VList l.

(** ** The sources of the claims of a session *)
(** keyword argument of the module (endpoint, id_token, token handler) that serves a usage *)
Definition module_kwarg (cx : ctx) (usage k : string) : option val :=
  match dget usage (cx_modules cx) with Some kw => dget k kw | None => None end.
Definition enabled (cx : ctx) (usage k : string) : Prop := exists v, module_kwarg cx usage k = Some v /\ truthy v = true.

Definition usages : list string := ["userinfo"; "id_token"; "introspection"; "access_token"].

(** what the authorization request of the session asks for *)
Definition from_request (authreq : option msg) (usage k : string) : option val :=
  if smem usage ["id_token"; "userinfo"] then
    match authreq with
    | Some ar => match dget "claims" ar with
                 | Some (VDict cl) => match dget usage cl with Some (VDict d) => dget k d | _ => None end
                 | _ => None
                 end
    | None => None
    end
  else None.

(** what a requested scope that the client may use stands for *)
Definition from_scope (cx : ctx) (clients : cdb) (client_id : string) (scopes : list string) (usage k : string) : Prop :=
  enabled cx usage "add_claims_by_scope" /\
  exists s names, In s scopes /\ may_use cx clients client_id s /\ dget s (cx_scope2claims cx) = Some names /\ In k names.

(** what is configured for everyone *)
Definition from_base (cx : ctx) (usage k : string) : option val :=
  match module_kwarg cx usage "base_claims" with Some (VDict d) => dget k d | _ => None end.

(** what is listed for the client, if that is switched on *)
Definition from_client (cx : ctx) (clients : cdb) (client_id usage k : string) : Prop :=
  enabled cx usage "enable_claims_per_client" /\
  exists cli l, dget client_id clients = Some cli /\ dget (usage ++ "_claims")%string cli = Some (VList l) /\ In (VStr k) l.

(** [wanted ... k o]: [o] is the claim request for [k], [None] if [k] is not to be released.
    An earlier source overrides a later one. *)
Definition wanted (cx : ctx) (clients : cdb) (client_id : string) (authreq : option msg) (scopes : list string)
    (usage k : string) (o : option val) : Prop :=
  match from_request authreq usage k with
  | Some v => o = Some v
  | None =>
      (from_scope cx clients client_id scopes usage k /\ o = Some VNone) \/
      (~ from_scope cx clients client_id scopes usage k /\
       match from_base cx usage k with
       | Some v => o = Some v
       | None => (from_client cx clients client_id usage k /\ o = Some VNone) \/
                 (~ from_client cx clients client_id usage k /\ o = None)
       end)
  end.

(** ** Well-formed data *)
Definition proper {A} (d : dict A) : Prop := NoDup (dkeys d).

(** configuration values have the documented types *)
Definition typed_config (cx : ctx) (clients : cdb) (client_id : string) : Prop :=
  list_or_absent "scopes_supported" (cx_provider_info cx) /\
  (forall cli, dget client_id clients = Some cli -> list_or_absent "allowed_scopes" cli) /\
  (forall usage d, module_kwarg cx usage "base_claims" = Some (VDict d) -> proper d).
Definition typed_request (authreq : option msg) : Prop :=
  forall ar cl usage d, authreq = Some ar -> dget "claims" ar = Some (VDict cl) -> dget usage cl = Some (VDict d) -> proper d.

(** No client has a dict (rather than a list) of claims of its own for a usage where those count. *)
Definition unshared (cx : ctx) (clients : cdb) : Prop :=
  forall c cli usage d, In usage usages -> dget c clients = Some cli ->
    enabled cx usage "enable_claims_per_client" -> dget (usage ++ "_claims")%string cli <> Some (VDict d).

(** ** Histories: the sessions for which claims are worked out *)
Record creq := mkCReq { cq_client : string; cq_authreq : option msg; cq_scopes : list string; cq_usage : string }.
Definition cstep (cx : ctx) (q : creq) (clients : cdb) : cdb :=
  snd (get_claims cx (cq_client q) (cq_authreq q) (cq_scopes q) (cq_usage q) clients).
Definition crun (cx : ctx) (qs : list creq) (clients : cdb) : cdb := fold_left (fun s q => cstep cx q s) qs clients.
