(** RecordsSpec.v: what is said about the records of the clients. *)
From Verif Require Import Base Monad Types Ctx AuthzEndpoint AuthzFront Door DoorSpec System.

(** Claims of single clients are switched on for this usage (session/claims.py). *)
Definition per_client (cx : ctx) (usage : string) : Prop :=
  In usage ["userinfo"; "id_token"; "introspection"; "access_token"] /\
  exists kwargs v, dget usage (cx_modules cx) = Some kwargs /\ dget "enable_claims_per_client" kwargs = Some v /\ truthy v = true.

(** A record and what has become of it. Everything in it is as it was, but for the note how the client has authenticated and, where claims of
    single clients are switched on and kept as a dict, these claims, of which none is lost. *)
Record kept (cx : ctx) (info info' : msg) : Prop := {
  ke_same : forall k, k <> "auth_method"%string ->
    (forall usage d, per_client cx usage -> k = (usage ++ "_claims")%string -> dget k info <> Some (VDict d)) -> dget k info' = dget k info;
  ke_claims : forall usage d, per_client cx usage -> dget (usage ++ "_claims") info = Some (VDict d) ->
    exists d', dget (usage ++ "_claims") info' = Some (VDict d') /\ forall name, dmem name d = true -> dmem name d' = true }.

(** Every client is still there. *)
Definition lasting (cx : ctx) (clients clients' : cdb) : Prop :=
  forall c info, dget c clients = Some info -> exists info', dget c clients' = Some info' /\ kept cx info info'.
(** There is no other client. *)
Definition none_new (clients clients' : cdb) : Prop := forall c, dget c clients = None -> dget c clients' = None.

(** Making ID Tokens leaves the records alone. *)
Definition idtokens_only_read (y : setup_of) : Prop := forall s sid clients, snd (sy_idtoken y s sid clients) = clients.

(** What arrives at a provider with the configuration [cx]: its authorization endpoint has the same configuration, and makes ID Tokens without
    writing into the records; the client database is not changed from outside but for additions. *)
Definition of_provider (cx : ctx) (k : knock) : Prop :=
  match k with
  | KAuthorize _ _ _ _ _ az _ _ => az_cx az = cx /\ forall s sid code access clients, snd (az_idtoken az s sid code access clients) = clients
  | KClients f => forall clients c info, dget c clients = Some info -> dget c (f clients) = Some info
  | _ => True
  end.
Definition from_outside (k : knock) : Prop := match k with KClients _ => True | _ => False end.
