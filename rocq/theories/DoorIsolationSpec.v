(** DoorIsolationSpec.v: whose sessions a received request is about. *)
From Verif Require Import Base Monad Types SessionKey Database DatabaseSpec Manager ManagerSpec Ctx World Minting ClientAuthn TokenEndpoint Uri AuthzRequest AuthzEndpoint
  SetupAuth System SystemSpec IsolationSpec Fronts FrontsSpec AuthzFront Door DoorSpec.

(** What is received is about sessions of user [u] at client [c]: the user comes with a request that is understood as one of the client, or with
    something that names a session of theirs there; a token of such a session is presented to the token endpoint; the user is logged out there, or
    everywhere; such a session is revoked or removed. *)
Definition dabout (y : setup_of) (a : astate) (k : knock) (u c : string) : Prop :=
  match k with
  | KAuthorize gt re oidc pk e _ rq auth => exists m id, understood gt re oidc pk rq auth a m /\ recognises e m id /\
      (dget "uid" id = Some (VStr u) /\ dget "client_id" m = Some (VStr c) \/ exists g, dget "sid" id = Some (VStr (session_key [u; c; g])))
  | KToken _ _ _ _ _ rq _ => exists k p g, presents rq k p /\ sy_sid_of y p = Ok (session_key [u; c; g])
  | KLogout _ sid alla => exists c' g, sid = session_key [u; c'; g] /\ (alla = true \/ c' = c)
  | KRevoke op => op_user op = u /\ op_client op = c
  | _ => False
  end.

(** Users, clients and sessions have unambiguous names (C01), and nobody is a user and a client; the check of token requests keeps what is read. *)
Definition dproper (is_user : string -> Prop) (k : knock) (a : astate) : Prop :=
  match k with
  | KAuthorize gt re oidc pk e az rq auth => forall m, understood gt re oidc pk rq auth a m -> proper_names is_user (SAuthorize e az oidc (inr m))
  | KToken gt _ _ _ _ _ _ => keeps (gt_check gt)
  | KLogout _ sid _ => names_session is_user sid
  | KRevoke op => proper_names is_user (SRevoke op)
  | _ => True
  end.

(** What arrives one after the other: the state after it *)
Fixpoint after (y : setup_of) (l : list knock) (a : astate) : astate :=
  match l with [] => a | k :: l' => after y l' (dstep y k a) end.
Fixpoint all_proper (is_user : string -> Prop) (y : setup_of) (l : list knock) (a : astate) : Prop :=
  match l with [] => True | k :: l' => dproper is_user k a /\ all_proper is_user y l' (dstep y k a) end.
(** ... and none of it is about the sessions of [u] at [c]. *)
Fixpoint delsewhere (is_user : string -> Prop) (y : setup_of) (u c : string) (l : list knock) (a : astate) : Prop :=
  match l with [] => True | k :: l' => dproper is_user k a /\ ~ dabout y a k u c /\ delsewhere is_user y u c l' (dstep y k a) end.

(** The state is in order: so is the one at the beginning, and every one that requests with proper names lead to. *)
Definition dorderly (is_user : string -> Prop) (a : astate) : Prop := well_formed is_user (sessions_of a) /\ tidy (sessions_of a).

(** What is known of a client has not changed, but for the note how it has authenticated. *)
Definition same_record (c : string) (clients clients' : cdb) : Prop :=
  match dget c clients, dget c clients' with
  | Some cli, Some cli' => forall k, k <> "auth_method"%string -> dget k cli' = dget k cli
  | _, _ => False
  end.
