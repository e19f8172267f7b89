(** UserInfoSpec.v: what a token value stands for. *)
From Verif Require Import Base Types SessionKey Token Grant Database DatabaseSpec Manager Ctx Claims ClaimsSpec.

(** In the store [s] the value names the token [t] of the grant [g], which belongs to the session
    of user [u] with client [c]. *)
Definition names (sid_of : string -> result string) (s : store) (value u c : string) (g : grant) (t : token) : Prop :=
  exists sid gid, sid_of value = Ok sid /\ unpack3 sid = Ok (u, c, gid) /\
    view s [u; c; gid] = Some (EGrant g) /\
    t_value t = value /\ exists l1 l2, g_issued g = l1 ++ t :: l2 /\ ~ In value (map t_value l1).

(** The claims the grant lists for a usage: a claim request for [k] *)
Definition listed (clients : cdb) (g : grant) (usage k : string) (spec : val) : Prop :=
  exists r, dget usage (g_claims g) = Some r /\ In (k, spec) (resolve clients r).

(** The user database holds [x] as the claim [k] of [u]. *)
Definition user_has (cx : ctx) (u k : string) (x : val) : Prop :=
  exists record, dget u (cx_users cx) = Some record /\ dget k record = Some x /\ x <> VNone.

(** All claim requests of the grant for a usage are well formed, and none is repeated. *)
Definition claims_ok (clients : cdb) (g : grant) (usage : string) : Prop :=
  forall r, dget usage (g_claims g) = Some r ->
    proper (resolve clients r) /\ forall k spec, In (k, spec) (resolve clients r) -> claim_request spec.
