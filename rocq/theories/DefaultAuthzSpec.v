(** DefaultAuthzSpec.v: grants without any authorization *)
From Verif Require Import Base Types Token Grant World Authz AuthzEndpoint System.
Local Open Scope Z_scope.

(** Nothing has been granted: no scope, no claims, no audience, and no end; nor are these with the tokens. *)
Definition bare (g : grant) : Prop :=
  g_scope g = [] /\ g_claims g = [] /\ g_resources g = [] /\ g_expires_at g = 0 /\
  forall t, In t (g_issued g) -> t_scope t = [] /\ t_resources t = [].
(** No authorization handler is configured at the time of the call; see [authorizer]. *)
Definition unconfigured (o : call) : Prop :=
  match o with SAuthorize _ az _ _ => exists keys, az_handler az = AImplicit keys | _ => True end.
