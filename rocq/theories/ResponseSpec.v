(** ResponseSpec.v: what a successful token response stands for. *)
From Verif Require Import Base Types SessionKey Token Grant GrantSpec Database DatabaseSpec World Minting.
Local Open Scope Z_scope.

(** The token [t] of type [ty] has just been made at time [clock], from [source], with the lifetime that the
    grant's usage rules give. *)
Definition fresh_token (clock : Z) (g : grant) (ty : string) (source : token) (t : token) : Prop :=
  t_type t = ty /\ of_type ty (t_class t) /\ t_based_on t = Some (t_value source) /\
  t_revoked t = false /\ t_used t = 0 /\ t_issued_at t = clock /\ t_not_before t = 0 /\
  t_expires_at t = match dget ty (gr_types (g_rules g)) with
                   | Some (mkURules _ _ (Some n)) => if n =? 0 then 0 else clock + n
                   | _ => 0
                   end.

(** Only the grant at this path has changed, to [g']. *)
Definition only_grant (s : store) (u c gid : string) (g' : grant) (s' : store) : Prop :=
  view s' [u; c; gid] = Some (EGrant g') /\
  forall q, good_path q -> q <> [u; c; gid] -> view s' q = view s q.

(** [g'] is [g] with these tokens, and otherwise the same (but for the count of mintings) *)
Definition same_but_issued (g g' : grant) (issued : list token) : Prop :=
  g' = g_set_used (g_used g') (g_set_issued issued g).

(** The tokens with the use of one of them counted *)
Definition counted (code : string) (l l' : list token) : Prop :=
  exists l1 t l2, l = l1 ++ t :: l2 /\ t_value t = code /\ ~ In code (map t_value l1) /\
    l' = l1 ++ t_set_used (t_used t + 1) t :: l2.
