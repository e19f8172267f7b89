(** GrantSpec.v: vocabulary for stating the properties of tokens and grants,
    independent of how the code computes. *)
From Verif Require Import Base Types Token Grant.
Open Scope Z_scope.

(** When something with these limits is usable at time [now] (C11). A limit of 0, resp. [None],
    means "no limit". *)
Definition usable_at (now : Z) (max_usage : option Z) (used : Z) (revoked : bool)
    (not_before expires_at : Z) : Prop :=
  revoked = false /\
  (forall m, max_usage = Some m -> used < m) /\
  (not_before <> 0 -> not_before <= now) /\
  (expires_at <> 0 -> now <= expires_at).

Definition token_usable (now : Z) (t : token) : Prop :=
  usable_at now (ur_max_usage (t_rules t)) (t_used t) (t_revoked t) (t_not_before t) (t_expires_at t).
Definition grant_usable (now : Z) (g : grant) : Prop :=
  usable_at now (gr_max_usage (g_rules g)) (g_used g) (g_revoked g) (g_not_before g) (g_expires_at g).

(** The rules of [b] list [ttype] among the types that may be minted from it. *)
Definition may_mint (b : token) (ttype : string) : Prop :=
  exists l, ur_mints (t_rules b) = Some l /\ In ttype l.

(** The types of tokens there are, and the class of each *)
Definition of_type (ttype : string) (c : tclass) : Prop :=
  ttype = "authorization_code"%string /\ c = CCode \/ ttype = "access_token"%string /\ c = CAccess \/
  ttype = "refresh_token"%string /\ c = CRefresh.

(** The rules a new token of type [ttype] gets: those given explicitly, else the grant's. *)
Definition rules_for (explicit : option urules) (ttype : string) (g : grant) : urules :=
  match explicit with
  | Some r => r
  | None => dget_or ttype no_rules (gr_types (g_rules g))
  end.

(** ** Histories of one grant *)
(** Operations on one grant object. The base token of a mint is one of the grant's own token
    objects, named by its position; that is what all callers pass
    (oauth2/authorization.py:311-332, oidc/token.py:50-78). *)
Inductive gop :=
| GMint (clock : Z) (newid ttype : string) (base : option nat) (rules : option urules)
        (scope : option (list string)) (kw : mint_kw) (value : result string)
| GUse (value : string)                                       (* get_token(v).register_usage() *)
| GRevoke (depth : nat) (value based_on : string) (recursive : bool)
| GRevokeGrant.                                               (* grant.revoke() *)

Definition gmint (clock : Z) (newid ttype : string) (base : option nat) (rules : option urules)
    (scope : option (list string)) (kw : mint_kw) (value : result string) (g : grant)
  : result (option token * grant) :=
  match base with
  | None => mint_token clock newid g ttype None rules scope kw value
  | Some i =>
      match nth_error (g_issued g) i with
      | Some b => mint_token clock newid g ttype (Some b) rules scope kw value
      | None => Raise EIndex
      end
  end.

Definition gstep (g : grant) (o : gop) : grant :=
  match o with
  | GMint clock newid ttype base rules scope kw value =>
      match gmint clock newid ttype base rules scope kw value g with
      | Ok (_, g') => g'
      | Raise _ => g
      end
  | GUse v => upd_token v register_usage g
  | GRevoke depth v b r => fst (revoke_token depth v b r g)
  | GRevokeGrant => g_set_revoked true g
  end.
Definition grun (g : grant) (ops : list gop) : grant := fold_left gstep ops g.

(** ** Derivation between token values *)
(** [derived l v w]: the token with value [w] was minted, directly or through other tokens of [l],
    from the token with value [v]. *)
Inductive derived (l : list token) (v : string) : string -> Prop :=
| derived_child t : In t l -> t_based_on t = Some v -> derived l v (t_value t)
| derived_step w t : derived l v w -> In t l -> t_based_on t = Some w -> derived l v (t_value t).

(** [l'] is [l] with exactly the tokens satisfying [P] marked as revoked; nothing else differs. *)
Definition revokes_exactly (P : token -> Prop) (l l' : list token) : Prop :=
  Forall2 (fun t t' =>
    (t' = t \/ t' = t_set_revoked true t) /\
    (P t -> t' = t_set_revoked true t) /\
    (~ P t -> t' = t)) l l'.

(** A well-formed issue list: token values are distinct and non-empty, and a token's base
    is an earlier token of the list. *)
Definition lineage_ok (l : list token) : Prop :=
  NoDup (map t_value l) /\
  (forall t, In t l -> t_value t <> ""%string) /\
  (forall i t b, nth_error l i = Some t -> t_based_on t = Some b ->
     exists j p, (j < i)%nat /\ nth_error l j = Some p /\ t_value p = b).

(** The handler's value is not empty and not yet in use in the grant. *)
Definition fresh_values (g0 : grant) (ops : list gop) : Prop :=
  forall ops1 ops2 clock newid ttype base rules scope kw v,
    ops = ops1 ++ GMint clock newid ttype base rules scope kw (Ok v) :: ops2 ->
    v <> ""%string /\ ~ In v (map t_value (g_issued (grun g0 ops1))).
