(** RecordsFlowSpec.v: a client goes on refreshing, and nothing is assumed of its record. *)
From Verif Require Import Base Monad Types SessionKey Token Grant GrantSpec Database DatabaseSpec Ctx World Minting ClientAuthn TokenEndpoint UserInfo UserInfoSpec
  SetupAuth AuthzEndpoint AuthzEndpointSpec FlowSpec FrontFlowSpec RefreshSpec Fronts FrontsSpec AuthzFront System Door DoorSpec DoorIsolationSpec RecordsSpec.
Local Open Scope Z_scope.

(** The record has no claims of its own, kept as a dict, that are switched on. *)
Definition no_own_claims (cx : ctx) (info : msg) : Prop :=
  forall usage d, per_client cx usage -> dget (usage ++ "_claims") info <> Some (VDict d).

(** As [dgoes_on] (DoorRefreshSpec.v). That the client is still known in each round, with what was registered of it, is among what is said, not among what is
    assumed. *)
Fixpoint goes_on_known (is_user : string -> Prop) (y : setup_of) (u c : string) (cli0 : msg) (R : grules) (l : list round) (a : astate) (value : string) : Prop :=
  match l with
  | [] => True
  | r :: l' =>
      forall others,
        let a0 := after y others a in
        Forall (of_provider (sy_cx y)) others -> delsewhere is_user y u c others a ->
      exists cli, dget c (clients_of a0) = Some cli /\ noted cli0 cli /\
      forall gt rq auth request ir,
        keeps (gt_check gt) -> authenticates gt (fs_jti (as_front a0)) cli c rq auth request -> refresh_request request value ->
        exists args access next,
          let a1 := dstep y (KToken gt (rd_now r) (rd_access r) (rd_refresh r) ir rq auth) a0 in
          fst (token_at y gt (rd_now r) (rd_access r) (rd_refresh r) ir rq auth (as_front a0)) = Ok (AOk args None) /\
          dget "access_token" args = Some (VStr access) /\ dget "refresh_token" args = Some (VStr next) /\ next <> value /\
          (exists g t, names (sy_sid_of y) (sessions_of a1) access u c g t /\ t_class t = CAccess /\
             (usable_once (rule R "access_token") -> forall later,
                in_time (ur_expires_in (rule R "access_token")) (mt_clock (rd_access r)) later -> token_usable later t)) /\
          goes_on_known is_user y u c cli0 R l' a1 next
  end.
