(** DoorRefreshSpec.v: a client goes on refreshing, from the received requests on. *)
From Verif Require Import Base Monad Types SessionKey Token Grant GrantSpec Database DatabaseSpec Ctx World Minting ClientAuthn TokenEndpoint UserInfo UserInfoSpec
  SetupAuth AuthzEndpoint AuthzEndpointSpec FlowSpec FrontFlowSpec RefreshSpec Fronts FrontsSpec AuthzFront System Door DoorSpec DoorIsolationSpec.
Local Open Scope Z_scope.

(** In each round anything arrives first that is not about sessions of this user at this client; the client's record stays but for notes. Then the
    client presents the refresh token it has got in the round before, and proves itself. It gets an access token of the session, usable for as long
    as the rules say, and the next refresh token. *)
Fixpoint dgoes_on (is_user : string -> Prop) (y : setup_of) (u c : string) (R : grules) (l : list round) (a : astate) (value : string) : Prop :=
  match l with
  | [] => True
  | r :: l' =>
      forall others cli gt rq auth request ir,
        let a0 := after y others a in
        delsewhere is_user y u c others a -> same_record c (clients_of a) (clients_of a0) -> dget c (clients_of a0) = Some cli ->
        keeps (gt_check gt) -> authenticates gt (fs_jti (as_front a0)) cli c rq auth request -> refresh_request request value ->
        exists args access next,
          let a1 := dstep y (KToken gt (rd_now r) (rd_access r) (rd_refresh r) ir rq auth) a0 in
          fst (token_at y gt (rd_now r) (rd_access r) (rd_refresh r) ir rq auth (as_front a0)) = Ok (AOk args None) /\
          dget "access_token" args = Some (VStr access) /\ dget "refresh_token" args = Some (VStr next) /\ next <> value /\
          (exists g t, names (sy_sid_of y) (sessions_of a1) access u c g t /\ t_class t = CAccess /\
             (usable_once (rule R "access_token") -> forall later,
                in_time (ur_expires_in (rule R "access_token")) (mt_clock (rd_access r)) later -> token_usable later t)) /\
          dgoes_on is_user y u c R l' a1 next
  end.
