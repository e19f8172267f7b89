(** RefreshSpec.v: what has to be in place for a client to go on refreshing. *)
From Verif Require Import Base Monad Types SessionKey Token Grant GrantSpec Database DatabaseSpec Ctx World Minting TokenEndpoint UserInfo UserInfoSpec
  AuthzEndpoint SetupAuth AuthzEndpointSpec FlowSpec.
Local Open Scope Z_scope.

(** One exchange of a refresh token: when it is received, and what makes the new access token and the new refresh token *)
Record round := mkRound { rd_now : Z; rd_access : minting; rd_refresh : minting }.
Definition at_times (P : Z -> Prop) (r : round) : Prop :=
  P (rd_now r) /\ P (mt_clock (rd_access r)) /\ P (mt_clock (rd_refresh r)).

(** A request with the refresh token [value] *)
Definition refresh_request (request : msg) (value : string) : Prop :=
  dget "grant_type" request = Some (VStr "refresh_token") /\ dget "refresh_token" request = Some (VStr value).

(** ** What is needed *)
(** The rules let a refresh token be used, for access tokens and for further refresh tokens: they say so, or nothing. *)
Definition lets_refresh (r : urules) : Prop :=
  usable_once r /\
  match ur_mints r with Some l => In "access_token"%string l /\ In "refresh_token"%string l | None => True end.
(** They ask for ID Tokens as well. *)
Definition with_id_token (r : urules) : Prop := exists l, ur_mints r = Some l /\ In "id_token"%string l.
(** Each refresh token comes back before it is too old. *)
Fixpoint in_turn (R : grules) (l : list round) : Prop :=
  match l with
  | a :: (b :: _) as l' => at_times (in_time (ur_expires_in (rule R "refresh_token")) (mt_clock (rd_refresh a))) b /\ in_turn R l'
  | _ => True
  end.
(** The grant allows for all the tokens: it is not revoked, has begun and does not end, and there is room for [n] more. *)
Definition has_room (g : grant) (n : Z) : Prop := forall k, gr_max_usage (g_rules g) = Some k -> g_used g + n <= k.
Definition stands (g : grant) (now : Z) : Prop :=
  g_revoked g = false /\ (g_not_before g <> 0 -> g_not_before g <= now) /\ (g_expires_at g <> 0 -> now <= g_expires_at g).
(** All values are new: none is one of [old], and no two are the same. *)
Definition mintings (l : list round) : list minting := flat_map (fun r => [rd_access r; rd_refresh r]) l.
Definition all_new (sid : string) (old : list string) (l : list round) : Prop :=
  (forall m p v, In m (mintings l) -> mt_value m sid p = Ok v -> ~ In v old) /\
  ForallOrdPairs (fun a b => told_apart a b sid) (mintings l).

(** All this for the rounds [l] after a code flow in which [m1] and [m2] made the first access token and the first refresh token *)
Record refreshing (sid_of : string -> result string) (e : auth_env) (az : authz_env) (w : world) (c : string) (cli : msg) (u : string)
    (idt : store -> string -> ST cdb string) (helpers : dict helper) (m1 m2 : minting) (now : Z) (l : list round) : Prop := {
  rf_helper : dget "refresh_token" helpers = Some HRefresh;
  rf_rules : lets_refresh (rule (rules_of e az w c) "refresh_token");
  rf_turn : in_turn (rules_of e az w c) (mkRound now m1 m2 :: l);
  rf_grant : Forall (at_times (leaves e az w c (3 + 2 * Z.of_nat (length l)))) l;
  rf_handlers : Forall (fun m => handles sid_of m (session_key [u; c; au_newid e])) (mintings l);
  rf_new : ForallOrdPairs (fun a b => told_apart a b (session_key [u; c; au_newid e])) (az_code az :: m1 :: m2 :: mintings l);
  rf_id_token : with_id_token (rule (rules_of e az w c) "refresh_token") -> id_tokens_made idt u c (au_newid e) cli }.

Section Goes.
  Variable sid_of : string -> result string.
  Variable b64hash : string -> string -> string.
  Variable cx : ctx.
  Variable idt : store -> string -> ST cdb string.
  Variable sharing : bool.
  Variable helpers : dict helper.
  Variable ir : option bool.
  Variables u c gid : string.

  (** In each round, whatever else has happened in between, the client gets an access token and a refresh token for the refresh token it
      has got in the round before. The access token is one of the session, usable for as long as the rules say. *)
  Fixpoint goes_on (R : grules) (l : list round) (w : world) (value : string) : Prop :=
    match l with
    | [] => True
    | r :: l' =>
        forall w0 request, undisturbed u c gid w w0 -> refresh_request request value ->
        exists args w1 access next g at_,
          token_parse sid_of b64hash helpers false (rd_now r) request (w_db w0) = (Ok (PReq request), w_db w0) /\
          token_process sid_of cx idt sharing helpers (rd_access r) (rd_refresh r) ir (PReq request) w0 = (Ok (AOk args None), w1) /\
          dget "access_token" args = Some (VStr access) /\ dget "refresh_token" args = Some (VStr next) /\ next <> value /\
          names sid_of (w_db w1) access u c g at_ /\ t_class at_ = CAccess /\
          (usable_once (rule R "access_token") -> forall later,
             in_time (ur_expires_in (rule R "access_token")) (mt_clock (rd_access r)) later -> token_usable later at_) /\
          goes_on R l' w1 next
    end.
End Goes.
