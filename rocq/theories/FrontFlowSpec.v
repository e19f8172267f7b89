(** FrontFlowSpec.v: the code flow as it comes in over the wire. *)
From Verif Require Import Base Monad Types SessionKey Grant Database DatabaseSpec Manager ManagerSpec Ctx World Minting ClientAuthn ClientAuthnSpec TokenEndpoint
  Uri AuthzRequest AuthzRequestSpec AuthzEndpoint SetupAuth SetupAuthSpec Fronts FrontsSpec AuthzFront FlowSpec.
Local Open Scope Z_scope.

(** The same record of a client but for the note how it has authenticated *)
Definition noted (cli cli' : msg) : Prop := forall k, k <> "auth_method"%string -> dget k cli' = dget k cli.

(** With PKCE, a request without method is one with the method plain. *)
Definition with_method (pk : option pkce) (request : msg) : msg :=
  match pk, dget "code_challenge_method" request with
  | Some _, None => request ++ [("code_challenge_method"%string, VStr "plain")]
  | _, _ => request
  end.
(** The challenge is as PKCE is configured. *)
Definition challenge_fits (pk : option pkce) (request : msg) : Prop :=
  forall k, pk = Some k ->
    (pk_essential k = true -> dget "code_challenge" request <> None) /\
    (dget "code_challenge" request <> None ->
     exists m, dget "code_challenge_method" (with_method pk request) = Some (VStr m) /\ In m (pk_methods k)).

(** The request [rq] of client [c], which the check takes for [request], reaches the authorization endpoint, which asks for no client
    authentication. The client may use the response type [rt]. *)
Record arrives (gt : gate) (re : reqenv) (az : authz_env) (pk : option pkce) (clients : cdb) (rq request : msg) (c : string) (rt : list string) : Prop := {
  ar_open : asks_nothing (gt_ep gt);
  ar_client : dget "client_id" rq = Some (VStr c);
  ar_check : gt_check gt (VStr c) rq = CkOk request;
  ar_direct : dget "request_uri" request = None;
  ar_type : dget "response_type" request = Some (vstrs rt);
  ar_may : may_use clients c rt;
  ar_types : forall info l v, dget c clients = Some info -> dget "response_types" info = Some (VList l) -> In v l -> exists s, v = VStr s;
  ar_pkce : challenge_fits pk request;
  ar_url : re_u re = az_u az }.

(** A token request [rq] by which client [c], whose record is [cli], proves itself, with its secret or an assertion whose id is not among the ids that
    were seen, and which the check takes for [request] *)
Record authenticates (gt : gate) (seen : dict Z) (cli : msg) (c : string) (rq : msg) (auth : authz_data) (request : msg) : Prop := {
  au_named : ep_named (gt_ep gt) = true;
  au_known : c <> ""%string /\ gt_aka gt = [];
  au_expiry : not_expired (o_now (gt_out gt)) cli;
  au_noted : dget "auth_method" cli = None \/ exists d, dget "auth_method" cli = Some (VDict d);
  au_proof : exists l1 m l2, ep_methods (gt_ep gt) = l1 ++ Some m :: l2 /\ (forall m', In (Some m') l1 -> passed_over (gt_out gt) rq (authz_str auth) m') /\
    proves (gt_out gt) (gt_ep gt) seen rq (authz_str auth) m c cli;
  au_check : gt_check gt (VStr c) (dset "client_id" (VStr c) rq) = CkOk request }.

(** In between the session has not been touched, and the client's record only to note how it has authenticated. *)
Definition left_alone (u c g : string) (w w' : world) : Prop :=
  view (w_db w') [u; c; g] = view (w_db w) [u; c; g] /\ kinds_ok (w_db w') /\ linked (w_db w') /\
  match dget c (w_cdb w), dget c (w_cdb w') with Some cli, Some cli' => noted cli cli' | _, _ => False end.
