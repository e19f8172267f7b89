(** PropsRecordsFlow.v: C106, the code flow and refreshing with nothing assumed of the client's record. *)
From Verif Require Import Base BaseProofs Monad MonadProofs Types SessionKey SessionKeyProofs Token Grant GrantSpec Database DatabaseSpec DatabaseProofs Manager ManagerSpec ManagerProofs
  Ctx ScopesSpec Claims ClaimsSpec World WorldSpec Minting ClientAuthn ClientAuthnSpec TokenEndpoint Uri UriSpec Authz AuthzRequest Response AuthzEndpoint AuthzEndpointSpec
  SetupAuth SetupAuthSpec Fronts FrontsSpec AuthzFront UserInfo UserInfoSpec UserinfoFront UserinfoFrontSpec FlowSpec FrontFlowSpec System IsolationSpec
  Door DoorSpec DoorProofs DoorIsolationSpec PropsDoorIsolation RecordsSpec RecordsProofs RefreshSpec DoorRefreshSpec RecordsFlowSpec.
From Verif Require PropsFrontFlow PropsDoorFlow PropsRecords.
Local Open Scope Z_scope.

Lemma no_own_kept cx a b : no_own_claims cx a -> kept cx a b -> no_own_claims cx b.
Proof.
  intros N K u d P. rewrite (ke_same _ _ _ K (u ++ "_claims")%string); [exact (N u d P)|exact (claims_not_note _ _ P)|].
  intros u' d' P' E. rewrite E. exact (N u' d' P').
Qed.
Lemma record_after y l a c info : idtokens_only_read y -> Forall (of_provider (sy_cx y)) l -> dget c (clients_of a) = Some info -> no_own_claims (sy_cx y) info ->
  same_record c (clients_of a) (clients_of (after y l a)) /\
  exists info', dget c (clients_of (after y l a)) = Some info' /\ no_own_claims (sy_cx y) info'.
Proof.
  intros I F E N. split; [exact (PropsRecords.C106_same_record y l a c info I F E N)|].
  destruct (PropsRecords.C106_lasts y l a I F c info E) as (info' & E' & K). exists info'. split; [exact E'|exact (no_own_kept _ _ _ N K)].
Qed.

(** The code flow of C103: nothing has to be assumed of what becomes of the client's record while other things arrive. *)
Theorem C106_flow : forall is_user y gt re oidc e az a0 rq auth request c cli uri u m scopes pk,
  let w0 := fs_world (as_front a0) in
  let asked := with_method pk request in
  let visit := KAuthorize gt re oidc pk e az rq auth in
  sids_ok (sy_sid_of y) -> sy_pkce y = match pk with Some _ => true | None => false end ->
  idtokens_only_read y -> of_provider (sy_cx y) visit -> no_own_claims (sy_cx y) cli ->
  dorderly is_user a0 -> dproper is_user visit a0 ->
  arrives gt re az pk (w_cdb w0) rq request c ["code"]%string ->
  recognised is_user e az oidc w0 asked c cli uri u m -> asks_code az w0 asked c uri scopes -> code_provided (sy_sid_of y) e az w0 c cli uri u m ->
  exists r code,
    let a1 := dstep y visit a0 in
    fst (authorization_request gt re oidc pk e az rq auth a0) = Ok (AResponse r) /\
    ~ failed (ri_args r) /\ dget "code" (ri_args r) = Some (VStr code) /\ dget "state" (ri_args r) = truthy_get "state" request /\
  forall l1,
    let a2 := after y l1 a1 in
    Forall (of_provider (sy_cx y)) l1 -> delsewhere is_user y u c l1 a1 ->
  exists cli2, dget c (clients_of a2) = Some cli2 /\ noted cli cli2 /\
  forall gt2 token_rq token_auth token_asked m1 m2 ir now,
    let exchange := KToken gt2 now m1 m2 ir token_rq token_auth in
    keeps (gt_check gt2) -> authenticates gt2 (fs_jti (as_front a2)) cli2 c token_rq token_auth token_asked -> code_request (sy_b64hash y) (sy_pkce y) asked token_asked code ->
    (forall cli', noted cli cli' -> tokens_provided (sy_sid_of y) e az w0 c cli' u scopes (sy_idtoken y) (sy_helpers y) m1 m2 ir now) ->
    exists args access_token,
      let a3 := dstep y exchange a2 in
      fst (token_at y gt2 now m1 m2 ir token_rq token_auth (as_front a2)) = Ok (AOk args None) /\ dget "access_token" args = Some (VStr access_token) /\
  forall l2 gt3 later userinfo_rq userinfo_auth,
    let a4 := after y l2 a3 in
    Forall (of_provider (sy_cx y)) l2 -> delsewhere is_user y u c l2 a3 ->
    by_default (gt_ep gt3) -> gt_aka gt3 = [] -> authz_str userinfo_auth = Some ("Bearer " ++ access_token)%string -> access_token <> ""%string ->
    usable_once (rule (rules_of e az w0 c) "access_token") ->
    in_time (ur_expires_in (rule (rules_of e az w0 c) "access_token")) (mt_clock m1) later -> later < au_now e + lifetime m ->
    exists claims how,
      fst (userinfo_at y gt3 later userinfo_rq userinfo_auth (as_front a4)) = Ok (UClaims claims c how) /\
      dget "sub" claims = Some (VStr (public_id (au_sha e) u (au_salt e))) /\
      forall k x, k <> "sub"%string -> (dget k claims = Some x <->
        az_handler az = AHandling /\ user_has (sy_cx y) u k x /\
        exists spec, wanted (sy_cx y) (w_cdb w0) c (Some asked) scopes "userinfo" k (Some spec) /\ admits spec x).
Proof.
  intros is_user y gt re oidc e az a0 rq auth request c cli uri u m scopes pk w0 asked visit Hs Pk Ir Pv No O0 Pn Ar R Ak P.
  destruct (re_entered _ _ _ _ _ _ _ _ _ _ _ R) as (_ & Ci & _).
  destruct (PropsDoorFlow.C103_flow is_user y gt re oidc e az a0 rq auth request c cli uri u m scopes pk (mkEnc (fun _ => "") (fun _ => "")) Hs (proj1 Pv) Pk O0 Pn Ar R Ak P)
    as (r & code & resp & E1 & Nf & Ec & Es & _ & _ & K).
  exists r, code. do 4 (split; [assumption|]). intros l1 a2 F1 El1.
  assert (C0 : dget c (clients_of a0) = Some cli) by exact Ci.
  destruct (record_after y [visit] a0 c cli Ir ltac:(constructor; [exact Pv|constructor]) C0 No) as (S1 & cli1 & C1 & No1).
  change (after y [visit] a0) with (dstep y visit a0) in S1, C1. fold visit in K, El1 |- *. set (a1 := dstep y visit a0) in *.
  destruct (record_after y l1 a1 c cli1 Ir F1 C1 No1) as (S2 & cli2 & C2 & No2).
  exists cli2. split; [exact C2|]. split.
  { red in S1, S2. rewrite C0, C1 in S1. rewrite C1, C2 in S2. intros k Hk. rewrite S2 by exact Hk. exact (S1 k Hk). }
  intros gt2 trq tauth task m1 m2 ir now exchange Kp Au Cr Tp.
  destruct (K l1 cli2 gt2 trq tauth task m1 m2 ir now El1 S2 C2 Kp Au Cr Tp) as (args & at_ & Et & Ea & K3).
  exists args, at_. split; [exact Et|]. split; [exact Ea|]. intros l2 gt3 later urq uauth a4 F2 El2.
  destruct (record_after y [exchange] (after y l1 a1) c cli2 Ir ltac:(constructor; [exact Logic.I|constructor]) C2 No2) as (_ & cli3 & C3 & No3).
  change (after y [exchange] (after y l1 a1)) with (dstep y exchange (after y l1 a1)) in C3.
  destruct (record_after y l2 _ c cli3 Ir F2 C3 No3) as (S4 & _).
  apply K3; assumption.
Qed.
Print Assumptions C106_flow.

(** The same for refreshing (C104): with every refresh the next one, as long as the client keeps coming. *)
Theorem C106_refreshing : forall is_user y u c R l a value cli0 cli,
  idtokens_only_read y -> dget c (clients_of a) = Some cli -> noted cli0 cli -> no_own_claims (sy_cx y) cli ->
  dgoes_on is_user y u c R l a value -> goes_on_known is_user y u c cli0 R l a value.
Proof.
  intros is_user y u c R l. induction l as [|r l IH]; intros a value cli0 cli Ir C Nt No G; [exact Logic.I|].
  cbn [goes_on_known]. intros others F El.
  destruct (record_after y others a c cli Ir F C No) as (S1 & cli1 & C1 & No1). exists cli1. split; [exact C1|].
  assert (Nt1 : noted cli0 cli1) by (red in S1; rewrite C, C1 in S1; intros k Hk; rewrite S1 by exact Hk; now apply Nt).
  split; [exact Nt1|]. intros gt rq auth request ir Kp Au Rr. cbn [dgoes_on] in G.
  destruct (G others cli1 gt rq auth request ir El S1 C1 Kp Au Rr) as (args & access & next & H1 & H2 & H3 & H4 & H5 & G').
  exists args, access, next. do 5 (split; [assumption|]).
  set (k := KToken gt (rd_now r) (rd_access r) (rd_refresh r) ir rq auth) in *.
  destruct (record_after y [k] (after y others a) c cli1 Ir ltac:(constructor; [exact Logic.I|constructor]) C1 No1) as (S2 & cli2 & C2 & No2).
  change (after y [k] (after y others a)) with (dstep y k (after y others a)) in S2, C2.
  apply (IH _ _ cli0 cli2 Ir C2); [|exact No2|exact G'].
  red in S2. rewrite C1, C2 in S2. intros q Hq. rewrite S2 by exact Hq. now apply Nt1.
Qed.
Print Assumptions C106_refreshing.

(** ** The hypotheses are met: diana's flow of C103, with bob and a registration in between, and her refreshing of C104 *)
From Verif Require PropsDoorRefresh PropsFlow PropsIsolation PropsSetupAuth PropsAuthzEndpoint PropsTokenEndpoint PropsRegistration Registration.
Import PropsFrontFlow PropsDoorFlow PropsFlow PropsIsolation PropsSetupAuth PropsAuthzEndpoint PropsTokenEndpoint.
#[local] Opaque dstep after.
Example C106_ex_flow : exists cli2 args,
  let a2 := after y82 bob103 a103 in
  dget "c1" (clients_of a2) = Some cli2 /\ noted cli95 cli2 /\ cli2 <> cli95 /\
  fst (token_at y82 (gate95 [Some MBasic; Some MPost]) 2000 (mt2 "at8") (mt2 "rt8") None tr81 basic95 (as_front a2)) = Ok (AOk args None).
Proof.
  destruct PropsRecords.C106_ex as (H1 & H2 & H3 & _).
  destruct (C106_flow usr9 y82 (gate95 []) re95 true e81 (az7 true) a95 rq81 NoAuthz rq81 "c1" cli95 cb "diana" (mkMethod (cookie9 "diana" "1900") 600)
    ["openid"; "email"]%string pk95 sid82_ok eq_refl H1 (conj eq_refl (fun _ _ _ _ _ => eq_refl)) H3 C103_ex_orderly C103_ex_proper C95_ex_arrives C95_ex_recognised C95_ex_asks
    C103_ex_provided) as (r & code & E1 & _ & Ec & _ & K).
  assert (code = "code7"%string) by (vm_compute in E1; injection E1 as <-; vm_compute in Ec; congruence). subst code. clear E1 Ec.
  change (dstep y82 (KAuthorize (gate95 []) re95 true pk95 e81 (az7 true) rq81 NoAuthz) a95) with a103 in K.
  assert (F : Forall (of_provider (sy_cx y82)) bob103) by (unfold PropsRecords.l106 in H2; apply Forall_app in H2; apply H2).
  destruct (K bob103 F C103_ex_elsewhere) as (cli2 & C2 & Nt & K2). clear K.
  assert (C3 : exists v, dget "c1" (clients_of (after y82 bob103 a103)) = Some (cli95 ++ [("auth_method"%string, VDict v)])%list) by (eexists; vm_compute; reflexivity).
  destruct C3 as (v & C3). assert (cli2 = (cli95 ++ [("auth_method"%string, VDict v)])%list) by congruence. subst cli2.
  assert (Au : authenticates (gate95 [Some MBasic; Some MPost]) (fs_jti (as_front (after y82 bob103 a103))) (cli95 ++ [("auth_method"%string, VDict v)])%list "c1" tr81 basic95 (dset "client_id" (VStr "c1"%string) tr81)).
  { destruct (C95_ex_authenticates (fs_jti (as_front (after y82 bob103 a103)))) as [A1 A2 A3 A4 A5 A6]. constructor; auto. right. exists v. reflexivity. }
  destruct (K2 (gate95 [Some MBasic; Some MPost]) tr81 basic95 _ (mt2 "at8") (mt2 "rt8") None 2000
    ltac:(intros cid rq m E; cbn in E; injection E as <-; reflexivity) Au C95_ex_request (fun cli' _ => C103_ex_tokens cli')) as (args & at_ & Et & _).
  exists (cli95 ++ [("auth_method"%string, VDict v)])%list, args. split; [exact C3|]. split; [exact Nt|]. split; [discriminate|exact Et].
Qed.
Import PropsRefresh PropsDoorRefresh.
Example C106_ex_refreshing : goes_on_known usr9 y104 "diana" "c1" cli95 (rules_of e81 az87 w95 "c1") PropsRefresh.rounds87 a104_2 "rt8".
Proof.
  assert (V : exists v, dget "c1" (clients_of a104_2) = Some (cli95 ++ [("auth_method"%string, VDict v)])%list) by (eexists; vm_compute; reflexivity).
  destruct V as (v & V).
  refine (C106_refreshing usr9 y104 "diana" "c1" _ _ a104_2 "rt8" cli95 _ _ V _ _ C104_ex_flow).
  - intros s sid clients. reflexivity.
  - intros k N. apply String.eqb_neq in N. cbn. now rewrite N.
  - intros u d [Hu _]. cbn [In] in Hu. destruct Hu as [<-|[<-|[<-|[<-|[]]]]]; vm_compute; discriminate.
Qed.
