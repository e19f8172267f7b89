(** PropsDoorFlow.v: C103, the code flow whatever else arrives in between. *)
From Verif Require Import Base BaseProofs Monad MonadProofs Types SessionKey SessionKeyProofs Token Grant GrantSpec Database DatabaseSpec DatabaseProofs Manager ManagerSpec ManagerProofs
  Ctx ScopesSpec Claims ClaimsSpec World WorldSpec Minting ClientAuthn ClientAuthnSpec TokenEndpoint Uri UriSpec Authz AuthzRequest Response AuthzEndpoint AuthzEndpointSpec
  SetupAuth SetupAuthSpec Fronts FrontsSpec AuthzFront UserInfo UserInfoSpec UserinfoFront UserinfoFrontSpec FlowSpec FrontFlowSpec System IsolationSpec
  Door DoorSpec DoorProofs DoorIsolationSpec PropsDoorIsolation.
From Verif Require PropsFrontFlow.
Local Open Scope Z_scope.

(** The browser of a recognised user brings the client's request to the authorization endpoint; then anything arrives at the provider that is not about
    sessions of this user at this client, and the client's record stays; then the client presents the code, proves itself and gets an access token; again
    anything else arrives; then the access token in the Authorization header gets the subject of the session and exactly the claims that are wanted and
    that the user has. *)
Theorem C103_flow : forall is_user y gt re oidc e az a0 rq auth request c cli uri u m scopes pk en,
  let w0 := fs_world (as_front a0) in
  let asked := with_method pk request in
  let visit := KAuthorize gt re oidc pk e az rq auth in
  sids_ok (sy_sid_of y) -> az_cx az = sy_cx y -> sy_pkce y = match pk with Some _ => true | None => false end ->
  dorderly is_user a0 -> dproper is_user visit a0 ->
  arrives gt re az pk (w_cdb w0) rq request c ["code"]%string ->
  recognised is_user e az oidc w0 asked c cli uri u m -> asks_code az w0 asked c uri scopes -> code_provided (sy_sid_of y) e az w0 c cli uri u m ->
  exists r code resp,
    let a1 := dstep y visit a0 in
    fst (authorization_request gt re oidc pk e az rq auth a0) = Ok (AResponse r) /\
    ~ failed (ri_args r) /\ dget "code" (ri_args r) = Some (VStr code) /\ dget "state" (ri_args r) = truthy_get "state" request /\
    respond en authorization_endpoint r = Ok resp /\
    (dget "response_mode" request <> Some (VStr "form_post") ->
     exists sep, rs_body resp = Text (uri ++ sep ++ to_urlencoded en (ri_args r)) /\ In sep ["?"; "&"; "#"]%string) /\
  forall l1 cli2 gt2 token_rq token_auth token_asked m1 m2 ir now,
    let a2 := after y l1 a1 in
    let exchange := KToken gt2 now m1 m2 ir token_rq token_auth in
    delsewhere is_user y u c l1 a1 -> same_record c (clients_of a1) (clients_of a2) -> dget c (clients_of a2) = Some cli2 ->
    keeps (gt_check gt2) -> authenticates gt2 (fs_jti (as_front a2)) cli2 c token_rq token_auth token_asked -> code_request (sy_b64hash y) (sy_pkce y) asked token_asked code ->
    (forall cli', noted cli cli' -> tokens_provided (sy_sid_of y) e az w0 c cli' u scopes (sy_idtoken y) (sy_helpers y) m1 m2 ir now) ->
    exists args access_token,
      let a3 := dstep y exchange a2 in
      fst (token_at y gt2 now m1 m2 ir token_rq token_auth (as_front a2)) = Ok (AOk args None) /\ dget "access_token" args = Some (VStr access_token) /\
  forall l2 gt3 later userinfo_rq userinfo_auth,
    let a4 := after y l2 a3 in
    delsewhere is_user y u c l2 a3 -> same_record c (clients_of a3) (clients_of a4) ->
    by_default (gt_ep gt3) -> gt_aka gt3 = [] -> authz_str userinfo_auth = Some ("Bearer " ++ access_token)%string -> access_token <> ""%string ->
    usable_once (rule (rules_of e az w0 c) "access_token") ->
    in_time (ur_expires_in (rule (rules_of e az w0 c) "access_token")) (mt_clock m1) later -> later < au_now e + lifetime m ->
    exists claims how,
      fst (userinfo_at y gt3 later userinfo_rq userinfo_auth (as_front a4)) = Ok (UClaims claims c how) /\
      dget "sub" claims = Some (VStr (public_id (au_sha e) u (au_salt e))) /\
      forall k x, k <> "sub"%string -> (dget k claims = Some x <->
        az_handler az = AHandling /\ user_has (sy_cx y) u k x /\
        exists spec, wanted (sy_cx y) (w_cdb w0) c (Some asked) scopes "userinfo" k (Some spec) /\ admits spec x).
Proof.
  intros is_user y gt re oidc e az a0 rq auth request c cli uri u m scopes pk en w0 asked visit Hs Cx Pk O0 Pn Ar R Ak P. rewrite <- Cx, Pk.
  destruct (re_names _ _ _ _ _ _ _ _ _ _ _ R) as (Hu & Hc & Hg & _).
  destruct (PropsFrontFlow.C95_flow (sy_sid_of y) (sy_b64hash y) is_user gt re oidc pk e az a0 rq auth request c cli uri u m scopes en Ar R Ak P)
    as (r & a1 & code & resp & E1 & _ & _ & Nf & Ec & Es & Er & Eb & K).
  assert (St1 : dstep y visit a0 = a1) by (unfold visit; cbn [dstep]; now rewrite E1).
  assert (O1 : dorderly is_user a1) by (rewrite <- St1; now apply door_order).
  exists r, code, resp. cbv zeta. rewrite St1. split; [now rewrite E1|]. do 5 (split; [assumption|]).
  assert (Al : forall l a, dorderly is_user a -> delsewhere is_user y u c l a -> same_record c (clients_of a) (clients_of (after y l a)) ->
    dorderly is_user (after y l a) /\ left_alone u c (au_newid e) (fs_world (as_front a)) (fs_world (as_front (after y l a)))).
  { intros l a O El Sm. destruct (C103_isolated is_user y u c l a Hs O Hu Hc El) as [O' V]. split; [exact O'|].
    destruct O' as ((Hk & Hl & _) & _). split; [now apply V|]. split; [exact Hk|]. split; [exact Hl|exact Sm]. }
  intros l1 cli2 gt2 trq tauth task m1 m2 ir now El1 Sm2 C2 Kp Au Cr Tp.
  destruct (Al l1 a1 O1 El1 Sm2) as [O2 L2]. set (a2 := after y l1 a1) in *. clearbody a2.
  destruct (K (as_front a2) cli2 gt2 trq tauth task (sy_idtoken y) (sy_sharing y) (sy_helpers y) m1 m2 ir now L2 C2 Au Cr Tp) as (args & f3 & at_ & Et & Ea & K3).
  rewrite Cx, <- Pk in Et.
  assert (Ft : token_at y gt2 now m1 m2 ir trq tauth (as_front a2) = (Ok (AOk args None), f3)) by exact Et.
  exists args, at_. split; [now rewrite Ft|]. split; [exact Ea|].
  assert (O3 : dorderly is_user (dstep y (KToken gt2 now m1 m2 ir trq tauth) a2)) by (now apply door_order).
  assert (F3 : as_front (dstep y (KToken gt2 now m1 m2 ir trq tauth) a2) = f3) by (cbn [dstep]; unfold in_front; rewrite Ft; reflexivity).
  set (a3 := dstep y (KToken gt2 now m1 m2 ir trq tauth) a2) in *. clearbody a3.
  intros l2 gt3 later urq uauth El2 Sm4 De Ha Hd Ne Uo It Lt.
  destruct (Al l2 a3 O3 El2 Sm4) as [O4 L4]. set (a4 := after y l2 a3) in *. clearbody a4. rewrite F3 in L4.
  destruct (K3 (as_front a4) later (gt_out gt3) (gt_ep gt3) (gt_cls gt3) urq uauth L4 De Hd Ne Uo It Lt) as (claims & how & Eu & Su & Cl).
  exists claims, how. split; [|split; assumption]. unfold userinfo_at. rewrite Ha, <- Cx. cbv zeta in Eu. rewrite Eu. reflexivity.
Qed.
Print Assumptions C103_flow.

(** ** A case: while diana's code waits, bob comes with the same client, gets a code and tokens, is logged out of all clients, and his session is removed. *)
From Verif Require Import PropsClientAuthn PropsClaims PropsTokenEndpoint PropsAuthzEndpoint PropsSetupAuth PropsSystem PropsLogout PropsFlow PropsIsolation PropsFrontFlow PropsDoor PyUrl
  Logout FlowSpec FrontFlowSpec SetupAuth AuthzEndpoint.
Definition diana103 : knock := KAuthorize (gate95 []) re95 true pk95 e81 (az7 true) rq81 NoAuthz.
Definition a103 : astate := dstep y82 diana103 a95.
Definition bob103 : list knock :=
  [KAuthorize (gate95 []) re95 true pk95 (e9 (cookie9 "bob" "1900")) az82 rq81 NoAuthz;
   KToken (gate95 [Some MBasic; Some MPost]) 2000 (mt2 "at9") (mt2 "rt9") None tr82 basic95;
   KUserinfo (gate95 [Some MBearerHeader]) 2000 [] (AuthzStr "Bearer at9"); KLogout (lo10 false) "bob;;c1;;g9" true; KRevoke (ORemove "bob" "c1" "g9")].
Example C103_ex_orderly : dorderly usr9 a95.
Proof. exact C82_ex_orderly. Qed.
Lemma understood81 a : clients_of a = [("c1", cli95)]%string -> as_pushed a = [] -> forall m, understood (gate95 []) re95 true pk95 rq81 NoAuthz a m -> m = rq81.
Proof.
  intros Ec Ep m U. apply (understood_det (gate95 []) re95 true pk95 rq81 NoAuthz a rq81 m); [|exact U].
  exists rq81, (VStr "c1"), (mkCA (clients_of a) (fs_jti (as_front a))), rq81, []. rewrite Ec, Ep. split; [reflexivity|]. split; reflexivity.
Qed.
Example C103_ex_proper : dproper usr9 diana103 a95.
Proof. intros m U. rewrite (understood81 a95 eq_refl eq_refl m U). exact C82_ex_proper. Qed.
(** None of what bob does is about diana at c1. *)
Lemma bob_elsewhere a : (forall m, understood (gate95 []) re95 true pk95 rq81 NoAuthz a m -> m = rq81) -> delsewhere usr9 y82 "diana" "c1" bob103 a.
Proof.
  intros U1.
  split; [|split].
  { intros m U. rewrite (U1 m U). split; [apply good_by; reflexivity|]. split; [apply client_c1|].
    intros id R. rewrite (bob_recognises _ _ R). split; [|discriminate].
    intros u E. assert (u = "bob"%string) by (cbn in E; congruence). subst u. split; [apply good_by; reflexivity|right; now left]. }
  { intros (m & id & U & R & H). rewrite (bob_recognises _ _ R) in H. destruct H as [[H _]|[g H]]; discriminate. }
  split; [intros cid rq m E; cbn in E; injection E as <-; reflexivity|]. split.
  { intros (k & p & g & Pr & Sp). destruct Pr as [(_ & _ & raw & Er & ->)|(_ & E & _)]; [|discriminate].
    assert (raw = "code8"%string) by (cbn in Er; congruence). subst raw. discriminate. }
  split; [exact Logic.I|]. split; [intros []|].
  split; [apply bob_names|]. split.
  { intros (c' & g & E & _). discriminate. }
  split.
  { split; [|exact Logic.I]. do 3 (split; [apply good_by; reflexivity|]). split; [right; now left|apply not_user_c1]. }
  split; [|exact Logic.I]. intros [E _]. discriminate.
Qed.
Example C103_ex_elsewhere : delsewhere usr9 y82 "diana" "c1" bob103 a103.
Proof. apply bob_elsewhere. apply understood81; vm_compute; reflexivity. Qed.
Example C103_ex_provided : code_provided sid82 e81 (az7 true) w95 "c1" cli95 cb "diana" (mkMethod (cookie9 "diana" "1900") 600).
Proof. destruct C95_ex_provided as [H1 H2 H3 H4 H5 H6 H7]. constructor; auto. intros p. exists "code7"%string. split; reflexivity. Qed.
Example C103_ex_tokens : forall cli, tokens_provided sid82 e81 (az7 true) w95 "c1" cli "diana" ["openid"; "email"]%string idt2 both (mt2 "at8") (mt2 "rt8") None 2000.
Proof.
  intros cli. destruct (C95_ex_tokens cli) as [H1 H2 H3 H4 H5 H6 H7 H8]. constructor; auto.
  - intros p. exists "at8"%string. split; reflexivity.
  - discriminate.
Qed.
(** c1 has authenticated in between: its record is the same but for the note. *)
Example C103_ex_record : same_record "c1" (clients_of a103) (clients_of (after y82 bob103 a103)) /\ clients_of (after y82 bob103 a103) <> clients_of a103.
Proof.
  assert (E : exists v, clients_of (after y82 bob103 a103) = [("c1"%string, (cli95 ++ [("auth_method"%string, v)])%list)]) by (eexists; vm_compute; reflexivity).
  destruct E as (v & E). assert (E0 : clients_of a103 = [("c1", cli95)]%string) by (vm_compute; reflexivity). rewrite E, E0. split; [|discriminate].
  unfold same_record. cbn [dget String.eqb Ascii.eqb Bool.eqb]. intros k N. apply String.eqb_neq in N. cbn. now rewrite N.
Qed.
(** All of it together: bob gets his claims before he is logged out; afterwards diana's code is exchanged and her claims are given. *)
Example C103_ex : exists bobs args claims,
  let a2 := after y82 bob103 a103 in
  let a3 := dstep y82 (KToken (gate95 [Some MBasic; Some MPost]) 2000 (mt2 "at8") (mt2 "rt8") None tr81 basic95) a2 in
  fst (userinfo_at y82 (gate95 [Some MBearerHeader]) 2000 [] (AuthzStr "Bearer at9") (as_front (after y82 (firstn 2 bob103) a103))) = Ok (UClaims bobs "c1" PJson) /\
  dget "sub" bobs = Some (VStr "bobsalt") /\
  fst (userinfo_at y82 (gate95 [Some MBearerHeader]) 2000 [] (AuthzStr "Bearer at9") (as_front a2)) <> Ok (UClaims bobs "c1" PJson) /\
  fst (token_at y82 (gate95 [Some MBasic; Some MPost]) 2000 (mt2 "at8") (mt2 "rt8") None tr81 basic95 (as_front a2)) = Ok (AOk args None) /\
  fst (userinfo_at y82 (gate95 [Some MBearerHeader]) 2100 [] (AuthzStr "Bearer at8") (as_front a3)) = Ok (UClaims claims "c1" PJson) /\
  dget "sub" claims = Some (VStr "dianasalt") /\ dget "email" claims = Some (VStr "diana@example.org").
Proof.
  do 3 eexists. cbv zeta. split; [vm_compute; reflexivity|]. split; [vm_compute; reflexivity|]. split; [vm_compute; discriminate|]. split; [vm_compute; reflexivity|].
  split; [vm_compute; reflexivity|]. split; vm_compute; reflexivity.
Qed.
(** ... and the hypotheses of the theorem are met. *)
Lemma after_nil y a : after y [] a = a.
Proof. reflexivity. Qed.
#[local] Opaque dstep after.
Example C103_ex_flow : exists args claims how,
  let a2 := after y82 bob103 a103 in
  let a3 := dstep y82 (KToken (gate95 [Some MBasic; Some MPost]) 2000 (mt2 "at8") (mt2 "rt8") None tr81 basic95) a2 in
  fst (token_at y82 (gate95 [Some MBasic; Some MPost]) 2000 (mt2 "at8") (mt2 "rt8") None tr81 basic95 (as_front a2)) = Ok (AOk args None) /\
  (dget "access_token" args = Some (VStr "at8") ->
   fst (userinfo_at y82 (gate95 [Some MBearerHeader]) 2100 [] (AuthzStr "Bearer at8") (as_front a3)) = Ok (UClaims claims "c1" how)).
Proof.
  destruct (C103_flow usr9 y82 (gate95 []) re95 true e81 (az7 true) a95 rq81 NoAuthz rq81 "c1" cli95 cb "diana" (mkMethod (cookie9 "diana" "1900") 600)
    ["openid"; "email"]%string pk95 PropsResponse.ex_enc sid82_ok eq_refl eq_refl C103_ex_orderly C103_ex_proper C95_ex_arrives C95_ex_recognised C95_ex_asks C103_ex_provided)
    as (r & code & resp & E1 & _ & Ec & _ & _ & _ & K).
  assert (code = "code7"%string) by (vm_compute in E1; injection E1 as <-; vm_compute in Ec; congruence). subst code. clear E1 Ec.
  change (dstep y82 (KAuthorize (gate95 []) re95 true pk95 e81 (az7 true) rq81 NoAuthz) a95) with a103 in K.
  assert (C2 : exists v, dget "c1" (clients_of (after y82 bob103 a103)) = Some (cli95 ++ [("auth_method"%string, VDict v)])%list) by (eexists; vm_compute; reflexivity).
  destruct C2 as (v & C2).
  assert (Au : authenticates (gate95 [Some MBasic; Some MPost]) (fs_jti (as_front (after y82 bob103 a103))) (cli95 ++ [("auth_method"%string, VDict v)])%list "c1" tr81 basic95 (dset "client_id" (VStr "c1"%string) tr81)).
  { destruct (C95_ex_authenticates (fs_jti (as_front (after y82 bob103 a103)))) as [H1 H2 H3 H4 H5 H6]. constructor; auto. right. exists v. reflexivity. }
  destruct (K bob103 _ (gate95 [Some MBasic; Some MPost]) tr81 basic95 _ (mt2 "at8") (mt2 "rt8") None 2000 C103_ex_elsewhere (proj1 C103_ex_record) C2
    ltac:(intros cid rq m E; cbn in E; injection E as <-; reflexivity) Au C95_ex_request (fun cli' _ => C103_ex_tokens cli')) as (args & at_ & Et & Ea & K2).
  destruct (string_dec at_ "at8") as [X|X].
  - subst at_. destruct (K2 [] (gate95 [Some MBearerHeader]) 2100 [] (AuthzStr "Bearer at8") Logic.I) as (claims & how & Eu & _).
    + vm_compute. intros k N. reflexivity.
    + vm_compute. auto.
    + reflexivity.
    + reflexivity.
    + discriminate.
    + vm_compute. auto.
    + vm_compute. right. discriminate.
    + vm_compute. reflexivity.
    + exists args, claims, how. split; [exact Et|]. intros _. rewrite after_nil in Eu. exact Eu.
  - exists args, [], PJson. split; [exact Et|]. rewrite Ea. intros Y. injection Y as Y. congruence.
Qed.

(** Diana's access token, asked about before and after all bob does *)
#[local] Transparent dstep after.
Definition a103_3 : astate := dstep y82 (KToken (gate95 [Some MBasic; Some MPost]) 2000 (mt2 "at8") (mt2 "rt8") None tr81 basic95) a103.
Example C103_ex_token : exists gr claims args,
  let a' := after y82 bob103 a103_3 in
  delsewhere usr9 y82 "diana" "c1" bob103 a103_3 /\ sy_sid_of y82 "at8" = Ok (session_key ["diana"; "c1"; "g9"]%string) /\
  view (sessions_of a103_3) ["diana"; "c1"; "g9"]%string = Some (EGrant gr) /\
  same_record "c1" (clients_of a103_3) (clients_of a') /\ kept_claims gr (clients_of a103_3) (clients_of a') /\
  fst (userinfo_at y82 (gate95 [Some MBearerHeader]) 2100 [] (AuthzStr "Bearer at8") (as_front a103_3)) = Ok (UClaims claims "c1" PJson) /\
  fst (userinfo_at y82 (gate95 [Some MBearerHeader]) 2100 [] (AuthzStr "Bearer at8") (as_front a')) = Ok (UClaims claims "c1" PJson) /\
  fst (introspection_request (sy_sid_of y82) (sy_cx y82) (gate95 [Some MBasic]) 2100 true [("token", VStr "at8")]%string basic95 (as_front a103_3)) = Ok (IAnswer args) /\
  fst (introspection_request (sy_sid_of y82) (sy_cx y82) (gate95 [Some MBasic]) 2100 true [("token", VStr "at8")]%string basic95 (as_front a')) = Ok (IAnswer args) /\
  dget "active" args = Some (VBool true).
Proof.
  assert (G : exists gr, view (sessions_of a103_3) ["diana"; "c1"; "g9"]%string = Some (EGrant gr)) by (eexists; vm_compute; reflexivity). destruct G as (gr & G).
  assert (V : exists v v', clients_of a103_3 = [("c1"%string, (cli95 ++ [("auth_method"%string, v)])%list)] /\
    clients_of (after y82 bob103 a103_3) = [("c1"%string, (cli95 ++ [("auth_method"%string, v')])%list)]).
  { do 2 eexists. split; vm_compute; reflexivity. }
  destruct V as (v & v' & V1 & V2).
  assert (Sm : same_record "c1" (clients_of a103_3) (clients_of (after y82 bob103 a103_3))).
  { rewrite V1, V2. unfold same_record. cbn [dget String.eqb Ascii.eqb Bool.eqb]. intros k N. apply String.eqb_neq in N. cbn. now rewrite N. }
  exists gr. do 2 eexists. cbv zeta. split.
  { apply bob_elsewhere. intros m U. apply (understood_det (gate95 []) re95 true pk95 rq81 NoAuthz a103_3 rq81 m); [|exact U].
    exists rq81, (VStr "c1"), (mkCA (clients_of a103_3) (fs_jti (as_front a103_3))), rq81, []. rewrite V1. split; [reflexivity|]. split; [reflexivity|].
    assert (Ep : as_pushed a103_3 = []) by (vm_compute; reflexivity). rewrite Ep. reflexivity. }
  split; [reflexivity|]. split; [exact G|]. split; [exact Sm|]. split.
  { intros usage c us E. assert (c = "c1"%string); [|subst c; exact Sm]. vm_compute in G. injection G as <-. revert E.
    cbn [g_claims dget]. repeat (destruct (String.eqb usage _); [intros E; vm_compute in E; first [discriminate E|congruence]|]). discriminate. }
  split; [vm_compute; reflexivity|]. split; [vm_compute; reflexivity|]. split; [vm_compute; reflexivity|]. split; [vm_compute; reflexivity|]. reflexivity.
Qed.
