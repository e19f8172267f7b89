(** PropsDoorRefresh.v: a client with a refresh token goes on getting access tokens, from the received requests on (C104; specification in
    DoorRefreshSpec.v). *)
From Verif Require Import Base BaseProofs Monad MonadProofs Types SessionKey SessionKeyProofs Token Grant GrantSpec Database DatabaseSpec DatabaseProofs Manager ManagerSpec ManagerProofs
  Ctx Claims ClaimsSpec World WorldSpec Minting ClientAuthn ClientAuthnSpec TokenEndpoint Uri UriSpec Authz AuthzRequest Response AuthzEndpoint AuthzEndpointSpec
  SetupAuth SetupAuthSpec Fronts FrontsSpec FrontsProofs AuthzFront UserInfo UserInfoSpec FlowSpec FrontFlowSpec System IsolationSpec RefreshSpec
  Door DoorSpec DoorProofs DoorIsolationSpec DoorRefreshSpec PropsDoorIsolation.
From Verif Require PropsFrontFlow PropsRefresh PropsFlow ClientAuthnProofs.
Import PropsRefresh.
Local Open Scope Z_scope.

Lemma ready_door is_user y u c gid cli0 ar l : sids_ok (sy_sid_of y) -> sy_pkce y = false ->
  forall a value g t l1 l2 cli,
  dorderly is_user a -> noted cli0 cli -> claims_set_up (sy_cx y) cli0 ->
  (with_id_token (t_rules t) \/ with_id_token (rule (g_rules g) "refresh_token") -> forall cli', noted cli0 cli' -> id_tokens_made (sy_idtoken y) u c gid cli') ->
  ready (sy_sid_of y) (sy_cx y) (sy_idtoken y) (sy_helpers y) u c gid cli ar l (fs_world (as_front a)) value g t l1 l2 ->
  dgoes_on is_user y u c (g_rules g) l a value.
Proof.
  intros Hs Pk. induction l as [|r l IH]; [intros; exact I|]. intros a value g t l1 l2 cli O N0 Su Hid Ry.
  cbn [dgoes_on]. intros others cli2 gt rq auth request ir El Sm C2 Kp Au Rq.
  destruct (ry_names _ _ _ _ _ _ _ _ _ _ _ _ _ _ _ _ Ry) as (Hu & Hc & Hg).
  destruct (C103_isolated is_user y u c others a Hs O Hu Hc El) as [O0 V0]. specialize (V0 gid Hg).
  set (a0 := after y others a) in *. clearbody a0.
  assert (N2 : noted cli0 cli2).
  { eapply PropsFrontFlow.noted_trans; [exact N0|]. destruct (ry_client _ _ _ _ _ _ _ _ _ _ _ _ _ _ _ _ Ry) as [C _].
    unfold same_record in Sm. unfold clients_of in Sm at 1. rewrite C, C2 in Sm. exact Sm. }
  destruct (PropsFrontFlow.authenticates_received gt (auth_of (as_front a0)) cli2 c rq auth request Au C2) as (s' & cli3 & Rc & C3 & N3).
  assert (N03 : noted cli0 cli3) by (eapply PropsFrontFlow.noted_trans; eauto).
  set (w' := mkW (w_db (fs_world (as_front a0))) (ca_cdb s')).
  assert (Ry' : ready (sy_sid_of y) (sy_cx y) (sy_idtoken y) (sy_helpers y) u c gid cli3 ar (r :: l) w' value g t l1 l2).
  { destruct O0 as ((Hk & Hl & _) & _). eapply ready_moved; [exact Ry|exact V0|exact Hk|exact Hl|exact C3| |].
    - eapply PropsFrontFlow.set_up_noted; eauto.
    - intros X. now apply Hid. }
  destruct (ready_round (sy_sid_of y) (sy_b64hash y) (sy_cx y) (sy_idtoken y) (sy_sharing y) (sy_helpers y) ir u c gid cli3 ar r l w' value g t l1 l2 request Ry' Rq)
    as (args & w1 & access & next & g' & at_ & t' & l1' & Ep & Et & E3 & E4 & E5 & E6 & E7 & E8 & Er & Rn & Wi).
  assert (Ft : token_at y gt (rd_now r) (rd_access r) (rd_refresh r) ir rq auth (as_front a0) = (Ok (AOk args None), mkFS w1 (ca_jti s'))).
  { unfold token_at, token_request, bind at 1. rewrite (in_auth_run _ _ _ _ Rc). unfold bind, in_world, in_db. cbn [fs_world w_db w_cdb fs_jti].
    rewrite Pk. unfold w' in Ep. cbn [w_db] in Ep. rewrite Ep. cbn [fs_world w_db w_cdb fs_jti]. fold w'. rewrite Et. reflexivity. }
  exists args, access, next.
  assert (O1 : dorderly is_user (dstep y (KToken gt (rd_now r) (rd_access r) (rd_refresh r) ir rq auth) a0)) by (now apply door_order).
  assert (F1 : fs_world (as_front (dstep y (KToken gt (rd_now r) (rd_access r) (rd_refresh r) ir rq auth) a0)) = w1) by (cbn [dstep]; unfold in_front; rewrite Ft; reflexivity).
  set (a1 := dstep y (KToken gt (rd_now r) (rd_access r) (rd_refresh r) ir rq auth) a0) in *. clearbody a1. cbv zeta.
  split; [now rewrite Ft|]. split; [exact E3|]. split; [exact E4|]. split; [exact E5|]. split.
  { exists g', at_. unfold sessions_of. rewrite F1. auto. }
  rewrite <- Er. apply (IH a1 next g' t' l1' [] cli3); auto.
  - rewrite Er. intros [X|X] cli' N'; apply Hid; auto.
  - rewrite F1. exact Rn.
Qed.

(** ** C104 *)
(** A client that has a refresh token goes on, round by round. *)
Theorem C104_goes_on :
  forall is_user y u c gid cli ar l a value g t l1 l2,
  sids_ok (sy_sid_of y) -> sy_pkce y = false -> dorderly is_user a -> good u -> good c -> good gid ->
  (* the refresh token is one of the session *)
  sy_sid_of y value = Ok (session_key [u; c; gid]) -> view (sessions_of a) [u; c; gid] = Some (EGrant g) ->
  g_issued g = l1 ++ t :: l2 -> t_value t = value -> ~ In value (map t_value l1) -> t_class t = CRefresh ->
  (* the rules let it be used, and the tokens that come after it *)
  may_mint t "access_token" -> may_mint t "refresh_token" -> usable_once (t_rules t) -> lets_refresh (rule (g_rules g) "refresh_token") ->
  (* the times are right *)
  (forall r l', l = r :: l' -> at_times (fun now => token_usable now t) r) -> in_turn (g_rules g) l ->
  Forall (at_times (stands g)) l -> has_room g (2 * Z.of_nat (length l)) ->
  (* what it takes to make the tokens is there *)
  dget "refresh_token" (sy_helpers y) = Some HRefresh -> g_authreq g = Some ar -> claims_asked ar ->
  dget c (clients_of a) = Some cli -> claims_set_up (sy_cx y) cli ->
  Forall (fun m => handles (sy_sid_of y) m (session_key [u; c; gid])) (mintings l) ->
  all_new (session_key [u; c; gid]) (map t_value (g_issued g)) l ->
  (with_id_token (t_rules t) \/ with_id_token (rule (g_rules g) "refresh_token") -> forall cli', noted cli cli' -> id_tokens_made (sy_idtoken y) u c gid cli') ->
  dgoes_on is_user y u c (g_rules g) l a value.
Proof.
  intros is_user y u c gid cli ar l a value g t l1 l2 Hs Pk O Hu Hc Hg Sc V Is Tv Ni Cl Ma Mr Uo Lr Us Tn Sg Ro Hh Ar As C St Ha Nw Hid.
  assert (Nn : noted cli cli) by (intros k _; reflexivity).
  apply (ready_door is_user y u c gid cli ar l Hs Pk a value g t l1 l2 cli O Nn St Hid).
  destruct O as ((Hk & Hl & _) & _). constructor; auto.
Qed.
Print Assumptions C104_goes_on.

(** From the beginning: the browser of a recognised user brings the client's request, the client presents the code, proves itself and gets a
    refresh token, if it has asked for offline access (or the provider gives refresh tokens anyway); and with that it goes on. Whatever else arrives
    in between. *)
Theorem C104_flow : forall is_user y gt re oidc e az a0 rq auth request c cli uri u m scopes,
  let w0 := fs_world (as_front a0) in
  let visit := KAuthorize gt re oidc None e az rq auth in
  sids_ok (sy_sid_of y) -> az_cx az = sy_cx y -> sy_pkce y = false -> dorderly is_user a0 -> dproper is_user visit a0 ->
  arrives gt re az None (w_cdb w0) rq request c ["code"]%string ->
  recognised is_user e az oidc w0 request c cli uri u m -> asks_code az w0 request c uri scopes -> code_provided (sy_sid_of y) e az w0 c cli uri u m ->
  exists r code,
    let a1 := dstep y visit a0 in
    fst (authorization_request gt re oidc None e az rq auth a0) = Ok (AResponse r) /\ dget "code" (ri_args r) = Some (VStr code) /\
  forall l1 cli2 gt2 token_rq token_auth token_asked m1 m2 ir now,
    let a2 := after y l1 a1 in
    let exchange := KToken gt2 now m1 m2 ir token_rq token_auth in
    delsewhere is_user y u c l1 a1 -> same_record c (clients_of a1) (clients_of a2) -> dget c (clients_of a2) = Some cli2 ->
    keeps (gt_check gt2) -> authenticates gt2 (fs_jti (as_front a2)) cli2 c token_rq token_auth token_asked -> code_request (sy_b64hash y) false request token_asked code ->
    (forall cli', noted cli cli' -> tokens_provided (sy_sid_of y) e az w0 c cli' u scopes (sy_idtoken y) (sy_helpers y) m1 m2 ir now) ->
    match ir with Some b => b = true | None => In "offline_access"%string (scope_then az scopes) end ->
    told_apart (az_code az) m2 (session_key [u; c; au_newid e]) -> told_apart m1 m2 (session_key [u; c; au_newid e]) ->
    exists args refresh_token,
      fst (token_at y gt2 now m1 m2 ir token_rq token_auth (as_front a2)) = Ok (AOk args None) /\ dget "refresh_token" args = Some (VStr refresh_token) /\
  forall l,
    (forall cli', noted cli cli' -> refreshing (sy_sid_of y) e az w0 c cli' u (sy_idtoken y) (sy_helpers y) m1 m2 now l) ->
    dgoes_on is_user y u c (rules_of e az w0 c) l (dstep y exchange a2) refresh_token.
Proof.
  intros is_user y gt re oidc e az a0 rq auth request c cli uri u m scopes w0 visit Hs Cx Pk O0 Pn Ar R Ak P.
  destruct (re_names _ _ _ _ _ _ _ _ _ _ _ R) as (Hu & Hc & Hg & _).
  destruct (flow_ready (sy_sid_of y) (sy_b64hash y) is_user e az oidc w0 request c cli uri u m scopes R Ak P) as (r & w1 & code & E & Ec & C1 & K).
  destruct (re_entered _ _ _ _ _ _ _ _ _ _ _ R) as (Ci & Cc & _ & Ru & _).
  set (a1 := mkAS (mkFS w1 (fs_jti (as_front a0))) (as_pushed a0)).
  assert (W1 : fs_world (as_front a1) = w1) by reflexivity.
  assert (E1 : authorization_request gt re oidc None e az rq auth a0 = (Ok (AResponse r), a1)).
  { eapply PropsFrontFlow.C95_front; eauto; [apply Ak|apply P]. }
  clearbody a1.
  assert (St1 : dstep y visit a0 = a1) by (unfold visit; cbn [dstep]; now rewrite E1).
  assert (O1 : dorderly is_user a1) by (rewrite <- St1; now apply door_order).
  exists r, code. cbv zeta. rewrite St1. split; [now rewrite E1|]. split; [exact Ec|].
  intros l1 cli2 gt2 trq tauth task m1 m2 ir now El1 Sm2 C2 Kp Au Cr Tp Rf Ap2 Ap3.
  destruct (C103_isolated is_user y u c l1 a1 Hs O1 Hu Hc El1) as [O2 V2]. specialize (V2 (au_newid e) Hg).
  set (a2 := after y l1 a1) in *. clearbody a2.
  assert (N2 : noted cli cli2). { unfold same_record in Sm2. unfold clients_of in Sm2 at 1. rewrite W1, C1, C2 in Sm2. exact Sm2. }
  destruct (PropsFrontFlow.authenticates_received gt2 (auth_of (as_front a2)) cli2 c trq tauth task Au C2) as (s' & cli3 & Rc & C3 & N3).
  assert (N03 : noted cli cli3) by (eapply PropsFrontFlow.noted_trans; eauto).
  set (w' := mkW (w_db (fs_world (as_front a2))) (ca_cdb s')).
  destruct (K w' cli3 (sy_idtoken y) (sy_sharing y) (sy_helpers y) false m1 m2 ir now task) as (tq & args & w3 & rt & Pa & Pr & Af & K3); auto.
  { unfold w'. cbn [w_db]. unfold sessions_of in V2. rewrite W1 in V2. exact V2. }
  { apply O2. }
  { apply O2. }
  { eapply PropsFrontFlow.set_up_noted; [exact N03|apply P]. }
  rewrite Cx in Pr.
  assert (Ft : token_at y gt2 now m1 m2 ir trq tauth (as_front a2) = (Ok (AOk args None), mkFS w3 (ca_jti s'))).
  { unfold token_at, token_request, bind at 1. rewrite (in_auth_run _ _ _ _ Rc). unfold bind, in_world, in_db. cbn [fs_world w_db w_cdb fs_jti].
    rewrite Pk. unfold w' in Pa. cbn [w_db] in Pa. rewrite Pa. cbn [fs_world w_db w_cdb fs_jti]. fold w'. rewrite Pr. reflexivity. }
  exists args, rt. split; [now rewrite Ft|]. split; [exact Af|].
  intros l Q. destruct (K3 l (Q cli3 N03)) as (g & t & l1' & l2' & ar & Gr & Wi & Ry). rewrite <- Gr.
  assert (O3 : dorderly is_user (dstep y (KToken gt2 now m1 m2 ir trq tauth) a2)) by (now apply door_order).
  rewrite Cx in Ry.
  eapply (ready_door is_user y u c (au_newid e) cli ar l Hs Pk); [exact O3|exact N03|rewrite <- Cx; apply P| |].
  - intros X cli' N'. apply (rf_id_token _ _ _ _ _ _ _ _ _ _ _ _ _ (Q cli' N')). rewrite Gr in X.
    destruct X as [X|X]; [exact (Wi X)|exact X].
  - cbn [dstep]. unfold in_front. rewrite Ft. exact Ry.
Qed.
Print Assumptions C104_flow.

(** With the PKCE add-on configured no refresh request (without a code in it) gets anything at the token endpoint, whoever brings it. *)
Theorem C104_pkce_refuted : forall y gt now m1 m2 ir rq auth a args http,
  sy_pkce y = true -> keeps (gt_check gt) -> dget "refresh_token" (sy_helpers y) = Some HRefresh ->
  dget "grant_type" rq = Some (VStr "refresh_token") -> dget "code" rq = None ->
  fst (token_at y gt now m1 m2 ir rq auth a) <> Ok (AOk args http).
Proof.
  intros y gt now m1 m2 ir rq auth a args http Pk Hk Hh Hg Hc H.
  destruct (token_at y gt now m1 m2 ir rq auth a) as [x f] eqn:E. cbn in H. subst x. unfold token_at, token_request in E.
  destruct (bind_ok _ _ _ _ _ E) as (p & f1 & E1 & E2). clear E. destruct (bind_ok _ _ _ _ _ E2) as (q & f2 & E3 & E4). clear E2.
  assert (Rp : exists s s', received gt rq auth s = (Ok p, s')).
  { destruct (received gt rq auth (auth_of a)) as [x s'] eqn:Er. rewrite (in_auth_run _ _ _ _ Er) in E1. exists (auth_of a), s'. destruct x as [x|x]; [|discriminate E1]. assert (x = p) by congruence. now subst x. }
  destruct Rp as (s & s' & Er). destruct q as [rq'|err d]; [|discriminate E4]. destruct p as [m|]; [|discriminate E3].
  assert (Km := received_keeps _ _ _ _ _ _ Hk Er).
  unfold in_world, in_db in E3. rewrite Pk in E3.
  destruct (token_parse (sy_sid_of y) (sy_b64hash y) (sy_helpers y) true now m (w_db (fs_world f1))) as [x s2] eqn:Et.
  assert (x = Ok (PReq rq')) by congruence. subst x.
  refine (PropsTokenEndpoint.C15_refresh_refuted _ _ _ _ _ _ _ Hh _ _ _ Et).
  - rewrite Km by (cbn; auto). exact Hg.
  - unfold dmem. rewrite Km by (cbn; auto). now rewrite Hc.
Qed.
Print Assumptions C104_pkce_refuted.

(** ** A case: diana and c1 as in the examples of C87 and C95; between the exchange and the first refresh bob comes with the same client, gets a code and
    tokens, logs out of all clients, and his session is removed *)
From Verif Require Import PropsClientAuthn PropsClaims PropsTokenEndpoint PropsAuthzEndpoint PropsSetupAuth PropsSystem PropsLogout PropsFlow PropsIsolation PropsFrontFlow PropsDoor
  PropsDoorFlow PyUrl Logout UserinfoFront FlowSpec FrontFlowSpec SetupAuth AuthzEndpoint RefreshSpec.
Definition sid104 (v : string) : result string :=
  match sid87 v with Ok s => Ok s | _ => if smem v ["code8"; "at9"]%string then Ok "bob;;c1;;g9"%string else Raise EUnknownToken end.
Definition y104 : setup_of := mkSy sid104 hash2 cx87 idt2 true both false.
Definition diana104 : knock := KAuthorize (gate95 []) re95 true None e81 az87 rq81 NoAuthz.
Definition a104_1 : astate := dstep y104 diana104 a95.
Definition gate104 : gate := gate95 [Some MBasic; Some MPost].
Definition exchange104 : knock := KToken gate104 2000 (mt87 2000 "at8") (mt87 2001 "rt8") (Some true) tr81 basic95.
Definition a104_2 : astate := dstep y104 exchange104 a104_1.
Definition bob104 : list knock :=
  [KAuthorize (gate95 []) re95 true None (e9 (cookie9 "bob" "1900")) az82 rq81 NoAuthz;
   KToken gate104 2000 (mt2 "at9") (mt2 "rt9") None tr82 basic95;
   KUserinfo (gate95 [Some MBearerHeader]) 2000 [] (AuthzStr "Bearer at9"); KLogout (lo10 false) "bob;;c1;;g9" true; KRevoke (ORemove "bob" "c1" "g9")].

Example C104_ex_sids : sids_ok (sy_sid_of y104).
Proof.
  intros v sid H. cbn [sy_sid_of y104] in H. unfold sid104, sid87 in H.
  destruct (smem v _); [|destruct (smem v _); [|discriminate]]; injection H as <-;
    [exists "diana"%string, "c1"%string, "g9"%string|exists "bob"%string, "c1"%string, "g9"%string];
    (do 3 (split; [apply good_by; reflexivity|]); reflexivity).
Qed.
Lemma understood104 a cli : clients_of a = [("c1"%string, cli)] -> as_pushed a = [] ->
  (exists v, cli = cli95 \/ cli = (cli95 ++ [("auth_method"%string, v)])%list) ->
  forall m, understood (gate95 []) re95 true None rq81 NoAuthz a m -> m = rq81.
Proof.
  intros Ec Ep [v Cl] m U. apply (understood_det (gate95 []) re95 true None rq81 NoAuthz a rq81 m); [|exact U].
  exists rq81, (VStr "c1"), (mkCA (clients_of a) (fs_jti (as_front a))), rq81, []. rewrite Ec, Ep. destruct Cl as [-> | ->]; (split; [reflexivity|]); split; reflexivity.
Qed.
Example C104_ex_proper : dproper usr9 diana104 a95.
Proof. 
  intros m U. rewrite (understood104 a95 cli95 eq_refl eq_refl (ex_intro _ VNone (or_introl eq_refl)) m U).
  split; [apply good_by; reflexivity|]. split; [apply client_c1|].
  intros id R. rewrite (cookie_recognises _ _ R). split; [|discriminate].
  intros u E. assert (u = "diana"%string) by (cbn in E; congruence). subst u. split; [apply good_by; reflexivity|now left].
Qed.
Lemma bob104_elsewhere a : (forall m, understood (gate95 []) re95 true None rq81 NoAuthz a m -> m = rq81) -> delsewhere usr9 y104 "diana" "c1" bob104 a.
Proof.
  intros U1.
  split; [|split].
  { intros m U. rewrite (U1 m U). split; [apply good_by; reflexivity|]. split; [apply client_c1|].
    intros id R. rewrite (bob_recognises _ _ R). split; [|discriminate].
    intros u E. assert (u = "bob"%string) by (cbn in E; congruence). subst u. split; [apply good_by; reflexivity|right; now left]. }
  { intros (m & id & U & R & H). rewrite (bob_recognises _ _ R) in H. destruct H as [[H _]|[g H]]; discriminate. }
  split; [intros cid rq m E; cbn in E; injection E as <-; reflexivity|]. split.
  { intros (k & p & g & Pr & Sp). destruct Pr as [(_ & _ & raw & Er & ->)|(_ & E & _)]; [|discriminate].
    assert (raw = "code8"%string) by (cbn in Er; congruence). subst raw. discriminate. }
  split; [exact Logic.I|]. split; [intros []|].
  split; [apply bob_names|]. split.
  { intros (c' & g & E & _). discriminate. }
  split.
  { split; [|exact Logic.I]. do 3 (split; [apply good_by; reflexivity|]). split; [right; now left|apply not_user_c1]. }
  split; [|exact Logic.I]. intros [E _]. discriminate.
Qed.
Example C104_ex_arrives : arrives (gate95 []) re95 az87 None (w_cdb w95) rq81 rq81 "c1" ["code"]%string.
Proof. destruct C95_ex_arrives as [H1 H2 H3 H4 H5 H6 H7 H8 H9]. constructor; auto. discriminate. Qed.
Example C104_ex_recognised : recognised usr9 e81 az87 true w95 rq81 "c1" cli95 cb "diana" (mkMethod (cookie9 "diana" "1900") 600).
Proof. destruct C95_ex_recognised as [A B C D E]. constructor; assumption. Qed.
Example C104_ex_asks : asks_code az87 w95 rq81 "c1" cb ["openid"; "email"]%string.
Proof. destruct C95_ex_asks as [A B C D E]. constructor; assumption. Qed.
Example C104_ex_provided : code_provided sid104 e81 az87 w95 "c1" cli95 cb "diana" (mkMethod (cookie9 "diana" "1900") 600).
Proof.
  destruct C95_ex_provided as [A B C D E F G]. constructor; auto.
  - destruct A. constructor; assumption.
  - split; [intros k X; injection X as <-; lia|]. intros _. cbn. lia.
  - intros p. exists "code7"%string. split; reflexivity.
Qed.
Example C104_ex_tokens cli : tokens_provided sid104 e81 az87 w95 "c1" cli "diana" ["openid"; "email"]%string idt2 both (mt87 2000 "at8") (mt87 2001 "rt8") (Some true) 2000.
Proof.
  assert (X : exchangeable e81 az87 w95 "c1" "access_token" 2 2000).
  { split; [left; reflexivity|]. split; [split; [intros k E; injection E as <-; lia|intros _; cbn; lia]|]. cbn. lia. }
  constructor; auto.
  - intros p v E. cbn in E. injection E as <-. reflexivity.
  - intros p. exists "at8"%string. split; reflexivity.
  - intros p1 p2 v1 v2 E1 E2. cbn in E1, E2. injection E1 as <-. injection E2 as <-. discriminate.
  - intros _. split; [|intros p; exists "rt8"%string; split; reflexivity].
    split; [right; left; reflexivity|]. split; [split; [intros k E; injection E as <-; lia|intros _; cbn; lia]|]. cbn. lia.
  - intros _ s gr clients V C. eexists. exists clients. split; [reflexivity|exact C].
Qed.
Example C104_ex_refreshing cli : refreshing sid104 e81 az87 w95 "c1" cli "diana" idt2 both (mt87 2000 "at8") (mt87 2001 "rt8") 2000 rounds87.
Proof.
  assert (L : forall now, now <= 5600 -> leaves e81 az87 w95 "c1" (3 + 2 * Z.of_nat (length rounds87)) now).
  { intros now H. split; [intros k E; injection E as <-; cbn; lia|intros _; cbn; lia]. }
  constructor.
  - reflexivity.
  - split; [exact I|]. split; [left; reflexivity|right; left; reflexivity].
  - cbn. unfold at_times. cbn. lia.
  - constructor; [|constructor; [|constructor]]; (split; [|split]); apply L; cbn; lia.
  - repeat (constructor; [intros p; eexists; split; reflexivity|]). constructor.
  - repeat (constructor; [repeat (constructor; [intros p1 p2 v1 v2 E1 E2; cbn in E1, E2; injection E1 as <-; injection E2 as <-; discriminate|]); constructor|]). constructor.
  - intros _ s gr clients V C. eexists. exists clients. split; [reflexivity|exact C].
Qed.
(** The hypotheses of C104_flow are met: diana's client has "rt8" and goes on with it. *)
#[local] Opaque dstep after.
Example C104_ex_flow : dgoes_on usr9 y104 "diana" "c1" (rules_of e81 az87 w95 "c1") rounds87 a104_2 "rt8".
Proof.
  destruct (C104_flow usr9 y104 (gate95 []) re95 true e81 az87 a95 rq81 NoAuthz rq81 "c1" cli95 cb "diana" (mkMethod (cookie9 "diana" "1900") 600) ["openid"; "email"]%string
    C104_ex_sids eq_refl eq_refl C103_ex_orderly C104_ex_proper C104_ex_arrives C104_ex_recognised C104_ex_asks C104_ex_provided) as (r & code & E1 & Ec & K).
  assert (code = "code7"%string) by (vm_compute in E1; injection E1 as <-; vm_compute in Ec; congruence). subst code. clear E1 Ec.
  change (dstep y104 (KAuthorize (gate95 []) re95 true None e81 az87 rq81 NoAuthz) a95) with a104_1 in K.
  assert (C2 : dget "c1" (clients_of a104_1) = Some cli95) by (vm_compute; reflexivity).
  assert (Cr : FlowSpec.code_request hash2 false rq81 (dset "client_id" (VStr "c1"%string) tr81) "code7").
  { destruct C95_ex_request as [H1 H2 H3 H4 H5]. constructor; auto. }
  destruct (K [] cli95 gate104 tr81 basic95 (dset "client_id" (VStr "c1"%string) tr81) (mt87 2000 "at8") (mt87 2001 "rt8") (Some true) 2000 Logic.I) as (args & rt & Et & Er & K2).
  - rewrite after_nil. unfold same_record. rewrite C2. auto.
  - rewrite after_nil. exact C2.
  - intros cid rq m E; cbn in E; injection E as <-; reflexivity.
  - apply C95_ex_authenticates.
  - exact Cr.
  - intros cli' _. exact (C104_ex_tokens cli').
  - reflexivity.
  - intros p1 p2 v1 v2 E1 E2. cbn in E1, E2. injection E1 as <-. injection E2 as <-. discriminate.
  - intros p1 p2 v1 v2 E1 E2. cbn in E1, E2. injection E1 as <-. injection E2 as <-. discriminate.
  - rewrite after_nil in Et, K2. assert (rt = "rt8"%string) by (vm_compute in Et; injection Et as <-; vm_compute in Er; congruence). subst rt.
    apply K2. intros cli' _. apply C104_ex_refreshing.
Qed.
#[local] Transparent dstep after.
(** In the first round: what bob does arrives first. *)
Definition a104_3 : astate := after y104 bob104 a104_2.
Example C104_ex_round :
  delsewhere usr9 y104 "diana" "c1" bob104 a104_2 /\ same_record "c1" (clients_of a104_2) (clients_of a104_3) /\
  exists cli, dget "c1" (clients_of a104_3) = Some cli /\
    authenticates gate104 (fs_jti (as_front a104_3)) cli "c1" (refresh87 "rt8") basic95 (dset "client_id" (VStr "c1"%string) (refresh87 "rt8")) /\
    refresh_request (dset "client_id" (VStr "c1"%string) (refresh87 "rt8")) "rt8".
Proof.
  assert (V : exists v v', clients_of a104_2 = [("c1"%string, (cli95 ++ [("auth_method"%string, VDict v)])%list)] /\
    clients_of a104_3 = [("c1"%string, (cli95 ++ [("auth_method"%string, VDict v')])%list)]).
  { do 2 eexists. split; vm_compute; reflexivity. }
  destruct V as (v & v' & V1 & V2). assert (Ep : as_pushed a104_2 = []) by (vm_compute; reflexivity).
  split. { apply bob104_elsewhere. exact (understood104 a104_2 _ V1 Ep (ex_intro _ (VDict v) (or_intror eq_refl))). }
  split. { rewrite V1, V2. unfold same_record. cbn [dget String.eqb Ascii.eqb Bool.eqb]. intros k N. apply String.eqb_neq in N. cbn. now rewrite N. }
  rewrite V2. eexists. split; [reflexivity|]. split; [|split; reflexivity].
  constructor; try reflexivity.
  - split; [discriminate|reflexivity].
  - intros x E. discriminate E.
  - right. exists v'. reflexivity.
  - exists [], MBasic, [Some MPost]. split; [reflexivity|]. split; [intros m' []|]. exists "s3cret"%string, "Basic c1:s3cret"%string. split; [reflexivity|]. split; [reflexivity|].
    apply ClientAuthnProofs.basic_authn_iff. reflexivity.
Qed.
(** All of it together *)
Example C104_ex : exists args1 args2 bobs,
  let a4 := dstep y104 (KToken gate104 2400 (mt87 2400 "at81") (mt87 2401 "rt81") None (refresh87 "rt8") basic95) a104_3 in
  fst (userinfo_at y104 (gate95 [Some MBearerHeader]) 2000 [] (AuthzStr "Bearer at9") (as_front (after y104 (firstn 2 bob104) a104_2))) = Ok (UClaims bobs "c1" PJson) /\
  fst (token_at y104 gate104 2400 (mt87 2400 "at81") (mt87 2401 "rt81") None (refresh87 "rt8") basic95 (as_front a104_3)) = Ok (AOk args1 None) /\
  dget "refresh_token" args1 = Some (VStr "rt81") /\
  fst (token_at y104 gate104 2800 (mt87 2801 "at82") (mt87 2802 "rt82") None (refresh87 "rt81") basic95 (as_front a4)) = Ok (AOk args2 None) /\
  dget "access_token" args2 = Some (VStr "at82").
Proof.
  do 3 eexists. cbv zeta. split; [vm_compute; reflexivity|]. split; [vm_compute; reflexivity|]. split; [vm_compute; reflexivity|]. split; [vm_compute; reflexivity|]. reflexivity.
Qed.
(** The same with the PKCE add-on: the refresh token is of no use. *)
Example C104_ex_pkce :
  fst (token_at (mkSy sid104 hash2 cx87 idt2 true both true) gate104 2400 (mt87 2400 "at81") (mt87 2401 "rt81") None (refresh87 "rt8") basic95 (as_front a104_3)) =
    Ok (UserInfo.AError "invalid_grant" "Unknown access grant").
Proof. vm_compute. reflexivity. Qed.
