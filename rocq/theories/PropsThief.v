(** PropsThief.v: C12 from the received requests on. A code can be used by any client of the provider. *)
From Verif Require Import Base BaseProofs Monad MonadProofs Types SessionKey SessionKeyProofs Token Grant GrantSpec Database DatabaseSpec DatabaseProofs Manager ManagerProofs
  Ctx ScopesSpec Claims ClaimsSpec World WorldSpec Minting ClientAuthn ClientAuthnSpec ClientAuthnProofs TokenEndpoint Uri UriSpec Authz
  AuthzRequest AuthzRequestSpec AuthzRequestProofs Response AuthzEndpoint AuthzEndpointSpec AuthzEndpointProofs SetupAuth SetupAuthSpec SetupAuthProofs Fronts FrontsSpec FrontsProofs AuthzFront
  UserInfo UserInfoSpec UserinfoFront UserinfoFrontSpec UserinfoFrontProofs FlowSpec FlowProofs FrontFlowSpec PropsFrontFlow.
From Verif Require PropsClientAuthn PropsFlow.
Local Open Scope Z_scope.

(** The authorization endpoint answers the request of client [c] with a code. Another client [d] of the provider that has got hold of the code presents
    it, proves that it is [d], and gets an access token for the user's session with [c]; whoever presents that gets the user's claims. *)
Theorem C12_thief_refuted : forall sid_of b64hash is_user gt re oidc pk e az a0 rq auth request c cli uri u m scopes,
  let w0 := fs_world (as_front a0) in
  let asked := with_method pk request in
  arrives gt re az pk (w_cdb w0) rq request c ["code"]%string ->
  recognised is_user e az oidc w0 asked c cli uri u m -> asks_code az w0 asked c uri scopes -> code_provided sid_of e az w0 c cli uri u m ->
  exists r a1 code,
    authorization_request gt re oidc pk e az rq auth a0 = (Ok (AResponse r), a1) /\ ~ failed (ri_args r) /\ dget "code" (ri_args r) = Some (VStr code) /\
  forall f2 d cli_d gt2 token_rq token_auth token_asked idt sharing helpers m1 m2 ir now,
    left_alone u c (au_newid e) (fs_world (as_front a1)) (fs_world f2) ->
    d <> c -> dget d (w_cdb (fs_world f2)) = Some cli_d ->
    authenticates gt2 (fs_jti f2) cli_d d token_rq token_auth token_asked ->
    code_request b64hash (match pk with Some _ => true | None => false end) asked token_asked code ->
    (forall cli', noted cli cli' -> tokens_provided sid_of e az w0 c cli' u scopes idt helpers m1 m2 ir now) ->
    exists args f3 access_token,
      token_request sid_of b64hash (az_cx az) idt gt2 sharing helpers (match pk with Some _ => true | None => false end) now m1 m2 ir token_rq token_auth f2
        = (Ok (AOk args None), f3) /\
      dget "access_token" args = Some (VStr access_token) /\ sid_of access_token = Ok (session_key [u; c; au_newid e]) /\
  forall f4 later o ep cls userinfo_rq userinfo_auth,
    left_alone u c (au_newid e) (fs_world f3) (fs_world f4) ->
    by_default ep -> authz_str userinfo_auth = Some ("Bearer " ++ access_token)%string -> access_token <> ""%string ->
    usable_once (rule (rules_of e az w0 c) "access_token") ->
    in_time (ur_expires_in (rule (rules_of e az w0 c) "access_token")) (mt_clock m1) later -> later < au_now e + lifetime m ->
    exists claims how,
      let s := mkFr (mkCA (w_cdb (fs_world f4)) (fs_jti f4)) (w_db (fs_world f4)) in
      userinfo_request sid_of o ep cls [] (az_cx az) later userinfo_rq userinfo_auth s = (Ok (UClaims claims c how), s) /\
      dget "sub" claims = Some (VStr (public_id (au_sha e) u (au_salt e))).
Proof.
  intros sid_of b64hash is_user gt re oidc pk e az a0 rq auth request c cli uri u m scopes w0 asked Ar R Ak P.
  destruct (PropsFlow.flow_any sid_of b64hash is_user e az oidc w0 asked c cli uri u m scopes R Ak P)
    as (r & w1 & code & E & Er & Ec & Eu & Ko1 & Ln1 & C1 & Fl).
  destruct (re_entered _ _ _ _ _ _ _ _ _ _ _ R) as (Ci & Cc & _ & Ru & _).
  destruct (re_names _ _ _ _ _ _ _ _ _ _ _ R) as (Hu & Hc & Hg & _ & _).
  set (a1 := mkAS (mkFS w1 (fs_jti (as_front a0))) (as_pushed a0)).
  assert (Ag : forall k, k <> "code_challenge_method"%string -> dget k asked = dget k request) by (intros k N; now apply with_method_get).
  rewrite Ag in Ci, Ru by discriminate.
  exists r, a1, code.
  assert (Run : authorization_request gt re oidc pk e az rq auth a0 = (Ok (AResponse r), a1)).
  { eapply C95_front; eauto; [apply Ak|apply P]. }
  split; [exact Run|]. split; [exact Er|]. split; [exact Ec|].
  intros f2 d clid gt2 trq tauth task idt sharing helpers m1 m2 ir now (L1 & L2 & L3 & L4) Nd Cd Au Cr Tp.
  cbn [as_front a1 fs_world] in L1, L4. rewrite C1 in L4. destruct (dget c (w_cdb (fs_world f2))) as [cli2|] eqn:C2; [|easy].
  assert (Rc : exists s', received gt2 trq tauth (auth_of f2) = (Ok (Some task), s') /\ dget c (ca_cdb s') = Some cli2).
  { destruct Au as [A1 [A2 A3] A4 A5 (l1 & me & l2 & A6 & A7 & A8) A9].
    destruct (PropsClientAuthn.C23_accepts (gt_out gt2) (gt_ep gt2) (gt_cls gt2) (Some (fun _ => Ok (VStr ""))) trq tauth (auth_of f2) l1 me l2 d clid A1 A6 A7 A2 Cd A4 A5 A8) as (s' & V).
    destruct (PropsClientAuthn.C54_effect _ _ _ _ _ _ _ _ _ _ V) as [_ K]. exists s'. split.
    - unfold received, parse_auth, client_authentication, bind. rewrite A3, V. cbn. now rewrite A9.
    - destruct K as [-> | (x & Ex & K1 & _)]; [exact C2|]. cbn in Ex. assert (x = d) by congruence. subst x.
      rewrite K1 by congruence. exact C2. }
  destruct Rc as (s' & Rc & C3).
  destruct (Fl (mkW (w_db (fs_world f2)) (ca_cdb s')) idt sharing helpers (match pk with Some _ => true | None => false end) m1 m2 ir now task cli2)
    as (tq & args & w3 & at_ & Pa & Pr & Aa & Sa & (cli4 & C4) & Ko3 & Ln3 & Fu); auto.
  { eapply set_up_noted; [exact L4|]. apply P. }
  exists args, (mkFS w3 (ca_jti s')), at_. split.
  { unfold token_request, bind at 1. rewrite (in_auth_run _ _ _ _ Rc). unfold bind, in_world, in_db. cbn [fs_world w_db w_cdb fs_jti].
    cbn [w_db] in Pa. rewrite Pa. cbn [fs_world w_db w_cdb fs_jti]. rewrite Pr. reflexivity. }
  split; [exact Aa|]. split; [exact Sa|].
  intros f4 later o ep cls urq uauth (M1 & M2 & M3 & M4) De Hd Ne Uo It Lt. cbn [fs_world] in M1, M4. rewrite C4 in M4.
  destruct (dget c (w_cdb (fs_world f4))) as [cli5|] eqn:C5; [|easy].
  destruct (Fu (fs_world f4) later (dset "access_token" (VStr at_) (dset "client_id" (VStr c) urq)) M1 M2 M3) as (claims & Pu & Su & _); auto.
  { apply dget_dset_eq. }
  assert (Pk : exists how, userinfo_packing (w_cdb (fs_world f4)) c = Ok how).
  { unfold userinfo_packing, dsub. rewrite C5. assert (Nc : nonempty c = true) by (destruct c; [now destruct Hc|reflexivity]). rewrite Nc. cbn. eauto. }
  destruct Pk as (how & Pk). exists claims, how. cbv zeta.
  split; [|exact Su].
  unfold userinfo_request. rewrite (header_parse sid_of o ep cls urq uauth at_ De Hd).
  assert (X : nonempty at_ = true) by (destruct at_; [congruence|reflexivity]). rewrite X.
  cbn [fr_db fr_ca]. rewrite (client_of_eq sid_of at_ _ u c (au_newid e) _ Sa (unpack3_good u c (au_newid e) Hu Hc Hg)).
  cbn [ca_cdb]. rewrite Pu. cbn [userinfo_answer]. rewrite Pk. reflexivity.
Qed.
Print Assumptions C12_thief_refuted.

(** The hypotheses are met: c9 has registered in the meantime, and shows its own secret with diana's code for c1. *)
From Verif Require Import System Door PropsSetupAuth PropsAuthzEndpoint PropsTokenEndpoint PropsRefresh PropsDoorRefresh.
Import PropsFlow.
Definition thief12 : msg := [("client_secret", VStr "s9")]%string.
Definition a12 : astate := snd (authorization_request (gate95 []) re95 true None e81 az87 rq81 NoAuthz a95).
Definition f12 : fstate := mkFS (mkW (w_db (fs_world (as_front a12))) (w_cdb (fs_world (as_front a12)) ++ [("c9"%string, thief12)])) [].
Definition rq12 : msg := (tr81 ++ [("client_id"%string, VStr "c9"%string); ("client_secret"%string, VStr "s9"%string)])%list.
Example C12_ex_thief : exists args f3,
  token_request sid104 hash2 cx87 idt2 gate104 true both false 2000 (mt87 2000 "at8") (mt87 2001 "rt8") (Some true) rq12 NoAuthz f12 = (Ok (AOk args None), f3) /\
  dget "access_token" args = Some (VStr "at8"%string).
Proof.
  destruct (C12_thief_refuted sid104 hash2 usr9 (gate95 []) re95 true None e81 az87 a95 rq81 NoAuthz rq81 "c1" cli95 cb "diana" (mkMethod (cookie9 "diana" "1900") 600)
    ["openid"; "email"]%string C104_ex_arrives C104_ex_recognised C104_ex_asks C104_ex_provided) as (r & a1 & code & E1 & _ & Ec & K).
  assert (a1 = a12) by (unfold a12; rewrite E1; reflexivity). subst a1.
  assert (code = "code7"%string) by (vm_compute in E1; injection E1 as <-; vm_compute in Ec; congruence). subst code. clear E1 Ec.
  destruct (K f12 "c9"%string thief12 gate104 rq12 NoAuthz rq12 idt2 true both (mt87 2000 "at8") (mt87 2001 "rt8") (Some true) 2000) as (args & f3 & at_ & Et & Ea & _).
  - split; [vm_compute; reflexivity|]. assert (F : kinds_ok (w_db (fs_world f12)) /\ linked (w_db (fs_world f12))).
    { destruct (PropsFlow.flow_any sid104 hash2 usr9 e81 az87 true w95 rq81 "c1" cli95 cb "diana" (mkMethod (cookie9 "diana" "1900") 600)
        ["openid"; "email"]%string C104_ex_recognised C104_ex_asks C104_ex_provided) as (r2 & w2 & code2 & E2 & _ & _ & _ & K1 & K2 & _).
      assert (X : w_db (fs_world f12) = w_db w2) by (change w2 with (snd (Ok (AResponse r2), w2)); rewrite <- E2; vm_compute; reflexivity).
      rewrite X. auto. }
    destruct F as [F1 F2]. split; [exact F1|]. split; [exact F2|]. vm_compute. intros k _. reflexivity.
  - discriminate.
  - vm_compute. reflexivity.
  - constructor; try reflexivity.
    + split; [discriminate|reflexivity].
    + intros v E. discriminate E.
    + now left.
    + exists [Some MBasic], MPost, []. split; [reflexivity|]. split.
      * intros m' [X|[]]. injection X as <-. left. intros (b & Eb). discriminate Eb.
      * exists "s9"%string. repeat split.
  - constructor; try reflexivity.
    + right. exists cb. split; reflexivity.
    + right. discriminate.
    + discriminate.
  - intros cli' _. apply C104_ex_tokens.
  - exists args, f3. split; [exact Et|]. vm_compute in Et. injection Et as <- _. reflexivity.
Qed.
