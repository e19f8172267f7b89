(** PropsFrontFlow.v: C95, the code flow from the received requests on. *)
From Verif Require Import Base BaseProofs Monad MonadProofs Types SessionKey SessionKeyProofs Token Grant GrantSpec Database DatabaseSpec DatabaseProofs Manager ManagerProofs
  Ctx ScopesSpec Claims ClaimsSpec World WorldSpec Minting ClientAuthn ClientAuthnSpec ClientAuthnProofs TokenEndpoint Uri UriSpec Authz
  AuthzRequest AuthzRequestSpec AuthzRequestProofs Response AuthzEndpoint AuthzEndpointSpec AuthzEndpointProofs SetupAuth SetupAuthSpec SetupAuthProofs Fronts FrontsSpec FrontsProofs AuthzFront
  UserInfo UserInfoSpec UserinfoFront UserinfoFrontSpec UserinfoFrontProofs FlowSpec FlowProofs FrontFlowSpec.
From Verif Require PropsClientAuthn PropsAuthzRequest PropsFlow PropsAuthzEndpoint HybridSpec HybridProofs PropsHybrid.
Local Open Scope Z_scope.

(** ** Receiving *)
Lemma arrives_parse gt re az pk clients rq request c rt auth s : arrives gt re az pk clients rq request c rt ->
  parse_auth (gt_out gt) (gt_ep gt) (gt_cls gt) (fun _ _ => Ok (VStr "")) (gt_aka gt) rq auth s = (Ok (rq, VStr c), s).
Proof.
  intros [E D _ _ _ _ _ _ _]. unfold asks_nothing in E. unfold parse_auth, client_authentication, bind. rewrite verify_client_eq, E.
  assert (X : (if ep_named (gt_ep gt) then [] else []) = ([] : list (option cmethod))) by (destruct (ep_named (gt_ep gt)); reflexivity). rewrite X.
  unfold bind. cbn. rewrite D. reflexivity.
Qed.
Lemma dset_missing {V} k (v : V) d : dget k d = None -> dset k v d = (d ++ [(k, v)])%list.
Proof.
  induction d as [|[k' v'] d IH]; [reflexivity|]. cbn. destruct (String.eqb k k') eqn:E; [discriminate|]. intros H. now rewrite IH.
Qed.
Lemma pkce_passes k request : challenge_fits (Some k) request -> post_authn_parse k request = PReq (with_method (Some k) request).
Proof.
  intros Ch. destruct (Ch k eq_refl) as [C1 C2]. unfold post_authn_parse, with_method in *.
  assert (X : pk_essential k && negb (dmem "code_challenge" request) = false).
  { destruct (pk_essential k); [|reflexivity]. specialize (C1 eq_refl). unfold dmem. destruct (dget "code_challenge" request); [reflexivity|congruence]. }
  rewrite X.
  assert (Y : (if dmem "code_challenge_method" request then request else dset "code_challenge_method" (VStr "plain") request) = with_method (Some k) request).
  { unfold with_method, dmem. destruct (dget "code_challenge_method" request) eqn:E; [reflexivity|]. now apply dset_missing. }
  rewrite Y. clear X. fold (with_method (Some k) request) in *.
  assert (Z : dmem "code_challenge" (with_method (Some k) request) = dmem "code_challenge" request).
  { assert (Z : dget "code_challenge" (with_method (Some k) request) = dget "code_challenge" request); [|unfold dmem; now rewrite Z].
    rewrite <- Y. destruct (dmem "code_challenge_method" request); [reflexivity|]. now rewrite dget_dset_neq by discriminate. }
  rewrite Z. unfold dmem. destruct (dget "code_challenge" request) as [v|] eqn:E; [|reflexivity].
  destruct C2 as (m & E1 & E2); [discriminate|]. fold (with_method (Some k) request) in E1.
  replace (match dget "code_challenge_method" (with_method (Some k) request) with Some (VStr m) => smem m (pk_methods k) | _ => false end) with true; [reflexivity|].
  rewrite E1. symmetry. now apply smem_In.
Qed.

Lemma with_method_get pk request k : k <> "code_challenge_method"%string -> dget k (with_method pk request) = dget k request.
Proof.
  intros N. unfold with_method. destruct pk as [p|]; [|reflexivity]. destruct (dget "code_challenge_method" request) eqn:E; [reflexivity|].
  rewrite <- (dset_missing _ _ _ E). now rewrite dget_dset_neq.
Qed.

Lemma arrives_hooks gt re oidc az pk (w : world) rq request c cli uri rt db :
  arrives gt re az pk (w_cdb w) rq request c rt -> good c -> dget c (w_cdb w) = Some cli ->
  dget "client_id" request = Some (VStr c) -> dget "redirect_uri" request = Some (VStr uri) ->
  (exists l, registered (w_cdb w) c "redirect_uris" l /\ Forall proper_entry l /\ NoDup (map base_of l) /\ matches (az_u az) l (ul_unquote (az_u az) uri)) -> (forall q, proper_query (ul_qs (az_u az) q)) ->
  authz_hooks (with_clients re (w_cdb w)) oidc pk (Some c) request db = (Ok (Parsed (with_method pk request)), db).
Proof.
  intros R Hc C Ci Ru A Q.
  assert (G : get_uri (re_u re) (w_cdb w) request "redirect_uri" = Ok uri).
  { rewrite (ar_url _ _ _ _ _ _ _ _ _ R). destruct A as (l & L1 & L2 & L3 & L4). unfold get_uri. unfold dmem. rewrite Ru.
    assert (V : verify_uri (az_u az) (w_cdb w) request "redirect_uri" None = Ok tt).
    { apply (PropsUri.C20_exact (az_u az) (w_cdb w) request "redirect_uri" None c uri l); auto.
      split; [|now left]. intros ->. now destruct Hc. }
    rewrite V. cbn [rbind]. unfold msub_str. now rewrite Ru. }
  assert (Rt : dget "response_type" request = Some (VList (map VStr rt))).
  { exact (ar_type _ _ _ _ _ _ _ _ _ R). }
  assert (Nn : cli <> []).
  { destruct A as (l & (i & L1 & L2) & _). assert (i = cli) by congruence. subst i. intros ->. discriminate. }
  assert (S : forall d, stage (with_clients re (w_cdb w)) (Some c) (Parsed request) d = (Ok (Parsed request), d)).
  { intros d. pose proof (PropsAuthzRequest.C21_accepted (with_clients re (w_cdb w)) c cli rt uri request d) as X.
    cbn [re_cdb re_u with_clients] in X. rewrite (dset_same _ _ _ Ru) in X. unfold parse_authz in X. apply X; auto.
    - intros l v H1 H2. eapply (ar_types _ _ _ _ _ _ _ _ _ R); eauto.
    - apply (ar_may _ _ _ _ _ _ _ _ _ R).
    - unfold truthy_get. now rewrite (ar_direct _ _ _ _ _ _ _ _ _ R). }
  unfold authz_hooks, bind.
  assert (X : (if oidc then parse_authn else parse_authz) (with_clients re (w_cdb w)) (Some c) request db = (Ok (Parsed request), db)).
  { destruct oidc; unfold parse_authn, parse_authz, bind; rewrite ?S; reflexivity. }
  rewrite X. unfold ret. destruct pk as [k|]; [|reflexivity]. now rewrite (pkce_passes k request (ar_pkce _ _ _ _ _ _ _ _ _ R)).
Qed.

(** A request that arrives is what the endpoint works on, with the method that PKCE assumes; nothing else has happened by then. So
    all that is proved of the authorization endpoint holds of what it does with the received request. *)
Theorem C95_front : forall gt re oidc pk e az a0 rq auth request c cli uri rt,
  let w0 := fs_world (as_front a0) in
  arrives gt re az pk (w_cdb w0) rq request c rt -> good c -> dget c (w_cdb w0) = Some cli ->
  dget "client_id" request = Some (VStr c) -> dget "redirect_uri" request = Some (VStr uri) ->
  (exists l, registered (w_cdb w0) c "redirect_uris" l /\ Forall proper_entry l /\ NoDup (map base_of l) /\ matches (az_u az) l (ul_unquote (az_u az) uri)) ->
  (forall q, proper_query (ul_qs (az_u az) q)) ->
  forall x w1, process_request e az oidc (inr (with_method pk request)) w0 = (x, w1) ->
    authorization_request gt re oidc pk e az rq auth a0 = (x, mkAS (mkFS w1 (fs_jti (as_front a0))) (as_pushed a0)).
Proof.
  intros gt re oidc pk e az a0 rq auth request c cli uri rt w0 Ar Hc Cc Ci Ru Ak Q x w1 E.
  unfold authorization_request.
  assert (Pa : in_front (in_auth (parse_auth (gt_out gt) (gt_ep gt) (gt_cls gt) (fun _ _ => Ok (VStr "")) (gt_aka gt) rq auth)) a0 = (Ok (rq, VStr c), a0)).
  { unfold in_front. rewrite (in_auth_run _ _ _ _ (arrives_parse _ _ _ _ _ _ _ _ _ auth _ Ar)). unfold auth_of. cbn. destruct a0 as [[[? ?] ?] ?]; reflexivity. }
  unfold bind at 1. rewrite Pa. rewrite (ar_check _ _ _ _ _ _ _ _ _ Ar).
  unfold bind at 2. unfold in_front at 1, in_world at 1, gets.
  assert (Hk := arrives_hooks gt re oidc az pk w0 rq request c cli uri rt (as_pushed a0) Ar Hc Cc Ci Ru Ak Q).
  unfold bind. destruct a0 as [[w j] pd]. cbn in Hk |- *. unfold in_pushed. cbn. unfold w0 in Hk. cbn in Hk. rewrite Hk. unfold in_front, in_world. cbn.
  unfold w0 in E. cbn in E. rewrite E. reflexivity.
Qed.
Print Assumptions C95_front.

(** ** Noting the method *)
Lemma set_up_noted cx cli cli' : noted cli cli' -> claims_set_up cx cli -> claims_set_up cx cli'.
Proof.
  intros N [H1 H2 H3 H4]. constructor; auto.
  - intros usage v I. rewrite N; [now apply H2|]. cbn in I. destruct I as [<-|[<-|[<-|[<-|[]]]]]; discriminate.
  - rewrite N by discriminate. exact H4.
Qed.
Lemma noted_trans a b c : noted a b -> noted b c -> noted a c.
Proof. intros H1 H2 k N. rewrite H2, H1; auto. Qed.

Lemma authenticates_received gt s cli c rq auth request : authenticates gt (ca_jti s) cli c rq auth request -> dget c (ca_cdb s) = Some cli ->
  exists s' cli', received gt rq auth s = (Ok (Some request), s') /\ dget c (ca_cdb s') = Some cli' /\ noted cli cli'.
Proof.
  intros [A1 [A2 A3] A4 A5 (l1 & m & l2 & A6 & A7 & A8) A9] C.
  destruct (PropsClientAuthn.C23_accepts (gt_out gt) (gt_ep gt) (gt_cls gt) (Some (fun _ => Ok (VStr ""))) rq auth s l1 m l2 c cli A1 A6 A7 A2 C A4 A5 A8) as (s' & V).
  destruct (PropsClientAuthn.C54_effect _ _ _ _ _ _ _ _ _ _ V) as [G K].
  exists s'. assert (N : exists cli', dget c (ca_cdb s') = Some cli' /\ noted cli cli').
  { destruct K as [-> | (d & _ & K1 & K2)]; [exists cli; split; [exact C|intros k _; reflexivity]|].
    destruct (String.eqb_spec d c) as [->|Nd].
    - specialize (K2 "x"%string ltac:(discriminate)) as K3. rewrite C in K3. destruct (dget c (ca_cdb s')) as [i|] eqn:E; [|easy]. exists i. split; [reflexivity|].
      intros k Nk. specialize (K2 k Nk). rewrite C in K2. exact K2.
    - exists cli. split; [rewrite K1 by congruence; exact C|intros k _; reflexivity]. }
  destruct N as (cli' & N1 & N2). exists cli'. split; [|auto].
  unfold received, parse_auth, client_authentication, bind. rewrite A3, V. cbn. now rewrite A9.
Qed.

(** ** The response *)
Lemma respond_works en r uri : ri_uri r = Some uri -> exists resp, respond en authorization_endpoint r = Ok resp.
Proof.
  intros U. unfold respond, do_response, kwargs_of. cbn. destruct (ri_ready r) as [t|]; cbn; [eauto|]. rewrite U. cbn. eauto.
Qed.
Lemma answered e az oidc request w r w' : process_request e az oidc (inr request) w = (Ok (AResponse r), w') ->
  exists sid w1, authz_part2 az (changed e request) sid w1 = (Ok r, w').
Proof.
  unfold process_request. intros H. apply bind_ok in H; destruct H as (x1 & w1 & _ & H). apply bind_ok in H; destruct H as (x2 & w2 & _ & H).
  apply bind_ok in H; destruct H as (x3 & w3 & _ & H). apply bind_ok in H; destruct H as (x4 & w4 & _ & H). apply bind_ok in H; destruct H as (x5 & w5 & _ & H).
  apply bind_ok in H; destruct H as (x6 & w6 & _ & H). apply bind_ok in H; destruct H as (x7 & w7 & _ & H).
  destruct x7 as [info|name args|sid a b]; [discriminate|discriminate|]. apply bind_ok in H. destruct H as (r' & w8 & P & H). exists sid. eexists.
  unfold ret in H. assert (r' = r /\ w8 = w') as [-> ->] by (split; congruence). exact P.
Qed.

(** ** The flow *)
(** The browser of a recognised user brings the client's request to the authorization endpoint and is sent to the client's address with
    a code and the client's state; the client presents the code, proves itself and gets an access token; it presents this in the
    Authorization header and gets the subject of the session and exactly the claims that are wanted and that the user has. *)
Theorem C95_flow : forall sid_of b64hash is_user gt re oidc pk e az a0 rq auth request c cli uri u m scopes en,
  let w0 := fs_world (as_front a0) in
  let asked := with_method pk request in
  arrives gt re az pk (w_cdb w0) rq request c ["code"]%string ->
  recognised is_user e az oidc w0 asked c cli uri u m -> asks_code az w0 asked c uri scopes -> code_provided sid_of e az w0 c cli uri u m ->
  exists r a1 code resp,
    authorization_request gt re oidc pk e az rq auth a0 = (Ok (AResponse r), a1) /\
    fs_jti (as_front a1) = fs_jti (as_front a0) /\ as_pushed a1 = as_pushed a0 /\
    ~ failed (ri_args r) /\ dget "code" (ri_args r) = Some (VStr code) /\ dget "state" (ri_args r) = truthy_get "state" request /\
    respond en authorization_endpoint r = Ok resp /\
    (dget "response_mode" request <> Some (VStr "form_post") ->
     exists sep, rs_body resp = Text (uri ++ sep ++ to_urlencoded en (ri_args r)) /\ In sep ["?"; "&"; "#"]%string) /\
  forall f2 cli2 gt2 token_rq token_auth token_asked idt sharing helpers m1 m2 ir now,
    left_alone u c (au_newid e) (fs_world (as_front a1)) (fs_world f2) -> dget c (w_cdb (fs_world f2)) = Some cli2 ->
    authenticates gt2 (fs_jti f2) cli2 c token_rq token_auth token_asked ->
    code_request b64hash (match pk with Some _ => true | None => false end) asked token_asked code ->
    (forall cli', noted cli cli' -> tokens_provided sid_of e az w0 c cli' u scopes idt helpers m1 m2 ir now) ->
    exists args f3 access_token,
      token_request sid_of b64hash (az_cx az) idt gt2 sharing helpers (match pk with Some _ => true | None => false end) now m1 m2 ir token_rq token_auth f2
        = (Ok (AOk args None), f3) /\
      dget "access_token" args = Some (VStr access_token) /\
  forall f4 later o ep cls userinfo_rq userinfo_auth,
    left_alone u c (au_newid e) (fs_world f3) (fs_world f4) ->
    by_default ep -> authz_str userinfo_auth = Some ("Bearer " ++ access_token)%string -> access_token <> ""%string ->
    usable_once (rule (rules_of e az w0 c) "access_token") ->
    in_time (ur_expires_in (rule (rules_of e az w0 c) "access_token")) (mt_clock m1) later -> later < au_now e + lifetime m ->
    exists claims how,
      let s := mkFr (mkCA (w_cdb (fs_world f4)) (fs_jti f4)) (w_db (fs_world f4)) in
      userinfo_request sid_of o ep cls [] (az_cx az) later userinfo_rq userinfo_auth s = (Ok (UClaims claims c how), s) /\
      dget "sub" claims = Some (VStr (public_id (au_sha e) u (au_salt e))) /\
      forall k x, k <> "sub"%string -> (dget k claims = Some x <->
        az_handler az = AHandling /\ user_has (az_cx az) u k x /\
        exists spec, wanted (az_cx az) (w_cdb w0) c (Some asked) scopes "userinfo" k (Some spec) /\ admits spec x).
Proof.
  intros sid_of b64hash is_user gt re oidc pk e az a0 rq auth request c cli uri u m scopes en w0 asked Ar R Ak P.
  destruct (PropsFlow.flow_any sid_of b64hash is_user e az oidc w0 asked c cli uri u m scopes R Ak P)
    as (r & w1 & code & E & Er & Ec & Eu & Ko1 & Ln1 & C1 & Fl).
  destruct (re_entered _ _ _ _ _ _ _ _ _ _ _ R) as (Ci & Cc & _ & Ru & _).
  destruct (re_names _ _ _ _ _ _ _ _ _ _ _ R) as (Hu & Hc & Hg & _ & _).
  assert (Ag : forall k, k <> "code_challenge_method"%string -> dget k asked = dget k request) by (intros k N; now apply with_method_get).
  rewrite Ag in Ci, Ru by discriminate.
  destruct (respond_works en r uri Eu) as (resp & Er1).
  set (a1 := mkAS (mkFS w1 (fs_jti (as_front a0))) (as_pushed a0)).
  exists r, a1, code, resp.
  assert (Run : authorization_request gt re oidc pk e az rq auth a0 = (Ok (AResponse r), a1)).
  { eapply C95_front; eauto; [apply Ak|apply P]. }
  split; [exact Run|]. split; [reflexivity|]. split; [reflexivity|]. split; [exact Er|]. split; [exact Ec|].
  destruct (answered _ _ _ _ _ _ _ E) as (sid & w' & Pt).
  destruct (PropsAuthzEndpoint.C47_names_partial az en (changed e asked) sid w' r w1 resp Pt Er1 Er) as (_ & _ & _ & St & Bd).
  assert (Kc := changed_get e asked).
  split. { rewrite St. unfold truthy_get. rewrite Kc by discriminate. now rewrite Ag by discriminate. }
  split; [exact Er1|].
  split. { intros M. destruct Bd as (uri' & sep & A1 & A2 & A3).
    - rewrite Kc by discriminate. now rewrite Ag by discriminate.
    - exists sep. split; [|exact A3]. rewrite A2. specialize (A1 (VStr uri)). rewrite Kc in A1 by discriminate. rewrite Ag in A1 by discriminate. specialize (A1 Ru). now injection A1 as <-. }
  intros f2 cli2 gt2 trq tauth task idt sharing helpers m1 m2 ir now (L1 & L2 & L3 & L4) C2 Au Cr Tp.
  cbn [as_front a1 fs_world] in L1, L4. rewrite C1, C2 in L4.
  destruct (authenticates_received gt2 (auth_of f2) cli2 c trq tauth task Au C2) as (s' & cli3 & Rc & C3 & N3).
  destruct (Fl (mkW (w_db (fs_world f2)) (ca_cdb s')) idt sharing helpers (match pk with Some _ => true | None => false end) m1 m2 ir now task cli3)
    as (tq & args & w3 & at_ & Pa & Pr & Aa & Sa & (cli4 & C4) & Ko3 & Ln3 & Fu); auto.
  { eapply set_up_noted; [exact N3|]. eapply set_up_noted; [exact L4|]. apply P. }
  { apply Tp. eapply noted_trans; eauto. }
  exists args, (mkFS w3 (ca_jti s')), at_. split.
  { unfold token_request, bind at 1. rewrite (in_auth_run _ _ _ _ Rc). unfold bind, in_world, in_db. cbn [fs_world w_db w_cdb fs_jti].
    cbn [w_db] in Pa. rewrite Pa. cbn [fs_world w_db w_cdb fs_jti]. rewrite Pr. reflexivity. }
  split; [exact Aa|].
  intros f4 later o ep cls urq uauth (M1 & M2 & M3 & M4) De Hd Ne Uo It Lt. cbn [fs_world] in M1, M4. rewrite C4 in M4.
  destruct (dget c (w_cdb (fs_world f4))) as [cli5|] eqn:C5; [|easy].
  destruct (Fu (fs_world f4) later (dset "access_token" (VStr at_) (dset "client_id" (VStr c) urq)) M1 M2 M3) as (claims & Pu & Su & Cl); auto.
  { apply dget_dset_eq. }
  assert (Pk : exists how, userinfo_packing (w_cdb (fs_world f4)) c = Ok how).
  { unfold userinfo_packing, dsub. rewrite C5. assert (Nc : nonempty c = true) by (destruct c; [now destruct Hc|reflexivity]). rewrite Nc. cbn. eauto. }
  destruct Pk as (how & Pk). exists claims, how. cbv zeta.
  split; [|auto].
  unfold userinfo_request. rewrite (header_parse sid_of o ep cls urq uauth at_ De Hd).
  assert (X : nonempty at_ = true) by (destruct at_; [congruence|reflexivity]). rewrite X.
  cbn [fr_db fr_ca]. rewrite (client_of_eq sid_of at_ _ u c (au_newid e) _ Sa (unpack3_good u c (au_newid e) Hu Hc Hg)).
  cbn [ca_cdb]. rewrite Pu. cbn [userinfo_answer]. rewrite Pk. reflexivity.
Qed.
Print Assumptions C95_flow.

Lemma wants_iff request rt : mget_list "response_type" request = Some rt -> HybridSpec.response_type rt ->
  wants request rt = true <-> HybridSpec.more_than_code rt.
Proof.
  intros E [N K]. unfold wants. assert (X : none_only request = false).
  { unfold none_only. rewrite E. destruct rt as [|x [|y l]]; try reflexivity. cbn. destruct (String.eqb_spec x "none") as [->|]; [|reflexivity].
    destruct (K "none"%string (or_introl eq_refl)) as [Z|[Z|[Z|[]]]]; discriminate. }
  rewrite X. cbn [negb andb]. now apply HybridProofs.fragment_iff.
Qed.

(** The same for the other flows: of the received request for any combination of a code, an access token and an ID Token comes a response with
    exactly these, and an access token among them is good for a userinfo request with the token in the Authorization header. *)
Theorem C95_others : forall sid_of is_user gt re oidc pk e az a0 rq auth request c cli uri u m scopes rt en,
  let w0 := fs_world (as_front a0) in
  let asked := with_method pk request in
  arrives gt re az pk (w_cdb w0) rq request c rt ->
  recognised is_user e az oidc w0 asked c cli uri u m -> HybridSpec.asks az w0 asked c uri scopes rt -> HybridSpec.provided sid_of e az w0 c cli uri u m rt ->
  exists r a1 code access id_token resp,
    authorization_request gt re oidc pk e az rq auth a0 = (Ok (AResponse r), a1) /\
    fs_jti (as_front a1) = fs_jti (as_front a0) /\ as_pushed a1 = as_pushed a0 /\
    ~ failed (ri_args r) /\ HybridSpec.gives rt (ri_args r) code access id_token /\ dget "state" (ri_args r) = truthy_get "state" request /\
    respond en authorization_endpoint r = Ok resp /\
    (dget "response_mode" request <> Some (VStr "form_post") ->
     exists sep, rs_body resp = Text (uri ++ sep ++ to_urlencoded en (ri_args r)) /\
       (HybridSpec.more_than_code rt -> sep = "#"%string) /\ (~ HybridSpec.more_than_code rt -> In sep ["?"; "&"]%string)) /\
  forall f2 token later o ep cls userinfo_rq userinfo_auth,
    undisturbed u c (au_newid e) (fs_world (as_front a1)) (fs_world f2) ->
    dget "access_token" (ri_args r) = Some (VStr token) ->
    by_default ep -> authz_str userinfo_auth = Some ("Bearer " ++ token)%string -> token <> ""%string ->
    usable_once (rule (rules_of e az w0 c) "access_token") ->
    in_time (ur_expires_in (rule (rules_of e az w0 c) "access_token")) (mt_clock (az_access az)) later -> later < au_now e + lifetime m ->
    exists claims how,
      let s := mkFr (mkCA (w_cdb (fs_world f2)) (fs_jti f2)) (w_db (fs_world f2)) in
      userinfo_request sid_of o ep cls [] (az_cx az) later userinfo_rq userinfo_auth s = (Ok (UClaims claims c how), s) /\
      HybridSpec.tells e az w0 asked scopes u c claims.
Proof.
  intros sid_of is_user gt re oidc pk e az a0 rq auth request c cli uri u m scopes rt en w0 asked Ar R Ak P.
  destruct (PropsHybrid.C93_response sid_of is_user e az oidc w0 asked c cli uri u m scopes rt R Ak P)
    as (r & w1 & code & access & idt & g & E & Er & Gv & Eu & Fr & V & Is).
  destruct (re_entered _ _ _ _ _ _ _ _ _ _ _ R) as (Ci & Cc & _ & Ru & _).
  destruct (re_names _ _ _ _ _ _ _ _ _ _ _ R) as (Hu & Hc & Hg & _ & _).
  assert (Ag : forall k, k <> "code_challenge_method"%string -> dget k asked = dget k request) by (intros k N; now apply with_method_get).
  rewrite Ag in Ci, Ru by discriminate.
  destruct (respond_works en r uri Eu) as (resp & Er1).
  set (a1 := mkAS (mkFS w1 (fs_jti (as_front a0))) (as_pushed a0)).
  exists r, a1, code, access, idt, resp.
  split. { eapply C95_front; eauto; [apply Ak|apply P]. }
  split; [reflexivity|]. split; [reflexivity|]. split; [exact Er|]. split; [exact Gv|].
  destruct (answered _ _ _ _ _ _ _ E) as (sid & w' & Pt).
  destruct (PropsAuthzEndpoint.C47_names_partial az en (changed e asked) sid w' r w1 resp Pt Er1 Er) as (_ & _ & _ & St & Bd).
  assert (Kc := changed_get e asked).
  split. { rewrite St. unfold truthy_get. rewrite Kc by discriminate. now rewrite Ag by discriminate. }
  split; [exact Er1|].
  split.
  { intros M. assert (Ne : dget "error" (ri_args r) = None) by (destruct (dget "error" (ri_args r)) eqn:X; [destruct Er; now exists v|reflexivity]).
    destruct (success_shape az en (changed e asked) sid w' r w1 resp Pt Ne Er1) as (r0 & rt' & uri' & _ & _ & Rt & _ & Ad & _ & _ & Sc).
    assert (Ea : mget_list "response_type" (changed e asked) = Some rt).
    { unfold mget_list. rewrite Kc by discriminate. apply (HybridSpec.as_type _ _ _ _ _ _ _ Ak). }
    assert (rt' = rt) by congruence. subst rt'. assert (Wi := wants_iff (changed e asked) rt Ea (HybridSpec.as_known _ _ _ _ _ _ _ Ak)).
    assert (uri' = uri). { specialize (Ad (VStr uri)). rewrite Kc in Ad by discriminate. rewrite Ag in Ad by discriminate. specialize (Ad Ru). congruence. }
    subst uri'. destruct Sc as [_ B|X _ _].
    2: { exfalso. apply M. rewrite Kc in X by discriminate. now rewrite Ag in X by discriminate. }
    unfold msg_request in B. destruct (wants (changed e asked) rt).
    - exists "#"%string. split; [exact B|]. split; [reflexivity|]. intros X. destruct X. now apply Wi.
    - assert (N : ~ HybridSpec.more_than_code rt) by (intros X; apply Wi in X; discriminate).
      destruct (contains "?" uri); [exists "&"%string|exists "?"%string]; (split; [exact B|]; split; [intros X; tauto|intros _; cbn; tauto]). }
  intros f2 token later o ep cls urq uauth Un Ht De Hd Nt Uo It Lt.
  assert (Sv := PropsHybrid.C93_token sid_of is_user e az oidc w0 asked c cli uri u m scopes rt r w1 token R Ak P E Ht).
  destruct (Sv (fs_world f2) later (dset "access_token" (VStr token) (dset "client_id" (VStr c) urq)) Un) as (claims & Pu & Tl); auto.
  { apply dget_dset_eq. }
  destruct Un as (_ & U2 & _ & _). cbn [as_front a1 fs_world] in U2.
  assert (St' : sid_of token = Ok (session_key [u; c; au_newid e])).
  { rewrite (HybridSpec.gv_token_shown _ _ _ _ _ Gv) in Ht. destruct access as [t|]; [|discriminate]. cbn in Ht. injection Ht as <-. apply Is. apply Is. auto. }
  assert (C1 : exists cli1, dget c (w_cdb w1) = Some cli1).
  { destruct (HybridProofs.session_any sid_of is_user e az oidc w0 asked c cli uri u m scopes rt R Ak P)
      as (r' & w'' & g' & code' & access' & idt' & E' & _ & [_ _ _ _ C _ _] & _). assert (w'' = w1) by congruence. subst w''. eauto. }
  destruct C1 as (cli1 & C1).
  assert (Pk : exists how, userinfo_packing (w_cdb (fs_world f2)) c = Ok how).
  { unfold userinfo_packing, dsub. rewrite U2, C1. assert (Nc : nonempty c = true) by (destruct c; [now destruct Hc|reflexivity]). rewrite Nc. cbn. eauto. }
  destruct Pk as (how & Pk). exists claims, how. cbv zeta. split; [|exact Tl].
  unfold userinfo_request. rewrite (header_parse sid_of o ep cls urq uauth token De Hd).
  assert (X : nonempty token = true) by (destruct token; [congruence|reflexivity]). rewrite X.
  cbn [fr_db fr_ca]. rewrite (client_of_eq sid_of token _ u c (au_newid e) _ St' (unpack3_good u c (au_newid e) Hu Hc Hg)).
  cbn [ca_cdb]. rewrite Pu. cbn [userinfo_answer]. rewrite Pk. reflexivity.
Qed.
Print Assumptions C95_others.

(** ** A case: as in C81 diana comes with c1, which now has a secret. The authorization request goes through the parsing and the PKCE hook; the
    token request comes with HTTP Basic; the userinfo request with the token in the header. *)
From Verif Require Import PropsClientAuthn PropsClaims PropsTokenEndpoint PropsAuthzEndpoint PropsSetupAuth PropsSystem PropsFlow PyUrl FlowSpec FrontFlowSpec.
Definition cli95 : msg :=
  [("client_id", VStr "c1"); ("client_secret", VStr "s3cret"); ("allowed_scopes", vstrs ["openid"; "email"]); ("redirect_uris", VList [UriSpec.entry cb (VStr "")]);
   ("response_types", VList [VStr "code"; VStr "code id_token"])]%string.
Definition w95 : world := mkW (st1 gr7 false) [("c1", cli95)]%string.
Definition a95 : astate := mkAS (mkFS w95 []) [].
Definition pk95 : option pkce := Some (mkPkce true ["plain"; "S256"]%string).
Definition re95 : reqenv := mkRE py_url [] true true (fun _ _ => Raise EServiceError).
Definition gate95 (l : list (option cmethod)) : gate := mkGate out1 (ep1 l) "Request" [] (fun _ m => CkOk m).
Definition basic95 : authz_data := AuthzStr "Basic c1:s3cret".

Example C95_ex_arrives : arrives (gate95 []) re95 (az7 true) pk95 (w_cdb w95) rq81 rq81 "c1" ["code"]%string.
Proof.
  constructor; try reflexivity.
  - exists cli95. split; [reflexivity|]. cbn. exists "code"%string. split; [now left|]. intros x. reflexivity.
  - intros info l v E1 E2 I. assert (info = cli95) by (cbn in E1; congruence). subst info. assert (l = [VStr "code"; VStr "code id_token"]%string) by (cbn in E2; congruence). subst l.
    destruct I as [<-|[<-|[]]]; eauto.
  - intros k E. assert (k = mkPkce true ["plain"; "S256"]%string) by (unfold pk95 in E; congruence). subst k. split; [discriminate|]. intros _. exists "S256"%string. split; [reflexivity|cbn; auto].
Qed.
Example C95_ex_recognised : recognised usr9 e81 (az7 true) true w95 rq81 "c1" cli95 cb "diana" (mkMethod (cookie9 "diana" "1900") 600).
Proof.
  constructor.
  - apply st1_well_formed.
  - do 3 (split; [apply good_by; reflexivity|]). split; [left; reflexivity|]. intros [X|[X|[]]]; discriminate.
  - split; [reflexivity|]. split; [reflexivity|]. split; [|split; reflexivity]. right. eexists. split; [reflexivity|]. vm_compute. reflexivity.
  - exists "user"%string, "pw"%string. split; reflexivity.
  - exists [("uid", VStr "diana")]%string, (VStr "1900"). split; [|split; reflexivity]. exists (VInt 0), (VStr "diana"). repeat split.
Qed.
Example C95_ex_asks : asks_code (az7 true) w95 rq81 "c1" cb ["openid"; "email"]%string.
Proof.
  constructor; [reflexivity|reflexivity| |now left|].
  - right. eexists. split; [reflexivity|]. intros usage v [<-|[<-|[]]] E; [discriminate|]. assert (v = VDict [("name", VNone); ("nickname", VNone)]%string) by (cbn in E; congruence).
    subst v. eexists. split; [reflexivity|]. split; [repeat constructor; cbn; intuition discriminate|].
    intros k spec [X|[X|[]]]; injection X as <- <-; now left.
  - exists [UriSpec.entry cb (VStr "")]. split; [eexists; split; reflexivity|]. split; [repeat constructor; exists cb, (VStr ""); auto|].
    split; [repeat constructor; intros []|]. eexists. exists (VStr ""). split; [vm_compute; reflexivity|]. split; [reflexivity|]. split; [left; reflexivity|].
    intros k s. reflexivity.
Qed.
Example C95_ex_claims : claims_set_up cx7 cli95.
Proof.
  constructor.
  - intros usage v Hu E. cbn in Hu. destruct Hu as [<-|[<-|[<-|[<-|[]]]]]; vm_compute in E; try discriminate E;
      injection E as <-; eexists; (split; [reflexivity|]); (split; [repeat constructor; cbn; intuition discriminate|]);
      intros k spec; cbn; intros X; repeat (destruct X as [X|X]; [injection X as <- <-; first [now left|right; eexists; split; [reflexivity|cbn; intuition congruence]]|]); destruct X.
  - intros usage v Hu E. cbn in Hu. destruct Hu as [<-|[<-|[<-|[<-|[]]]]]; discriminate.
  - vm_compute. eauto.
  - right. eexists. split; [reflexivity|]. intros s [X|[X|[]]]; injection X as <-; cbn; auto 10.
Qed.
Example C95_ex_provided : code_provided sid79 e81 (az7 true) w95 "c1" cli95 cb "diana" (mkMethod (cookie9 "diana" "1900") 600).
Proof.
  constructor.
  - exact C95_ex_claims.
  - exact PropsUri.py_proper.
  - split; [intros k E; discriminate|]. intros _. cbn. lia.
  - intros p. exists "code7"%string. split; reflexivity.
  - intros state. eexists. reflexivity.
  - intros _. split; [cbn; lia|]. split; [intros t; eexists; reflexivity|eexists; reflexivity].
  - now left.
Qed.

Example C95_ex_authenticates seen : authenticates (gate95 [Some MBasic; Some MPost]) seen cli95 "c1" tr81 basic95 (dset "client_id" (VStr "c1") tr81).
Proof.
  constructor; try reflexivity.
  - split; [discriminate|reflexivity].
  - intros v E. discriminate E.
  - now left.
  - exists [], MBasic, [Some MPost]. split; [reflexivity|]. split; [intros m' []|]. exists "s3cret"%string, "Basic c1:s3cret"%string. split; [reflexivity|]. split; [reflexivity|].
    apply basic_authn_iff. reflexivity.
Qed.
(** The same with an assertion that c1 has signed with its secret, at an endpoint that takes secrets first *)
Example C95_ex_assertion : let rq := (tr81 ++ [("client_assertion"%string, VStr "jws1")])%list in
  authenticates (gate95 [Some MPost; Some MBasic; Some MSecretJwt; Some MPrivateJwt]) [("c1:id0", 900)]%string (dset "client_secret" (VStr "secret1") cli95) "c1" rq NoAuthz
    (dset "client_id" (VStr "c1") rq).
Proof.
  intros rq. constructor; try reflexivity.
  - split; [discriminate|reflexivity].
  - intros v E. discriminate E.
  - now left.
  - exists [Some MPost; Some MBasic], MSecretJwt, [Some MPrivateJwt]. split; [reflexivity|]. split.
    + intros m' I. left. cbn in I. destruct I as [I|[I|[]]]; injection I as <-; cbn.
      * intros [_ [v E]]. discriminate E.
      * intros [b E]. discriminate E.
    + exists "jws1"%string. eexists. exists "secret1"%string, []. do 3 (split; [reflexivity|]).
      split; [eexists; split; [reflexivity|]; eexists; split; [now left|now left]|].
      split; [intros t E _; injection E as <-; reflexivity|]. split; [eexists; reflexivity|]. split; reflexivity.
Qed.
Example C95_ex_request : FlowSpec.code_request hash2 true rq81 (dset "client_id" (VStr "c1"%string) tr81) "code7".
Proof.
  constructor; try reflexivity.
  - right. exists cb. split; reflexivity.
  - right. discriminate.
  - intros _. right. exists "secret"%string, "S256:secret"%string, "S256"%string. do 3 (split; [reflexivity|]). right. split; [now left|split; reflexivity].
Qed.
Example C95_ex_tokens : forall cli95, tokens_provided sid79 e81 (az7 true) w95 "c1" cli95 "diana" ["openid"; "email"]%string idt2 both (mt2 "at8") (mt2 "rt8") None 2000.
Proof.
  intros cli.
  assert (X : exchangeable e81 (az7 true) w95 "c1" "access_token" 2 2000).
  { split; [left; reflexivity|]. split; [split; [intros k E; discriminate|intros _; cbn; lia]|]. cbn. lia. }
  constructor; auto.
  - intros p v E. cbn in E. injection E as <-. reflexivity.
  - intros p. exists "at8"%string. split; reflexivity.
  - intros p1 p2 v1 v2 E1 E2. cbn in E1, E2. injection E1 as <-. injection E2 as <-. discriminate.
  - discriminate.
  - intros _ s gr clients V C. eexists. exists clients. split; [reflexivity|exact C].
Qed.

(** All of it together *)
Example C95_ex : exists r a1 resp args f3 claims,
  authorization_request (gate95 []) re95 true pk95 e81 (az7 true) rq81 NoAuthz a95 = (Ok (AResponse r), a1) /\
  respond PropsResponse.ex_enc authorization_endpoint r = Ok resp /\ (exists t, rs_body resp = Text (cb ++ "?" ++ t)%string) /\
  token_request sid79 hash2 cx7 idt2 (gate95 [Some MBasic; Some MPost]) true both true 2000 (mt2 "at8") (mt2 "rt8") None tr81 basic95 (as_front a1) = (Ok (AOk args None), f3) /\
  userinfo_request sid79 out1 (ep1 [Some MBearerHeader]) "UserInfo" [] cx7 2100 [] (AuthzStr "Bearer at8") (mkFr (mkCA (w_cdb (fs_world f3)) (fs_jti f3)) (w_db (fs_world f3)))
    = (Ok (UClaims claims "c1" PJson), mkFr (mkCA (w_cdb (fs_world f3)) (fs_jti f3)) (w_db (fs_world f3))) /\
  dget "sub" claims = Some (VStr "dianasalt") /\ dget "email" claims = Some (VStr "diana@example.org") /\
  dget "name" claims = Some (VStr "Diana Krall") /\ dget "nickname" claims = None /\
  dget "auth_method" (match dget "c1" (w_cdb (fs_world f3)) with Some i => i | None => [] end) <> None.
Proof. do 6 eexists. split; [vm_compute; reflexivity|]. split; [vm_compute; reflexivity|]. split; [eexists; vm_compute; reflexivity|]. vm_compute. repeat split. discriminate. Qed.

(** ** Another case: c1 asks for all three, as in C93. *)
From Verif Require Import HybridSpec PropsHybrid.
Definition cli96 : msg :=
  [("client_id", VStr "c1"); ("allowed_scopes", vstrs ["openid"; "email"]); ("redirect_uris", VList [UriSpec.entry cb (VStr "")]);
   ("response_types", VList [VStr "code"; VStr "token id_token code"])]%string.
Definition w96 : world := mkW (st1 gr7 false) [("c1", cli96)]%string.
Definition a96 : astate := mkAS (mkFS w96 []) [].

Example C95_ex_others_arrives : arrives (gate95 []) re95 (az7 true) pk95 (w_cdb w96) rq93 rq93 "c1" rt93.
Proof.
  constructor; try reflexivity.
  - exists cli96. split; [reflexivity|]. cbn. exists "token id_token code"%string. split; [auto|]. intros x. cbn. intuition.
  - intros info l v E1 E2 I. assert (info = cli96) by (cbn in E1; congruence). subst info. assert (l = [VStr "code"; VStr "token id_token code"]%string) by (cbn in E2; congruence). subst l.
    destruct I as [<-|[<-|[]]]; eauto.
  - intros k E. assert (k = mkPkce true ["plain"; "S256"]%string) by (unfold pk95 in E; congruence). subst k. split; [discriminate|]. intros _. exists "S256"%string. split; [reflexivity|cbn; auto].
Qed.
Example C95_ex_others_recognised : recognised usr9 e81 (az7 true) true w96 rq93 "c1" cli96 cb "diana" mt93.
Proof.
  constructor.
  - apply st1_well_formed.
  - do 3 (split; [apply good_by; reflexivity|]). split; [left; reflexivity|]. intros [X|[X|[]]]; discriminate.
  - split; [reflexivity|]. split; [reflexivity|]. split; [|split; reflexivity]. right. eexists. split; [reflexivity|]. vm_compute. reflexivity.
  - exists "user"%string, "pw"%string. split; reflexivity.
  - exists [("uid", VStr "diana")]%string, (VStr "1900"). split; [|split; reflexivity]. exists (VInt 0), (VStr "diana"). repeat split.
Qed.
Example C95_ex_others_asks : asks (az7 true) w96 rq93 "c1" cb ["openid"; "email"]%string rt93.
Proof.
  constructor; [reflexivity| |reflexivity|now left| |].
  - split; [discriminate|]. unfold rt93. cbn. intuition.
  - right. right. right. split; [reflexivity|]. exists "token"%string. split; [cbn; auto|discriminate].
  - exists [UriSpec.entry cb (VStr "")]. split; [eexists; split; reflexivity|]. split; [repeat constructor; exists cb, (VStr ""); auto|].
    split; [repeat constructor; intros []|]. eexists. exists (VStr ""). split; [vm_compute; reflexivity|]. split; [reflexivity|]. split; [left; reflexivity|].
    intros k s. reflexivity.
Qed.
Example C95_ex_others_provided : provided sid93 e81 (az7 true) w96 "c1" cli96 cb "diana" mt93 rt93.
Proof.
  constructor.
  - destruct C95_ex_claims as [H1 H2 H3 H4]. constructor; [exact H1| |exact H3|exact H4].
    intros usage v Hu E. cbn in Hu. destruct Hu as [<-|[<-|[<-|[<-|[]]]]]; discriminate.
  - exact PropsUri.py_proper.
  - intros _. split. { split; [intros k E; discriminate|]. intros _. cbn. lia. } intros p. exists "code7"%string. split; reflexivity.
  - intros _. split. { split; [intros k E; discriminate|]. intros _. cbn. lia. } intros p. exists "at7"%string. split; reflexivity.
  - intros _ _. split.
    + split; [left; reflexivity|]. split; [split; [intros k E; discriminate|intros _; cbn; lia]|]. cbn. lia.
    + intros p1 p2 v1 v2 E1 E2. cbn in E1, E2. injection E1 as <-. injection E2 as <-. discriminate.
  - intros _ s gr clients code access V C. eexists. exists clients. split; [reflexivity|exact C].
  - intros state. eexists. reflexivity.
  - intros _. split; [cbn; lia|]. split; [intros t; eexists; reflexivity|eexists; reflexivity].
  - now left.
Qed.
Example C95_ex_others : exists r a1 resp claims,
  authorization_request (gate95 []) re95 true pk95 e81 (az7 true) rq93 NoAuthz a96 = (Ok (AResponse r), a1) /\
  respond PropsResponse.ex_enc authorization_endpoint r = Ok resp /\ (exists t, rs_body resp = Text (cb ++ "#" ++ t)%string) /\
  userinfo_request sid93 out1 (ep1 [Some MBearerHeader]) "UserInfo" [] cx7 2100 [] (AuthzStr "Bearer at7")
    (mkFr (mkCA (w_cdb (fs_world (as_front a1))) (fs_jti (as_front a1))) (w_db (fs_world (as_front a1))))
    = (Ok (UClaims claims "c1" PJson), mkFr (mkCA (w_cdb (fs_world (as_front a1))) (fs_jti (as_front a1))) (w_db (fs_world (as_front a1)))) /\
  dget "email" claims = Some (VStr "diana@example.org").
Proof. do 4 eexists. split; [vm_compute; reflexivity|]. split; [vm_compute; reflexivity|]. split; [eexists; vm_compute; reflexivity|]. vm_compute. repeat split. Qed.
