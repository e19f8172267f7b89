(** PropsRedirected.v: where the browser is sent in answer to a request that has been received (C20), and with what (C22, C47). *)
From Verif Require Import Base BaseProofs Monad MonadProofs Types FormPost Token Grant Database Manager Ctx World ClientAuthn TokenEndpoint Uri UriSpec Response
  AuthzRequest ParsedSpec PropsParsed AuthzEndpoint AuthzEndpointSpec SetupAuth SetupAuthProofs Fronts AuthzFront Door DoorSpec RedirectedSpec.
From Verif Require PropsAuthzEndpoint PropsUri.

Lemma pkce_keeps k m m' key : key <> "code_challenge_method"%string -> post_authn_parse k m = PReq m' -> dget key m' = dget key m.
Proof.
  intros N H. unfold post_authn_parse in H. destruct (_ && _)%bool in H; [discriminate|]. cbv zeta in H.
  destruct (dmem "code_challenge_method" m); destruct (_ && _)%bool in H; try discriminate; injection H as <-; [reflexivity|now apply dget_dset_neq].
Qed.
Lemma goes_same u db m m' : (forall k, k <> "code_challenge_method"%string -> dget k m' = dget k m) ->
  goes_to_registered u db m \/ goes_nowhere db m -> goes_to_registered u db m' \/ goes_nowhere db m'.
Proof. intros E. unfold goes_to_registered, goes_nowhere. rewrite !E by discriminate. auto. Qed.
Lemma hooks_go re oidc pk c rq db m db' : authz_hooks re oidc pk c rq db = (Ok (Parsed m), db') ->
  goes_to_registered (re_u re) (re_cdb re) m \/ goes_nowhere (re_cdb re) m.
Proof.
  intros H. unfold authz_hooks in H. apply bind_ok in H. destruct H as (p & s1 & E & H). destruct p as [x|q]; [destruct pk; discriminate|].
  assert (G : goes_to_registered (re_u re) (re_cdb re) q \/ goes_nowhere (re_cdb re) q).
  { destruct oidc; eapply C20_parsed; eauto. }
  unfold ret in H. destruct pk as [k|].
  - destruct (post_authn_parse k q) as [m'|e d] eqn:Pk; [|discriminate]. assert (m' = m) by congruence. subst m'.
    eapply goes_same; [|exact G]. intros key N. eapply pkce_keeps; eauto.
  - assert (q = m) by congruence. subst q. exact G.
Qed.

Lemma go_on_error e request name args m acr ru uri identity w info w' :
  go_on e request name args m acr ru uri identity w = (Ok (SError info), w') -> w' = w /\ dget "return_uri" info = Some uri.
Proof.
  intros H. unfold go_on in H. destruct identity as [id|].
  - apply bind_ok in H. destruct H as (user & w1 & E1 & H). destruct (lift_ok _ _ _ _ E1) as [_ ->].
    destruct (match ru with Some r => negb (val_eqb user r) | None => false end).
    + apply bind_ok in H. destruct H as (none & w2 & E2 & H). destruct (lift_ok _ _ _ _ E2) as [_ ->]. destruct none; unfold ret in H; [|discriminate].
      injection H as <- <-. split; reflexivity.
    + exfalso. apply bind_ok in H. destruct H as (o & w2 & E2 & H). destruct o as [sid|]; [|discriminate]. destruct (nonempty sid).
      * apply bind_ok in H. destruct H as (v & w3 & _ & H). destruct v; discriminate.
      * apply bind_ok in H. destruct H as (v & w3 & _ & H). discriminate.
  - apply bind_ok in H. destruct H as (none & w2 & E2 & H). destruct (lift_ok _ _ _ _ E2) as [_ ->]. destruct none; [|discriminate].
    apply bind_ok in H. destruct H as (rt & w3 & E3 & H). destruct (lift_ok _ _ _ _ E3) as [_ ->]. injection H as <- <-. split; reflexivity.
Qed.
Lemma request_at en m uri b : exists sep text, Text (msg_request en m uri b) = Text (uri ++ sep ++ text) /\ In sep ["?"; "&"; "#"]%string.
Proof. unfold msg_request. destruct b; [|destruct (contains "?" uri)]; do 2 eexists; (split; [reflexivity|cbn; tauto]). Qed.
Lemma error_sent en info resp : respond_error en authorization_endpoint info = Ok resp ->
  exists uri, dget "return_uri" info = Some (VStr uri) /\ sends_to uri resp.
Proof.
  unfold respond_error. destruct (msub_str "error" info) as [error|]; [|discriminate]. cbn [rbind]. unfold mget_str.
  destruct (dget "return_uri" info) as [[| | |uri| |]|];
    try (unfold do_response; destruct (nonempty error); cbn; discriminate).
  intros H. exists uri. split; [reflexivity|]. left. unfold do_response in H.
  destruct (nonempty error); cbn -[msg_request] in H; injection H as <-; cbn -[msg_request]; apply request_at.
Qed.

Lemma authorization_understood gt re oidc pk e az rq auth a ans a' : authorization_request gt re oidc pk e az rq auth a = (Ok ans, a') ->
  (exists err, ans = AError [("error", VStr err)]%string) \/
  exists m w, understood gt re oidc pk rq auth a m /\ (goes_to_registered (re_u re) (w_cdb w) m \/ goes_nowhere (w_cdb w) m) /\
    process_request e az oidc (inr m) w = (Ok ans, fs_world (as_front a')).
Proof.
  intros H. unfold authorization_request in H. unfold bind at 1 in H. unfold in_front at 1, in_auth at 1 in H.
  destruct (parse_auth _ _ _ _ _ _ _ _) as [[[rq' cid]|x] ca] eqn:P in H; [|discriminate].
  unfold bind at 1 in H. destruct (gt_check gt cid rq') as [m0| |x] eqn:C.
  - unfold bind at 1, in_front at 1, in_world at 1, gets at 1 in H. cbn [as_front as_pushed fs_world fs_jti w_cdb w_db] in H.
    unfold in_pushed at 1 in H. cbn [as_front as_pushed] in H.
    destruct (authz_hooks _ _ _ _ _ _) as [[[err|m]|x] p] eqn:Hk in H.
    + left. exists err. unfold in_front, in_world, process_request, ret in H. cbn in H. congruence.
    + right. exists m, (mkW (w_db (fs_world (as_front a))) (ca_cdb ca)). split; [exists rq', cid, ca, m0, p; auto|].
      split. { apply hooks_go in Hk. exact Hk. }
      unfold in_front, in_world in H. cbn [as_front as_pushed fs_world fs_jti] in H.
      destruct (process_request e az oidc (inr m) _) as [r1 w1]. injection H as <- <-. reflexivity.
    + discriminate.
  - left. exists "invalid_request"%string. unfold ret at 1, in_front, in_world, process_request, ret in H. cbn in H. congruence.
  - discriminate.
Qed.

Lemma process_client e az oidc (m : msg) w ans w' : process_request e az oidc (inr m) w = (Ok ans, w') -> ~ goes_nowhere (w_cdb w) m.
Proof.
  intros H [_ N]. unfold process_request in H. apply bind_ok in H. destruct H as (cid & w1 & E1 & H). destruct (lift_ok _ _ _ _ E1) as [C ->].
  apply bind_ok in H. destruct H as (cl & w2 & E2 & H). assert (cl = w_cdb w /\ w2 = w) as [-> ->] by (unfold gets in E2; split; congruence).
  apply bind_ok in H. destruct H as (cinfo & w3 & E3 & H). destruct (lift_ok _ _ _ _ E3) as [D _]. unfold dsub in D.
  unfold msub_str in C. destruct (dget "client_id" m) as [[| | |c| |]|] eqn:E; try discriminate. assert (c = cid) by congruence. subst c.
  rewrite (N cid eq_refl) in D. discriminate.
Qed.

(** Whatever is received at the authorization endpoint: if the answer, be it a success or an error, sends the browser anywhere, it sends it to the redirect_uri
    of the request as it was understood, and that is one registered for the client named in it. *)
Theorem C20_received : forall gt re oidc pk e az rq auth a ans a' en resp,
  az_u az = re_u re ->
  authorization_request gt re oidc pk e az rq auth a = (Ok ans, a') -> answered en ans resp ->
  exists m c uri l, understood gt re oidc pk rq auth a m /\ dget "client_id" m = Some (VStr c) /\ dget "redirect_uri" m = Some (VStr uri) /\
    registered (clients_of a') c "redirect_uris" l /\ (matches (re_u re) l (ul_unquote (re_u re) uri) \/ only_one (re_u re) l uri) /\ sends_to uri resp.
Proof.
  intros gt re oidc pk e az rq auth a ans a' en resp Eu H An.
  destruct (authorization_understood _ _ _ _ _ _ _ _ _ _ _ H) as [(err & ->)|(m & w & U & G & P)].
  { exfalso. destruct (error_sent _ _ _ An) as (uri & D & _). discriminate. }
  pose proof (process_client _ _ _ _ _ _ _ P) as Nn. destruct G as [(c & uri & l & Hc & Hu & Hl & Hm)|G]; [|contradiction].
  destruct (process_inv _ _ _ _ _ _ _ P) as (v & cinfo & ru & s & w1 & Dv & _ & Es & X).
  assert (v = VStr uri) by congruence. subst v. destruct s as [info|name args|sid id user].
  - destruct X as [-> Ew]. destruct (setup_inv _ _ _ _ _ _ _ _ Es) as (name & acr & me & identity & ts & args & _ & _ & _ & Go).
    destruct (go_on_error _ _ _ _ _ _ _ _ _ _ _ _ Go) as [-> Di]. destruct (error_sent _ _ _ An) as (uri' & Du & S').
    assert (uri' = uri) by congruence. subst uri'. exists m, c, uri, l. unfold clients_of. rewrite Ew. auto 10.
  - destruct X as [-> _]. contradiction.
  - destruct X as (r & -> & P2). cbn [answered] in An.
    assert (Du : dget "redirect_uri" (changed e m) = Some (VStr uri)) by (rewrite changed_get by discriminate; exact Hu).
    assert (Dm : dmem "redirect_uri" (changed e m) = true) by (unfold dmem; rewrite Du; reflexivity).
    destruct (PropsAuthzEndpoint.C22_registered _ _ _ _ _ _ _ _ P2 An Dm) as (uri' & c' & l' & Du' & [_ Hc'] & Hl' & Hm' & B).
    assert (uri' = uri) by congruence. subst uri'. rewrite changed_get in Hc' by discriminate.
    assert (c' = c) by (destruct Hc' as [X|[X _]]; congruence). subst c'.
    exists m, c, uri, l'. rewrite Eu in Hm'. do 5 (split; [auto|]). destruct B as [(sep & B & I)|B]; [left; eauto|right; exact B].
Qed.
Print Assumptions C20_received.

Lemma response_of gt re oidc pk e az rq auth a r a' : authorization_request gt re oidc pk e az rq auth a = (Ok (AResponse r), a') ->
  exists m sid w, understood gt re oidc pk rq auth a m /\ authz_part2 az (changed e m) sid w = (Ok r, fs_world (as_front a')) /\
    exists uri, dget "redirect_uri" m = Some (VStr uri).
Proof.
  intros H. destruct (authorization_understood _ _ _ _ _ _ _ _ _ _ _ H) as [(err & X)|(m & w & U & G & P)]; [discriminate|].
  destruct (process_inv _ _ _ _ _ _ _ P) as (v & cinfo & ru & s & w1 & _ & _ & _ & X). destruct s as [info|name args|sid id user].
  - destruct X as [X _]. discriminate.
  - destruct X as [X _]. discriminate.
  - destruct X as (r' & X & P2). assert (r' = r) by congruence. subst r'. exists m, sid, w1. split; [exact U|]. split; [exact P2|].
    destruct G as [(c & uri & l & _ & D & _)|[D _]]; eauto.
Qed.

(** Whatever is received: a response with an access token or an ID Token is a page with a form, or a redirect with everything in the fragment and nothing added
    to the query. *)
Theorem C22_received : forall gt re oidc pk e az rq auth a r a' en resp,
  authorization_request gt re oidc pk e az rq auth a = (Ok (AResponse r), a') -> respond en authorization_endpoint r = Ok resp ->
  has "access_token" (ri_args r) \/ has "id_token" (ri_args r) ->
  as_page resp \/
  exists m uri, understood gt re oidc pk rq auth a m /\ dget "redirect_uri" m = Some (VStr uri) /\ in_fragment uri (to_urlencoded en (ri_args r)) resp.
Proof.
  intros gt re oidc pk e az rq auth a r a' en resp H Hr T. destruct (response_of _ _ _ _ _ _ _ _ _ _ _ H) as (m & sid & w & U & P & uri & D).
  destruct (PropsAuthzEndpoint.C22_token _ _ _ _ _ _ _ _ P Hr T) as [X|(uri' & A & X)]; [now left|]. right. exists m, uri.
  split; [exact U|]. split; [exact D|]. assert (VStr uri = VStr uri') as E by (apply A; rewrite changed_get by discriminate; exact D). injection E as ->. exact X.
Qed.
Print Assumptions C22_received.

(** Whatever is received: a response that is no error names the issuer, and the client and the state of the request as it was understood; and that is what is
    sent, unless it is sent as a page (see C47_form_post_refuted). *)
Theorem C47_received : forall gt re oidc pk e az rq auth a r a' en resp,
  authorization_request gt re oidc pk e az rq auth a = (Ok (AResponse r), a') -> respond en authorization_endpoint r = Ok resp -> ~ failed (ri_args r) ->
  exists m, understood gt re oidc pk rq auth a m /\
    dget "iss" (ri_args r) = Some (VStr (cx_issuer (az_cx az))) /\
    has "client_id" (ri_args r) /\ dget "client_id" (ri_args r) = dget "client_id" m /\ dget "state" (ri_args r) = truthy_get "state" m /\
    (dget "response_mode" m <> Some (VStr "form_post") ->
     exists uri sep, dget "redirect_uri" m = Some (VStr uri) /\ rs_body resp = Text (uri ++ sep ++ to_urlencoded en (ri_args r)) /\ In sep ["?"; "&"; "#"]%string).
Proof.
  intros gt re oidc pk e az rq auth a r a' en resp H Hr T. destruct (response_of _ _ _ _ _ _ _ _ _ _ _ H) as (m & sid & w & U & P & uri & D).
  destruct (PropsAuthzEndpoint.C47_names_partial _ _ _ _ _ _ _ _ P Hr T) as (A & B & C & E & F). exists m.
  rewrite changed_get in C by discriminate. unfold truthy_get in E. rewrite changed_get in E by discriminate. rewrite changed_get in F by discriminate.
  do 5 (split; [assumption|]). intros N. destruct (F N) as (uri' & sep & Ad & X).
  assert (VStr uri = VStr uri') as Eq by (apply Ad; rewrite changed_get by discriminate; exact D). injection Eq as <-. exists uri, sep. auto.
Qed.
Print Assumptions C47_received.

(** ** Cases: c1's request is answered with a code at c1's address, and so is the error when nobody is logged in and no page may be shown; a request with
    another's address is answered with an error that is sent nowhere. *)
From Verif Require PropsSetupAuth PropsFlow PropsFrontFlow PropsResponse PropsRefresh.
Definition sent22 (r : result answer * astate) : option string :=
  match match fst r with
        | Ok (AResponse r) => respond PropsResponse.ex_enc authorization_endpoint r
        | Ok (AError info) => respond_error PropsResponse.ex_enc authorization_endpoint info
        | _ => Raise EKey
        end with
  | Ok resp => match rs_body resp with Text t => Some t | _ => None end
  | _ => None
  end.
Lemma sent22_answered r t : sent22 r = Some t -> exists ans a' resp, r = (Ok ans, a') /\ answered PropsResponse.ex_enc ans resp /\ rs_body resp = Text t.
Proof.
  destruct r as [[[info|n g u|ri]|x] a']; unfold sent22; cbn [fst]; try discriminate.
  - destruct (respond_error _ _ info) as [resp|] eqn:E; [|discriminate]. destruct (rs_body resp) eqn:B; try discriminate. intros H.
    exists (AError info), a', resp. split; [reflexivity|]. split; [exact E|]. congruence.
  - destruct (respond _ _ ri) as [resp|] eqn:E; [|discriminate]. destruct (rs_body resp) eqn:B; try discriminate. intros H.
    exists (AResponse ri), a', resp. split; [reflexivity|]. split; [exact E|]. congruence.
Qed.
Definition visit22 (e : auth_env) (rq : msg) : result answer * astate :=
  authorization_request (PropsFrontFlow.gate95 []) PropsFrontFlow.re95 true None e PropsRefresh.az87 rq NoAuthz PropsFrontFlow.a95.
Example C20_ex_received : az_u PropsRefresh.az87 = re_u PropsFrontFlow.re95 /\
  sent22 (visit22 PropsFlow.e81 PropsFlow.rq81) = Some
    "https://rp.example.org/cb?state=xyz&scope=?&code=code7&session_state=<c1 https://rp.example.org opbs salt>.salt&iss=https://op.example.org&client_id=c1"%string /\
  sent22 (visit22 (PropsSetupAuth.e9 PropsSetupAuth.nocookie9) (dset "prompt" (vstrs ["none"%string]) PropsFlow.rq81)) =
    Some "https://rp.example.org/cb?error=login_required"%string /\
  let evil := visit22 PropsFlow.e81 (dset "redirect_uri" (VStr "https://evil.example/cb") PropsFlow.rq81) in
  fst evil = Ok (AError [("error", VStr "invalid_request")])%string /\ sent22 evil = None.
Proof. split; [reflexivity|]. split; [vm_compute; reflexivity|]. split; [vm_compute; reflexivity|]. split; vm_compute; reflexivity. Qed.
(** A hybrid response: code and ID Token, in the fragment, with the issuer, the client and the state *)
Example C22_ex_received_C47 : sent22 (visit22 PropsFlow.e81 (dset "response_type" (vstrs ["code"; "id_token"]%string) (dset "nonce" (VStr "n") PropsFlow.rq81))) =
  Some "https://rp.example.org/cb#state=xyz&scope=?&code=code7&id_token=idt:code7:-&session_state=<c1 https://rp.example.org opbs salt>.salt&iss=https://op.example.org&client_id=c1"%string.
Proof. vm_compute. reflexivity. Qed.
