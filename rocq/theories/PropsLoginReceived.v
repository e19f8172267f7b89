(** PropsLoginReceived.v: requests that are received and lead to a login page. Where the user comes back to (C20, C88), when no page is shown (C30), and
    which scopes are let through (C40). *)
From Verif Require Import Base BaseProofs Monad MonadProofs Types SessionKey Token Grant Database Manager Ctx Scopes ScopesSpec PropsClaims World ClientAuthn TokenEndpoint Uri UriSpec
  Response AuthzRequest ParsedSpec AuthzEndpoint AuthzEndpointSpec AuthnBroker SetupAuth SetupAuthSpec SetupAuthProofs Login LoginSpec PropsLogin Fronts AuthzFront Door DoorSpec
  RedirectedSpec RecordsSpec RecordsProofs PropsRedirected PropsRequests.
From Verif Require PropsSetupAuth.

Lemma known_clients e (request : msg) user v w o w' : known_session e request user v w = (Ok o, w') -> w_cdb w' = w_cdb w.
Proof.
  intros H. destruct (known_inv _ _ _ _ _ _ _ H) as (sid & u & c & g & cid & _ & _ & _ & K).
  destruct K as [[_ ->]|(_ & gr & _ & _ & [(_ & -> & _)|(gr2 & ae & us & _ & _ & _ & _ & _ & Cg)])]; [reflexivity|reflexivity|].
  destruct (in_db_ok _ _ _ _ Cg) as (s' & _ & ->). reflexivity.
Qed.
Lemma go_on_login e (request : msg) name args m acr ru uri identity w n args' w' :
  go_on e request name args m acr ru uri identity w = (Ok (SLogin n args'), w') -> w_cdb w' = w_cdb w /\ args' = args.
Proof.
  intros H. unfold go_on in H. destruct identity as [id|].
  - apply bind_ok in H. destruct H as (user & w1 & E1 & H). destruct (lift_ok _ _ _ _ E1) as [_ ->].
    destruct (match ru with Some r => negb (val_eqb user r) | None => false end).
    + apply bind_ok in H. destruct H as (none & w2 & E2 & H). destruct (lift_ok _ _ _ _ E2) as [_ ->]. destruct none; unfold ret in H; [discriminate|].
      split; congruence.
    + apply bind_ok in H. destruct H as (o & w2 & E2 & H).
      assert (C : w_cdb w2 = w_cdb w).
      { destruct (dget "sid" id) as [v|]; [exact (known_clients _ _ _ _ _ _ _ E2)|]. unfold ret in E2. congruence. }
      destruct o as [sid|]; [|unfold ret in H; split; congruence]. destruct (nonempty sid).
      * apply bind_ok in H. destruct H as (v & w3 & E3 & H). destruct (valid_event_ok _ _ _ _ _ E3) as [-> _].
        destruct v; unfold ret in H; [discriminate|]. split; congruence.
      * apply bind_ok in H. destruct H as (v & w3 & _ & H). discriminate.
  - apply bind_ok in H. destruct H as (none & w2 & E2 & H). destruct (lift_ok _ _ _ _ E2) as [_ ->]. destruct none.
    + apply bind_ok in H. destruct H as (rt & w3 & _ & H). discriminate.
    + unfold ret in H. split; congruence.
Qed.

Lemma understood_one gt re oidc pk rq auth a m m' : understood gt re oidc pk rq auth a m -> understood gt re oidc pk rq auth a m' -> m = m'.
Proof.
  intros (r1 & i1 & k1 & q1 & p1 & A1 & B1 & D1) (r2 & i2 & k2 & q2 & p2 & A2 & B2 & D2).
  assert (X : r1 = r2 /\ i1 = i2 /\ k1 = k2) by (repeat split; congruence). destruct X as (-> & -> & ->).
  assert (q1 = q2) by congruence. subst q2. congruence.
Qed.

(** Whatever is received: if the user is asked to log in, they will come back to an address that is registered for the client. *)
Theorem C20_login : forall gt re oidc pk e az rq auth a name args back a',
  authorization_request gt re oidc pk e az rq auth a = (Ok (AInteraction name args back), a') ->
  exists m c uri l, understood gt re oidc pk rq auth a m /\ dget "client_id" m = Some (VStr c) /\ dget "redirect_uri" m = Some (VStr uri) /\
    back = VStr uri /\ registered (clients_of a') c "redirect_uris" l /\ (matches (re_u re) l (ul_unquote (re_u re) uri) \/ only_one (re_u re) l uri).
Proof.
  intros gt re oidc pk e az rq auth a name args back a' H.
  destruct (authorization_understood _ _ _ _ _ _ _ _ _ _ _ H) as [(err & X)|(m & w & U & G & P)]; [discriminate|].
  pose proof (process_client _ _ _ _ _ _ _ P) as Nn. destruct G as [(c & uri & l & Hc & Hu & Hl & Hm)|G]; [|contradiction].
  destruct (process_inv _ _ _ _ _ _ _ P) as (v & cinfo & ru & s & w1 & Dv & _ & Es & X).
  assert (v = VStr uri) by congruence. subst v. destruct s as [info|n args0|sid id user].
  - destruct X as [X _]. discriminate.
  - destruct X as [X Ew]. assert (back = VStr uri) by congruence.
    destruct (SetupAuthProofs.setup_inv _ _ _ _ _ _ _ _ Es) as (name' & acr & me & identity & ts & args1 & _ & _ & _ & Go).
    destruct (go_on_login _ _ _ _ _ _ _ _ _ _ _ _ _ Go) as [C _]. exists m, c, uri, l. unfold clients_of. rewrite Ew, C. auto 10.
  - destruct X as (r & X & _). discriminate.
Qed.
Print Assumptions C20_login.

(** ... and what the page sends back with the password says just that address, the class of the method, and the request as it was understood. *)
Theorem C88_received : forall make_db make_other is_userpass (sign : val -> msg -> string) unpack other conf an b gt re oidc pk e az rq auth a name args back a',
  gives_back sign unpack -> conf <> [] -> names_once conf -> (forall x, In x conf -> no_handler (snd x)) ->
  do_authentication make_db make_other is_userpass (Some conf) = Ok an -> an_broker an = Some b -> au_broker e = b ->
  authorization_request gt re oidc pk e az rq auth a = (Ok (AInteraction name args back), a') ->
  exists s acr m c uri l, In (name, s) conf /\ sp_acr s = Some acr /\ understood gt re oidc pk rq auth a m /\ dget "client_id" m = Some (VStr c) /\
    registered (clients_of a') c "redirect_uris" l /\ (matches (re_u re) l (ul_unquote (re_u re) uri) \/ only_one (re_u re) l uri) /\
    forall u, dget name (an_methods an) = Some (MUserPass u) -> dget "action" (kwargs_in s) = None -> dget "token" (kwargs_in s) = None ->
      exists p payload, shown sign other an name args = Some p /\ unpack_token unpack (pg_token p) = Ok payload /\
        dget "return_uri" payload = Some (VStr uri) /\ dget "query" payload = Some (VStr (au_query e (changed e m))) /\
        dget "authn_class_ref" payload = Some (VStr acr).
Proof.
  intros make_db make_other is_userpass sign unpack other conf an b gt re oidc pk e az rq auth a name args back a' GB Ne ND NH Es Eb Ebr H.
  destruct (authorization_understood _ _ _ _ _ _ _ _ _ _ _ H) as [(err & X)|(m & w & U & G & P)]; [discriminate|].
  destruct (C88_page _ _ _ sign unpack other conf an b e az oidc m w name args back _ GB Ne ND NH Es Eb Ebr P) as (s & acr & cid & cinfo & Hs & Ha & Hc & _ & Pg).
  destruct (C20_login _ _ _ _ _ _ _ _ _ _ _ _ _ H) as (m' & c & uri & l & U' & Hc' & Hu & _ & Hl & Hm).
  assert (m' = m) by exact (understood_one _ _ _ _ _ _ _ _ _ U' U).
  subst m'. exists s, acr, m, c, uri, l. do 6 (split; [assumption|]). intros u Gu Na Nt.
  destruct (Pg u Gu Na Nt) as (p & payload & Sh & _ & Un & Q & Ac & R). exists p, payload. split; [exact Sh|]. split; [exact Un|]. split; [congruence|]. split; [exact Q|exact Ac].
Qed.
Print Assumptions C88_received.

(** Whatever is received: with prompt=none no page is shown, if what the methods tell does not name a session. *)
Theorem C30_received : forall gt re oidc pk e az rq auth a ans a' m,
  (forall name m limit id ts uid, dget name (au_methods e) = Some m -> me_auth m limit = Ok (Some id, ts) ->
     dget "sid" id = None /\ (dget "uid" id = Some uid -> au_decode e uid = Ok None)) ->
  authorization_request gt re oidc pk e az rq auth a = (Ok ans, a') ->
  understood gt re oidc pk rq auth a m -> prompts "none" m ->
  match ans with AInteraction _ _ _ => False | _ => True end.
Proof.
  intros gt re oidc pk e az rq auth a ans a' m Hm H U' Pr.
  destruct (authorization_understood _ _ _ _ _ _ _ _ _ _ _ H) as [(err & ->)|(m0 & w & U & G & P)]; [exact I|].
  assert (m0 = m) by exact (understood_one _ _ _ _ _ _ _ _ _ U U'). subst m0.
  pose proof (PropsSetupAuth.C30_none_partial _ _ _ _ _ _ _ Pr Hm P) as X. destruct ans; auto.
Qed.
Print Assumptions C30_received.

(** The records authentication leaves behind *)
Lemma parse_auth_records o e cls f aka rq auth s r s' c info : parse_auth o e cls f aka rq auth s = (r, s') -> dget c (ca_cdb s) = Some info ->
  exists info', dget c (ca_cdb s') = Some info' /\ dget "allowed_scopes" info' = dget "allowed_scopes" info /\ dget "client_id" info' = dget "client_id" info.
Proof.
  intros H E. pose proof (ok_parse_auth cx1 o e cls f aka rq auth s) as [L _]. rewrite H in L. cbn [snd] in L.
  destruct (L c info E) as (info' & E' & K). exists info'. split; [exact E'|].
  split; apply (ke_same _ _ _ K); try discriminate; intros usage d [I _] X; cbn in I; repeat destruct I as [<-|I]; try discriminate; contradiction.
Qed.

(** Whatever is received: where unknown scopes are denied, a request is answered with a page or a response only if its client may ask for all its scopes. *)
Theorem C40_received : forall gt re oidc pk e az rq auth a ans a' m c cinfo scopes,
  denies_unknown (az_cx az) -> (exists l, capability (az_cx az) "scopes_supported" = Some (VList l)) ->
  authorization_request gt re oidc pk e az rq auth a = (Ok ans, a') ->
  understood gt re oidc pk rq auth a m -> dget "client_id" m = Some (VStr c) -> dget "scope" m = Some (vstrs scopes) ->
  dget c (clients_of a) = Some cinfo -> dmem "client_id" cinfo = true -> list_or_absent "allowed_scopes" cinfo ->
  ~ Exists (fun s => ~ policy_allows (az_cx az) cinfo s) scopes.
Proof.
  intros gt re oidc pk e az rq auth a ans a' m c cinfo scopes Dn Cp H U Hc Sc Ci Mc La Ex.
  destruct U as (rq' & cid & ca & m0 & p & P & C & Hk).
  destruct (parse_auth_records _ _ _ _ _ _ _ _ _ _ _ _ P Ci) as (info' & Ci' & Ka & Kc).
  unfold authorization_request in H. unfold bind at 1 in H. unfold in_front at 1, in_auth at 1 in H. unfold clients_of in P, Ci.
  cbn [as_front fs_world fs_jti] in H. rewrite P in H.
  unfold bind at 1 in H. rewrite C in H. unfold bind at 1, in_front at 1, in_world at 1, gets at 1 in H. cbn [as_front as_pushed fs_world fs_jti w_cdb w_db] in H.
  unfold in_pushed at 1 in H. cbn [as_front as_pushed] in H. rewrite Hk in H.
  unfold in_front, in_world in H. cbn [as_front as_pushed fs_world fs_jti] in H.
  rewrite (C40_denied e az oidc m (mkW (w_db (fs_world (as_front a))) (ca_cdb ca)) c info' scopes Dn Cp Hc Ci') in H; [discriminate| | |exact Sc|].
  - unfold dmem in *. now rewrite Kc.
  - unfold list_or_absent in *. now rewrite Ka.
  - revert Ex. apply Exists_impl. intros x N Y. apply N. unfold policy_allows in *. now rewrite Ka in Y.
Qed.
Print Assumptions C40_received.

(** ** Cases: without a cookie the user gets the page and will come back to c1's address, with prompt=none there is an error; a scope the client may not ask
    for is refused. *)
From Verif Require PropsFlow PropsFrontFlow PropsRefresh PropsAuthzEndpoint.
Definition page20 (r : result answer * astate) : option (string * val * option val) :=
  match fst r with
  | Ok (AInteraction name args back) =>
    Some (name, back, match shown sign88 (fun _ _ => None) an88 name args with
                      | Some p => match unpack88 (pg_token p) with Ok m => dget "return_uri" m | Raise _ => None end
                      | None => None end)
  | _ => None
  end.
Lemma page20_shown r n b t : page20 r = Some (n, b, t) -> exists args a', r = (Ok (AInteraction n args b), a').
Proof. destruct r as [[[info|name args back|ri]|x] a']; unfold page20; cbn [fst]; try discriminate. intros H. exists args, a'. congruence. Qed.
Definition noone20 : auth_env := PropsSetupAuth.e9 PropsSetupAuth.nocookie9.
Example C20_ex_login :
  page20 (visit22 e88 PropsFlow.rq81) = Some ("user"%string, VStr "https://rp.example.org/cb", Some (VStr "https://rp.example.org/cb")) /\
  page20 (visit22 e88 (dset "redirect_uri" (VStr "https://evil.example/cb") PropsFlow.rq81)) = None /\
  page20 (visit22 PropsFlow.e81 PropsFlow.rq81) = None.
Proof. split; [vm_compute; reflexivity|]. split; vm_compute; reflexivity. Qed.
Definition none20 : msg := dset "prompt" (vstrs ["none"%string]) PropsFlow.rq81.
Example C30_ex_received :
  (forall name m limit, dget name (au_methods noone20) = Some m -> exists ts, me_auth m limit = Ok (None, ts)) /\ prompts "none" none20 /\
  understood (PropsFrontFlow.gate95 []) PropsFrontFlow.re95 true None none20 NoAuthz PropsFrontFlow.a95 none20 /\
  (exists info a', visit22 noone20 none20 = (Ok (AError info), a') /\ dget "error" info = Some (VStr "login_required")) /\
  page20 (visit22 e88 PropsFlow.rq81) <> None.
Proof.
  split. { intros name m limit H. cbn [noone20 PropsSetupAuth.e9 au_methods dget] in H. destruct (String.eqb _ _); [|discriminate]. injection H as <-. eexists. reflexivity. }
  split; [eexists; split; [reflexivity|now left]|]. split; [do 5 eexists; split; [vm_compute; reflexivity|]; split; [reflexivity|vm_compute; reflexivity]|].
  split; [do 2 eexists; split; vm_compute; reflexivity|vm_compute; discriminate].
Qed.
Example C40_ex_received : denies_unknown (az_cx PropsRefresh.az87) /\
  (exists cinfo, dget "c1" (clients_of PropsFrontFlow.a95) = Some cinfo /\ dmem "client_id" cinfo = true /\ list_or_absent "allowed_scopes" cinfo) /\
  page20 (visit22 e88 PropsFlow.rq81) <> None /\
  fst (visit22 e88 (dset "scope" (vstrs ["openid"; "foo"]%string) PropsFlow.rq81)) = Raise EUnAuthorizedClient.
Proof.
  split; [reflexivity|]. split; [eexists; split; [reflexivity|]; split; [reflexivity|right; eexists; reflexivity]|]. split; [vm_compute; discriminate|].
  vm_compute; reflexivity.
Qed.
