(** FlowAuthzProofs.v: the first half of the code flow; see FlowSpec.v *)
From Verif Require Import Base BaseProofs Monad MonadProofs Types SessionKey SessionKeyProofs Token Grant GrantSpec GrantProofs Database DatabaseSpec DatabaseProofs
  Manager ManagerSpec ManagerProofs Ctx Scopes ScopesSpec ScopesProofs Claims ClaimsSpec ClaimsProofs Authz AuthzProofs UserInfo UserInfoSpec UserInfoProofs
  World Minting TokenEndpoint WorldSpec WorldProofs ResponseSpec ResponseProofs Uri Response AuthzEndpoint AuthzEndpointSpec AuthzEndpointProofs
  SetupAuth SetupAuthSpec SetupAuthProofs FlowSpec FlowProofs.
Local Open Scope Z_scope.

(** ** The authorization *)
Definition fit_claims cx cs c ar scopes usage (g : grant) : Prop :=
  exists d, dget usage (g_claims g) = Some (CVal d) /\ claim_requests d /\ forall k, wanted cx cs c (Some ar) scopes usage k (dget k d).

Lemma claim_steps_work cx c cli ar request scopes (cs : cdb) l : forall g done,
  dget c cs = Some cli -> claims_set_up cx cli -> claims_asked ar -> g_authreq g = Some ar ->
  mget_list "scope" request = Some scopes -> incl l usages ->
  (forall u, In u done -> fit_claims cx cs c ar scopes u g) ->
  exists g', iterM (claim_step cx c request) l (cs, g) = (Ok tt, (cs, g')) /\
    forall u, In u done \/ In u l -> fit_claims cx cs c ar scopes u g'.
Proof.
  induction l as [|i l IH]; intros g done C S A Ar Hs Hin Hd.
  - exists g. split; [reflexivity|]. intros u [X|[]]. auto.
  - destruct (get_claims_works cx cs c cli ar scopes i (Hin i (or_introl eq_refl)) C S A) as (d & E & R & Wd).
    destruct (IH (g_set_claims (dset i (CVal d) (g_claims g)) g) (i :: done) C S A Ar Hs) as (g' & E' & F).
    { intros x Hx. apply Hin. now right. }
    { intros u Hu. unfold fit_claims. cbn [g_claims g_set_claims]. destruct (String.eqb_spec u i) as [->|N].
      - exists d. rewrite dget_dset_eq. auto.
      - destruct Hu as [->|Hu]; [contradiction|]. destruct (Hd u Hu) as (d' & E1 & W). exists d'. split; [|exact W].
        now rewrite dget_dset_neq. }
    exists g'. split.
    { cbn [iterM]. unfold bind at 1. unfold claim_step at 1. unfold bind, lift, gets, on_cdb, on_grant, modify. cbn [fst snd].
      rewrite Hs. cbn [of_option]. rewrite Ar, E. exact E'. }
    intros u Hu. apply F. cbn in Hu |- *. tauto.
Qed.

Lemma authz_call_works cx clock c cli ar request scopes res (cs : cdb) g :
  dget c cs = Some cli -> claims_set_up cx cli -> claims_asked ar -> g_authreq g = Some ar -> mget_list "scope" request = Some scopes ->
  exists g', authz_call cx clock c request res (cs, g) = (Ok tt, (cs, g')) /\
    forall u, In u usages -> fit_claims cx cs c ar scopes u g'.
Proof.
  intros C S A Ar Hs. unfold authz_call. set (K := iterM _ _).
  assert (EK : forall g0, g_authreq g0 = Some ar -> exists g', K (cs, g0) = (Ok tt, (cs, g')) /\ forall u, In u usages -> fit_claims cx cs c ar scopes u g').
  { intros g0 Ar0. destruct (claim_steps_work cx c cli ar request scopes cs ["userinfo"; "introspection"; "id_token"; "access_token"] g0 [] C S A Ar0 Hs)
      as (g' & E & F).
    { intros x Hx. unfold usages. cbn in Hx |- *. intuition. }
    { intros u []. }
    exists g'. split; [exact E|]. intros u Hu. apply F. right. unfold usages in Hu. cbn in Hu |- *. intuition. }
  clearbody K. unfold bind, on_grant, modify, ret.
  destruct (gc_rules (cx_grant_config cx)), (gc_expires_in (cx_grant_config cx)), (mget_list "scope" request) as [[|x l]|];
    cbn [fst snd]; apply EK; exact Ar.
Qed.

Lemma handling_works e u c gid cli ar request scopes w g :
  fine (w_db w) -> good u -> good c -> good gid -> view (w_db w) [u; c; gid] = Some (EGrant g) ->
  dget c (w_cdb w) = Some cli -> claims_set_up (az_cx e) cli -> claims_asked ar -> g_authreq g = Some ar -> mget_list "scope" request = Some scopes ->
  exists g' w', handling e (session_key [u; c; gid]) request w = (Ok g', w') /\ w_cdb w' = w_cdb w /\
    forall x, In x usages -> fit_claims (az_cx e) (w_cdb w) c ar scopes x g'.
Proof.
  intros Hf Hu Hc Hg V C S A Ar Hs.
  destruct (authz_call_works (az_cx e) (az_clock e) c cli ar request scopes None (w_cdb w) g C S A Ar Hs) as (g' & E & F).
  exists g'. eexists. split; [|split; [|exact F]].
  - unfold handling.
    assert (R : in_db (get_session_info (session_key [u; c; gid]) false false true false false) w =
      (Ok (mkSI (session_key [u; c; gid]) u c gid None None (Some (EGrant g)) None None), w)).
    { unfold in_db. unfold get_session_info, bind, lift, ret. rewrite unpack3_good by assumption.
      destruct (read_cases [u; c; gid] (w_db w)) as [(x & Hr & Hv)|(x & Hr & Hv)]; rewrite Hr; [|congruence].
      assert (x = EGrant g) by congruence. subst x. now destruct w. }
    rewrite (bind_run _ _ _ _ _ R). cbv beta.
    assert (R2 : in_db (grant_of (mkSI (session_key [u; c; gid]) u c gid None None (Some (EGrant g)) None None)) w = (Ok g, w)).
    { unfold in_db. cbn. now destruct w. }
    rewrite (bind_run _ _ _ _ _ R2). cbv beta. cbn [in_uid in_cid in_gid]. rewrite E. reflexivity.
  - unfold in_db. cbn [w_db w_cdb]. destruct (poke _ _ _ _). reflexivity.
Qed.

(** ** The code *)
Lemma create_works e u c gid cli ar request w g :
  fine (w_db w) -> good u -> good c -> good gid -> view (w_db w) [u; c; gid] = Some (EGrant g) ->
  dget c (w_cdb w) = Some cli -> claims_set_up (az_cx e) cli -> claims_asked ar -> g_authreq g = Some ar ->
  mget_list "response_type" request = Some ["code"]%string -> g_active (mt_clock (az_code e)) g = true ->
  (forall p, exists v, mt_value (az_code e) (session_key [u; c; gid]) p = Ok v) ->
  exists r code p w', create_authn_response e request (session_key [u; c; gid]) w = (Ok r, w') /\
    dget "error" (ri_args r) = None /\ dget "code" (ri_args r) = Some (VStr (t_value code)) /\ ri_fragment r = Some false /\
    only_grant (w_db w) u c gid (with_tokens [code] g) (w_db w') /\ fine (w_db w') /\ w_cdb w' = w_cdb w /\
    made (mt_clock (az_code e)) (g_rules g) "authorization_code" None code /\
    t_class code = CCode /\ t_rules code = set_defaults CCode (rule (g_rules g) "authorization_code") /\
    mt_value (az_code e) (session_key [u; c; gid]) p = Ok (t_value code).
Proof.
  intros Hf Hu Hc Hg V C S A Ar Rt Ac Hv.
  destruct (mint_works (az_cx e) (az_code e) u c gid cli g g ar "authorization_code" None w) as (t & g1 & w1 & p & cls & M1 & Cd1 & Pv & Tm & Tr & _); auto.
  { right. now left. }
  { intros b Eb. discriminate. }
  destruct (mint_made (az_cx e) (az_code e) u c gid g g "authorization_code" None w t g1 w1 Hf Hu Hc Hg V M1) as (O1 & F1 & G1 & Md).
  injection Tm as <-.
  unfold create_authn_response. rewrite Rt. cbn [only]. change ("code" =? "none")%string with false. cbv iota.
  assert (R : in_db (get_session_info (session_key [u; c; gid]) false false true false false) w =
    (Ok (mkSI (session_key [u; c; gid]) u c gid None None (Some (EGrant g)) None None), w)).
  { unfold in_db. unfold get_session_info, bind, lift, ret. rewrite unpack3_good by assumption.
    destruct (read_cases [u; c; gid] (w_db w)) as [(x & Hr & Hv')|(x & Hr & Hv')]; rewrite Hr; [|congruence].
    assert (x = EGrant g) by congruence. subst x. now destruct w. }
  rewrite (bind_run _ _ _ _ _ R). cbv beta. cbv zeta.
  set (a0 := match truthy_get "scope" request with Some v => dset "scope" v _ | None => _ end).
  unfold lift at 1. cbn [of_option]. rewrite (bind_run _ _ w ["code"]%string w eq_refl). cbv beta.
  assert (R2 : in_db (grant_of (mkSI (session_key [u; c; gid]) u c gid None None (Some (EGrant g)) None None)) w = (Ok g, w)).
  { unfold in_db. cbn. now destruct w. }
  rewrite (bind_run _ _ _ _ _ R2). cbv beta. cbn [in_sid].
  assert (R3 : code_part e (session_key [u; c; gid]) g ["code"]%string a0 w = (Ok (Some t, g1, dset "code" (VStr (t_value t)) a0), w1)).
  { unfold code_part. change (smem "code" ["code"]%string) with true. cbv iota. rewrite (bind_run _ _ _ _ _ M1). reflexivity. }
  rewrite (bind_run _ _ _ _ _ R3). cbv beta iota.
  assert (R4 : forall a, token_part e (session_key [u; c; gid]) g1 ["code"]%string (Some t) a w1 = (Ok (None, a), w1)) by reflexivity.
  rewrite (bind_run _ _ _ _ _ (R4 _)). cbv beta iota.
  assert (R5 : forall i a, id_part e i ["code"]%string (Some t) None a w1 = (Ok (Some a), w1)) by reflexivity.
  rewrite (bind_run _ _ _ _ _ (R5 _ _)). cbv beta iota.
  change (forallb _ ["code"]%string) with true. cbv iota.
  eexists. exists t, p, w1. split; [reflexivity|]. cbn [ri_args ri_fragment].
  split. { rewrite dget_dset_neq by discriminate. unfold a0. destruct (truthy_get "scope" request); [rewrite dget_dset_neq by discriminate|];
           destruct (truthy_get "state" request); reflexivity. }
  split; [apply dget_dset_eq|]. split; [reflexivity|].
  assert (W : with_tokens [t] g = g1). { pose proof (with_more [] t g) as X. rewrite with_none in X. now rewrite G1, X. }
  rewrite W. split; [exact O1|]. split; [exact F1|]. split; [exact Cd1|]. split; [exact Md|].
  split. { destruct Md as (_ & X & _). apply token_map_of_type in X. cbn in X. congruence. } auto.
Qed.

(** ** The response *)
Lemma post_works e u c gid cli ar request uri w g g1 w1 :
  fine (w_db w) -> good u -> good c -> good gid -> view (w_db w) [u; c; gid] = Some (EGrant g) ->
  dget c (w_cdb w) = Some cli -> claims_set_up (az_cx e) cli -> claims_asked ar ->
  authorize e (session_key [u; c; gid]) request w = (Ok g1, w1) -> w_cdb w1 = w_cdb w -> g_authreq g1 = Some ar ->
  g_active (mt_clock (az_code e)) g1 = true -> mget_list "response_type" request = Some ["code"]%string ->
  (forall p, exists v, mt_value (az_code e) (session_key [u; c; gid]) p = Ok v) ->
  get_uri (az_u e) (w_cdb w) request "redirect_uri" = Ok uri -> (exists k, az_cookie e (session_key [u; c; gid]) (dget "state" request) = Ok k) ->
  mode_for_code request ->
  exists r w' code p, post_authentication e request (session_key [u; c; gid]) w = (Ok r, w') /\
    dget "error" (ri_args r) = None /\ dget "code" (ri_args r) = Some (VStr (t_value code)) /\ ri_uri r = Some uri /\
    view (w_db w') [u; c; gid] = Some (EGrant (with_tokens [code] g1)) /\ around (w_db w) u c gid (w_db w') /\ fine (w_db w') /\ w_cdb w' = w_cdb w /\
    made (mt_clock (az_code e)) (g_rules g1) "authorization_code" None code /\
    t_class code = CCode /\ t_rules code = set_defaults CCode (rule (g_rules g1) "authorization_code") /\
    mt_value (az_code e) (session_key [u; c; gid]) p = Ok (t_value code).
Proof.
  intros Hf Hu Hc Hg V C S A E1 Cd1 Ar Ac Rt Hv Gu (k & Hk) Md.
  destruct (authorize_ok _ _ _ _ _ _ _ _ _ Hf Hu Hc Hg V E1) as (Hf1 & (g0 & V1) & Ar1 & _ & _ & _).
  destruct (put_step (w_db w1) u c gid g0 g1 Hf1 Hu Hc Hg V1) as [[P1 P2] P3].
  set (w2 := mkW (snd (db_store [u; c; gid] (EGrant g1) (w_db w1))) (w_cdb w1)).
  assert (C2 : dget c (w_cdb w2) = Some cli) by (cbn [w_cdb w2]; rewrite Cd1; exact C).
  destruct (create_works e u c gid cli ar request w2 g1) as (r & code & p & w3 & E3 & Er & Ec & Fr & O3 & F3 & Cd3 & Mc & Cl & Tr & Pv); auto.
  assert (Rd : exists v, dsub "response_type" request = Ok v).
  { unfold dsub. unfold mget_list in Rt. destruct (dget "response_type" request) as [v|]; [eexists; reflexivity|discriminate]. }
  destruct Rd as (rtv & Rd).
  assert (Run : exists r', post_authentication e request (session_key [u; c; gid]) w = (Ok r', w3) /\ ri_args r' = ri_args r /\ ri_uri r' = Some uri).
  { unfold post_authentication.
    assert (X1 : attempt (authorize e (session_key [u; c; gid]) request) w = (Ok (Ok g1), w1)) by (unfold attempt; now rewrite E1).
    rewrite (bind_run _ _ _ _ _ X1). cbv beta iota. rewrite unpack3_good by assumption.
    unfold lift at 1. rewrite (bind_run _ _ w1 (u, c, gid) w1 eq_refl). cbv beta iota.
    assert (X2 : attempt (in_db (db_store [u; c; gid] (EGrant g1))) w1 = (Ok (Ok tt), w2)).
    { unfold attempt, in_db, w2. rewrite db_store3 by (auto; apply Hf1). reflexivity. }
    rewrite (bind_run _ _ _ _ _ X2). cbv beta iota. rewrite Rd. unfold lift at 1. rewrite (bind_run _ _ w2 rtv w2 eq_refl). cbv beta.
    rewrite (bind_run _ _ _ _ _ E3). cbv beta zeta. rewrite (bind_run (gets w_cdb) _ w3 (w_cdb w3) w3 eq_refl). cbv beta.
    assert (Cd : w_cdb w3 = w_cdb w) by (rewrite Cd3; exact Cd1). rewrite Cd, Gu. cbv beta iota. rewrite Hk.
    unfold lift at 1. rewrite (bind_run _ _ w3 k w3 eq_refl). cbv beta.
    destruct Md as [->|[->| ->]].
    - eexists. split; [reflexivity|]. split; reflexivity.
    - unfold response_mode. change (val_eqb (VStr "query") (VStr "form_post")) with false. change (val_eqb (VStr "query") (VStr "fragment")) with false.
      change (val_eqb (VStr "query") (VStr "query")) with true. cbn [ri_fragment]. rewrite Fr. eexists. split; [reflexivity|]. split; reflexivity.
    - unfold response_mode. change (val_eqb (VStr "form_post") (VStr "form_post")) with true. cbn [ri_uri of_option rbind].
      eexists. split; [reflexivity|]. split; reflexivity. }
  destruct Run as (r' & Run & Ra & Ru). exists r', w3, code, p. rewrite Ra.
  split; [exact Run|]. split; [exact Er|]. split; [exact Ec|]. split; [exact Ru|]. split; [apply O3|].
  split. { eapply around_trans; [exact Ar1|]. eapply around_trans; [exact P2|]. exact (proj2 O3). }
  split; [exact F3|]. split; [rewrite Cd3; exact Cd1|]. auto.
Qed.

Lemma part2_works e u c gid cli ar request cid uri w g g1 w1 ae :
  fine (w_db w) -> good u -> good c -> good gid -> view (w_db w) [u; c; gid] = Some (EGrant g) ->
  dget c (w_cdb w) = Some cli -> claims_set_up (az_cx e) cli -> claims_asked ar ->
  authorize e (session_key [u; c; gid]) request w = (Ok g1, w1) -> w_cdb w1 = w_cdb w -> g_authreq g1 = Some ar -> g_authn g1 = Some ae ->
  g_active (mt_clock (az_code e)) g1 = true -> mget_list "response_type" request = Some ["code"]%string ->
  (forall p, exists v, mt_value (az_code e) (session_key [u; c; gid]) p = Ok v) ->
  get_uri (az_u e) (w_cdb w) request "redirect_uri" = Ok uri -> (exists k, az_cookie e (session_key [u; c; gid]) (dget "state" request) = Ok k) ->
  mode_for_code request -> dget "client_id" request = Some (VStr cid) -> managed e uri (ae_valid_until ae) ->
  exists r w' code p, authz_part2 e request (session_key [u; c; gid]) w = (Ok r, w') /\
    dget "error" (ri_args r) = None /\ dget "code" (ri_args r) = Some (VStr (t_value code)) /\ ri_uri r = Some uri /\
    view (w_db w') [u; c; gid] = Some (EGrant (with_tokens [code] g1)) /\ around (w_db w) u c gid (w_db w') /\ fine (w_db w') /\ w_cdb w' = w_cdb w /\
    made (mt_clock (az_code e)) (g_rules g1) "authorization_code" None code /\
    t_class code = CCode /\ t_rules code = set_defaults CCode (rule (g_rules g1) "authorization_code") /\
    mt_value (az_code e) (session_key [u; c; gid]) p = Ok (t_value code).
Proof.
  intros Hf Hu Hc Hg V C S A E1 Cd1 Ar Ae Ac Rt Hv Gu Ck Md Ci Mg.
  destruct (post_works e u c gid cli ar request uri w g g1 w1 Hf Hu Hc Hg V C S A E1 Cd1 Ar Ac Rt Hv Gu Ck Md)
    as (r & w' & code & p & E & Er & Ec & Ru & V' & O & F & Cd & Rest).
  assert (Fin : exists r', authz_part2 e request (session_key [u; c; gid]) w = (Ok r', w') /\
    dget "error" (ri_args r') = dget "error" (ri_args r) /\ dget "code" (ri_args r') = dget "code" (ri_args r) /\ ri_uri r' = ri_uri r).
  { unfold authz_part2.
    assert (X : attempt (post_authentication e request (session_key [u; c; gid])) w = (Ok (Ok r), w')) by (unfold attempt; now rewrite E).
    rewrite (bind_run _ _ _ _ _ X). cbv beta iota zeta. unfold managed in Mg. destruct (az_iframe e).
    - destruct (Mg eq_refl) as (Lt & Op & (o & Or)).
      assert (Y : attempt (in_db (get_authentication_event (session_key [u; c; gid]))) w' = (Ok (Ok (Some ae)), w')).
      { unfold attempt, in_db. rewrite (event_read u c gid (w_db w') _ Hu Hc Hg V').
        assert (Z : g_authn (with_tokens [code] g1) = Some ae) by exact Ae.
        rewrite Z. now destruct w'. }
      rewrite (bind_run _ _ _ _ _ Y). cbv beta iota. apply Z.ltb_lt in Lt. rewrite Lt. cbn [negb].
      destruct (Op (ae_authn_time ae)) as (ob & Eo). rewrite Eo. unfold lift at 1. rewrite (bind_run _ _ w' ob w' eq_refl). cbv beta zeta.
      unfold msub_str at 1. rewrite Ci. unfold lift at 1. rewrite (bind_run _ _ w' cid w' eq_refl). cbv beta.
      rewrite Ru. unfold lift at 1. cbn [of_option]. rewrite (bind_run _ _ w' uri w' eq_refl). cbv beta. rewrite Or.
      unfold lift at 1. rewrite (bind_run _ _ w' o w' eq_refl). cbv beta.
      unfold dsub. rewrite Ci. unfold lift at 1. cbn [of_option]. rewrite (bind_run _ _ w' (VStr cid) w' eq_refl). unfold ret.
      eexists. split; [reflexivity|]. cbn [ri_args with_args ri_uri].
      rewrite !(dget_dset_neq "error") by discriminate. rewrite !(dget_dset_neq "code") by discriminate.
      destruct ob as [[v k]|]; [|auto]. destruct (nonempty v); [|auto]. unfold add_cookie. destruct (ri_cookie r) as [[]|]; auto.
    - unfold dsub. rewrite Ci. unfold lift at 1. cbn [of_option]. rewrite (bind_run _ _ w' (VStr cid) w' eq_refl). unfold ret.
      eexists. split; [reflexivity|]. cbn [ri_args with_args ri_uri].
      rewrite !(dget_dset_neq "error") by discriminate. rewrite !(dget_dset_neq "code") by discriminate. auto. }
  destruct Fin as (r' & E' & Q1 & Q2 & Q3). exists r', w', code, p. rewrite Q1, Q2, Q3. auto 20.
Qed.

(** ** The authorization endpoint *)
Lemma first_session_fine is_user e m acr (request : msg) u c w :
  well_formed is_user (w_db w) -> good u -> good c -> good (au_newid e) -> is_user u -> ~ is_user c ->
  dget "client_id" request = Some (VStr c) ->
  exists s', first_session e m acr request (VStr u) w = (Ok (session_key [u; c; au_newid e]), mkW s' (w_cdb w)) /\
    view s' [u; c; au_newid e] = Some (EGrant (new_grant (au_now e) (au_newid e) (public_id (au_sha e) u (au_salt e))
      (Some request) (Some (first_event e m u acr)) (au_rules e (w_cdb w) c) None)) /\ well_formed is_user s'.
Proof.
  intros W Hu Hc Hn Uu Uc C.
  destruct (first_session_effect is_user e m acr request u c w W Hu Hc Hn Uu Uc C) as (s' & E & V & _).
  exists s'. split; [exact E|]. split; [exact V|].
  unfold first_session in E. unfold bind at 1, lift at 1 in E. cbn [str_of] in E.
  unfold bind at 1, lift at 1, msub_str in E. rewrite C in E. unfold bind, gets, in_db, login_session in E. rewrite make_sub_public in E.
  cbv zeta in E.
  match type of E with context [create_session ?a ?b ?ae ?ar ?us ?cl ?sb ?ru ?sc (w_db w)] =>
    assert (X := mstep_eff false is_user (OCreate a b ae ar us cl sb ru sc) (w_db w)); cbn [mstep] in X; unfold bind in X;
    destruct (create_session a b ae ar us cl sb ru sc (w_db w)) as [[r|x] s1] end; [|discriminate E].
  injection E as _ <-. cbn [snd] in X. eapply eff_wf; [|exact W]. apply X; [|exact W]. exact (conj Hu (conj Hc (conj Hn (conj Uu Uc)))).
Qed.

Lemma claims_asked_ext r r' : dget "claims" r' = dget "claims" r -> claims_asked r -> claims_asked r'.
Proof. intros E. unfold claims_asked. now rewrite E. Qed.
Lemma strs_of_vstrs l : strs_of (map VStr l) = l.
Proof. unfold strs_of. induction l as [|x l IH]; cbn; [reflexivity|]. cbn in IH. now rewrite IH. Qed.
Lemma wanted_ext cx cs c ar ar' scopes usage k o : dget "claims" ar' = dget "claims" ar ->
  wanted cx cs c (Some ar) scopes usage k o <-> wanted cx cs c (Some ar') scopes usage k o.
Proof. intros E. unfold wanted, from_request. rewrite E. reflexivity. Qed.

Lemma session_works sid_of is_user e az oidc w request c cli uri u m scopes :
  recognised is_user e az oidc w request c cli uri u m -> asks_code az w request c uri scopes ->
  code_provided sid_of e az w c cli uri u m ->
  get_uri (az_u az) (w_cdb w) (changed e request) "redirect_uri" = Ok uri ->
  exists r w' g code p, process_request e az oidc (inr request) w = (Ok (AResponse r), w') /\
    dget "error" (ri_args r) = None /\ dget "code" (ri_args r) = Some (VStr (t_value code)) /\ ri_uri r = Some uri /\
    view (w_db w') [u; c; au_newid e] = Some (EGrant g) /\ fine (w_db w') /\ w_cdb w' = w_cdb w /\
    g_sub g = public_id (au_sha e) u (au_salt e) /\ g_authreq g = Some (changed e request) /\ g_issued g = [code] /\ g_used g = 1 /\
    g_revoked g = false /\ g_not_before g = 0 /\ g_rules g = rules_of e az w c /\ g_expires_at g = end_then az /\
    (exists ae, g_authn g = Some ae /\ ae_valid_until ae = au_now e + lifetime m) /\
    g_scope g = scope_then az scopes /\
    (match az_handler az with AHandling => fit_claims (az_cx az) (w_cdb w) c request scopes "userinfo" g | AImplicit _ => g_claims g = [] end) /\
    made (mt_clock (az_code az)) (rules_of e az w c) "authorization_code" None code /\
    t_class code = CCode /\ t_rules code = set_defaults CCode (rule (rules_of e az w c) "authorization_code") /\
    mt_value (az_code az) (session_key [u; c; au_newid e]) p = Ok (t_value code).
Proof.
  intros [W (Hu & Hc & Hn & Uu & Uc) En (name & acr & Me) (id & ts & Fi & Ui & Sd)] [Rt Sc As Mo _] [Cs _ Lv Ha Ck Mg Az] Gu.
  assert (Em := En). destruct Em as (Ci & Cc & _ & Ru & _).
  assert (K := changed_get e request).
  rewrite (process_entered e az oidc w request c cli (VStr uri) En).
  destruct (authn_args_ok e request acr cli None (VStr uri) Ru) as (args & Ea).
  assert (Id : identify e m (changed e request) w = (Ok (Some id, ts), w)) by (apply identify_finds; now apply finds_changed).
  destruct (first_session_fine is_user e m acr (changed e request) u c w W Hu Hc Hn Uu Uc) as (s1 & E1 & V1 & W1).
  { rewrite K by discriminate. exact Ci. }
  assert (G : go_on e (changed e request) name args m acr None (VStr uri) (Some id) w =
    (Ok (SDone (session_key [u; c; au_newid e]) id (VStr u)), mkW s1 (w_cdb w))).
  { unfold go_on. rewrite (dsub_get _ _ _ Ui). unfold lift at 1. rewrite (bind_run _ _ w (VStr u) w eq_refl). cbv beta iota. rewrite Sd.
    unfold ret at 1. rewrite (bind_run _ _ w (Some ""%string) w eq_refl). cbv beta iota. change (nonempty "") with false. cbv iota.
    rewrite (bind_run _ _ _ _ _ E1). reflexivity. }
  rewrite <- (setup_run e request (VStr uri) cli None w name acr m (Some id) ts args Me Id Ea) in G.
  rewrite (bind_run _ _ _ _ _ G). cbv beta iota.
  set (w1 := mkW s1 (w_cdb w)) in *. set (g0 := new_grant _ _ _ _ _ _ _) in V1.
  assert (F1 : fine s1) by (split; apply W1).
  assert (As' : claims_asked (changed e request)) by (eapply claims_asked_ext; [|exact As]; apply K; discriminate).
  assert (Hs : mget_list "scope" (changed e request) = Some scopes).
  { unfold mget_list. rewrite K by discriminate. rewrite Sc. cbn. now rewrite strs_of_vstrs. }
  assert (Az' : exists g1 w2, authorize az (session_key [u; c; au_newid e]) (changed e request) w1 = (Ok g1, w2) /\ w_cdb w2 = w_cdb w /\
    g_sub g1 = g_sub g0 /\ g_authreq g1 = g_authreq g0 /\ g_authn g1 = g_authn g0 /\ g_issued g1 = [] /\ g_used g1 = 0 /\ g_revoked g1 = false /\ g_not_before g1 = 0 /\
    g_rules g1 = rules_of e az w c /\ g_expires_at g1 = end_then az /\ g_scope g1 = scope_then az scopes /\
    match az_handler az with AHandling => fit_claims (az_cx az) (w_cdb w) c (changed e request) scopes "userinfo" g1 | AImplicit _ => g_claims g1 = [] end).
  { unfold rules_of, rules_then, end_then, scope_then, authorize. destruct Az as [->| ->].
    - destruct (handling_works az u c (au_newid e) cli (changed e request) (changed e request) scopes w1 g0 F1 Hu Hc Hn V1 Cc Cs As' eq_refl Hs) as (g1 & w2 & E2 & Cd2 & Fc).
      destruct (handling_ok az u c (au_newid e) (changed e request) w1 g0 g1 w2 F1 Hu Hc Hn V1 E2) as (_ & _ & _ & I1 & U1 & Au).
      exists g1, w2. split; [exact E2|]. split; [exact Cd2|]. split; [apply Au|]. split; [apply Au|]. split; [apply Au|]. split; [exact I1|]. split; [exact U1|].
      split; [apply (au_revoked _ _ _ _ _ _ _ Au)|]. split; [apply (au_not_before _ _ _ _ _ _ _ Au)|].
      split; [apply (AuthzEndpointSpec.au_rules _ _ _ _ _ _ _ Au)|]. split; [apply (au_expires _ _ _ _ _ _ _ Au)|].
      split. { destruct (au_scope _ _ _ _ _ _ _ Au) as (sc & Hs' & ->). assert (sc = scopes) by congruence. subst sc. now destruct scopes. }
      apply Fc. cbn. auto.
    - exists g0, w1. split.
      { unfold implicit, bind, in_db, get_grant, bind, lift, ret. rewrite unpack3_good by assumption.
        destruct (read_cases [u; c; au_newid e] (w_db w1)) as [(x & Hr & Hv)|(x & Hr & Hv)]; cbn [w_db w1] in Hr, Hv |- *; rewrite Hr; [|congruence].
        assert (x = EGrant g0) by congruence. subst x. reflexivity. }
      split; [reflexivity|]. do 10 (split; [reflexivity|]). reflexivity. }
  destruct Az' as (g1 & w2 & E3 & Cd3 & Zs & Zr & Za & I1 & U1 & Zv & Zn & Rl & Ze & Zc & Zf).
  destruct (part2_works az u c (au_newid e) cli (changed e request) (changed e request) c uri w1 g0 g1 w2 (first_event e m u acr))
    as (r & w' & code & p & E2 & Er & Ec & Eu & V2 & _ & F2 & Cd2 & Md & Cl & Tr & Pv); auto.
  { apply g_active_iff. unfold grant_usable. rewrite Rl, U1, Zv, Zn, Ze. destruct Lv as [L1 L2].
    split; [reflexivity|]. split. { intros k Hk. specialize (L1 k Hk). lia. } split; [congruence|]. intros N. apply L2. congruence. }
  { unfold mget_list in *. rewrite K by discriminate. exact Rt. }
  { intros q. destruct (Ha q) as (v & Ev & _). eauto. }
  { unfold mode_for_code in *. rewrite K by discriminate. exact Mo. }
  { rewrite K by discriminate. exact Ci. }
  rewrite (bind_run _ _ _ _ _ E2). exists r, w', (with_tokens [code] g1), code, p.
  split; [reflexivity|]. split; [exact Er|]. split; [exact Ec|]. split; [exact Eu|]. split; [exact V2|]. split; [exact F2|]. split; [exact Cd2|].
  unfold with_tokens. cbn [g_sub g_authreq g_issued g_used g_revoked g_not_before g_rules g_expires_at g_authn g_scope g_claims g_set_used g_set_issued].
  split; [exact Zs|]. split; [exact Zr|]. split. { rewrite I1. reflexivity. } split. { rewrite U1. reflexivity. }
  split; [exact Zv|]. split; [exact Zn|]. split; [exact Rl|]. split; [exact Ze|].
  split. { exists (first_event e m u acr). split; [exact Za|reflexivity]. }
  split; [exact Zc|].
  split. { destruct (az_handler az); [|exact Zf]. destruct Zf as (d & D1 & D2 & D3).
    exists d. split; [exact D1|]. split; [exact D2|]. intros k. rewrite wanted_ext; [apply D3|]. apply K. discriminate. }
  rewrite <- Rl. auto.
Qed.
