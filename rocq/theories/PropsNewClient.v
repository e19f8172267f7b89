(** PropsNewClient.v: C96, a client that registers can use the provider. *)
From Verif Require Import Base BaseProofs Types Monad MonadProofs SessionKey Ctx ScopesSpec ScopesProofs Uri UriSpec UriProofs PropsUri Claims ClaimsSpec World Minting
  ClientAuthn ClientAuthnSpec TokenEndpoint Registration RegistrationSpec RegistrationProofs PropsRegistration Authz AuthzRequest AuthzRequestSpec Response AuthzEndpoint AuthzEndpointSpec SetupAuth SetupAuthSpec
  Manager ManagerSpec Fronts FrontsSpec AuthzFront UserInfo UserInfoSpec UserinfoFront UserinfoFrontSpec FlowSpec FrontFlowSpec PropsFrontFlow NewClientSpec NewClientProofs.
Local Open Scope Z_scope.

Lemma supported_ddel provider rq : supported provider (ddel "client_id" rq) -> supported provider rq.
Proof.
  intros S pref prov v I E. apply S; [exact I|]. rewrite dget_ddel_neq; [exact E|]. intros ->. cbn in I.
  repeat (destruct I as [I|I]; [discriminate|]). exact I.
Qed.

(** A registration request that keeps to the rules is accepted, the response has the id and the secret, and the record is such that the client
    can authenticate with the secret until it expires, use the addresses and the response types it has registered; nothing else changes. *)
Theorem C96_registered : forall c d rq s rq' uris i,
  effective c true rq rq' -> registrable c rq' uris -> given_id true d (rg_cdb s) rq' i ->
  exists args s' info,
    client_registration_setup c d true true rq s = (Ok args, s') /\
    (In "client_id"%string (rc_params c) -> dget "client_id" args = Some (VStr i)) /\
    (In "client_secret"%string (rc_params c) -> dget "client_secret" args = Some (VStr (dr_secret d))) /\
    dget i (rg_cdb s') = Some info /\ only_client i (dr_rat d) s s' /\
    dget "client_secret" info = Some (VStr (dr_secret d)) /\
    (forall now, secret_lasts c d now -> not_expired now info) /\
    (forall k, In k ["auth_method"; "allowed_scopes"; "userinfo_claims"; "id_token_claims"; "introspection_claims"; "access_token_claims"]%string -> dget k info = None) /\
    dget "response_types" info = dget "response_types" rq' /\
    exists l, dget "redirect_uris" info = Some (VList l) /\ Forall proper_entry l /\ map base_of l = map (before_query (rc_url c)) uris /\
      forall uri, In uri uris -> matches (rc_url c) l uri.
Proof.
  intros c d rq s rq' uris i (v & V & Q) Rb G. fold (rm_blanks v) in Q.
  destruct (client_info_total c rq' uris (server_record c d true true i) Rb) as (info & l & CI & Vl & Dl & Fk & S1 & S2 & K); [now rewrite server_record_get|now rewrite server_record_get|].
  destruct Rb as [M Pl Ot Su Ke Lo (U & F) Qu].
  assert (Mt : match_client_request c (rm_blanks v) = Ok tt) by (apply supported_match; apply supported_ddel; now rewrite <- Q).
  assert (Ch : chosen d true (rg_cdb s) (rm_blanks v) = Ok (i, rq')).
  { destruct G as (before & after & L & Fr & Fb). unfold chosen, new_client_id. rewrite L, Q. clear -Fr Fb.
    replace (find _ (before ++ i :: after)) with (Some i); [auto|]. symmetry.
    induction Fb as [|y b H Fb IH]; cbn; unfold dmem in *; [now rewrite Fr|]. destruct (dget y (rg_cdb s)); [exact IH|congruence]. }
  assert (Kg : forall k, ~ In k worked_on ->
               dget k info = match dget k rq' with Some w => if smem k ignored then server_value c d true true i k else Some w | None => server_value c d true true i k end).
  { intros k N. rewrite K by exact N. rewrite take_over_get by exact M. now rewrite server_record_get. }
  assert (Ab : forall k, In k not_its_business -> dget k info = server_value c d true true i k).
  { intros k I. rewrite Kg; [now rewrite Pl|]. intros X. cbn in X. repeat (destruct X as [<-|X]; [cbn in I; clear -I; repeat (destruct I as [I|I]; [discriminate|]); exact I|]). exact X. }
  destruct (shown_total c info l uris Dl Fk) as (args & Sh); [exact S1|exact S2|].
  assert (Run : client_registration_setup c d true true rq s = (Ok args, done d true i info (loaded i rq' (begun c d true true i s)))).
  { rewrite setup_eq, V. cbn [rbind]. rewrite Mt. cbn [rbind]. rewrite Ch. cbv zeta. rewrite CI, Lo, Sh. reflexivity. }
  destruct (C26_success _ _ _ _ _ _ _ _ Run) as (i2 & rq2 & info2 & E2 & G2 & I2 & O2 & _ & A2 & _).
  assert (rq2 = rq'). { destruct E2 as (v2 & V2 & ->). assert (v2 = v) by congruence. subst v2. now symmetry. } subst rq2.
  assert (i2 = i) by now apply (given_unique true d (rg_cdb s) rq'). subst i2.
  exists args, (done d true i info (loaded i rq' (begun c d true true i s))), info2.
  assert (I3 : info2 = info). { unfold done, rg_cdb in I2. cbn in I2. rewrite dget_dset_eq in I2. congruence. } subst info2.
  assert (Ci : dget "client_id" info = Some (VStr i)).
  { rewrite Kg by (cbn; intuition discriminate). rewrite Q, dget_ddel. reflexivity. }
  assert (Cs : dget "client_secret" info = Some (VStr (dr_secret d))) by (rewrite Ab by (cbn; tauto); reflexivity).
  split; [exact Run|].
  split. { intros P. rewrite A2; auto. cbn. intuition discriminate. }
  split. { intros P. rewrite A2; auto. cbn. intuition discriminate. }
  split; [exact I2|]. split; [exact O2|]. split; [exact Cs|].
  split.
  { intros now Ls w Ew. rewrite Ab in Ew by (cbn; tauto). unfold server_value in Ew. cbn [String.eqb Ascii.eqb Bool.eqb andb] in Ew.
    destruct (rc_expires c) eqn:Ex; [|discriminate]. cbn [andb] in Ew. destruct (dr_now d + rc_expires_in c =? 0) eqn:Z0; [discriminate|]. cbn [negb] in Ew.
    exists (dr_now d + rc_expires_in c). assert (w = VInt (dr_now d + rc_expires_in c)) by congruence. subst w. split; [cbn; apply Z.eqb_refl|]. right.
    destruct Ls as [Ls|Ls]; [congruence|exact Ls]. }
  split. { intros k I. rewrite Ab. - cbn in I. repeat (destruct I as [<-|I]; [reflexivity|]). destruct I. - cbn in I |- *. tauto. }
  split. { rewrite Kg by (cbn; intuition discriminate). destruct (dget "response_types" rq'); reflexivity. }
  exists l. split; [exact Dl|]. split.
  { clear -Fk Qu. induction Fk as [|uri e uris l (p & _ & _ & ->) Fk IH]; constructor; [now apply kept_proper|exact IH]. }
  split; [now apply kept_bases|]. intros uri I. now apply kept_matches with uris.
Qed.
Print Assumptions C96_registered.

(** What was registered is what the endpoints ask for: the hypotheses of C95 about the client. *)
Lemma new_arrives gt re az pk (clients : cdb) rq request i (info : msg) rts :
  comes gt re az pk rq request i -> dget i clients = Some info -> dget "response_types" info = dget "response_types" rts -> registers_code rts ->
  arrives gt re az pk clients rq request i ["code"]%string.
Proof.
  intros [A1 A2 A3 A4 A5 A6 A7] C E R. constructor; auto.
  - exists info. split; [exact C|]. rewrite E. destruct R as [-> |(l & -> & I)]; [intros w; reflexivity|]. unfold vstrs.
    destruct l as [|x l]; [destruct I|]. cbn [map]. exists "code"%string. split; [change (In (VStr "code") (map VStr (x :: l))); now apply in_map|]. intros w. reflexivity.
  - intros info' l v C' El I. assert (info' = info) by congruence. subst info'. rewrite E in El. destruct R as [R|(l' & R & _)]; [rewrite R in El; discriminate|].
    rewrite R in El. unfold vstrs in El. assert (l = map VStr l') by congruence. subst l. apply in_map_iff in I. destruct I as (s & <- & _). eauto.
Qed.

(** After registering, a client can go through the code flow: with the id and the secret it was given, at each address it has registered. The addresses are as
    urllib.parse.unquote leaves them, and differ before the query part; what the provider knows about the client is what the registration has put down,
    and how it has authenticated. *)
Theorem C96_flow : forall c d rq s rq' uris i,
  effective c true rq rq' -> registrable c rq' uris -> registers_code rq' -> NoDup (map (before_query (rc_url c)) uris) ->
  given_id true d (rg_cdb s) rq' i -> incl ["client_id"; "client_secret"]%string (rc_params c) ->
  exists args s' secret,
    client_registration_setup c d true true rq s = (Ok args, s') /\
    dget "client_id" args = Some (VStr i) /\ dget "client_secret" args = Some (VStr secret) /\
  forall sid_of b64hash is_user gt re oidc pk e az a0 arq auth request cli uri u m scopes en,
  let w0 := fs_world (as_front a0) in
  let asked := with_method pk request in
  dget i (w_cdb w0) = dget i (rg_cdb s') -> az_u az = rc_url c -> In uri uris -> ul_unquote (az_u az) uri = uri ->
  comes gt re az pk arq request i -> wants_code request scopes ->
  recognised is_user e az oidc w0 asked i cli uri u m -> codes_made sid_of e az w0 i uri u m ->
  exists r a1 code resp,
    authorization_request gt re oidc pk e az arq auth a0 = (Ok (AResponse r), a1) /\
    ~ failed (ri_args r) /\ dget "code" (ri_args r) = Some (VStr code) /\ dget "state" (ri_args r) = truthy_get "state" request /\
    respond en authorization_endpoint r = Ok resp /\
    (dget "response_mode" request <> Some (VStr "form_post") ->
     exists sep, rs_body resp = Text (uri ++ sep ++ to_urlencoded en (ri_args r)) /\ In sep ["?"; "&"; "#"]%string) /\
  forall f2 cli2 gt2 token_rq token_auth token_asked idt sharing helpers m1 m2 ir now,
    left_alone u i (au_newid e) (fs_world (as_front a1)) (fs_world f2) -> dget i (w_cdb (fs_world f2)) = Some cli2 ->
    (dget "auth_method" cli2 = None \/ exists noted, dget "auth_method" cli2 = Some (VDict noted)) ->
    secret_lasts c d (o_now (gt_out gt2)) -> shows_secret gt2 (fs_jti f2) i secret token_rq token_auth token_asked ->
    code_request b64hash (match pk with Some _ => true | None => false end) asked token_asked code ->
    (forall cli', noted cli cli' -> tokens_provided sid_of e az w0 i cli' u scopes idt helpers m1 m2 ir now) ->
    exists args f3 access_token,
      token_request sid_of b64hash (az_cx az) idt gt2 sharing helpers (match pk with Some _ => true | None => false end) now m1 m2 ir token_rq token_auth f2
        = (Ok (AOk args None), f3) /\
      dget "access_token" args = Some (VStr access_token) /\
  forall f4 later o ep cls userinfo_rq userinfo_auth,
    left_alone u i (au_newid e) (fs_world f3) (fs_world f4) ->
    by_default ep -> authz_str userinfo_auth = Some ("Bearer " ++ access_token)%string -> access_token <> ""%string ->
    usable_once (rule (rules_of e az w0 i) "access_token") ->
    in_time (ur_expires_in (rule (rules_of e az w0 i) "access_token")) (mt_clock m1) later -> later < au_now e + lifetime m ->
    exists claims how,
      let s := mkFr (mkCA (w_cdb (fs_world f4)) (fs_jti f4)) (w_db (fs_world f4)) in
      userinfo_request sid_of o ep cls [] (az_cx az) later userinfo_rq userinfo_auth s = (Ok (UClaims claims i how), s) /\
      dget "sub" claims = Some (VStr (public_id (au_sha e) u (au_salt e))) /\
      forall k x, k <> "sub"%string -> (dget k claims = Some x <->
        az_handler az = AHandling /\ user_has (az_cx az) u k x /\
        exists spec, wanted (az_cx az) (w_cdb w0) i (Some asked) scopes "userinfo" k (Some spec) /\ admits spec x).
Proof.
  intros c d rq s rq' uris i Ef Rb Rc Nd G Sh.
  destruct (C96_registered c d rq s rq' uris i Ef Rb G) as (args & s' & info & Run & Ai & As & Di & _ & Se & Ex & No & Rt & l & Dl & Pe & Bs & Ma).
  exists args, s', (dr_secret d). split; [exact Run|]. split; [apply Ai, Sh; cbn; tauto|]. split; [apply As, Sh; cbn; tauto|].
  intros sid_of b64hash is_user gt re oidc pk e az a0 arq auth request cli uri u m scopes en w0 asked Ci Ur Iu Uq Co Wa R Cm.
  rewrite Di in Ci.
  assert (cli = info). { destruct (re_entered _ _ _ _ _ _ _ _ _ _ _ R) as (_ & Cc & _). fold w0 in Cc. congruence. } subst cli.
  assert (Ag : forall k, k <> "code_challenge_method"%string -> dget k asked = dget k request) by (intros k N; now apply with_method_get).
  assert (Ar : arrives gt re az pk (w_cdb w0) arq request i ["code"]%string) by (eapply new_arrives; eauto).
  assert (Ak : asks_code az w0 asked i uri scopes).
  { destruct Wa as [W1 W2 W3]. constructor.
    - unfold mget_list. rewrite Ag by discriminate. now rewrite (co_type _ _ _ _ _ _ _ Co).
    - now rewrite Ag by discriminate.
    - unfold claims_asked. now rewrite Ag by discriminate.
    - unfold mode_for_code. now rewrite Ag by discriminate.
    - exists l. split; [exists info; auto|]. split; [exact Pe|]. rewrite Bs. split; [exact Nd|]. rewrite Uq, Ur. auto. }
  assert (Pr : code_provided sid_of e az w0 i info uri u m).
  { destruct Cm as [[B1 B2] M2 M3 M4 M5 M6]. constructor; auto.
    - constructor; auto; [|left; apply No; cbn; tauto]. intros usage v I E. exfalso. rewrite No in E; [discriminate|].
      cbn in I. destruct I as [<-|[<-|[<-|[<-|[]]]]]; cbn; tauto.
    - intros q. rewrite Ur. apply Rb. }
  destruct (C95_flow sid_of b64hash is_user gt re oidc pk e az a0 arq auth request i info uri u m scopes en Ar R Ak Pr)
    as (r & a1 & code & resp & F1 & _ & _ & F2 & F3 & F4 & F5 & F6 & F7).
  exists r, a1, code, resp. do 6 (split; [assumption|]).
  intros f2 cli2 gt2 trq tauth task idt sharing helpers m1 m2 ir now La C2 Nt Ls Ss Cr Tp.
  apply (F7 f2 cli2 gt2 trq tauth task); auto.
  assert (Nn : noted info cli2).
  { destruct La as (_ & _ & _ & La). destruct (re_entered _ _ _ _ _ _ _ _ _ _ _ R) as (_ & Cc & _).
    rewrite C2 in La. destruct (dget i (w_cdb (fs_world (as_front a1)))) as [cli1|] eqn:C1; [|easy].
    destruct (PropsFlow.flow_any sid_of b64hash is_user e az oidc w0 asked i info uri u m scopes R Ak Pr) as (r' & w1 & code' & E' & _ & _ & _ & _ & _ & C' & _).
    assert (Run2 := C95_front gt re oidc pk e az a0 arq auth request i info uri ["code"]%string Ar (proj1 (proj2 (re_names _ _ _ _ _ _ _ _ _ _ _ R))) Ci).
    assert (Run3 : authorization_request gt re oidc pk e az arq auth a0 = (Ok (AResponse r'), mkAS (mkFS w1 (fs_jti (as_front a0))) (as_pushed a0))).
    { destruct (re_entered _ _ _ _ _ _ _ _ _ _ _ R) as (Ci' & _ & _ & Ru & _). rewrite Ag in Ci', Ru by discriminate.
      apply Run2; auto; [apply Ak|apply Pr]. }
    assert (a1 = mkAS (mkFS w1 (fs_jti (as_front a0))) (as_pushed a0)) by congruence. subst a1. cbn [as_front fs_world] in C1.
    assert (cli1 = info) by congruence. subst cli1. exact La. }
  destruct Ss as [S1 S2 (ml1 & mt & ml2 & S3 & S4 & S6) S5]. constructor; auto.
  - intros v E. apply (Ex _ Ls v). rewrite <- E. symmetry. apply Nn. discriminate.
  - exists ml1, mt, ml2. split; [exact S3|]. split; [exact S4|]. eapply ClientAuthnProofs.proves_secret; [|exact S6]. rewrite Nn by discriminate. exact Se.
Qed.
Print Assumptions C96_flow.


(** Two addresses that differ in the query part only are both accepted, but the second is of no use: a request with it is refused. *)
Theorem C96_addresses_refuted : forall c d rq s rq' u1 u2 rest i p1 p2,
  effective c true rq rq' -> registrable c rq' (u1 :: u2 :: rest) -> given_id true d (rg_cdb s) rq' i -> i <> ""%string ->
  ul_split (rc_url c) u1 = Ok p1 -> ul_split (rc_url c) u2 = Ok p2 -> up_base p1 = up_base p2 ->
  ~ same_params (query_of (rc_url c) p1) (query_of (rc_url c) p2) -> ul_unquote (rc_url c) u2 = u2 ->
  exists args s', client_registration_setup c d true true rq s = (Ok args, s') /\
    forall request uri, dget "client_id" request = Some (VStr i) -> dget "redirect_uri" request = Some (VStr u2) ->
      get_uri (rc_url c) (rg_cdb s') request "redirect_uri" <> Ok uri.
Proof.
  intros c d rq s rq' u1 u2 rest i p1 p2 Ef Rb G Ni S1 S2 B N Uq.
  destruct (C96_registered c d rq s rq' _ i Ef Rb G) as (args & s' & info & Run & _ & _ & Di & _ & _ & _ & _ & _ & l & Dl & Pe & _ & _).
  exists args, s'. split; [exact Run|]. intros request uri Ci Ru X.
  assert (El : exists post, l = kept_entry (rc_url c) p1 :: kept_entry (rc_url c) p2 :: post).
  { destruct Ef as (v & V & Q). fold (rm_blanks v) in Q. destruct (rb_uris _ _ _ Rb) as (U & F).
    destruct (C27_recorded _ _ _ _ _ _ _ _ rq' _ Run (ex_intro _ v (conj V Q)) U) as (i3 & info3 & l3 & G3 & D3 & V3 & L3).
    destruct (addresses_kept _ _ _ U F) as (l2 & V2 & Fk).
    assert (i3 = i) by now apply (given_unique true d (rg_cdb s) rq'). subst i3.
    assert (l2 = l) by congruence. subst l2.
    inversion Fk as [|? e1 ? r1 (q1 & T1 & _ & ->) Fk1]; subst. inversion Fk1 as [|? e2 ? r2 (q2 & T2 & _ & ->) Fk2]; subst.
    exists r2. congruence. }
  destruct El as (post & ->). unfold kept_entry in Dl, Pe. rewrite B in Dl, Pe.
  unfold get_uri in X. unfold dmem in X. rewrite Ru in X.
  destruct (verify_uri (rc_url c) (rg_cdb s') request "redirect_uri" None) as [[]|] eqn:Vu; [|discriminate].
  refine (proj2 (C20_complete_refuted (rc_url c) (rg_cdb s') request "redirect_uri" None i u2 p2 (up_base p2) _ _ post (rb_query _ _ _ Rb) _ Ru _ Pe _ _ eq_refl _ _) Vu).
  - split; [exact Ni|now left].
  - exists info. split; [exact Di|exact Dl].
  - now rewrite Uq.
  - destruct (rb_uris _ _ _ Rb) as (_ & F). inversion F as [|? ? _ F1]; subst. inversion F1 as [|? ? (q2 & T2 & _ & Fr & _) _]; subst. congruence.
  - apply kept_same.
  - intros Y. apply N. intros k x. rewrite (kept_same (rc_url c) p1 k x), (kept_same (rc_url c) p2 k x). apply Y.
Qed.
Print Assumptions C96_addresses_refuted.

(** ** A case: a client registers, is called c1, and goes through the flow of C95. *)
From Verif Require Import PyUrl PropsClientAuthn PropsClaims PropsTokenEndpoint PropsAuthzEndpoint PropsSetupAuth PropsSystem PropsFlow FlowSpec FrontFlowSpec NewClientSpec.
Definition conf96 : rconf :=
  mkRC py_url prov1 (fun m => Ok m) (fun v => Ok true) (fun _ _ _ => Ok tt) (fun _ => Ok (vstrs [cb; "https://rp.example.org/other?x=1"; "https://rp.example.net/cb"]%string)) None true 3600
    ["client_id"; "client_secret"; "redirect_uris"; "post_logout_redirect_uris"; "request_uris"]%string.
Definition draw96 : draw := mkDraw ["taken"; "c1"]%string "salt" "rat1" "s3cret" 1000.
Definition reg_rq96 : msg :=
  [("redirect_uris", vstrs [cb; "https://rp.example.org/other?x=1"]); ("response_types", vstrs ["code"; "token id_token"]); ("subject_type", VStr "public");
   ("id_token_signed_response_alg", VStr "ES256"); ("client_name", VStr "RP");
   ("post_logout_redirect_uris", vstrs ["https://rp.example.org/bye?lang=en"]); ("request_uris", vstrs ["https://rp.example.org/ro#h4sh"]);
   ("policy_uri", VStr "https://rp.example.org/policy"); ("sector_identifier_uri", VStr "https://rp.example.org/sector.json")]%string.
Definition uris96 : list string := [cb; "https://rp.example.org/other?x=1"]%string.

Example C96_ex_registrable : registrable conf96 reg_rq96 uris96.
Proof.
  constructor.
  - repeat constructor; cbn; intuition discriminate.
  - intros k I. cbn in I. repeat (destruct I as [<-|I]; [reflexivity|]). destruct I.
  - constructor.
    + intros v E. cbn in E. injection E as <-. eexists. split; [reflexivity|]. intros uri [<-|[]]. eexists. split; vm_compute; reflexivity.
    + intros v E. cbn in E. injection E as <-. eexists. split; [reflexivity|]. intros uri [<-|[]]. eexists. split; [vm_compute; reflexivity|]. split; [reflexivity|]. right. reflexivity.
    + intros v E. cbn in E. injection E as <-. eexists. split; [reflexivity|]. intros x [<-|[<-|[]]]; cbn; auto.
    + intros item v I E. destruct I as [<-|[<-|[<-|[]]]]; cbn in E; try discriminate E. injection E as <-.
      eexists _, _, cb, _. split; [reflexivity|]. split; [vm_compute; reflexivity|]. split; [now left|]. split; [vm_compute; reflexivity|]. split; reflexivity.
    + intros uri p [<-|[<-|[]]] E; vm_compute in E; injection E as <-; eexists; (split; [vm_compute; reflexivity|split; reflexivity]).
  - intros pref prov v I E. cbn in I.
    repeat (destruct I as [I|I]; [injection I as <- <-; try discriminate E|]); try destruct I; cbn in E; injection E as <-.
    + split; [right; eexists; reflexivity|]. eexists. split; [reflexivity|]. split; [|intros N; destruct N; now left]. intros _ w [<-|[<-|[]]].
      * exists "code"%string. split; [now left|reflexivity].
      * exists "id_token token"%string. split; [right; now left|]. intros x. cbn. tauto.
    + split; [left; eexists; reflexivity|]. eexists. split; [reflexivity|]. split; [intros [X|X]; discriminate|]. intros _. now left.
    + split; [left; eexists; reflexivity|]. eexists. split; [reflexivity|]. split; [intros [X|X]; discriminate|]. intros _. right. now left.
  - intros item v _ _. exists true. reflexivity.
  - reflexivity.
  - split; [reflexivity|]. repeat constructor; eexists; (split; [vm_compute; reflexivity|]);
      (split; [exists (VStr "web"); split; [right; split; reflexivity|right; split; [discriminate|left; reflexivity]]|]);
      (split; [reflexivity|intros [_ X]; now destruct X]).
  - exact PropsUri.py_proper.
Qed.
Example C96_ex_apart : NoDup (map (before_query py_url) uris96) /\ registers_code reg_rq96.
Proof. split; [vm_compute; repeat constructor; cbn; intuition discriminate|]. right. eexists. split; [reflexivity|]. now left. Qed.
Example C96_ex_run : exists s', client_registration_setup conf96 draw96 true true reg_rq96 reg0 =
  (Ok [("client_id", VStr "c1"); ("client_secret", VStr "s3cret"); ("post_logout_redirect_uris", vstrs ["https://rp.example.org/bye?lang=en"]);
       ("request_uris", vstrs ["https://rp.example.org/ro#h4sh"]); ("redirect_uris", vstrs uris96)]%string, s') /\
  dkeys (rg_cdb s') = ["taken"; "c1"]%string.
Proof. eexists. split; [vm_compute; reflexivity|vm_compute; reflexivity]. Qed.

Definition clients96 : cdb := Eval vm_compute in rg_cdb (snd (client_registration_setup conf96 draw96 true true reg_rq96 reg0)).
Definition cli97 : msg := Eval vm_compute in match dget "c1" clients96 with Some x => x | None => [] end.
Definition w97 : world := mkW (st1 gr7 false) clients96.
Definition a97 : astate := mkAS (mkFS w97 []) [].
Example C96_ex_recognised : recognised usr9 e81 (az7 true) true w97 rq81 "c1" cli97 cb "diana" (mkMethod (cookie9 "diana" "1900") 600).
Proof.
  constructor.
  - apply st1_well_formed.
  - do 3 (split; [apply good_by; reflexivity|]). split; [left; reflexivity|]. intros [X|[X|[]]]; discriminate.
  - split; [reflexivity|]. split; [reflexivity|]. split; [|split; reflexivity]. right. eexists. split; [reflexivity|]. vm_compute. reflexivity.
  - exists "user"%string, "pw"%string. split; reflexivity.
  - exists [("uid", VStr "diana")]%string, (VStr "1900"). split; [|split; reflexivity]. exists (VInt 0), (VStr "diana"). repeat split.
Qed.
Example C96_ex_comes : comes (gate95 []) re95 (az7 true) pk95 rq81 rq81 "c1".
Proof. destruct C95_ex_arrives as [A1 A2 A3 A4 A5 _ _ A8 A9]. constructor; auto. Qed.
Example C96_ex_wants : wants_code rq81 ["openid"; "email"]%string.
Proof. destruct C95_ex_asks as [_ A2 A3 A4 _]. constructor; auto. Qed.
Example C96_ex_made : codes_made sid79 e81 (az7 true) w97 "c1" cb "diana" (mkMethod (cookie9 "diana" "1900") 600).
Proof.
  destruct C95_ex_provided as [[B1 _ B3 _] _ P3 P4 P5 P6 P7]. constructor; auto. constructor; auto.
Qed.
Example C96_ex_secret seen : shows_secret (gate95 [Some MBasic; Some MPost]) seen "c1" "s3cret" tr81 basic95 (dset "client_id" (VStr "c1") tr81).
Proof.
  destruct (C95_ex_authenticates seen) as [A1 A2 _ _ _ A6]. constructor; auto. exists [], MBasic, [Some MPost]. split; [reflexivity|]. split; [intros m' []|].
  exists "s3cret"%string, "Basic c1:s3cret"%string. split; [reflexivity|]. split; [reflexivity|]. apply ClientAuthnProofs.basic_authn_iff. reflexivity.
Qed.
Example C96_ex_lasts : secret_lasts conf96 draw96 (o_now (gt_out (gate95 [Some MBasic; Some MPost]))).
Proof. right. vm_compute. discriminate. Qed.
Example C96_ex_tokens : forall cli', tokens_provided sid79 e81 (az7 true) w97 "c1" cli' "diana" ["openid"; "email"]%string idt2 both (mt2 "at8") (mt2 "rt8") None 2000.
Proof.
  intros cli.
  assert (X : exchangeable e81 (az7 true) w97 "c1" "access_token" 2 2000).
  { split; [left; reflexivity|]. split; [split; [intros k E; discriminate|intros _; cbn; lia]|]. cbn. lia. }
  constructor; auto.
  - intros p v E. cbn in E. injection E as <-. reflexivity.
  - intros p. exists "at8"%string. split; reflexivity.
  - intros p1 p2 v1 v2 E1 E2. cbn in E1, E2. injection E1 as <-. injection E2 as <-. discriminate.
  - discriminate.
  - intros _ s gr clients V C. eexists. exists clients. split; [reflexivity|exact C].
Qed.
(** All of it together: c1 gets the claims of diana. *)
Example C96_ex : exists args s' r a1 args2 f3 claims,
  client_registration_setup conf96 draw96 true true reg_rq96 reg0 = (Ok args, s') /\ rg_cdb s' = clients96 /\
  authorization_request (gate95 []) re95 true pk95 e81 (az7 true) rq81 NoAuthz a97 = (Ok (AResponse r), a1) /\
  token_request sid79 hash2 cx7 idt2 (gate95 [Some MBasic; Some MPost]) true both true 2000 (mt2 "at8") (mt2 "rt8") None tr81 basic95 (as_front a1) = (Ok (AOk args2 None), f3) /\
  userinfo_request sid79 out1 (ep1 [Some MBearerHeader]) "UserInfo" [] cx7 2100 [] (AuthzStr "Bearer at8") (mkFr (mkCA (w_cdb (fs_world f3)) (fs_jti f3)) (w_db (fs_world f3)))
    = (Ok (UClaims claims "c1" PJson), mkFr (mkCA (w_cdb (fs_world f3)) (fs_jti f3)) (w_db (fs_world f3))) /\
  dget "sub" claims = Some (VStr "dianasalt") /\ dget "email" claims = Some (VStr "diana@example.org").
Proof. do 7 eexists. do 3 (split; [vm_compute; reflexivity|]). vm_compute. repeat split. Qed.

(** The second of two addresses that differ in the query *)
Definition twins : list string := ["https://rp.example.org/cb?x=1"; "https://rp.example.org/cb?x=2"]%string.
Example C96_ex_addresses :
  let s' := snd (client_registration_setup conf96 draw96 true true [("redirect_uris", vstrs twins)]%string reg0) in
  map (fun uri => get_uri py_url (rg_cdb s') [("client_id", VStr "c1"); ("redirect_uri", VStr uri)]%string "redirect_uri") twins = [Ok "https://rp.example.org/cb?x=1"%string; Raise EValue] /\
  registrable conf96 [("redirect_uris", vstrs twins)]%string twins /\
  ~ same_params (query_of py_url (urlsplit "https://rp.example.org/cb?x=1")) (query_of py_url (urlsplit "https://rp.example.org/cb?x=2")).
Proof.
  split; [vm_compute; reflexivity|]. split.
  - constructor.
    + repeat constructor; cbn; intuition discriminate.
    + intros k I. cbn in I. repeat (destruct I as [<-|I]; [reflexivity|]). destruct I.
    + constructor; try discriminate.
      * intros item v I E. destruct I as [<-|[<-|[<-|[]]]]; discriminate E.
      * intros uri p [<-|[<-|[]]] E; vm_compute in E; injection E as <-; eexists; (split; [vm_compute; reflexivity|split; reflexivity]).
    + intros pref prov v I E. exfalso. cbn in I. repeat (destruct I as [I|I]; [injection I as <- <-; discriminate E|]). destruct I.
    + intros item v _ _. exists true. reflexivity.
    + reflexivity.
    + split; [reflexivity|]. repeat constructor; eexists; (split; [vm_compute; reflexivity|]);
        (split; [exists (VStr "web"); split; [right; split; reflexivity|right; split; [discriminate|left; reflexivity]]|]);
        (split; [reflexivity|intros [_ X]; now destruct X]).
    + exact PropsUri.py_proper.
  - intros S. destruct (proj1 (S "x"%string "1"%string)) as (q & l & E & G & I).
    + exists [("x", VList [VStr "1"])]%string, [VStr "1"]. split; [vm_compute; reflexivity|]. split; [reflexivity|now left].
    + vm_compute in E. injection E as <-. cbn in G. injection G as <-. destruct I as [I|[]]. discriminate.
Qed.
