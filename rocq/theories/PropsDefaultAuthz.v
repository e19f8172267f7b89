(** PropsDefaultAuthz.v: C83, what a provider grants for which no authorization handler is configured. *)
From Verif Require Import Base BaseProofs Monad MonadProofs Types SessionKey SessionKeyProofs Token Grant GrantSpec Database DatabaseSpec DatabaseProofs
  Manager ManagerSpec ManagerProofs Ctx Claims ClaimsSpec Authz UserInfo UserInfoSpec UserInfoProofs World Minting TokenEndpoint WorldSpec WorldProofs
  ResponseSpec ResponseProofs Response AuthzEndpoint AuthzEndpointSpec SetupAuth SetupAuthSpec System SystemSpec SystemProofs FlowSpec PropsClaims PropsTokenEndpoint PropsAuthzEndpoint
  PropsSetupAuth PropsSystem PropsFlow IsolationSpec PropsIsolation DefaultAuthzSpec DefaultAuthzProofs.
Local Open Scope Z_scope.

(** Any state reached from an empty one without a configured handler *)
Definition plain_history (y : setup_of) (s : sys) : Prop :=
  exists clients l p, Forall call_ok l /\ Forall unconfigured l /\ srun y l (fresh clients) [] = (s, p).
(** and with proper names (C82) *)
Definition plain_history_of (is_user : string -> Prop) (y : setup_of) (s : sys) : Prop :=
  exists clients l p, Forall call_ok l /\ Forall unconfigured l /\ Forall (proper_names is_user) l /\ srun y l (fresh clients) [] = (s, p).
Lemma plain_of is_user y s : plain_history_of is_user y s -> plain_history y s.
Proof. intros (clients & l & p & A & B & _ & C). exists clients, l, p. auto. Qed.

(** Whatever is asked for, with whatever scope, claims and resources, nothing is granted; and the sessions have no end. *)
Theorem C83_grants_refuted : forall y s u c g gr,
  sids_ok (sy_sid_of y) -> plain_history y s -> holds s u c g gr -> bare gr.
Proof.
  intros y s u c g gr Hs (clients & l & p & F & U & E) V. apply view_key in V.
  assert (X := bare_run y l (fresh clients) [] Hs F U). rewrite E in X. cbn [fst] in X. apply (X (fun k g0 D => ltac:(discriminate D)) _ _ V).
Qed.
Print Assumptions C83_grants_refuted.

(** No userinfo answer has a claim about the user but the subject identifier. *)
Theorem C83_userinfo_refuted : forall y s clock request args cid s',
  sids_ok (sy_sid_of y) -> plain_history y s ->
  sstep y (SUserinfo clock request) s = (s', OInfo (Ok (AOk args cid))) -> dget "error" args = None ->
  exists sub, args = [("sub", VStr sub)]%string.
Proof.
  intros y s clock request args cid s' Hs H E Ne. cbn [sstep] in E. unfold in_db in E.
  destruct (userinfo_process (sy_sid_of y) (sy_cx y) (w_cdb (ss_world s)) clock request (w_db (ss_world s))) as [r d] eqn:Eu.
  injection E as _ ->. apply userinfo_cases in Eu. destruct Eu as (value & sid & u & c & gid & g & _ & _ & _ & V & D).
  destruct (C83_grants_refuted y s u c gid g Hs H V) as (_ & Gc & _).
  destruct D as [(_ & D)|(t & _ & [(_ & D)|[(_ & _ & D)|(_ & _ & ae & _ & [(_ & info & Hi & D)|(_ & D)])]])]; try discriminate D; injection D as D1 D2.
  - unfold grant_claims in Hi. rewrite Gc in Hi. cbn in Hi. injection Hi as <-. exists (g_sub g). exact D1.
  - subst args. discriminate Ne.
Qed.
Print Assumptions C83_userinfo_refuted.

(** An introspected token has no scope, no audience and no claims about the user. *)
Theorem C83_introspection_refuted : forall y s clock un request args cid s',
  sids_ok (sy_sid_of y) -> plain_history y s ->
  sstep y (SIntrospect clock un request) s = (s', OInfo (Ok (AOk args cid))) -> dget "active" args = Some (VBool true) ->
  dget "scope" args = Some (VStr "") /\
  forall k, dget k args <> None -> In k ["active"; "scope"; "client_id"; "token_type"; "exp"; "iat"; "sub"; "iss"; "username"]%string.
Proof.
  intros y s clock un request args cid s' Hs H E Na. cbn [sstep] in E. unfold in_db in E.
  destruct (introspection_process (sy_sid_of y) (sy_cx y) (w_cdb (ss_world s)) clock un request (w_db (ss_world s))) as [r d] eqn:Eu.
  injection E as _ ->. apply introspection_cases in Eu. destruct Eu as (v & Ev & [(_ & X)|[(sid & _ & _ & X)|(u & c & gr & t & N & X)]]).
  1, 2: injection X as -> _; discriminate Na.
  destruct N as (sid & g & _ & _ & V & _ & l1 & l2 & Ei & _).
  destruct (C83_grants_refuted y s u c g gr Hs H V) as (Gs & Gc & Gr & _ & Gt).
  destruct (Gt t) as [Ts Tr]; [rewrite Ei; apply in_elt|].
  destruct X as [(_ & X)|(info & ui & Ei' & Hi & X)]; [injection X as -> _; discriminate Na|].
  unfold grant_claims in Hi. rewrite Gc in Hi. cbn in Hi. injection Hi as <-.
  unfold introspect in Ei'. destruct (negb (smem _ _)); [discriminate|]. destruct (negb _); [discriminate|].
  rewrite Ts, Tr, Gs, Gr in Ei'. cbn [is_nil join] in Ei'. injection Ei' as <-. injection X as -> _. clear Na.
  split; [destruct un; reflexivity|]. intros k Hk. destruct (dget k _) as [x|] eqn:Ek in Hk; [|congruence]. apply dget_key in Ek.
  destruct un; cbn in Ek; cbn; tauto.
Qed.
Print Assumptions C83_introspection_refuted.

(** The token endpoint says that the tokens have no scope. There is no refresh token with a code, unless the endpoint is
    configured to issue one with every code: the scope offline_access is never granted. *)
Theorem C83_exchange_refuted : forall is_user y s m1 m2 ir n request args cid s',
  sids_ok (sy_sid_of y) -> plain_history_of is_user y s ->
  sstep y (SProcess m1 m2 ir n) s = (s', OProcess request (Ok (AOk args cid))) ->
  dget "scope" args = Some (vstrs []) /\
  (dget "grant_type" request = Some (VStr "authorization_code") -> ir <> Some true -> dget "refresh_token" args = None).
Proof.
  intros is_user y s m1 m2 ir n request args cid s' Hs H E. assert (Hp := plain_of _ _ _ H).
  assert (O : orderly is_user s).
  { destruct H as (clients & l & p & _ & _ & F & Er). pose proof (C82_orderly is_user y clients l Hs F) as X. now rewrite Er in X. }
  destruct O as [(Hk & Hl & _) _]. cbn [sstep] in E.
  destruct (nth_error (ss_accepted s) n) as [rq|] eqn:En; [|discriminate].
  destruct (token_process _ _ _ _ _ _ _ _ _ _) as [r w'] eqn:Et. injection E as _ -> ->.
  assert (G : dget "grant_type" request = Some (VStr "authorization_code") \/ dget "grant_type" request = Some (VStr "refresh_token")).
  { destruct (process_success (sy_sid_of y) (sy_cx y) (sy_idtoken y) Hs _ _ _ _ _ _ _ _ _ _ Et) as (oc1 & w1 & _ & [[X _]|[X _]]); auto. }
  destruct G as [G|G].
  - destruct (C52_code_response _ _ _ _ _ _ _ _ _ _ _ _ _ Hs Hk Hl G Et)
      as (raw & u & c & gid & g & t & access & rest & issued & g' & ar & idts & _ & _ & _ & _ & _ & V & _ & _ & _ & _ & _ & _ & _ & -> & _ & _ & R).
    destruct (C83_grants_refuted y s u c gid g Hs Hp V) as (Gs & _). rewrite Gs in *. split; [reflexivity|]. intros _ Ni.
    assert (rest = []) as -> by (destruct ir as [[|]|]; [now destruct Ni|exact R|exact R]).
    cbn. clear. induction idts as [|x l IH]; cbn; auto.
  - destruct (C52_refresh_response _ _ _ _ _ _ _ _ _ _ _ _ _ Hs Hk Hl G Et)
      as (value & u & c & gid & g & t & access & rest & g' & mints & idts & _ & _ & _ & _ & _ & V & _ & _ & _ & _ & _ & _ & -> & _).
    destruct (C83_grants_refuted y s u c gid g Hs Hp V) as (Gs & _). rewrite Gs in *. split; [reflexivity|]. intros X. congruence.
Qed.
Print Assumptions C83_exchange_refuted.

(** The default handler cannot be configured either: unless every name in its configuration has exactly two characters, as none
    that has a meaning does, nothing is sent in answer to any request. *)
Theorem C83_config_refuted : forall az en request sid w r w' keys k,
  az_handler az = AImplicit keys -> In k keys -> String.length k <> 2%nat ->
  authz_part2 az request sid w = (Ok r, w') ->
  failed (ri_args r) /\ respond en authorization_endpoint r = Raise EKey.
Proof.
  intros az en request sid w r w' keys k Ha I L H. destruct (authorize az sid request w) as [[g|x] w1] eqn:A; [|eapply C59_denied_refuted; eauto].
  exfalso. unfold authorize in A. rewrite Ha in A. unfold implicit in A. head_bind A E1. destruct r0 as [g0|]; [|discriminate].
  assert (F : forallb two_characters keys = false); [|rewrite F in A; discriminate].
  destruct (forallb two_characters keys) eqn:F; [|reflexivity]. rewrite forallb_forall in F. specialize (F k I).
  unfold two_characters in F. apply Nat.eqb_eq in F. congruence.
Qed.
Print Assumptions C83_config_refuted.

(** ** A case: as C79's, without a handler. C81_flow says that the flow completes all the same. *)
Definition implicitly (keys : list string) (az : authz_env) : authz_env :=
  mkAZ (az_cx az) (az_u az) (az_sharing az) (az_clock az) (az_later az) (az_salt az) (az_code az) (az_access az) (az_idtoken az) (az_cookie az) (az_opbs az)
    (az_sha az) (az_origin az) (az_show az) (az_text az) (az_iframe az) (AImplicit keys).
Definition rq83 : msg := dset "scope" (vstrs ["openid"; "email"; "offline_access"])%string rq79.
Definition clients83 : cdb :=
  [("c1", [("client_id", VStr "c1"); ("allowed_scopes", vstrs ["openid"; "email"; "offline_access"]); ("redirect_uris", VList [UriSpec.entry cb (VStr "")])])]%string.
Definition calls83 : list call :=
  [SAuthorize (e9 (cookie9 "diana" "1900")) (implicitly [] (az7 false)) true (inr rq83); SParse 2000 token79; SProcess (mt2 "at8") (mt2 "rt8") None 0].
Definition s83 : sys := fst (srun y79 calls83 (fresh clients83) []).
Example history83 : plain_history_of usr9 y79 s83.
Proof.
  exists clients83, calls83, (snd (srun y79 calls83 (fresh clients83) [])). split; [|split; [|split; [|apply surjective_pairing]]].
  - constructor; [|repeat constructor]. split; [apply good_by; reflexivity|]. split.
    + intros c E. assert (c = "c1"%string) by (cbn in E; congruence). subst c. apply good_by; reflexivity.
    + intros id R. rewrite (cookie_recognises _ _ R). split.
      * intros u E. assert (u = "diana"%string) by (cbn in E; congruence). subst u. apply good_by; reflexivity.
      * intros v E. discriminate.
  - constructor; [|repeat constructor]. exists []. reflexivity.
  - constructor; [|repeat constructor]. split; [apply good_by; reflexivity|]. split.
    + intros c E. assert (c = "c1"%string) by (cbn in E; congruence). subst c. split; [apply good_by; reflexivity|]. intros [X|[X|[]]]; discriminate.
    + intros id R. rewrite (cookie_recognises _ _ R). split.
      * intros u E. assert (u = "diana"%string) by (cbn in E; congruence). subst u. split; [apply good_by; reflexivity|]. now left.
      * intros v E. discriminate.
Qed.
(** The client asks for the e-mail address and for access when the user is away, and is told that it has got no scope. With
    AuthzHandling and the same requests (C79_ex) it gets the address. *)
Example C83_ex :
  (exists args, nth_error (snd (srun y79 calls83 (fresh clients83) [])) 0 = Some (SProcess (mt2 "at8") (mt2 "rt8") None 0, OProcess token79 (Ok (AOk args None))) /\
     dget "access_token" args = Some (VStr "at8") /\ dget "scope" args = Some (vstrs []) /\ dget "refresh_token" args = None) /\
  snd (sstep y79 info79 s83) = OInfo (Ok (AOk [("sub", VStr "dianasalt")]%string (Some "c1"%string))) /\
  (exists args, snd (sstep y79 (SIntrospect 2000 false [("token", VStr "at8")]%string) s83) = OInfo (Ok (AOk args None)) /\
     dget "active" args = Some (VBool true) /\ dget "scope" args = Some (VStr "")) /\
  (exists gr, holds s83 "diana" "c1" "g9" gr /\ map t_value (g_issued gr) = ["code7"; "at8"]%string).
Proof. split; [|split; [vm_compute; reflexivity|split]]; eexists; vm_compute; repeat split. Qed.
(** With a lifetime in its configuration, the handler ends every request with an error that is not sent. *)
Example C83_config_ex :
  exists r w', authz_part2 (implicitly ["expires_in"; "usage_rules"]%string (az7 false)) (rq7 ["code"]%string cb []) sid1 w7 = (Ok r, w') /\
    dget "error" (ri_args r) = Some (VStr "access_denied").
Proof. do 2 eexists. vm_compute. repeat split. Qed.
