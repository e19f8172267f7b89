(** PropsIDToken.v: what ID Tokens say (C19), how they are signed (C48) and encrypted (C60), and session identifiers in
    them (C61). *)
From Verif Require Import Base BaseProofs Monad MonadProofs Types SessionKey SplitProofs SessionKeyProofs Token Grant GrantSpec Database DatabaseSpec DatabaseProofs
  Manager ManagerProofs Ctx Claims ClaimsSpec ScopesProofs ClaimsProofs UserInfo UserInfoSpec UserInfoProofs World Minting TokenEndpoint WorldSpec WorldProofs
  ResponseSpec ResponseProofs RegistrationProofs Response PyUrl UriSpec AuthzEndpoint AuthzEndpointSpec AuthzEndpointProofs IDToken IDTokenSpec IDTokenProofs
  PropsClaims PropsIntrospection PropsTokenEndpoint PropsResponse PropsAuthzEndpoint.
Local Open Scope Z_scope.

(** ** C19 *)
(** [h] is the hash of [y] with the algorithm named by the last three characters of [alg] *)
Definition hash_of (ic : idconf) (alg y : string) (h : val) : Prop :=
  forall p d, alg = (p ++ d)%string -> String.length d = 3%nat -> ic_hash ic ("HS" ++ d)%string y = Ok h.

Lemma claims_inv ic cx clients s u c gid g code access t : good u -> good c -> good gid -> view s [u; c; gid] = Some (EGrant g) ->
  make ic cx clients s (session_key [u; c; gid]) code access = Ok t ->
  exists alg m info,
    ic_pack ic (cx_issuer cx) (lifetime_of ic) (mkAlgs (Some (VStr alg)) None) m c = Ok t /\
    release (userinfo cx u) (grant_claims clients "id_token" g) = Ok info /\
    id_claims (hash_of ic alg) g code access m /\
    (forall r spec a, dget "id_token" (g_claims g) = Some r -> dget "acr" (resolve clients r) = Some spec -> acr_of g = Some a ->
      claims_match (Some a) spec = Ok true) /\
    (forall k, ~ In k protocol_claims -> (handed code -> k <> "c_hash"%string) -> (handed access -> k <> "at_hash"%string) ->
      dget k m = dget k (rev (fold_left (fun m k => ddel k m) reserved info))).
Proof.
  intros Hu Hc Hg V H. destruct (make_inv _ _ _ _ _ _ _ _ _ _ Hu Hc Hg H) as (_ & _ & cinfo & alg & m & _ & _ & P & K).
  assert (X : extra_ok (Some [])) by (intros x k [= <-] []).
  destruct (payload_inv _ _ _ _ _ _ _ _ _ _ _ _ _ Hu Hc Hg V X P) as (info & A & B & C & D).
  exists alg, m, info. split; [exact K|]. split; [exact A|]. split; [|split; [exact C|]].
  - destruct B as [B1 B2 B3 B4 B5 B6 B7]. constructor; try assumption.
    + intros y Y1 Y2. destruct (B6 y Y1 Y2) as (h & H1 & H2). exists h. split; [|exact H2]. intros p d -> L. now rewrite <- (last3_app p d L).
    + intros y Y1 Y2. destruct (B7 y Y1 Y2) as (h & H1 & H2). exists h. split; [|exact H2]. intros p d -> L. now rewrite <- (last3_app p d L).
  - intros k N1 N2 N3. apply D; try assumption. intros x [= <-] [].
Qed.

(** Every ID Token is signed and sent to the client of the session with the issuer's name; the protocol claims are those
    of the grant, whatever the user record and the claim requests are; every other claim is a listed user attribute. *)
Theorem C19_claims : forall ic cx clients s u c gid g code access t,
  good u -> good c -> good gid -> view s [u; c; gid] = Some (EGrant g) ->
  make ic cx clients s (session_key [u; c; gid]) code access = Ok t ->
  exists alg m,
    ic_pack ic (cx_issuer cx) (match ic_lifetime ic with Some n => n | None => 300 end) (mkAlgs (Some (VStr alg)) None) m c = Ok t /\
    id_claims (hash_of ic alg) g code access m /\
    forall k x, dget k m = Some x ->
      In k ["sub"; "acr"; "nonce"; "auth_time"]%string \/ (k = "c_hash"%string /\ handed code) \/ (k = "at_hash"%string /\ handed access) \/
      (~ In k protocol_claims /\ user_has cx u k x /\ exists spec, listed clients g "id_token" k spec /\ (claim_request spec -> admits spec x)).
Proof.
  intros ic cx clients s u c gid g code access t Hu Hc Hg V H.
  destruct (claims_inv _ _ _ _ _ _ _ _ _ _ _ Hu Hc Hg V H) as (alg & m & info & P & R & I & _ & D).
  exists alg, m. split; [exact P|]. split; [exact I|]. intros k x E.
  destruct (in_dec string_dec k protocol_claims) as [Hi|Ni].
  { left. destruct I as [_ _ _ _ (I1 & I2 & I3) _ _]. cbn in Hi. intuition (subst; congruence || (cbn; tauto)). }
  assert (Hd : forall z, handed z \/ ~ handed z).
  { intros [[|a y]|]; [right|left|right]; unfold handed; [intros (y & [= <-] & N); easy|eexists; split; [reflexivity|discriminate]|intros (y & Y & _); discriminate]. }
  assert (C1 : (k = "c_hash"%string /\ handed code) \/ (handed code -> k <> "c_hash"%string)).
  { destruct (Hd code); [|tauto]. destruct (string_dec k "c_hash"); tauto. }
  assert (C2 : (k = "at_hash"%string /\ handed access) \/ (handed access -> k <> "at_hash"%string)).
  { destruct (Hd access); [|tauto]. destruct (string_dec k "at_hash"); tauto. }
  destruct C1 as [C1|C1]; [tauto|]. destruct C2 as [C2|C2]; [tauto|]. right. right. right. split; [exact Ni|].
  rewrite D in E by assumption. apply rev_some, In_deleted in E. destruct (release_sound _ _ _ _ _ R E) as (spec & S1 & S2 & S3 & S4).
  split; [now apply dget_user|]. exists spec. split; [now apply grant_claims_listed|exact S4].
Qed.
Print Assumptions C19_claims.

(** The attributes in it are exactly those listed that the user has and that satisfy their requests. *)
Theorem C19_attributes : forall ic cx clients s u c gid g code access t,
  good u -> good c -> good gid -> view s [u; c; gid] = Some (EGrant g) -> claims_ok clients g "id_token" ->
  make ic cx clients s (session_key [u; c; gid]) code access = Ok t ->
  exists alg m,
    ic_pack ic (cx_issuer cx) (match ic_lifetime ic with Some n => n | None => 300 end) (mkAlgs (Some (VStr alg)) None) m c = Ok t /\
    forall k x, ~ In k protocol_claims -> (handed code -> k <> "c_hash"%string) -> (handed access -> k <> "at_hash"%string) ->
      (dget k m = Some x <-> attribute cx clients u g k x).
Proof.
  intros ic cx clients s u c gid g code access t Hu Hc Hg V Hok H.
  destruct (claims_inv _ _ _ _ _ _ _ _ _ _ _ Hu Hc Hg V H) as (alg & m & info & P & R & _ & _ & D).
  exists alg, m. split; [exact P|]. intros k x N1 N2 N3. rewrite D by assumption.
  assert (Hp : proper (grant_claims clients "id_token" g) /\ forall k spec, In (k, spec) (grant_claims clients "id_token" g) -> claim_request spec).
  { unfold grant_claims. destruct (dget "id_token" (g_claims g)) as [r|] eqn:E; [now apply Hok|]. split; [constructor|intros ? ? []]. }
  destruct Hp as [Hp Hr]. destruct (release_spec (userinfo cx u) _ Hr) as (info' & Hi & Hin).
  assert (info' = info) by congruence. subst info'.
  assert (Pi : proper info) by (eapply release_keys; eauto).
  rewrite dget_rev by (apply reserved_proper; exact Pi). rewrite reserved_gone.
  assert (Sm : smem k protocol_claims = false).
  { destruct (smem k protocol_claims) eqn:Em; [|reflexivity]. apply smem_In in Em. contradiction. }
  rewrite Sm. split.
  - intros Hx. apply dget_In, Hin in Hx. destruct Hx as (spec & X1 & X2 & X3 & X4). split; [now apply dget_user|].
    exists spec. split; [now apply grant_claims_listed|exact X4].
  - intros ((rec & X1 & X2 & X3) & spec & X4 & X5). apply In_dget; [exact Pi|]. apply Hin. exists spec.
    split; [now apply grant_claims_listed|]. split; [|auto]. unfold userinfo, dget_or. now rewrite X1.
Qed.
Print Assumptions C19_attributes.

(** If a class of authentication is asked for in a claims request and one is known, they fit. *)
Theorem C19_acr : forall ic cx clients s u c gid g code access t spec a,
  good u -> good c -> good gid -> view s [u; c; gid] = Some (EGrant g) -> claims_ok clients g "id_token" ->
  make ic cx clients s (session_key [u; c; gid]) code access = Ok t ->
  listed clients g "id_token" "acr" spec -> acr_of g = Some a -> admits spec a.
Proof.
  intros ic cx clients s u c gid g code access t spec a Hu Hc Hg V Hok H (r & L1 & L2) A.
  destruct (claims_inv _ _ _ _ _ _ _ _ _ _ _ Hu Hc Hg V H) as (alg & m & info & _ & _ & _ & C & _).
  destruct (Hok r L1) as [P Q]. assert (E : dget "acr" (resolve clients r) = Some spec) by (apply In_dget; assumption).
  specialize (C r spec a L1 E A). destruct (claims_match_spec (Some a) spec (Q _ _ L2)) as (b & E1 & E2).
  assert (b = true) by congruence. apply E2 in H0. destruct H0 as (x & [= <-] & _ & X). exact X.
Qed.
Print Assumptions C19_acr.

(** Conversely, for a registered client without logout URIs, with an algorithm, and with an acceptable class of
    authentication, the ID Token is made (as far as the JWT library can). *)
Theorem C19_made : forall ic cx clients s u c gid g code access cinfo alg,
  good u -> good c -> good gid -> view s [u; c; gid] = Some (EGrant g) -> claims_ok clients g "id_token" ->
  (forall w, In w ["back"; "front"]%string -> ~ wants_logout (cx_provider_info cx) clients c w) ->
  dget c clients = Some cinfo -> choose_sign cx (ic_jwx ic) cinfo "id_token" = Ok (VStr alg) ->
  (forall spec a, listed clients g "id_token" "acr" spec -> acr_of g = Some a -> admits spec a) ->
  (forall h y, exists v, ic_hash ic h y = Ok v) ->
  exists m, make ic cx clients s (session_key [u; c; gid]) code access =
    ic_pack ic (cx_issuer cx) (match ic_lifetime ic with Some n => n | None => 300 end) (mkAlgs (Some (VStr alg)) None) m c.
Proof.
  intros ic cx clients s u c gid g code access cinfo alg Hu Hc Hg V Hok Hl Ec Es Ha Hh.
  assert (P : exists m, payload ic cx clients s (session_key [u; c; gid]) alg code access (Some []) = Ok m).
  { rewrite (payload_grant ic cx clients s u c gid g alg code access (Some []) Hu Hc Hg V). cbv zeta.
    assert (U : exists info, id_user_info cx clients u g (("sub"%string, VStr (g_sub g)) :: event_claims (g_authn g)) = Ok info).
    { unfold id_user_info. destruct (dget "id_token" (g_claims g)) as [r|] eqn:Er; cbn [option_map]; [|eauto].
      destruct (Hok r Er) as [Hp Hr]. destruct (release_spec (userinfo cx u) _ Hr) as (info & Hi & _).
      destruct (resolve clients r) as [|q l] eqn:Eq; [eauto|]. unfold get_user_claims. rewrite Hi. cbn [rbind].
      destruct (dget "acr" (q :: l)) as [spec|] eqn:E1; [|eauto].
      change (dget "acr" ((_, _) :: event_claims (g_authn g))) with (dget "acr" (event_claims (g_authn g))). rewrite event_acr.
      destruct (acr_of g) as [a|] eqn:E2; [|eauto]. apply dget_In in E1.
      destruct (claims_match_spec (Some a) spec (Hr _ _ E1)) as (b & E3 & E4). rewrite E3. cbn [rbind].
      assert (b = true); [|subst b; eauto]. apply E4. exists a. split; [reflexivity|]. split.
      - unfold acr_of in E2. destruct (g_authn g) as [ae|]; [|discriminate]. destruct (ae_authn_info ae) as [[|]|]; congruence.
      - apply Ha; [|reflexivity]. exists r. split; [exact Er|]. now rewrite Eq. }
    destruct U as [info ->]. cbn [rbind].
    assert (A : forall n x args, exists m, add_hash ic n ("HS" ++ last3 alg) x args = Ok m).
    { intros n x args. unfold add_hash. destruct x as [x|]; [|eauto]. destruct (nonempty x); [|eauto].
      destruct (Hh ("HS" ++ last3 alg)%string x) as [v ->]. cbn. eauto. }
    match goal with |- context [add_hash ic "c_hash" _ code ?p] => destruct (A "c_hash"%string code p) as [a2 ->] end. cbn [rbind].
    match goal with |- context [add_hash ic "at_hash" _ access ?p] => destruct (A "at_hash"%string access p) as [a3 ->] end. cbn [rbind].
    eauto. }
  destruct P as [m P]. exists m. unfold make. rewrite unpack3_good by assumption. cbn [rbind].
  assert (I : forall w, In w ["back"; "front"]%string -> include_session_id cx clients c w = false).
  { intros w Hw. destruct (include_session_id cx clients c w) eqn:E; [|reflexivity]. destruct (Hl w Hw). now apply include_wants. }
  rewrite !I by (cbn; tauto). cbn [orb]. unfold sign_encrypt. rewrite Ec. cbn [of_option rbind]. unfold get_algorithms. rewrite Es. cbn [rbind al_sign].
  rewrite P. reflexivity.
Qed.
Print Assumptions C19_made.

(** Refuted: without a code the ID Token has a c_hash when a user attribute of that name is listed; likewise at_hash. *)
Theorem C19_hash_refuted : forall ic cx clients s u c gid g code access t k x,
  good u -> good c -> good gid -> view s [u; c; gid] = Some (EGrant g) -> claims_ok clients g "id_token" ->
  make ic cx clients s (session_key [u; c; gid]) code access = Ok t ->
  (k = "c_hash"%string /\ ~ handed code) \/ (k = "at_hash"%string /\ ~ handed access) -> attribute cx clients u g k x ->
  exists alg m,
    ic_pack ic (cx_issuer cx) (match ic_lifetime ic with Some n => n | None => 300 end) (mkAlgs (Some (VStr alg)) None) m c = Ok t /\
    dget k m = Some x.
Proof.
  intros ic cx clients s u c gid g code access t k x Hu Hc Hg V Hok H K A.
  destruct (C19_attributes _ _ _ _ _ _ _ _ _ _ _ Hu Hc Hg V Hok H) as (alg & m & P & D). exists alg, m. split; [exact P|].
  apply D; [destruct K as [[-> _]|[-> _]]; cbn; intuition discriminate|..|exact A]; intros Hd; destruct K as [[-> N]|[-> N]]; congruence || contradiction.
Qed.
Print Assumptions C19_hash_refuted.

(** The ID Token in an authorization response is about the code and the access token in the same response. *)
Theorem C19_authorization : forall ic e request u c gid g w r w' v,
  fine (w_db w) -> good u -> good c -> good gid -> view (w_db w) [u; c; gid] = Some (EGrant g) ->
  az_idtoken e = make_for_authz ic (az_cx e) ->
  authz_part2 e request (session_key [u; c; gid]) w = (Ok r, w') -> ~ failed (ri_args r) -> dget "id_token" (ri_args r) = Some v ->
  exists t alg m, v = VStr t /\
    ic_pack ic (cx_issuer (az_cx e)) (match ic_lifetime ic with Some n => n | None => 300 end) (mkAlgs (Some (VStr alg)) None) m c = Ok t /\
    dget "sub" m = Some (VStr (g_sub g)) /\ dget "nonce" m = nonce_of g /\ dget "acr" m = acr_of g /\ dget "auth_time" m = auth_time_of g /\
    (forall code, dget "code" (ri_args r) = Some (VStr code) -> code <> ""%string -> exists h, hash_of ic alg code h /\ dget "c_hash" m = Some h) /\
    (forall access, dget "access_token" (ri_args r) = Some (VStr access) -> access <> ""%string -> exists h, hash_of ic alg access h /\ dget "at_hash" m = Some h).
Proof.
  intros ic e request u c gid g w r w' v Hf Hu Hc Hg V Hi H N Hv.
  destruct (C58_recorded _ _ _ _ _ _ _ _ _ Hf Hu Hc Hg V H N)
    as (g' & types & codes & tokens & V' & _ & Au & _ & _ & _ & _ & _ & _ & Rc & Rt & _ & Id & _).
  destruct (Id v Hv) as (t & s & cs & cs' & -> & Vs & M). rewrite Hi in M. unfold make_for_authz in M.
  destruct (make ic (az_cx e) cs s _ _ _) as [t'|x] eqn:E; [|destruct x; discriminate].
  assert (t' = t) by congruence. subst t'.
  destruct (C19_claims _ _ _ _ _ _ _ _ _ _ _ Hu Hc Hg Vs E) as (alg & m & P & [I1 I2 I3 I4 _ I6 I7] & _).
  exists t, alg, m. split; [reflexivity|]. split; [exact P|].
  assert (Au' : g_sub g' = g_sub g /\ g_authreq g' = g_authreq g /\ g_authn g' = g_authn g)
    by (unfold decided in Au; destruct (az_handler e); destruct Au; auto).
  destruct Au' as (A2 & A3 & A4).
  split; [now rewrite I1, A2|]. split; [rewrite I2; unfold nonce_of; now rewrite A3|]. split; [rewrite I3; unfold acr_of; now rewrite A4|].
  split; [rewrite I4; unfold auth_time_of; now rewrite A4|]. unfold reported, lacks in *. split.
  - intros code D Ne. apply I6; [|exact Ne]. destruct codes as [|t1 [|]]; cbn in *; [congruence| |contradiction]. congruence.
  - intros access D Ne. apply I7; [|exact Ne]. destruct tokens as [|t1 [|]]; cbn in *; [congruence| |contradiction]. congruence.
Qed.
Print Assumptions C19_authorization.

(** Refuted at the token endpoint: the ID Token in an answer there never has the hash of the access token in the same
    answer; an at_hash in it is a user attribute. Shown for code requests. *)
Theorem C19_token_refuted : forall ic sid_of cx sharing helpers m1 m2 ir rq w args oc w' v,
  sids_ok sid_of -> kinds_ok (w_db w) -> linked (w_db w) ->
  dget "grant_type" rq = Some (VStr "authorization_code") ->
  token_process sid_of cx (make_for_token ic cx) sharing helpers m1 m2 ir (PReq rq) w = (Ok (AOk args oc), w') ->
  dget "id_token" args = Some v ->
  exists u c gid g t alg m access, view (w_db w') [u; c; gid] = Some (EGrant g) /\ v = VStr t /\
    ic_pack ic (cx_issuer cx) (match ic_lifetime ic with Some n => n | None => 300 end) (mkAlgs (Some (VStr alg)) None) m c = Ok t /\
    dget "sub" m = Some (VStr (g_sub g)) /\ dget "nonce" m = nonce_of g /\
    dget "access_token" args = Some (VStr access) /\
    forall x, dget "at_hash" m = Some x -> user_has cx u "at_hash" x.
Proof.
  intros ic sid_of cx sharing helpers m1 m2 ir rq w args oc w' v Hs Hk Hl Eg H Hv.
  destruct (C52_code_response _ _ _ _ _ _ _ _ _ _ _ _ _ Hs Hk Hl Eg H)
    as (raw & u & c & gid & g & t & at_ & rest & issued & g' & ar & idts & _ & Hu & Hc & Hg & _ & _ & _ & [V _] & _ & _ & _ & _ & _ & -> & _ & Mk & R).
  assert (I : exists x, In x idts /\ v = VStr x).
  { destruct idts as [|x [|]].
    - exfalso. destruct (match ir with Some b => b | None => _ end); [destruct R as (rt & -> & _)|subst rest]; discriminate.
    - exists x. split; [now left|]. destruct (match ir with Some b => b | None => _ end); [destruct R as (rt & -> & _)|subst rest]; cbn in Hv; congruence.
    - exists x. split; [now left|]. destruct (match ir with Some b => b | None => _ end); [destruct R as (rt & -> & _)|subst rest]; cbn in Hv; congruence. }
  destruct I as (x & Ix & ->). destruct (Mk x Ix) as (cs & cs' & M). unfold make_for_token in M.
  assert (E : make ic cx cs (w_db w') (session_key [u; c; gid]) None None = Ok x) by congruence.
  destruct (C19_claims _ _ _ _ _ _ _ _ _ _ _ Hu Hc Hg V E) as (alg & m & P & [I1 I2 _ _ _ _ _] & A).
  exists u, c, gid, g', x, alg, m, (t_value at_). split; [exact V|]. split; [reflexivity|]. split; [exact P|]. split; [exact I1|]. split; [exact I2|].
  split; [reflexivity|]. intros y D. destruct (A _ _ D) as [A1|[[A1 _]|[[_ (z & A1 & _)]|(_ & A1 & _)]]]; [cbn in A1; intuition discriminate|discriminate..|exact A1].
Qed.
Print Assumptions C19_token_refuted.

(** ** C48 *)
Theorem C48_idtoken : forall ic cx clients s u c gid code access t,
  good u -> good c -> good gid ->
  make ic cx clients s (session_key [u; c; gid]) code access = Ok t ->
  exists cinfo alg m, dget c clients = Some cinfo /\ negotiated (cx_provider_info cx) (ic_jwx ic) cinfo "id_token" "RS256" alg /\
    ic_pack ic (cx_issuer cx) (match ic_lifetime ic with Some n => n | None => 300 end) (mkAlgs (Some alg) None) m c = Ok t.
Proof.
  intros ic cx clients s u c gid code access t Hu Hc Hg H.
  destruct (make_inv _ _ _ _ _ _ _ _ _ _ Hu Hc Hg H) as (_ & _ & cinfo & alg & m & Ec & S & _ & K).
  exists cinfo, (VStr alg), m. split; [exact Ec|]. split; [|exact K]. now apply choose_sign_negotiated.
Qed.
Print Assumptions C48_idtoken.

(** Responses with user claims are signed only with the algorithm that the client registered. *)
Theorem C48_userinfo : forall en ep db pack args c cinfo kw resp,
  userinfo_response en ep db pack args "" c kw = Ok resp -> dget c db = Some cinfo ->
  match dget "userinfo_signed_response_alg" cinfo with
  | Some alg => exists enc t, pack c (Some alg) enc args = Ok t /\ rs_body resp = Text t
  | None => rs_body resp = Text (to_json en args) \/ exists enc t, pack c None (Some enc) args = Ok t /\ rs_body resp = Text t
  end.
Proof.
  intros en ep db pack args c cinfo kw resp H E. unfold userinfo_response in H. cbn [nonempty String.eqb negb] in H.
  destruct (nonempty c); [|discriminate]. cbn [negb] in H. rewrite E in H.
  destruct (dget "userinfo_signed_response_alg" cinfo) as [alg|].
  - set (enc := match dget "userinfo_encrypted_response_enc" cinfo with Some _ => _ | None => _ end) in H.
    destruct (pack c (Some alg) enc args) as [t|] eqn:P; [|discriminate]. cbn in H. exists enc, t. split; [exact P|].
    assert (resp = resp) by reflexivity. injection H as <-. reflexivity.
  - set (enc := match dget "userinfo_encrypted_response_enc" cinfo with Some _ => _ | None => _ end) in H.
    destruct enc as [x|]; [|left; cbn in H; injection H as <-; reflexivity].
    destruct (pack c None (Some x) args) as [t|] eqn:P; [|discriminate]. cbn in H. right. exists x, t. split; [exact P|]. injection H as <-. reflexivity.
Qed.
Print Assumptions C48_userinfo.

(** ** C60 *)
(** Refuted: ID Tokens are never encrypted, whatever the client registered. *)
Theorem C60_idtoken_refuted : forall ic cx clients s u c gid code access t cinfo alg enc,
  good u -> good c -> good gid -> dget c clients = Some cinfo ->
  dget "id_token_encrypted_response_alg" cinfo = Some alg -> dget "id_token_encrypted_response_enc" cinfo = Some enc ->
  make ic cx clients s (session_key [u; c; gid]) code access = Ok t ->
  exists al m, al_encrypt al = None /\
    ic_pack ic (cx_issuer cx) (match ic_lifetime ic with Some n => n | None => 300 end) al m c = Ok t.
Proof.
  intros ic cx clients s u c gid code access t cinfo alg enc Hu Hc Hg _ _ _ H.
  destruct (make_inv _ _ _ _ _ _ _ _ _ _ Hu Hc Hg H) as (_ & _ & _ & a & m & _ & _ & _ & K).
  exists (mkAlgs (Some (VStr a)) None), m. split; [reflexivity|exact K].
Qed.
Print Assumptions C60_idtoken_refuted.

(** Responses with user claims are encrypted for a client that registered both algorithms. *)
Theorem C60_userinfo_partial : forall en ep db pack args c cinfo kw resp alg enc,
  userinfo_response en ep db pack args "" c kw = Ok resp -> dget c db = Some cinfo ->
  dget "userinfo_encrypted_response_alg" cinfo = Some alg -> dget "userinfo_encrypted_response_enc" cinfo = Some enc ->
  exists sign t, pack c sign (Some (enc, alg)) args = Ok t /\ rs_body resp = Text t.
Proof.
  intros en ep db pack args c cinfo kw resp alg enc H E A N. unfold userinfo_response in H. cbn [nonempty String.eqb negb] in H.
  destruct (nonempty c); [|discriminate]. cbn [negb] in H. rewrite E, A, N in H.
  exists (dget "userinfo_signed_response_alg" cinfo).
  destruct (dget "userinfo_signed_response_alg" cinfo) as [s|]; cbv beta iota zeta in H;
    (match type of H with context [pack c ?s0 (Some (enc, alg)) args] => destruct (pack c s0 (Some (enc, alg)) args) as [t|] eqn:P end;
     [|discriminate]); exists t; (split; [reflexivity || exact P|]); cbn in H; injection H as <-; reflexivity.
Qed.
Print Assumptions C60_userinfo_partial.

(** Refuted for one that registered the key management algorithm alone, for which OpenID Connect has a default content
    encryption: the claims go out in the clear. *)
Theorem C60_userinfo_refuted : forall en ep (db : cdb) pack args c (cinfo : msg) kw alg,
  c <> ""%string -> dget c db = Some cinfo ->
  dget "userinfo_encrypted_response_alg" cinfo = Some alg -> dget "userinfo_encrypted_response_enc" cinfo = None ->
  dget "userinfo_signed_response_alg" cinfo = None ->
  exists resp, userinfo_response en ep db pack args "" c kw = Ok resp /\ rs_body resp = Text (to_json en args).
Proof.
  intros en ep db pack args c cinfo kw alg N E A Ne Ns.
  exists (mkRs None (Text (to_json en args)) ([("Content-type", "application/json")] ++ nocache) None (kw_http_headers kw)). split; [|reflexivity].
  unfold userinfo_response. change (nonempty "") with false. cbv iota.
  assert (Nc : nonempty c = true) by (destruct c; [easy|reflexivity]). rewrite Nc. cbn [negb]. rewrite E, Ne, Ns. reflexivity.
Qed.
Print Assumptions C60_userinfo_refuted.

(** ** C61 *)
(** Without logout URIs there is no session identifier in the ID Token, unless as a user attribute (C19_claims). With one
    the ID Token cannot be made at all: refuted for every such client. *)
Theorem C61_refuted : forall ic cx clients s u c gid code access w,
  good u -> good c -> good gid -> In w ["back"; "front"]%string -> wants_logout (cx_provider_info cx) clients c w ->
  make ic cx clients s (session_key [u; c; gid]) code access = Raise EAttr.
Proof.
  intros ic cx clients s u c gid code access w Hu Hc Hg Hw W. apply include_wants in W. unfold make. rewrite unpack3_good by assumption. cbn [rbind].
  destruct Hw as [<-|[<-|[]]]; rewrite W; [reflexivity|]. now rewrite orb_true_r.
Qed.
Print Assumptions C61_refuted.

(** When an ID Token is to be added to an answer of the token endpoint, an exception is raised instead. *)
Theorem C61_token_refuted : forall ic sid resp cx w u c gid where_,
  sid = session_key [u; c; gid] -> good u -> good c -> good gid -> In where_ ["back"; "front"]%string ->
  wants_logout (cx_provider_info cx) (w_cdb w) c where_ ->
  fst (add_id_token (make_for_token ic cx) sid resp w) = Raise EAttr.
Proof.
  intros ic sid resp cx w u c gid where_ -> Hu Hc Hg Hw W.
  unfold add_id_token, id_token_for, catch, bind, ret, id, gets, in_cdb, make_for_token. cbv beta iota.
  rewrite (C61_refuted ic cx (w_cdb w) (w_db w) u c gid None None where_ Hu Hc Hg Hw W). reflexivity.
Qed.
Print Assumptions C61_token_refuted.

(** ** Cases *)
(** The JWT shows issuer, algorithm, payload and audience. *)
Definition ic8 (jwx : msg) : idconf :=
  mkIC jwx None (fun h y => Ok (VStr (h ++ "." ++ y)))
    (fun iss _ al p recv => Ok (join "|" [iss; match al_sign al with Some (VStr a) => a | _ => "-" end;
       match al_encrypt al with Some _ => "encrypted" | None => "clear" end; to_urlencoded ex_enc p; recv])%string).
Definition users8 : dict msg :=
  [("diana", [("name", VStr "Diana Krall"); ("sub", VStr "dikr0001"); ("acr", VStr "high"); ("nonce", VStr "evil"); ("c_hash", VStr "CH"); ("eduperson", VStr "staff")])].
Definition cx8 (more : msg) : ctx :=
  mkCtx (cx_issuer cx7) ([("id_token_signing_alg_values_supported", vstrs ["ES256"; "RS256"])] ++ more) (cx_capabilities cx7) (cx_scope2claims cx7) (cx_modules cx7) users8
    (cx_grant_config cx7).
Definition ae8 : authn_event := mkAE "diana" (Some "loa2"%string) 1000 4600 None.
Definition gr8 : grant :=
  mkGrant "g1" "sub-of-diana" ["openid"%string]
    [("id_token", CVal [("name", VNone); ("acr", VDict [("values", vstrs ["loa1"; "loa2"])]); ("sub", VNone); ("nonce", VNone); ("c_hash", VNone);
                        ("eduperson", VDict [("value", VStr "student")])])]
    ["c1"%string] (Some (("nonce"%string, VStr "n1") :: ar2)) (Some ae8) [] no_grules 1000 0 0 false 0.
Definition clients8 (more : msg) : cdb :=
  [("c1", [("client_id", VStr "c1"); ("redirect_uris", VList [UriSpec.entry cb (VStr "")])] ++ more)].
Definition idt8 (jwx pinfo cinfo : msg) (code access : option string) : result string :=
  make (ic8 jwx) (cx8 pinfo) (clients8 cinfo) (st1 gr8 false) sid1 code access.

Example C19_ex :
  idt8 [] [] [] (Some "C"%string) (Some "T"%string) =
    Ok "https://op.example.org|RS256|clear|sub=sub-of-diana&auth_time=?&acr=loa2&name=Diana Krall&c_hash=HS256.C&at_hash=HS256.T&nonce=n1|c1"%string /\
  (* no code: the user's c_hash *)
  idt8 [] [] [] None None = Ok "https://op.example.org|RS256|clear|sub=sub-of-diana&auth_time=?&acr=loa2&name=Diana Krall&c_hash=CH&nonce=n1|c1"%string.
Proof. vm_compute. split; reflexivity. Qed.
(** hypotheses *)
Example C19_ex_hyps :
  good "diana" /\ good "c1" /\ good "g1" /\ sid1 = session_key ["diana"; "c1"; "g1"] /\ view (st1 gr8 false) ["diana"; "c1"; "g1"] = Some (EGrant gr8) /\
  claims_ok (clients8 []) gr8 "id_token" /\ (forall w, In w ["back"; "front"]%string -> ~ wants_logout (cx_provider_info (cx8 [])) (clients8 []) "c1" w) /\
  attribute (cx8 []) (clients8 []) "diana" gr8 "name" (VStr "Diana Krall") /\ attribute (cx8 []) (clients8 []) "diana" gr8 "c_hash" (VStr "CH") /\
  listed (clients8 []) gr8 "id_token" "acr" (VDict [("values"%string, vstrs ["loa1"; "loa2"])]) /\ acr_of gr8 = Some (VStr "loa2").
Proof.
  do 3 (split; [apply good_by; reflexivity|]). split; [reflexivity|]. split; [reflexivity|]. split.
  { intros r [= <-]. split.
    - unfold proper. repeat constructor; cbn; intuition discriminate.
    - intros k spec H. cbn in H. unfold claim_request.
      destruct H as [[= <- <-]|[[= <- <-]|[[= <- <-]|[[= <- <-]|[[= <- <-]|[[= <- <-]|[]]]]]]]; try (left; reflexivity); right; eexists; (split; [reflexivity|]);
        intros v [X|[]]; [|discriminate X]. injection X as <-. eexists. reflexivity. }
  split.
  { intros w [<-|[<-|[]]] ((v & X & _) & _); discriminate. }
  split. { split; [eexists; repeat split; discriminate|]. exists VNone. split; [|apply admits_any]. eexists. split; [reflexivity|]. cbn. tauto. }
  split. { split; [eexists; repeat split; discriminate|]. exists VNone. split; [|apply admits_any]. eexists. split; [reflexivity|]. cbn. tauto. }
  split; [|reflexivity]. eexists. split; [reflexivity|]. cbn. tauto.
Qed.
(** a class of authentication that does not fit *)
Example C19_ex_acr :
  make (ic8 []) (cx8 []) (clients8 []) (st1 (g_set_claims [("id_token"%string, CVal [("acr"%string, VDict [("value"%string, VStr "loa3")])])] gr8) false) sid1 None None = Raise EValue.
Proof. reflexivity. Qed.

Definition az8 (jwx pinfo : msg) : authz_env :=
  mkAZ (cx8 pinfo) py_url true 2000 2010 "salt" (mt2 "code7") (mt2 "at7") (make_for_authz (ic8 jwx) (cx8 pinfo))
    (fun sid _ => Ok (VStr ("cookie:" ++ sid))) (fun _ => Ok None) (fun s => s) (fun _ => Ok ""%string) (fun v => ""%string) (fun _ => "error"%string) false Authz.AHandling.
Definition w8 (cinfo : msg) : world := mkW (st1 gr8 false) (clients8 cinfo).
Definition answered8 (pinfo cinfo : msg) (types : list string) : result (option val) :=
  let* r := fst (authz_part2 (az8 [] pinfo) (rq7 types cb []) sid1 (w8 cinfo)) in
  Ok (if dmem "error" (ri_args r) then dget "error" (ri_args r) else dget "id_token" (ri_args r)).
Example C19_ex_authorization :
  answered8 [] [] ["code"; "token"; "id_token"] =
    Ok (Some (VStr "https://op.example.org|RS256|clear|sub=sub-of-diana&auth_time=?&acr=loa2&c_hash=HS256.code7&at_hash=HS256.at7&nonce=n1|c1")).
Proof. vm_compute. reflexivity. Qed.
Example C19_ex_token :
  exists args,
  fst (exchange sid2 hash2 (cx8 []) (make_for_token (ic8 []) (cx8 [])) true both false 2000 (mt2 "at9") (mt2 "rt9") None (code_request "c1")
         (mkW (st1 (gr2 ar2) false) (clients8 []))) = Ok (AOk args None) /\
  dget "access_token" args = Some (VStr "at9") /\
  dget "id_token" args = Some (VStr "https://op.example.org|RS256|clear|sub=sub-of-diana&auth_time=?|c1").
Proof. eexists. split; [vm_compute; reflexivity|]. split; reflexivity. Qed.

Definition es : msg := [("id_token_signed_response_alg", VStr "PS384")].
Definition wide : msg := [("signing_alg", VDict [("id_token", VStr "ES256")])].
Example C48_ex :
  let alg r := match r with Ok t => nth 1 (split "|" t) ""%string | Raise _ => "-"%string end in
  alg (idt8 wide [] es None None) = "PS384"%string /\ alg (idt8 wide [] [] None None) = "ES256"%string /\ alg (idt8 [] [] [] None None) = "RS256"%string /\
  alg (make (ic8 []) (mkCtx "" [("id_token_signing_alg_values_supported", vstrs ["ES512"; "HS256"])] None [] [] [] (cx_grant_config cx7)) (clients8 [])
         (st1 gr8 false) sid1 None None) = "ES512"%string.
Proof. vm_compute. repeat split. Qed.
Example C60_ex :
  idt8 [] [] [("id_token_encrypted_response_alg", VStr "RSA-OAEP"); ("id_token_encrypted_response_enc", VStr "A128GCM")] None None = idt8 [] [] [] None None /\
  (exists t, idt8 [] [] [] None None = Ok t) /\
  let pack := fun (_ : string) (_ : option val) (e : option (val * val)) (_ : msg) => Ok (match e with Some _ => "encrypted" | None => "clear" end)%string in
  let sent cinfo := match userinfo_response ex_enc ex_token_ep (clients8 cinfo) pack [("sub", VStr "x")] "" "c1" ex_kw with Ok r => Some (rs_body r) | _ => None end in
  sent [("userinfo_encrypted_response_alg", VStr "RSA-OAEP"); ("userinfo_encrypted_response_enc", VStr "A128GCM")] = Some (Text "encrypted") /\
  sent [("userinfo_encrypted_response_alg", VStr "RSA-OAEP")] = Some (Text "{sub}") /\
  sent [("userinfo_signed_response_alg", VStr "RS256")] = Some (Text "clear").
Proof. vm_compute. split; [reflexivity|]. split; [eexists; reflexivity|]. repeat split. Qed.

(** a client with a URI for logout, and its requests *)
Definition logout : msg := [("backchannel_logout_supported", VBool true); ("backchannel_logout_session_supported", VBool true)].
Definition uri8 : msg := [("backchannel_logout_uri", VStr "https://rp.example.org/logout")].
Example C61_ex :
  wants_logout (cx_provider_info (cx8 logout)) (clients8 uri8) "c1" "back" /\
  idt8 [] logout uri8 None None = Raise EAttr /\
  fst (exchange sid2 hash2 (cx8 logout) (make_for_token (ic8 []) (cx8 logout)) true both false 2000 (mt2 "at9") (mt2 "rt9") None (code_request "c1")
         (mkW (st1 (gr2 ar2) false) (clients8 uri8))) = Raise EAttr /\
  answered8 logout uri8 ["code"; "id_token"] = Ok (Some (VStr "server_error")) /\
  (exists v, answered8 logout [] ["code"; "id_token"] = Ok (Some v) /\ v <> VStr "server_error").
Proof.
  split. { split; [eexists; split; reflexivity|]. split; [eexists; split; reflexivity|]. eexists. split; reflexivity. }
  vm_compute. split; [reflexivity|]. split; [reflexivity|]. split; [reflexivity|]. eexists. split; [reflexivity|discriminate].
Qed.
