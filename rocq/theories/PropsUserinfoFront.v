(** PropsUserinfoFront.v: what it takes to get claims from the userinfo endpoint. *)
From Verif Require Import Base BaseProofs Monad MonadProofs Types SessionKey Token Grant GrantSpec GrantProofs Database DatabaseSpec DatabaseProofs Manager ManagerProofs Ctx Claims ClaimsSpec
  ClientAuthn ClientAuthnSpec ClientAuthnProofs UserInfo UserInfoSpec UserInfoProofs PropsClaims UserinfoFront UserinfoFrontSpec UserinfoFrontProofs PropsClientAuthn.
Local Open Scope Z_scope.

(** ** C85 *)
(** Claims are given only for a usable access token that was presented as a bearer token where the endpoint looks for one. They are those of
    the user of the token's session, the answer is made for the session's client, and no session is changed. *)
Theorem C85_served :
  forall sid_of o e cls aka cx clock request auth s args c how s',
  userinfo_request sid_of o e cls aka cx clock request auth s = (Ok (UClaims args c how), s') ->
  fr_db s' = fr_db s /\
  exists v u g t ae, presented e request auth v /\ names sid_of (fr_db s) v u c g t /\ t_class t = CAccess /\ token_usable clock t /\ g_authn g = Some ae /\
    ((ae_valid_until ae <= clock /\ args = [("error", VStr "invalid_request"); ("error_description", VStr "Access not granted")]) \/
     (clock < ae_valid_until ae /\ dget "sub" args = Some (VStr (g_sub g)) /\
      forall k x, k <> "sub" -> dget k args = Some x ->
        user_has cx u k x /\ exists spec, listed (ca_cdb (fr_ca s')) g "userinfo" k spec /\ (claim_request spec -> admits spec x))).
Proof.
  intros sid_of o e cls aka cx clock request auth s args c how s' H. unfold userinfo_request in H.
  destruct (userinfo_parse sid_of o e cls aka request auth (fr_db s) (fr_ca s)) as [[[err|rq]|x] ca] eqn:P; try discriminate H.
  destruct (userinfo_process sid_of cx (ca_cdb ca) clock rq (fr_db s)) as [[a|x] db] eqn:E; [|discriminate H].
  destruct a as [err d|args' cid]; [discriminate H|]. cbn [userinfo_answer] in H.
  destruct (userinfo_packing (ca_cdb ca) (match cid with Some c => c | None => "" end)) as [how'|x]; [|discriminate H].
  injection H as -> <- _ <-. cbn [fr_db fr_ca].
  destruct (C17_userinfo _ _ _ _ _ _ _ _ _ E) as (-> & v & u & c & g & t & ae & Hv & Hn & Hc & Hu & -> & Ha & D). split; [reflexivity|].
  destruct (parsed _ _ _ _ _ _ _ _ _ _ _ P) as (c' & t' & -> & Hp & _). rewrite dget_dset_eq in Hv.
  exists v, u, g, t, ae. split; [apply Hp; congruence|]. auto 10.
Qed.
Print Assumptions C85_served.

(** Without a bearer method nothing is ever given. *)
Theorem C85_needs_bearer :
  forall sid_of o e cls aka cx clock request auth s args c how s',
  ~ In (Some MBearerHeader) (ep_methods e) -> ~ In (Some MBearerBody) (ep_methods e) ->
  userinfo_request sid_of o e cls aka cx clock request auth s <> (Ok (UClaims args c how), s').
Proof.
  intros sid_of o e cls aka cx clock request auth s args c how s' N1 N2 H.
  destruct (C85_served _ _ _ _ _ _ _ _ _ _ _ _ _ _ H) as (_ & v & u & g & t & ae & [[A _]|[A _]] & _); contradiction.
Qed.
Print Assumptions C85_needs_bearer.

(** Whatever comes in and whatever the outcome: no session changes, JWT ids are only added, and at most how a client has
    authenticated is noted. *)
Theorem C85_state :
  forall sid_of o e cls aka cx clock request auth s,
  let s' := snd (userinfo_request sid_of o e cls aka cx clock request auth s) in
  fr_db s' = fr_db s /\ ClientAuthnSpec.grows (ca_jti (fr_ca s)) (ca_jti (fr_ca s')) /\
  (ca_cdb (fr_ca s') = ca_cdb (fr_ca s) \/ exists c, only_noted c (ca_cdb (fr_ca s)) (ca_cdb (fr_ca s'))).
Proof.
  intros sid_of o e cls aka cx clock request auth s. cbv zeta.
  assert (P : forall r ca, userinfo_parse sid_of o e cls aka request auth (fr_db s) (fr_ca s) = (r, ca) ->
    ClientAuthnSpec.grows (ca_jti (fr_ca s)) (ca_jti ca) /\ (ca_cdb ca = ca_cdb (fr_ca s) \/ exists c, only_noted c (ca_cdb (fr_ca s)) (ca_cdb ca))).
  { intros r ca. unfold userinfo_parse, catch, client_authentication, bind.
    destruct (verify_client o e cls (Some (client_of sid_of (fr_db s))) aka request auth (fr_ca s)) as [r0 s1] eqn:V.
    destruct (C54_effect _ _ _ _ _ _ _ _ _ _ V) as [G K].
    assert (K' : ClientAuthnSpec.grows (ca_jti (fr_ca s)) (ca_jti s1) /\ (ca_cdb s1 = ca_cdb (fr_ca s) \/ exists c, only_noted c (ca_cdb (fr_ca s)) (ca_cdb s1))).
    { split; [exact G|]. destruct r0 as [[ai|]|]; auto. destruct K as [K|(c & _ & K)]; eauto. }
    clear G K. intros H. assert (ca = s1); [|now subst].
    destruct r0 as [[[[c|] [t|] m]|]|x]; unfold ret, raise in H; try (cbn in H; congruence).
    - destruct (is_nil (ep_methods e)); cbn in H; congruence.
    - destruct (is_value_or_unknown x); congruence. }
  unfold userinfo_request.
  destruct (userinfo_parse sid_of o e cls aka request auth (fr_db s) (fr_ca s)) as [[[err|rq]|x] ca] eqn:E; specialize (P _ _ eq_refl); try (split; [reflexivity|exact P]).
  pose proof (userinfo_state sid_of cx (ca_cdb ca) clock rq (fr_db s)) as U.
  destruct (userinfo_process sid_of cx (ca_cdb ca) clock rq (fr_db s)) as [r db]. cbn in U. subst db. split; [reflexivity|exact P].
Qed.
Print Assumptions C85_state.

(** With the default setup a usable access token in the header gets the answer: all listed claims that the user has and that satisfy
    their request, packed as the client is registered. Nothing changes. *)
Theorem C85_header :
  forall sid_of o e cls cx clock request auth s v u c g t ae info,
  by_default e -> authz_str auth = Some ("Bearer " ++ v)%string -> v <> "" -> c <> "" ->
  names sid_of (fr_db s) v u c g t -> t_class t = CAccess -> token_usable clock t ->
  g_authn g = Some ae -> clock < ae_valid_until ae -> claims_ok (ca_cdb (fr_ca s)) g "userinfo" ->
  dget c (ca_cdb (fr_ca s)) = Some info ->
  exists args how, userinfo_request sid_of o e cls [] cx clock request auth s = (Ok (UClaims args c how), s) /\
    dget "sub" args = Some (VStr (g_sub g)) /\
    (forall k x, k <> "sub" ->
      (dget k args = Some x <-> user_has cx u k x /\ exists spec, listed (ca_cdb (fr_ca s)) g "userinfo" k spec /\ admits spec x)) /\
    (how = PJson <-> dget "userinfo_signed_response_alg" info = None /\
       ~ (dget "userinfo_encrypted_response_enc" info <> None /\ dget "userinfo_encrypted_response_alg" info <> None)).
Proof.
  intros sid_of o e cls cx clock request auth s v u c g t ae info De Hv Nv Nc Hn Hc Hu Ha Hl Ho Hi.
  destruct (C17_userinfo_complete sid_of cx (ca_cdb (fr_ca s)) clock (dset "access_token" (VStr v) (dset "client_id" (VStr c) request)) (fr_db s) v u c g t ae
    (dget_dset_eq _ _ _) Hn Hc Hu Ha Hl Ho) as (args & E & Es & Ek).
  assert (Pk : exists how, userinfo_packing (ca_cdb (fr_ca s)) c = Ok how /\ (how = PJson <-> dget "userinfo_signed_response_alg" info = None /\
       ~ (dget "userinfo_encrypted_response_enc" info <> None /\ dget "userinfo_encrypted_response_alg" info <> None))).
  { unfold userinfo_packing, dsub. rewrite Hi. destruct c as [|a r]; [congruence|]. cbn [nonempty is_nil negb]. eexists. split; [reflexivity|].
    destruct (dget "userinfo_signed_response_alg" info), (dget "userinfo_encrypted_response_enc" info), (dget "userinfo_encrypted_response_alg" info);
      split; try discriminate; try (intros [? _]; discriminate); try (intros _; split; [reflexivity|]; intros [? ?]; congruence); try reflexivity.
    intros [_ X]. exfalso. apply X. split; discriminate. }
  destruct Pk as (how & Ep & Eh). exists args, how. split; [|split; [exact Es|split; [exact Ek|exact Eh]]].
  destruct Hn as (sid & gid & H1 & H2 & _). unfold userinfo_request.
  rewrite (header_parse sid_of o e cls request auth v De Hv). assert (X : nonempty v = true) by (destruct v; [congruence|reflexivity]). rewrite X.
  rewrite (client_of_eq sid_of v _ u c gid sid H1 H2). rewrite E. cbn [userinfo_answer]. rewrite Ep. cbn. destruct s. reflexivity.
Qed.
Print Assumptions C85_header.

(** A token in the header that is empty or unknown, is no access token, is revoked, expired, used up or not yet valid is refused with
    "invalid_token". Nothing changes. *)
Theorem C85_refused :
  forall sid_of o e cls cx clock request auth s v,
  by_default e -> authz_str auth = Some ("Bearer " ++ v)%string ->
  v = "" \/ sid_of v = Raise EUnknownToken \/ sid_of v = Raise EKey \/ sid_of v = Raise EValue \/
  (v <> "" /\ exists sid, sid_of v = Ok sid /\ unpack3 sid = Raise EValue) \/
  (v <> "" /\ exists sid u c gid g, sid_of v = Ok sid /\ unpack3 sid = Ok (u, c, gid) /\ view (fr_db s) [u; c; gid] = Some (EGrant g) /\ ~ In v (map t_value (g_issued g))) \/
  (v <> "" /\ exists u c g t, names sid_of (fr_db s) v u c g t /\ (t_class t <> CAccess \/ ~ token_usable clock t)) ->
  userinfo_request sid_of o e cls [] cx clock request auth s = (Ok (URefused "invalid_token"), s).
Proof.
  intros sid_of o e cls cx clock request auth s v De Hv D. unfold userinfo_request.
  rewrite (header_parse sid_of o e cls request auth v De Hv).
  destruct (nonempty v) eqn:X; [|destruct s; reflexivity]. assert (Nv : v <> "") by (intros ->; discriminate).
  destruct D as [D|[D|[D|[D|[(_ & sid & D & D2)|[(_ & sid & u & c & gid & g & H1 & H2 & H3 & H4)|(_ & u & c & g & t & D & K)]]]]]]; [contradiction| | | | | |].
  1-3: rewrite (client_of_not sid_of v _ _ D); destruct s; reflexivity.
  - assert (Y : client_of sid_of (fr_db s) (VStr v) = Raise EValue).
    { unfold client_of, get_client_id_from_token, get_session_info_by_token, get_session_info, bind, lift. rewrite D, D2. reflexivity. }
    rewrite Y. destruct s; reflexivity.
  - rewrite (client_of_eq sid_of v _ u c gid sid H1 H2).
    assert (Y : userinfo_process sid_of cx (ca_cdb (fr_ca s)) clock (dset "access_token" (VStr v) (dset "client_id" (VStr c) request)) (fr_db s) = (Ok (AError "invalid_token" "Wrong type of token"), fr_db s)).
    { unfold userinfo_process, get_session_info_by_token, msub_str, bind, lift. rewrite dget_dset_eq, H1.
      pose proof (read_grant sid (fr_db s)) as R. destruct (get_session_info sid false false true false false (fr_db s)) as [[i|x] s0] eqn:Ei.
      2:{ exfalso. unfold get_session_info, bind, lift, ret in Ei. rewrite H2 in Ei. destruct (read_cases [u; c; gid] (fr_db s)) as [(y & Hr & Hw)|(y & Hr & Hw)]; [rewrite Hr in Ei; discriminate|congruence]. }
      destruct R as (-> & u' & c' & gid' & y & E1 & E2 & _ & _ & _ & E3). assert (y = EGrant g) by congruence. subst y.
      assert (Gt : get_token v g = None).
      { unfold get_token. clear - H4. induction (g_issued g) as [|a l IH]; [reflexivity|]. cbn. destruct (String.eqb_spec (t_value a) v) as [Eq|_]; [exfalso; apply H4; now left|].
        apply IH. intros Z. apply H4. now right. }
      unfold grant_of. rewrite E3. cbn [as_grant]. unfold ret. rewrite Gt. reflexivity. }
    rewrite Y. destruct s; reflexivity.
  - pose proof D as Dn. destruct D as (sid & gid & H1 & H2 & _). rewrite (client_of_eq sid_of v _ u c gid sid H1 H2).
    assert (Y : exists d, userinfo_process sid_of cx (ca_cdb (fr_ca s)) clock (dset "access_token" (VStr v) (dset "client_id" (VStr c) request)) (fr_db s) = (Ok (AError "invalid_token" d), fr_db s)).
    { destruct (unpack3_names _ _ _ _ _ _ _ Dn) as (sid' & gid' & A & B & C).
      unfold userinfo_process, get_session_info_by_token, grant_of, as_grant, bind, lift, ret, raise. unfold msub_str. rewrite dget_dset_eq, A, B. cbn [in_grant in_uid in_cid]. rewrite C.
      destruct (tclass_eqb (t_class t) CAccess) eqn:T; cbn [negb]; [|eexists; reflexivity].
      assert (T' : t_class t = CAccess) by (destruct (t_class t); try discriminate T; reflexivity).
      destruct K as [K|K]; [contradiction|]. destruct (t_active clock t) eqn:Ac; [exfalso; apply K; now apply t_active_iff|]. cbn [negb]. eexists; reflexivity. }
    destruct Y as (d & Y). rewrite Y. destruct s; reflexivity.
Qed.
Print Assumptions C85_refused.

(** Without a bearer token in the header there is no answer, but an exception. The scheme is compared with the case of its letters. *)
Theorem C85_no_token_refuted :
  forall sid_of o e cls aka cx clock request auth s,
  by_default e -> (forall v, authz_str auth <> Some ("Bearer " ++ v)%string) ->
  userinfo_request sid_of o e cls aka cx clock request auth s = (Raise EUnAuthorizedClient, s).
Proof.
  intros sid_of o e cls aka cx clock request auth s [D1 D2] N.
  assert (T : try_methods o e [Some MBearerHeader] request (authz_str auth) (fr_ca s) = (Ok None, fr_ca s)).
  { cbn [try_methods]. destruct (is_usable MBearerHeader request (authz_str auth)) eqn:U; [|reflexivity].
    apply usable_iff in U. destruct U as (b & U). now destruct (N b). }
  unfold userinfo_request, userinfo_parse, catch, client_authentication, bind at 1 2. rewrite verify_client_eq. unfold bind at 1. rewrite D1, D2, T. cbn. destruct s. reflexivity.
Qed.
Print Assumptions C85_no_token_refuted.

(** A token whose session cannot be read any more (the sessions are in memory, the keys that tokens are made with can be on
    disk): an exception. *)
Theorem C85_gone_refuted :
  forall sid_of o e cls cx clock request auth s v sid u c gid,
  by_default e -> authz_str auth = Some ("Bearer " ++ v)%string -> v <> "" ->
  sid_of v = Ok sid -> unpack3 sid = Ok (u, c, gid) -> view (fr_db s) [u; c; gid] = None ->
  exists x, userinfo_request sid_of o e cls [] cx clock request auth s = (Raise x, s).
Proof.
  intros sid_of o e cls cx clock request auth s v sid u c gid De Hv Nv H1 H2 H3. unfold userinfo_request.
  rewrite (header_parse sid_of o e cls request auth v De Hv). assert (X : nonempty v = true) by (destruct v; [congruence|reflexivity]). rewrite X.
  rewrite (client_of_eq sid_of v _ u c gid sid H1 H2).
  unfold userinfo_process, get_session_info_by_token, msub_str, bind, lift. rewrite dget_dset_eq, H1.
  pose proof (read_grant sid (fr_db s)) as R. destruct (get_session_info sid false false true false false (fr_db s)) as [[i|y] s0].
  { exfalso. destruct R as (_ & u' & c' & gid' & y & E1 & E2 & _). congruence. }
  subst s0.
  exists y. destruct s; reflexivity.
Qed.
Print Assumptions C85_gone_refuted.

(** A client named in the request is not compared with the client of the token: with the token in the body, another registered client's
    id is accepted, and noted as authenticated. *)
Definition front1 : front := mkFr (mkCA (("other", [("client_secret", VStr "secret2")]) :: clients1) []) (st1 gr1 false).
Theorem C85_client_refuted :
  exists request args how s', dget "client_id" request = Some (VStr "other") /\
    userinfo_request sids out1 (ep1 [Some MBearerBody]) "UserInfo" [] cx1 2000 request NoAuthz front1 = (Ok (UClaims args "c1" how), s') /\
    dget "name" args = Some (VStr "Diana Krall") /\
    dget "other" (ca_cdb (fr_ca s')) = Some [("client_secret", VStr "secret2"); ("auth_method", VDict [("UserInfo", VStr "bearer_body")])].
Proof.
  exists [("client_id", VStr "other"); ("access_token", VStr "at1")]. do 3 eexists. split; [reflexivity|]. split; [vm_compute; reflexivity|]. split; reflexivity.
Qed.
Print Assumptions C85_client_refuted.

(** One session; a good token, a revoked one, a code, an unknown one, none, and the scheme in lower case *)
Definition ask85 (a : authz_data) := userinfo_request sids out1 (ep1 [Some MBearerHeader]) "UserInfo" [] cx1 2000 [] a front1.
Example C85_ex :
  by_default (ep1 [Some MBearerHeader]) /\
  (exists args, ask85 (AuthzStr "Bearer at1") = (Ok (UClaims args "c1" PJson), front1) /\ dget "email" args = Some (VStr "diana@example.org") /\ dget "phone" args = None) /\
  ask85 (AuthzStr "Bearer at2") = (Ok (URefused "invalid_token"), front1) /\
  ask85 (AuthzStr "Bearer code1") = (Ok (URefused "invalid_token"), front1) /\
  ask85 (AuthzStr "Bearer zzz") = (Ok (URefused "invalid_token"), front1) /\
  ask85 (AuthzStr "Bearer ") = (Ok (URefused "invalid_token"), front1) /\
  ask85 NoAuthz = (Raise EUnAuthorizedClient, front1) /\
  ask85 (AuthzStr "bearer at1") = (Raise EUnAuthorizedClient, front1).
Proof.
  split; [split; reflexivity|]. split; [eexists; split; [vm_compute; reflexivity|]; split; reflexivity|]. repeat (split; [vm_compute; reflexivity|]). vm_compute; reflexivity.
Qed.
(** The premises of [C85_header] *)
Example C85_ex_header :
  names sids (fr_db front1) "at1" "diana" "c1" gr1 (tok CAccess "access_token" "at1" false) /\
  token_usable 2000 (tok CAccess "access_token" "at1" false) /\ g_authn gr1 = Some ae1 /\ 2000 < ae_valid_until ae1 /\
  claims_ok (ca_cdb (fr_ca front1)) gr1 "userinfo" /\ dget "c1" (ca_cdb (fr_ca front1)) <> None.
Proof.
  split; [exact C17_ex_names|]. split; [now apply t_active_iff|]. split; [reflexivity|]. split; [reflexivity|]. split; [|discriminate].
  intros r H. assert (X := C17_ex_ok r H). injection H as <-. exact X.
Qed.
(** ... and of [C85_gone_refuted]; correct client credentials end in an exception too. *)
Example C85_ex_gone :
  view (fr_db (mkFr (fr_ca front1) [])) ["diana"; "c1"; "g1"] = None /\
  fst (userinfo_request sids out1 (ep1 [Some MBearerHeader]) "UserInfo" [] cx1 2000 [] (AuthzStr "Bearer at1") (mkFr (fr_ca front1) [])) = Raise EKey /\
  fst (userinfo_request sids out1 (ep1 [Some MBasic]) "UserInfo" [] cx1 2000 [] (AuthzStr "Basic other:secret2") front1) = Raise EKey.
Proof. split; [reflexivity|]. split; vm_compute; reflexivity. Qed.
