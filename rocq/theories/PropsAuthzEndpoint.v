(** PropsAuthzEndpoint.v: the authorization response. How it travels (C22), what it says (C47, C58), errors (C59). *)
From Verif Require FormPostSpec PropsFormPost UriSpec PropsUri Manager.
From Verif Require Import Base BaseProofs Monad Types SessionKey SessionKeyProofs Token Grant GrantSpec Database DatabaseSpec DatabaseProofs
  Ctx Authz World Minting WorldSpec WorldProofs ResponseSpec ResponseProofs Uri PyUrl FormPost Response ResponseHeadSpec ResponseHeadProofs
  AuthzEndpoint AuthzEndpointSpec AuthzEndpointProofs PropsClaims PropsIntrospection PropsTokenEndpoint PropsResponse.
Local Open Scope Z_scope.

(** ** C22: how it travels *)

(** A response with an access token or an ID Token goes out as a page with a form, or in the fragment of the
    redirect_uri; the query of the redirect_uri is as in the request. *)
Theorem C22_token : forall e en request sid w r w' resp,
  authz_part2 e request sid w = (Ok r, w') -> respond en authorization_endpoint r = Ok resp ->
  has "access_token" (ri_args r) \/ has "id_token" (ri_args r) ->
  as_page resp \/ exists uri, addressed request uri /\ in_fragment uri (to_urlencoded en (ri_args r)) resp.
Proof.
  intros e en request sid w r w' resp H Hr T. destruct (dget "error" (ri_args r)) as [v|] eqn:Er.
  { exfalso. destruct (failed_shape _ _ _ _ _ _ _ H Er) as (_ & A & B & _). unfold lacks in *. destruct T as [[x X]|[x X]]; congruence. }
  destruct (success_shape _ _ _ _ _ _ _ _ H Er Hr) as (r0 & rt & uri & _ & C & R & P & A & _ & _ & S).
  destruct S as [_ B|_ Pg _]; [right|now left]. exists uri. split; [exact A|].
  destruct (completed_get _ _ _ _ C) as (_ & _ & O).
  assert (W : wants request rt = true).
  { apply (wants_token _ _ R). destruct T as [[x X]|[x X]]; [left|right]; rewrite O in X by discriminate.
    - rewrite <- (pl_access _ _ _ P). unfold dmem. now rewrite X.
    - rewrite <- (pl_id _ _ _ P). unfold dmem. now rewrite X. }
  rewrite W in B. eexists. split; [exact B|]. split; [apply query_fragment|]. intros F. apply (loc_fragment en (ri_args r) uri F).
Qed.
Print Assumptions C22_token.

(** A response with a code and no token goes out as a page with a form, or in the query of the redirect_uri, if there is
    no "#" in that (see C20_hash_refuted for when there is). *)
Theorem C22_code_partial : forall e en request sid w r w' resp,
  authz_part2 e request sid w = (Ok r, w') -> respond en authorization_endpoint r = Ok resp ->
  has "code" (ri_args r) -> lacks "access_token" (ri_args r) -> lacks "id_token" (ri_args r) ->
  as_page resp \/
  exists uri, addressed request uri /\
    (free "#" uri -> free "#" (to_urlencoded en (ri_args r)) -> in_query uri (to_urlencoded en (ri_args r)) resp).
Proof.
  intros e en request sid w r w' resp H Hr [x Hc] Ha Hi. destruct (dget "error" (ri_args r)) as [v|] eqn:Er.
  { exfalso. destruct (failed_shape _ _ _ _ _ _ _ H Er) as (A & _). unfold lacks in *. congruence. }
  destruct (success_shape _ _ _ _ _ _ _ _ H Er Hr) as (r0 & rt & uri & _ & C & R & P & A & _ & _ & S).
  destruct S as [_ B|_ Pg _]; [right|now left]. exists uri. split; [exact A|]. intros F1 F2.
  destruct (completed_get _ _ _ _ C) as (_ & _ & O). unfold lacks in *. rewrite O in Hc, Ha, Hi by discriminate.
  assert (W : wants request rt = false).
  { apply (wants_code _ _ _ R P); [rewrite <- (pl_code _ _ _ P)|rewrite <- (pl_access _ _ _ P)|rewrite <- (pl_id _ _ _ P)];
      unfold dmem; rewrite ?Hc, ?Ha, ?Hi; reflexivity. }
  rewrite W in B. eexists. split; [exact B|]. exact (loc_query en (ri_args r) uri F1 F2).
Qed.
Print Assumptions C22_code_partial.

(** With a redirect_uri that ends in "#", the code is in the fragment. *)
Theorem C22_hash_refuted : forall e en request sid w r w' resp base,
  authz_part2 e request sid w = (Ok r, w') -> respond en authorization_endpoint r = Ok resp ->
  has "code" (ri_args r) -> lacks "access_token" (ri_args r) -> lacks "id_token" (ri_args r) ->
  dget "redirect_uri" request = Some (VStr (base ++ "#")) -> free "#" base ->
  as_page resp \/
  exists loc sep, rs_body resp = Text loc /\ query_of loc = query_of base /\
    fragment_of loc = Some (sep ++ to_urlencoded en (ri_args r))%string /\ (sep = "?" \/ sep = "&")%string.
Proof.
  intros e en request sid w r w' resp base H Hr [x Hc] Ha Hi G Fb. destruct (dget "error" (ri_args r)) as [v|] eqn:Er.
  { exfalso. destruct (failed_shape _ _ _ _ _ _ _ H Er) as (A & _). unfold lacks in *. congruence. }
  destruct (success_shape _ _ _ _ _ _ _ _ H Er Hr) as (r0 & rt & uri & _ & C & R & P & A & _ & _ & S).
  destruct S as [_ B|_ Pg _]; [right|now left]. specialize (A _ G). injection A as <-.
  destruct (completed_get _ _ _ _ C) as (_ & _ & O). unfold lacks in *. rewrite O in Hc, Ha, Hi by discriminate.
  assert (W : wants request rt = false).
  { apply (wants_code _ _ _ R P); [rewrite <- (pl_code _ _ _ P)|rewrite <- (pl_access _ _ _ P)|rewrite <- (pl_id _ _ _ P)];
      unfold dmem; rewrite ?Hc, ?Ha, ?Hi; reflexivity. }
  rewrite W in B. unfold msg_request in B.
  assert (X : forall t, cut "#" ((base ++ "#") ++ t)%string = (base, Some t)).
  { intros t. rewrite !cut_app, (cut_free _ _ Fb). cbn. now rewrite FormPostProofs.sapp_nil. }
  destruct (contains "?" (base ++ "#")).
  - eexists _, "&"%string. split; [exact B|]. unfold query_of, fragment_of. rewrite X, (cut_free _ _ Fb). auto.
  - eexists _, "?"%string. split; [exact B|]. unfold query_of, fragment_of. rewrite X, (cut_free _ _ Fb). auto.
Qed.
Print Assumptions C22_hash_refuted.

(** Any other response mode is refused, and no code or token handed over. *)
Theorem C22_modes : forall e request sid w r w' mode,
  authz_part2 e request sid w = (Ok r, w') -> dget "response_mode" request = Some mode ->
  ~ In mode [VStr "form_post"; VStr "fragment"; VStr "query"] ->
  failed (ri_args r) /\ lacks "code" (ri_args r) /\ lacks "access_token" (ri_args r) /\ lacks "id_token" (ri_args r).
Proof.
  intros e request sid w r w' mode H G N.
  assert (F : exists v, dget "error" (ri_args r) = Some v).
  { destruct (part2_shape _ _ _ _ _ _ H) as [(err & d & ->)|(r0 & w1 & P & -> & Ef & Eu & Ey & _ & C)]; [eexists; reflexivity|].
    destruct (completed_get _ _ _ _ C) as (_ & _ & O). rewrite O by discriminate.
    destruct (post_shape _ _ _ _ _ _ P) as [err d X|rt Rt F [d Rf] U Y|rt uri cl Rt F U K Y D|rt uri cl Rt F U K M D Y].
    - subst r0. eexists; reflexivity.
    - rewrite Rf. eexists; reflexivity.
    - destruct D as [[d Rf]|[_ D]]; [rewrite Rf; eexists; reflexivity|].
      exfalso. apply N. destruct D as [D|[[D _]|[D _]]]; rewrite G in D; [discriminate| |]; injection D as ->; cbn; tauto.
    - exfalso. apply N. rewrite G in M. injection M as ->. cbn; tauto. }
  destruct F as [v F]. destruct (failed_shape _ _ _ _ _ _ _ H F) as (A & B & C & _). split; [now exists v|]. auto.
Qed.
Print Assumptions C22_modes.

(** A mode that does not fit the response type is refused: no token for "query", no plain code for "fragment". *)
Theorem C22_mismatch : forall e request sid w r w' mode,
  authz_part2 e request sid w = (Ok r, w') -> dget "response_mode" request = Some (VStr mode) -> ~ failed (ri_args r) ->
  (mode = "query"%string -> lacks "access_token" (ri_args r) /\ lacks "id_token" (ri_args r)) /\
  (mode = "fragment"%string -> has "code" (ri_args r) -> has "access_token" (ri_args r) \/ has "id_token" (ri_args r)).
Proof.
  intros e request sid w r w' mode H G N.
  destruct (part2_shape _ _ _ _ _ _ H) as [(err & d & ->)|(r0 & w1 & P & -> & Ef & Eu & Ey & _ & C)].
  { exfalso. apply N. eexists; reflexivity. }
  destruct (completed_get _ _ _ _ C) as (_ & _ & O). unfold failed, has, lacks in *.
  setoid_rewrite O in N; [|discriminate..].
  assert (Pl : exists rt, mget_list "response_type" request = Some rt /\ plain request rt (ri_args r0) /\
    (mode = "form_post" \/ (mode = "fragment" /\ wants request rt = true) \/ (mode = "query" /\ wants request rt = false))%string).
  { destruct (post_shape _ _ _ _ _ _ P) as [err d X|rt Rt F [d Rf] U Y|rt uri cl Rt F U K Y D|rt uri cl Rt F U K M D Y].
    - exfalso. subst r0. apply N. eexists; reflexivity.
    - exfalso. rewrite Rf in N. apply N. eexists; reflexivity.
    - destruct D as [[d Rf]|[Pl D]]; [exfalso; rewrite Rf in N; apply N; eexists; reflexivity|].
      exists rt. split; [exact Rt|]. split; [exact Pl|]. rewrite G in D. destruct D as [D|[[[= ->] D]|[[= ->] D]]]; [discriminate|auto..].
    - destruct D as [[d Rf]|Pl]; [exfalso; rewrite Rf in N; apply N; eexists; reflexivity|].
      exists rt. split; [exact Rt|]. split; [exact Pl|]. rewrite G in M. injection M as ->. now left. }
  destruct Pl as (rt & R & Pl & M). rewrite !O by discriminate. split.
  - intros ->. destruct M as [M|[[M _]|[_ W]]]; [discriminate..|].
    pose proof (pl_access _ _ _ Pl) as PA. pose proof (pl_id _ _ _ Pl) as PI. unfold dmem in *.
    destruct (dget "access_token" (ri_args r0)); [rewrite (wants_token _ _ R) in W by (left; now rewrite <- PA); discriminate|].
    destruct (dget "id_token" (ri_args r0)); [rewrite (wants_token _ _ R) in W by (right; now rewrite <- PI); discriminate|]. auto.
  - intros -> [x Hc]. destruct M as [M|[[_ W]|[M _]]]; [discriminate| |discriminate].
    pose proof (pl_access _ _ _ Pl) as PA. pose proof (pl_id _ _ _ Pl) as PI. pose proof (pl_code _ _ _ Pl) as PC. unfold dmem in *.
    rewrite Hc in PC. destruct (dget "access_token" (ri_args r0)) as [t|]; [left; eauto|]. destruct (dget "id_token" (ri_args r0)) as [t|]; [right; eauto|].
    rewrite (wants_code _ _ _ R Pl) in W by auto. discriminate.
Qed.
Print Assumptions C22_mismatch.

(** ** C47: issuer, client and state *)

(** In every response without error there are the issuer, the client_id of the request and its state; if form_post is not
    requested, all of that, encoded, is added to the redirect_uri. *)
Theorem C47_names_partial : forall e en request sid w r w' resp,
  authz_part2 e request sid w = (Ok r, w') -> respond en authorization_endpoint r = Ok resp -> ~ failed (ri_args r) ->
  dget "iss" (ri_args r) = Some (VStr (cx_issuer (az_cx e))) /\
  has "client_id" (ri_args r) /\ dget "client_id" (ri_args r) = dget "client_id" request /\
  dget "state" (ri_args r) = truthy_get "state" request /\
  (dget "response_mode" request <> Some (VStr "form_post") ->
   exists uri sep, addressed request uri /\ rs_body resp = Text (uri ++ sep ++ to_urlencoded en (ri_args r)) /\ In sep ["?"; "&"; "#"]%string).
Proof.
  intros e en request sid w r w' resp H Hr N.
  assert (Er : dget "error" (ri_args r) = None) by (destruct (dget "error" (ri_args r)) eqn:E; [destruct N; now exists v|reflexivity]).
  destruct (success_shape _ _ _ _ _ _ _ _ H Er Hr) as (r0 & rt & uri & _ & C & R & P & A & _ & _ & S).
  destruct (completed_get _ _ _ _ C) as (I & Ci & O). split; [exact I|]. split.
  { destruct C as (cid & G & _). exists cid. congruence. }
  split; [exact Ci|]. split; [rewrite O by discriminate; apply (pl_state _ _ _ P)|].
  intros M. destruct S as [_ B|X _ _]; [|congruence]. unfold msg_request in B. destruct (wants request rt).
  - exists uri, "#"%string. split; [exact A|]. split; [exact B|]. cbn; tauto.
  - destruct (contains "?" uri); [exists uri, "&"%string|exists uri, "?"%string]; (split; [exact A|]; split; [exact B|]; cbn; tauto).
Qed.
Print Assumptions C47_names_partial.

(** With form_post, what the browser submits has neither issuer nor client_id. *)
Theorem C47_form_post_refuted : forall e en request sid w r w' resp,
  authz_part2 e request sid w = (Ok r, w') -> respond en authorization_endpoint r = Ok resp -> ~ failed (ri_args r) ->
  dget "response_mode" request = Some (VStr "form_post") ->
  exists uri members, rs_body resp = Text (form_post uri members) /\ ~ In "iss"%string (dkeys members) /\ ~ In "client_id"%string (dkeys members) /\
    (FormPostSpec.harmless uri = true -> Forall FormPostSpec.well members ->
     FormPostSpec.submitted (form_post uri members) = members).
Proof.
  intros e en request sid w r w' resp H Hr N M.
  assert (Er : dget "error" (ri_args r) = None) by (destruct (dget "error" (ri_args r)) eqn:E; [destruct N; now exists v|reflexivity]).
  destruct (success_shape _ _ _ _ _ _ _ _ H Er Hr) as (r0 & rt & uri & _ & C & R & P & A & _ & _ & S).
  destruct S as [X _|_ _ B]; [congruence|]. eexists uri, _. split; [exact B|].
  assert (K : forall k, dget k (ri_args r0) = None -> ~ In k (dkeys (map (fun kv => (fst kv, az_show e (snd kv))) (ri_args r0)))).
  { intros k G I. assert (D : dkeys (map (fun kv => (fst kv, az_show e (snd kv))) (ri_args r0)) = dkeys (ri_args r0))
      by (unfold dkeys; rewrite map_map; reflexivity). rewrite D in I. now apply dget_None_key in G. }
  split; [apply K, (pl_iss _ _ _ P)|]. split; [apply K, (pl_cid _ _ _ P)|]. intros Ha Hw. now apply PropsFormPost.C44_exact_partial.
Qed.
Print Assumptions C47_form_post_refuted.

(** ** C58: a response says what was recorded *)
Theorem C58_recorded : forall e request u c gid g w r w',
  fine (w_db w) -> good u -> good c -> good gid -> view (w_db w) [u; c; gid] = Some (EGrant g) ->
  authz_part2 e request (session_key [u; c; gid]) w = (Ok r, w') -> ~ failed (ri_args r) ->
  exists g' types codes tokens,
    view (w_db w') [u; c; gid] = Some (EGrant g') /\ mget_list "response_type" request = Some types /\
    (* the grant is authorized and has the new tokens *)
    decided (az_handler e) (gc_rules (cx_grant_config (az_cx e))) (gc_expires_in (cx_grant_config (az_cx e))) (az_clock e) c request g g' /\
    g_issued g' = g_issued g ++ codes ++ tokens /\ g_used g' = g_used g + Z.of_nat (length (codes ++ tokens)) /\
    (* which are those asked for *)
    (In "code"%string types <-> codes <> []) /\ (In "token"%string types <-> tokens <> []) /\
    Forall (made (mt_clock (az_code e)) (g_rules g') "authorization_code" None) codes /\
    Forall (made (mt_clock (az_access e)) (g_rules g') "access_token" (hd_error codes)) tokens /\
    (* and those in the response *)
    reported "code" (ri_args r) codes /\ reported "access_token" (ri_args r) tokens /\
    (forall t, In t tokens -> dget "token_type" (ri_args r) = Some (VStr "Bearer") /\
       dget "expires_in" (ri_args r) = if t_expires_at t =? 0 then None else Some (VInt (t_expires_at t - az_later e))) /\
    (* the ID Token is made for the two, from that grant *)
    (forall v, dget "id_token" (ri_args r) = Some v -> exists x s cs cs', v = VStr x /\ view s [u; c; gid] = Some (EGrant g') /\
       az_idtoken e s (session_key [u; c; gid]) (option_map t_value (hd_error codes)) (option_map t_value (hd_error tokens)) cs = (Ok (Some x), cs')) /\
    (In "id_token"%string types <-> has "id_token" (ri_args r)) /\
    (* in the session of the client the ID Token is noted; nothing else changes *)
    noted (dget "id_token" (ri_args r)) (view (w_db w) [u; c]) (view (w_db w') [u; c]) /\
    (forall q, good_path q -> q <> [u; c; gid] -> q <> [u; c] -> view (w_db w') q = view (w_db w) q).
Proof.
  intros e request u c gid g w r w' Hf Hu Hc Hg V H N.
  assert (Er : dget "error" (ri_args r) = None) by (destruct (dget "error" (ri_args r)) eqn:E; [destruct N; now exists v|reflexivity]). clear N.
  destruct (part2_shape _ _ _ _ _ _ H) as [(err & d & ->)|(r0 & w1 & P & -> & _ & _ & _ & _ & C)]; [discriminate|].
  destruct (completed_get _ _ _ _ C) as (_ & _ & O). rewrite O in Er by discriminate.
  destruct (post_state _ _ _ _ _ _ _ _ _ Hf Hu Hc Hg V P Er) as (g1 & w2 & r1 & F2 & V2 & A2 & Is & Us & Au & Cr & Ea).
  rewrite Ea in *.
  destruct (create_state _ _ _ _ _ _ _ _ _ F2 Hu Hc Hg V2 Cr Er) as (rt & code & access & idt & R & V3 & A3 & Nt & Lc & La & Mc & Ma & Id & Rc & Ra & Ex & Im).
  exists (with_tokens (single code ++ single access) g1), rt, (single code), (single access).
  assert (A : forall q, good_path q -> q <> [u; c; gid] -> q <> [u; c] -> view (w_db w1) q = view (w_db w) q).
  { intros q G1 G2 G3. rewrite A3 by assumption. now apply A2. }
  assert (L : forall x (l : list token), length l = (if smem x rt then 1%nat else 0%nat) -> (In x rt <-> l <> [])).
  { intros x l E. rewrite <- smem_In. destruct (smem x rt), l; cbn in E; try discriminate; split; intuition discriminate. }
  split; [exact V3|]. split; [exact R|]. split; [unfold decided in *; destruct (az_handler e); destruct Au; constructor; assumption|].
  split; [cbn; now rewrite Is|]. split; [cbn; now rewrite Us|].
  split; [now apply L|]. split; [now apply L|]. split; [exact Mc|].
  split. { destruct code; exact Ma. }
  assert (Rep : forall k l, k <> "iss"%string -> k <> "client_id"%string -> k <> "session_state"%string -> reported k (ri_args r1) l -> reported k (ri_args r) l).
  { intros k l K1 K2 K3. unfold reported, lacks. now rewrite O. }
  split; [apply Rep; [discriminate..|exact Rc]|]. split; [apply Rep; [discriminate..|exact Ra]|].
  split. { intros t I. rewrite !O by discriminate. destruct access; [|destruct I]. destruct I as [<-|[]]. exact Ex. }
  split. { intros v Ev. rewrite O in Ev by discriminate. destruct (Im v) as (x & s & cs & cs' & X1 & X2 & X3); [congruence|].
    exists x, s, cs, cs'. rewrite V3 in X2. destruct code, access; auto. }
  split. { destruct (create_shape _ _ _ _ _ _ Cr) as (_ & rt' & R' & _ & [[d Bad]|Pl]); [rewrite Bad in Er; discriminate|].
    assert (rt' = rt) by congruence. subst rt'. unfold has. rewrite O by discriminate. rewrite <- smem_In, <- (pl_id _ _ _ Pl). symmetry. apply has_mem. }
  split; [|exact A].
  rewrite O by discriminate. rewrite Id.
  rewrite (A2 [u; c]) in Nt; [exact Nt| |discriminate].
  split; [constructor; [exact Hu|constructor; [exact Hc|constructor]]|cbn; lia].
Qed.
Print Assumptions C58_recorded.

(** With a response that is no error goes the cookie of the session and, with session management, that of the
    authentication, if there is one with a value; no other. *)
Theorem C58_cookies : forall e request sid w r w',
  authz_part2 e request sid w = (Ok r, w') -> ~ failed (ri_args r) ->
  exists cookie, az_cookie e sid (dget "state" request) = Ok cookie /\
    if az_iframe e then
      exists ae o, fst (Manager.get_authentication_event sid (w_db w')) = Ok (Some ae) /\ az_opbs e (ae_authn_time ae) = Ok o /\
        ri_cookie r = Some (VList (cookie :: match o with Some (v, c) => if nonempty v then [c] else [] | None => [] end))
    else ri_cookie r = Some (VList [cookie]).
Proof.
  intros e request sid w r w' H N. apply (part2_cookie _ _ _ _ _ _ H).
  destruct (dget "error" (ri_args r)) eqn:E; [destruct N; now exists v|reflexivity].
Qed.
Print Assumptions C58_cookies.

(** A response type is answered only as a whole: all of it is known, and "none" stands alone. *)
Theorem C58_types : forall e request sid w r w',
  authz_part2 e request sid w = (Ok r, w') -> ~ failed (ri_args r) ->
  exists types, mget_list "response_type" request = Some types /\
    (types = ["none"%string] \/ forall x, In x types -> In x ["code"; "token"; "id_token"]%string).
Proof.
  intros e request sid w r w' H N. apply (answered_types _ _ _ _ _ _ H).
  destruct (dget "error" (ri_args r)) eqn:E; [destruct N; now exists v|reflexivity].
Qed.
Print Assumptions C58_types.

(** ** C50: the session state that is sent *)

(** With session management, a response that is no error carries a session state made for the client that asked and for
    the origin of the address the response goes to, of the value of the cookie that goes with it (see C58_cookies; the
    empty string when there is none) and a salt; and this only as long as the authentication is valid. With
    C50_session_state: two such session states of a client and an origin agree only if the cookie values do. *)
Theorem C50_response : forall e request sid w r w',
  authz_part2 e request sid w = (Ok r, w') -> ~ failed (ri_args r) -> az_iframe e = true ->
  exists ae o client uri origin,
    fst (Manager.get_authentication_event sid (w_db w')) = Ok (Some ae) /\ az_later e < ae_valid_until ae /\
    az_opbs e (ae_authn_time ae) = Ok o /\ dget "client_id" request = Some (VStr client) /\ ri_uri r = Some uri /\
    az_origin e uri = Ok origin /\
    let opbs := match o with Some (value, _) => value | None => ""%string end in
    dget "session_state" (ri_args r) =
      Some (VStr (az_sha e (client ++ " " ++ origin ++ " " ++ opbs ++ " " ++ az_salt e) ++ "." ++ az_salt e)).
Proof.
  intros e request sid w r w' H N If. apply (part2_session_state _ _ _ _ _ _ H); [|exact If].
  destruct (dget "error" (ri_args r)) eqn:E; [destruct N; now exists v|reflexivity].
Qed.
Print Assumptions C50_response.

(** ** C59: errors *)

(** An error response that is sent is sent to the redirect_uri, in the URL or as a page with a form. *)
Theorem C59_sent_partial : forall e en request sid w r w' resp,
  authz_part2 e request sid w = (Ok r, w') -> respond en authorization_endpoint r = Ok resp -> failed (ri_args r) ->
  exists uri, addressed request uri /\
    ((exists sep, rs_body resp = Text (uri ++ sep ++ to_urlencoded en (ri_args r)) /\ In sep ["?"; "&"; "#"]%string) \/
     (as_page resp /\ exists m, failed m /\ rs_body resp = Text (form_post uri (map (fun kv => (fst kv, az_show e (snd kv))) m)))).
Proof.
  intros e en request sid w r w' resp H Hr [v Er].
  destruct (failed_sent _ _ _ _ _ _ _ _ _ H Er Hr) as (uri & A & [(b & B)|(Pg & m0 & B & _ & F)]); exists uri; (split; [exact A|]).
  - left. unfold msg_request in B. destruct b; [|destruct (contains "?" uri)]; eexists; (split; [exact B|cbn; tauto]).
  - right. split; [exact Pg|]. eauto.
Qed.
Print Assumptions C59_sent_partial.

(** It hands over neither code nor token. *)
Theorem C59_nothing : forall e request sid w r w',
  authz_part2 e request sid w = (Ok r, w') -> failed (ri_args r) ->
  lacks "code" (ri_args r) /\ lacks "access_token" (ri_args r) /\ lacks "id_token" (ri_args r).
Proof. intros e request sid w r w' H [v Er]. destruct (failed_shape _ _ _ _ _ _ _ H Er) as (A & B & C & _). auto. Qed.
Print Assumptions C59_nothing.

(** It names the error and says in words what is wrong. *)
Theorem C59_said : forall e request sid w r w',
  authz_part2 e request sid w = (Ok r, w') -> failed (ri_args r) ->
  exists err words, dget "error" (ri_args r) = Some (VStr err) /\ dget "error_description" (ri_args r) = Some (VStr words).
Proof.
  intros e request sid w r w' H [v Er]. destruct (failed_said _ _ _ _ _ _ _ H Er) as (err & d & -> & D). eauto.
Qed.
Print Assumptions C59_said.

(** None of them has the state of the request. *)
Theorem C59_state_refuted : forall e request sid w r w',
  authz_part2 e request sid w = (Ok r, w') -> failed (ri_args r) -> lacks "state" (ri_args r).
Proof. intros e request sid w r w' H [v Er]. apply (failed_shape _ _ _ _ _ _ _ H Er). Qed.
Print Assumptions C59_state_refuted.

(** Whatever is sent, answer or error, goes to a redirect_uri that is registered for the client then. *)
Theorem C22_registered : forall e en request sid w r w' resp,
  authz_part2 e request sid w = (Ok r, w') -> respond en authorization_endpoint r = Ok resp -> dmem "redirect_uri" request = true ->
  exists uri c l, dget "redirect_uri" request = Some (VStr uri) /\ UriSpec.client_of request None c /\
    UriSpec.registered (w_cdb w') c "redirect_uris" l /\ UriSpec.matches (az_u e) l (ul_unquote (az_u e) uri) /\
    ((exists sep, rs_body resp = Text (uri ++ sep ++ to_urlencoded en (ri_args r)) /\ In sep ["?"; "&"; "#"]%string) \/
     (as_page resp /\ exists members, rs_body resp = Text (form_post uri members))).
Proof.
  intros e en request sid w r w' resp H Hr Hm.
  destruct (part2_shape _ _ _ _ _ _ H) as [(err & d & ->)|(r0 & w1 & P & -> & Ef & Eu & Ey & _ & C)].
  { exfalso. destruct (respond_url en (error_response no_info err d) _ eq_refl Hr) as (uri & U & _). discriminate. }
  assert (X : exists uri, ri_uri r = Some uri /\ ((ri_ready r = None) \/ exists members, ri_ready r = Some (form_post uri members))).
  { destruct (post_shape _ _ _ _ _ _ P) as [err d X|rt Rt F Rf U Y|rt uri cl Rt F U G Y D|rt uri cl Rt F U G M D Y].
    - exfalso. subst r0. cbn in Eu, Ey. destruct (respond_url en _ _ Ey Hr) as (uri & U & _). congruence.
    - exfalso. rewrite <- Ey in Y. destruct (respond_url en _ _ Y Hr) as (uri & U' & _). congruence.
    - exists uri. rewrite Eu, Ey. auto.
    - exists uri. rewrite Eu, Ey. eauto. }
  destruct X as (uri & U & X). destruct (post_uri _ _ _ _ _ _ P) as [N|(uri' & U' & G)]; [congruence|].
  assert (uri' = uri) by congruence. subst uri'.
  destruct (PropsUri.C20_used _ _ _ _ _ Hm G) as (Du & c & l & Hc & Hl & Ml & _). exists uri, c, l.
  split; [exact Du|]. split; [exact Hc|]. split; [exact Hl|]. split; [exact Ml|]. destruct X as [Y|(m & Y)].
  - left. destruct (respond_url en _ _ Y Hr) as (uri' & U2 & B). assert (uri' = uri) by congruence. subst uri'. unfold msg_request in B.
    destruct (match ri_fragment r with Some b => b | None => false end); [|destruct (contains "?" uri)]; eexists; (split; [exact B|cbn; tauto]).
  - right. destruct (respond_ready en r resp _ Y Hr) as [B A]. split; [exact A|]. eauto.
Qed.
Print Assumptions C22_registered.
(** With session management an authentication that has timed out meanwhile is refused, and nothing is sent. *)
Theorem C59_timeout_refuted : forall e en request sid w r w' ae,
  az_iframe e = true -> authz_part2 e request sid w = (Ok r, w') ->
  fst (Manager.get_authentication_event sid (w_db w')) = Ok (Some ae) -> ae_valid_until ae <= az_later e ->
  failed (ri_args r) /\ respond en authorization_endpoint r = Raise EKey.
Proof.
  intros e en request sid w r w' ae Fr H Ea Late.
  assert (X : exists err d, r = error_response no_info err d).
  { unfold authz_part2 in H. head_bind H E1. unfold attempt in E1.
    destruct (post_authentication e request sid w) as [[r1|x] w1]; injection E1 as <- <-.
    2: { injection H as <- _. do 2 eexists. reflexivity. }
    rewrite Fr in H. head_bind H E2. unfold attempt, in_db in E2.
    assert (Z := get_event_state sid (w_db w1)). destruct (Manager.get_authentication_event sid (w_db w1)) as [re db] eqn:Eg. cbn [snd] in Z. subst db.
    injection E2 as <- <-.
    destruct re as [[ae'|]|x].
    - destruct (negb (az_later e <? ae_valid_until ae')) eqn:L; [injection H as <- _; do 2 eexists; reflexivity|].
      exfalso. apply Bool.negb_false_iff, Z.ltb_lt in L.
      assert (w_db w' = w_db w1).
      { head_bind H E3. injection E3 as E3 <-. destruct r0 as [o|]; [|discriminate]. head_bind H E4. injection E4 as E4 <-. destruct r0 as [cid|]; [|discriminate].
        head_bind H E5. injection E5 as E5 <-. destruct r0 as [uri|]; [|discriminate]. head_bind H E6. injection E6 as E6 <-. destruct r0 as [org|]; [|discriminate].
        head_bind H E7. injection E7 as E7 <-. destruct r0 as [cid'|]; [|discriminate]. injection H as _ <-. reflexivity. }
      rewrite H0 in Ea. rewrite Eg in Ea. cbn [fst] in Ea. assert (ae' = ae) by congruence. subst. lia.
    - discriminate.
    - destruct x; try discriminate. injection H as <- _. do 2 eexists. reflexivity. }
  destruct X as (err & d & ->). split; [eexists; reflexivity|]. unfold respond. rewrite do_response_eq. reflexivity.
Qed.
Print Assumptions C59_timeout_refuted.

(** If the authorization is denied, nothing is sent. *)
Theorem C59_denied_refuted : forall e en request sid w x w1 r w',
  authorize e sid request w = (Raise x, w1) -> authz_part2 e request sid w = (Ok r, w') ->
  failed (ri_args r) /\ respond en authorization_endpoint r = Raise EKey.
Proof.
  intros e en request sid w x w1 r w' A H.
  assert (P : post_authentication e request sid w = (Ok (error_response no_info "access_denied" (az_text e x)), w1)).
  { unfold post_authentication, bind, attempt, ret. rewrite A. reflexivity. }
  assert (X : ri_uri r = None /\ ri_ready r = None /\ failed (ri_args r)).
  { destruct (part2_shape _ _ _ _ _ _ H) as [(err & d & ->)|(r0 & w2 & P' & _ & _ & Eu & Ey & _ & C)].
    - split; [reflexivity|]. split; [reflexivity|]. eexists. reflexivity.
    - rewrite P in P'. assert (error_response no_info "access_denied" (az_text e x) = r0) by congruence. subst r0.
      split; [exact Eu|]. split; [exact Ey|]. exists (VStr "access_denied"). apply (no_error_args _ _ _ _ _ C). }
  destruct X as (U & Y & F). split; [exact F|]. unfold respond. rewrite do_response_eq. cbn [nonempty String.eqb negb].
  unfold kwargs_of. rewrite Y, U. reflexivity.
Qed.
Print Assumptions C59_denied_refuted.

(** So it is, with AuthzHandling, for every request without scope, a parameter that may be left out (RFC 6749, 4.1.1). *)
Theorem C59_scope_refuted : forall e en request sid w r w',
  az_handler e = AHandling -> dget "scope" request = None -> authz_part2 e request sid w = (Ok r, w') ->
  failed (ri_args r) /\ respond en authorization_endpoint r = Raise EKey.
Proof.
  intros e en request sid w r w' Ah G H. destruct (authorize e sid request w) as [[g|x] w1] eqn:A; [|eapply C59_denied_refuted; eauto].
  exfalso. unfold authorize in A. rewrite Ah in A. unfold handling in A. head_bind A E1. destruct r0 as [i|]; [|discriminate]. head_bind A E2. destruct r0 as [g0|]; [|discriminate].
  destruct (authz_call _ _ _ _ _ _) as [[[]|] [cs g1]] eqn:C; [|discriminate].
  destruct (authz_call_grant _ _ _ _ _ _ _ _ _ C) as (scopes & M & _). unfold mget_list in M. rewrite G in M. discriminate.
Qed.
Print Assumptions C59_scope_refuted.

(** ** Cases *)
Lemma st1_fine g rv : fine (st1 g rv).
Proof.
  split.
  - intros q e Hq E. unfold stored in E. cbn -[String.eqb session_key] in E.
    destruct (String.eqb_spec (session_key q) "diana") as [X|_].
    { change "diana"%string with (session_key ["diana"]) in X. apply key_eq in X; [|assumption|apply gp1, good_by; reflexivity].
      injection E as <-. subst q. cbn. lia. }
    destruct (String.eqb_spec (session_key q) "diana;;c1") as [X|_].
    { change "diana;;c1"%string with (session_key ["diana"; "c1"]) in X.
      apply key_eq in X; [|assumption|apply gp2; apply good_by; reflexivity]. injection E as <-. subst q. cbn. lia. }
    destruct (String.eqb_spec (session_key q) sid1) as [X|_]; [|discriminate].
    change sid1 with (session_key ["diana"; "c1"; "g1"]) in X.
    apply key_eq in X; [|assumption|apply gp3; apply good_by; reflexivity]. injection E as <-. subst q. reflexivity.
  - intros u c Hu Hc E. unfold stored in *. cbn -[String.eqb session_key] in E.
    destruct (String.eqb_spec (session_key [u; c]) "diana") as [X|_].
    { change "diana"%string with (session_key ["diana"]) in X. apply key_eq in X; [|auto with gp|apply gp1, good_by; reflexivity]. discriminate. }
    destruct (String.eqb_spec (session_key [u; c]) "diana;;c1") as [X|_].
    { change "diana;;c1"%string with (session_key ["diana"; "c1"]) in X.
      apply key_eq in X; [|auto with gp|apply gp2; apply good_by; reflexivity]. injection X as -> ->.
      eexists. split; [vm_compute; reflexivity|]. left. reflexivity. }
    destruct (String.eqb_spec (session_key [u; c]) sid1) as [X|_]; [|contradiction].
    change sid1 with (session_key ["diana"; "c1"; "g1"]) in X.
    apply key_eq in X; [|auto with gp|apply gp3; apply good_by; reflexivity]. discriminate.
Qed.

Definition rules7 : grules :=
  mkGRules None [("authorization_code", mkURules (Some 1) (Some ["access_token"]) (Some 120)); ("access_token", mkURules None None (Some 600))].
Definition cx7 : ctx :=
  mkCtx (cx_issuer cx1) (cx_provider_info cx1) (cx_capabilities cx1) (cx_scope2claims cx1) (cx_modules cx1) (cx_users cx1)
        (mkGConf (Some rules7) (Some 3600)).
Definition cb : string := "https://rp.example.org/cb".
Definition clients7 : cdb :=
  [("c1", [("client_id", VStr "c1"); ("allowed_scopes", vstrs ["openid"; "email"]); ("redirect_uris", VList [UriSpec.entry cb (VStr "")])])].
Definition az7 (iframe : bool) : authz_env :=
  mkAZ cx7 py_url true 2000 2010 "salt" (mt2 "code7") (mt2 "at7")
    (fun _ sid c t => ret (Some ("idt:" ++ match c with Some x => x | None => "-" end ++ ":" ++ match t with Some x => x | None => "-" end)%string))
    (fun sid _ => Ok (VStr ("cookie:" ++ sid))) (fun _ => Ok (Some ("opbs", VStr "oc")%string)) (fun s => ("<" ++ s ++ ">")%string)
    (fun _ => Ok "https://rp.example.org"%string) (fun v => match v with VStr s => s | _ => "?" end) (fun _ => "error"%string) iframe AHandling.
Definition gr7 : grant :=
  mkGrant "g1" "sub-of-diana" [] [] [] (Some ar2) (Some ae1) [] no_grules 1000 0 0 false 0.
Definition w7 : world := mkW (st1 gr7 false) clients7.
Definition rq7 (types : list string) (uri : string) (more : msg) : msg :=
  [("client_id", VStr "c1"); ("redirect_uri", VStr uri); ("response_type", vstrs types); ("scope", vstrs ["openid"]); ("state", VStr "xyz")] ++ more.
(** the body sent *)
Definition sent (iframe : bool) (request : msg) : result body :=
  match fst (authz_part2 (az7 iframe) request sid1 w7) with
  | Ok r => let* resp := respond ex_enc authorization_endpoint r in Ok (rs_body resp)
  | Raise x => Raise x
  end.

Example C22_ex :
  sent false (rq7 ["code"] cb []) =
    Ok (Text "https://rp.example.org/cb?state=xyz&scope=?&code=code7&iss=https://op.example.org&client_id=c1") /\
  sent false (rq7 ["code"; "token"] cb []) =
    Ok (Text "https://rp.example.org/cb#state=xyz&scope=?&code=code7&access_token=at7&token_type=Bearer&expires_in=?&iss=https://op.example.org&client_id=c1") /\
  sent true (rq7 ["id_token"] cb [("response_mode", VStr "fragment")]) =
    Ok (Text "https://rp.example.org/cb#state=xyz&scope=?&id_token=idt:-:-&session_state=<c1 https://rp.example.org opbs salt>.salt&iss=https://op.example.org&client_id=c1") /\
  (* with "#" *)
  sent false (rq7 ["code"] (cb ++ "#") []) =
    Ok (Text "https://rp.example.org/cb#?state=xyz&scope=?&code=code7&iss=https://op.example.org&client_id=c1") /\
  (* refused *)
  sent false (rq7 ["code"] cb [("response_mode", VStr "pigeon")]) =
    Ok (Text "https://rp.example.org/cb?error=invalid_request&error_description=error&iss=https://op.example.org&client_id=c1") /\
  sent false (rq7 ["token"] cb [("response_mode", VStr "query")]) =
    Ok (Text "https://rp.example.org/cb#error=invalid_request&error_description=error&iss=https://op.example.org&client_id=c1").
Proof. vm_compute. repeat split. Qed.

Example C47_ex : exists page, sent false (rq7 ["code"] cb [("response_mode", VStr "form_post")]) = Ok (Text page) /\
  FormPostSpec.submitted page = [("state", "xyz"); ("scope", "?"); ("code", "code7")]%string /\
  FormPostSpec.target page = Some cb.
Proof. eexists. split; [vm_compute; reflexivity|]. vm_compute. split; reflexivity. Qed.

(** hypotheses of C58 *)
Example C58_ex : exists r w' g',
  fine (w_db w7) /\ good "diana" /\ good "c1" /\ good "g1" /\ view (w_db w7) ["diana"; "c1"; "g1"] = Some (EGrant gr7) /\
  authz_part2 (az7 true) (rq7 ["code"; "token"; "id_token"] cb []) (session_key ["diana"; "c1"; "g1"]) w7 = (Ok r, w') /\ ~ failed (ri_args r) /\
  view (w_db w') ["diana"; "c1"; "g1"] = Some (EGrant g') /\ map t_value (g_issued g') = ["code7"; "at7"]%string /\
  map t_expires_at (g_issued g') = [2120; 2600] /\ g_scope g' = ["openid"%string] /\ g_expires_at g' = 5600.
Proof.
  do 3 eexists. split; [apply st1_fine|]. do 3 (split; [apply good_by; reflexivity|]). split; [reflexivity|].
  split; [vm_compute; reflexivity|]. split; [intros [v X]; discriminate|]. split; [vm_compute; reflexivity|]. repeat split.
Qed.

Example C58_ex_cookies :
  let cookies b := match fst (authz_part2 (az7 b) (rq7 ["code"] cb []) sid1 w7) with Ok r => ri_cookie r | Raise _ => None end in
  cookies true = Some (VList [VStr ("cookie:" ++ sid1); VStr "oc"]) /\ cookies false = Some (VList [VStr ("cookie:" ++ sid1)]).
Proof. vm_compute. split; reflexivity. Qed.

(** No scope *)
Example C59_ex :
  fst (authorize (az7 false) sid1 (ddel "scope" (rq7 ["code"] cb [])) w7) = Raise EKey /\
  sent false (ddel "scope" (rq7 ["code"] cb [])) = Raise EKey.
Proof. vm_compute. split; reflexivity. Qed.
(** Another redirect_uri than the registered one; an authentication that has timed out meanwhile *)
Example C22_ex_registered :
  sent false (rq7 ["code"] "https://attacker.example.org/cb" []) = Raise EKey /\
  (exists b, sent false (rq7 ["code"] cb []) = Ok b) /\ dmem "redirect_uri" (rq7 ["code"] cb []) = true.
Proof. split; [vm_compute; reflexivity|]. split; [eexists; vm_compute; reflexivity|reflexivity]. Qed.
Definition az7_late : authz_env :=
  let e := az7 true in
  mkAZ (az_cx e) (az_u e) true 2000 4600 "salt" (az_code e) (az_access e) (az_idtoken e) (az_cookie e) (az_opbs e) (az_sha e) (az_origin e) (az_show e)
    (az_text e) true AHandling.
Example C59_ex_timeout : exists r w',
  authz_part2 az7_late (rq7 ["code"] cb []) sid1 w7 = (Ok r, w') /\
  fst (Manager.get_authentication_event sid1 (w_db w')) = Ok (Some ae1) /\ ae_valid_until ae1 <= az_later az7_late /\
  ri_args r = error_args "server_error" "Authentication has timed out".
Proof. do 2 eexists. split; [vm_compute; reflexivity|]. split; [vm_compute; reflexivity|]. split; [cbn; lia|reflexivity]. Qed.
