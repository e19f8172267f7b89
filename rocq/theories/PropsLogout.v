(** PropsLogout.v: logging out (oidc/session.py). Where the user is sent (C41), which sessions end (C42), which clients are
    told, and how (C67, C68), state (C69), the request (C70), session ids in logout tokens (C71). *)
From Verif Require Import Base BaseProofs Monad MonadProofs Types SessionKey Token Grant Database DatabaseSpec DatabaseProofs Manager ManagerProofs
  Ctx World Uri PyUrl UriSpec AuthnBroker ClientAuthn ClientAuthnSpec ClientAuthnProofs ResponseSpec ResponseProofs UserInfo SetupAuthProofs
  Logout LogoutSpec LogoutProofs ResponseHeadSpec ResponseHeadProofs ManagerSpec PropsUri PropsTokenEndpoint PropsClientAuthn PropsClaims PropsIntrospection PropsAuthzEndpoint PropsSetupAuth.
Local Open Scope Z_scope.

(** ** C41 *)
(** The request does not name a client (no client_id): the user is sent to the provider's logout page with a token made for the
    provider itself, which names the session of the cookie and where to go afterwards. That is the provider's own page,
    or a URI registered by the client of that session. Nothing has changed. What is missing: requests with a client_id. *)
Theorem C41_own_partial : forall e cookie decode request w r w',
  dget "client_id" request = None ->
  end_session e cookie decode request w = (Ok r, w') ->
  w' = w /\ exists v ts ty d sid u c g uri alg t url,
    cookie = Ok (Some (v, ts, ty)) /\ decode v = Ok (VDict d) /\ dget "sid" d = Some (VStr sid) /\ unpack3 sid = Ok (u, c, g) /\
    view (w_db w) [u; c; g] <> None /\
    dget "sid" (en_payload r) = Some (VStr sid) /\ dget "redirect_uri" (en_payload r) = Some (VStr uri) /\
    lo_sign e (VStr alg) (en_payload r) (VStr (lo_issuer e)) = Ok t /\ lo_verify_url e = Some url /\
    en_location r = (url ++ "?" ++ ul_encode (lo_url e) [("sjwt", t)])%string /\
    ((dget "post_logout_redirect_uri" request = None /\ exists p, lo_path e = Some p /\ own_page (lo_issuer e) p uri) \/
     exists raw l, dget "post_logout_redirect_uri" request = Some (VStr raw) /\
       registered (w_cdb w) c "post_logout_redirect_uris" l /\ matches (lo_url e) l (ul_unquote (lo_url e) raw) /\
       ((dget "state" request = None /\ uri = raw) \/
        exists st, dget "state" request = Some (VStr st) /\ uri = (raw ++ "?" ++ ul_encode (lo_url e) [("state", st)])%string)).
Proof.
  intros e cookie decode request w r w' NC H.
  destruct (end_ok _ _ _ _ _ _ _ H) as (-> & v & ts & ty & d & sid & u & c & g & x & alg & t & url & Ck & Dec & Sid & U & V & _ & _ & _ & Sg & Ul & L & D).
  split; [reflexivity|]. exists v, ts, ty, d, sid, u, c, g.
  assert (X : exists uri, dget "sid" (en_payload r) = Some (VStr sid) /\ dget "redirect_uri" (en_payload r) = Some (VStr uri) /\
    ((dget "post_logout_redirect_uri" request = None /\ exists p, lo_path e = Some p /\ own_page (lo_issuer e) p uri) \/
     exists raw l, dget "post_logout_redirect_uri" request = Some (VStr raw) /\
       registered (w_cdb w) c "post_logout_redirect_uris" l /\ matches (lo_url e) l (ul_unquote (lo_url e) raw) /\
       ((dget "state" request = None /\ uri = raw) \/
        exists st, dget "state" request = Some (VStr st) /\ uri = (raw ++ "?" ++ ul_encode (lo_url e) [("state"%string, st)])%string))).
  { destruct D as [(N & p & uri & P & E & ->)|(raw & P & Vu & D)].
    - exists uri. split; [reflexivity|]. split; [reflexivity|]. left. split; [exact N|]. exists p. split; [exact P|]. unfold own_page.
      rewrite <- ends_slash. destruct (ends_with "/" (lo_issuer e)); [left|right]; auto.
    - destruct (C20_sound _ _ _ _ _ Vu) as (c' & raw' & l & Cl & P' & Reg & M). assert (raw' = raw) by congruence. subst raw'.
      assert (c' = c). { destruct Cl as [_ [A|[_ A]]]; congruence. } subst c'.
      destruct D as [[S ->]|(st & S & ->)]; (eexists; split; [reflexivity|]; split; [reflexivity|]); right; exists raw, l; repeat (split; [assumption|]).
      + left. split; [|reflexivity]. unfold dmem in S. now destruct (dget "state" request).
      + right. exists st. auto. }
  destruct X as (uri & X1 & X2 & X3). exists uri, alg, t, url. repeat (split; [first [assumption|congruence]|]). exact X3.
Qed.
Print Assumptions C41_own_partial.

(** A URI from the request is used only with a verified id_token_hint for the client and the subject of the session. *)
Theorem C41_hint : forall e cookie decode request w r w' v ts ty d sid u c g,
  end_session e cookie decode request w = (Ok r, w') ->
  dget "post_logout_redirect_uri" request <> None ->
  cookie = Ok (Some (v, ts, ty)) -> decode v = Ok (VDict d) -> dget "sid" d = Some (VStr sid) -> unpack3 sid = Ok (u, c, g) ->
  exists t gr, dget (verified "id_token_hint") request = Some (VDict t) /\ view (w_db w) [u; c; g] = Some (EGrant gr) /\
    dget "sub" t = Some (VStr (g_sub gr)) /\ (forall l, dget "aud" t = Some (VList l) -> In (VStr c) l) /\ dget "aud" t <> None.
Proof.
  intros e cookie decode request w r w' v ts ty d sid u c g H P Ck Dec Sid U.
  destruct (end_ok _ _ _ _ _ _ _ H) as (-> & v' & ts' & ty' & d' & sid' & u' & c' & g' & x & _ & _ & _ & Ck' & Dec' & Sid' & U' & V & N & Hi & _).
  assert (v' = v) by congruence. subst v'. assert (d' = d) by congruence. subst d'. assert (sid' = sid) by congruence. subst sid'.
  assert (u' = u /\ c' = c /\ g' = g) as (-> & -> & ->) by (repeat split; congruence).
  destruct Hi as (t & aud & gr & T & A & I & -> & S).
  { apply N. unfold dmem. now destruct (dget "post_logout_redirect_uri" request). }
  exists t, gr. repeat (split; [assumption|]). split; [|congruence]. intros l L. assert (aud = VList l) by congruence. subst aud.
  cbn [val_in] in I. injection I as I. apply existsb_exists in I. destruct I as (y & Hy & E). destruct y; try discriminate.
  apply String.eqb_eq in E. now subst.
Qed.
Print Assumptions C41_hint.

(** For a client with a session and a URI of its own it works. *)
Theorem C41_works : forall e (cookie : result (option (string * string * string))) decode (request : msg) w v ts ty d sid u c g gr raw t aud info l alg url,
  cookie = Ok (Some (v, ts, ty)) -> decode v = Ok (VDict d) -> dget "sid" d = Some (VStr sid) ->
  unpack3 sid = Ok (u, c, g) -> view (w_db w) [u; c; g] = Some (EGrant gr) ->
  dmem "id_token_hint" request = true -> dget (verified "id_token_hint") request = Some (VDict t) ->
  dget "aud" t = Some (VList aud) -> In (VStr c) aud -> dget "sub" t = Some (VStr (g_sub gr)) ->
  dget c (w_cdb w) = Some info -> c <> ""%string ->
  dget "client_id" request = None \/ dget "client_id" request = Some (VStr c) ->
  (forall q, proper_query (ul_qs (lo_url e) q)) ->
  dget "post_logout_redirect_uri" request = Some (VStr raw) -> registered (w_cdb w) c "post_logout_redirect_uris" l ->
  Forall proper_entry l -> NoDup (map base_of l) -> matches (lo_url e) l (ul_unquote (lo_url e) raw) ->
  (forall s, dget "state" request = Some s -> exists st, s = VStr st) ->
  lo_alg e = Some alg -> lo_verify_url e = Some url -> (forall p, exists x, lo_sign e (VStr alg) p (VStr (lo_issuer e)) = Ok x) ->
  exists r, end_session e cookie decode request w = (Ok r, w).
Proof.
  intros e cookie decode request w v ts ty d sid u c g gr raw t aud info l alg url Ck Dec Sid U V Mh Vh Au Ain Su Hc Nc Cl Q P Reg Pe Nd M St Al Ul Sg.
  apply (end_works e cookie decode request w v ts ty d sid u c g gr raw t (VList aud) info alg url); auto.
  - cbn [val_in]. f_equal. apply existsb_exists. exists (VStr c). split; [exact Ain|]. cbn. apply String.eqb_refl.
  - apply (C20_exact (lo_url e) (w_cdb w) request "post_logout_redirect_uri" (Some c) c raw l); auto.
    split; [exact Nc|]. destruct Cl as [Cl|Cl]; [right|left]; auto.
Qed.
Print Assumptions C41_works.

(** A client_id in the request wins over the session's: with a session at [c], the user can be sent to a URI registered by
    any other client [c2]. *)
Theorem C41_refuted : forall e (cookie : result (option (string * string * string))) decode (request : msg) w v ts ty d sid u c g gr raw t aud info c2 l alg url,
  cookie = Ok (Some (v, ts, ty)) -> decode v = Ok (VDict d) -> dget "sid" d = Some (VStr sid) ->
  unpack3 sid = Ok (u, c, g) -> view (w_db w) [u; c; g] = Some (EGrant gr) ->
  dmem "id_token_hint" request = true -> dget (verified "id_token_hint") request = Some (VDict t) ->
  dget "aud" t = Some (VList aud) -> In (VStr c) aud -> dget "sub" t = Some (VStr (g_sub gr)) ->
  dget c (w_cdb w) = Some info -> c2 <> ""%string -> c2 <> c ->
  dget "client_id" request = Some (VStr c2) ->
  (forall q, proper_query (ul_qs (lo_url e) q)) ->
  dget "post_logout_redirect_uri" request = Some (VStr raw) -> registered (w_cdb w) c2 "post_logout_redirect_uris" l ->
  Forall proper_entry l -> NoDup (map base_of l) -> matches (lo_url e) l (ul_unquote (lo_url e) raw) ->
  dget "state" request = None ->
  lo_alg e = Some alg -> lo_verify_url e = Some url -> (forall p, exists x, lo_sign e (VStr alg) p (VStr (lo_issuer e)) = Ok x) ->
  exists r, end_session e cookie decode request w = (Ok r, w) /\ dget "redirect_uri" (en_payload r) = Some (VStr raw) /\
    dget "sid" (en_payload r) = Some (VStr sid).
Proof.
  intros e cookie decode request w v ts ty d sid u c g gr raw t aud info c2 l alg url Ck Dec Sid U V Mh Vh Au Ain Su Hc Nc N2 Cl Q P Reg Pe Nd M St Al Ul Sg.
  destruct (end_works e cookie decode request w v ts ty d sid u c g gr raw t (VList aud) info alg url) as [r H]; auto.
  - cbn [val_in]. f_equal. apply existsb_exists. exists (VStr c). split; [exact Ain|]. cbn. apply String.eqb_refl.
  - apply (C20_exact (lo_url e) (w_cdb w) request "post_logout_redirect_uri" (Some c) c2 raw l); auto. split; [exact Nc|now left].
  - intros s S. congruence.
  - exists r. split; [exact H|].
    destruct (end_ok _ _ _ _ _ _ _ H) as (_ & v' & ts' & ty' & d' & sid' & u' & c' & g' & x' & al' & t' & ur' & Ck' & Dec' & Sid' & _ & _ & _ & _ & _ & _ & _ & _ & D).
    assert (v' = v) by congruence. subst v'. assert (d' = d) by congruence. subst d'. assert (sid' = sid) by congruence. subst sid'.
    destruct D as [(Nn & _)|(raw' & P' & _ & [[_ ->]|(st & S' & _)])]; [congruence| |congruence].
    assert (raw' = raw) by congruence. subst raw'. split; reflexivity.
Qed.
Print Assumptions C41_refuted.

(** ** C69: state *)
(** The state of the request is appended to a URI without a query. What is missing: URIs with one. *)
Theorem C69_state_partial : forall e cookie decode request w r w' raw st,
  end_session e cookie decode request w = (Ok r, w') ->
  dget "post_logout_redirect_uri" request = Some (VStr raw) -> dget "state" request = Some (VStr st) ->
  let text := ul_encode (lo_url e) [("state"%string, st)] in
  exists uri, dget "redirect_uri" (en_payload r) = Some (VStr uri) /\ dget "state" (en_payload r) = Some (VStr st) /\
    uri = (raw ++ "?" ++ text)%string /\
    (free "?" raw -> free "#" raw -> free "#" text -> query_of uri = Some text /\ fst (cut "?" uri) = raw).
Proof.
  intros e cookie decode request w r w' raw st H P S text.
  destruct (end_ok _ _ _ _ _ _ _ H) as (_ & v & ts & ty & d & sid & u' & c' & g' & x' & al' & t' & ur' & _ & _ & _ & _ & _ & _ & _ & _ & _ & _ & _ & D).
  destruct D as [(Nn & _)|(raw' & P' & _ & [[Nn ->]|(st' & S' & ->)])]; [congruence|unfold dmem in Nn; now rewrite S in Nn|].
  assert (raw' = raw) by congruence. subst raw'. assert (st' = st) by congruence. subst st'.
  eexists. split; [reflexivity|]. split; [reflexivity|]. split; [reflexivity|]. intros F1 F2 F3. fold text.
  assert (F : free "#" (raw ++ "?" ++ text)%string) by (apply free_app; [exact F2|]; apply free_app; [reflexivity|exact F3]).
  unfold query_of. rewrite (cut_free _ _ F). cbn [fst].
  rewrite ResponseHeadProofs.cut_app. rewrite (cut_free _ _ F1). cbn. now rewrite str_app_nil_r.
Qed.
Print Assumptions C69_state_partial.

Lemma last_differs a b (x y : ascii) : x <> y -> (a ++ String x "")%string <> (b ++ String y "")%string.
Proof.
  intros N. revert b. induction a as [|c a IH]; intros b H.
  - destruct b as [|d b]; cbn in H; [injection H as H; contradiction|]. injection H as _ H. destruct b; discriminate.
  - destruct b as [|d b]; cbn in H; [injection H as _ H; destruct a; discriminate|]. injection H as _ H. exact (IH b H).
Qed.

(** For every URI that has a query it is wrong: the state becomes part of the last value of that query. *)
Theorem C69_query_refuted : forall e cookie decode request w r w' raw q st,
  end_session e cookie decode request w = (Ok r, w') ->
  dget "post_logout_redirect_uri" request = Some (VStr raw) -> dget "state" request = Some (VStr st) ->
  query_of raw = Some q -> free "#" raw -> free "#" (ul_encode (lo_url e) [("state"%string, st)]) ->
  exists uri, dget "redirect_uri" (en_payload r) = Some (VStr uri) /\
    query_of uri = Some (q ++ "?" ++ ul_encode (lo_url e) [("state"%string, st)])%string /\
    ~ carries uri (ul_encode (lo_url e) [("state"%string, st)]).
Proof.
  intros e cookie decode request w r w' raw q st H P S Q F2 F3.
  destruct (C69_state_partial _ _ _ _ _ _ _ _ _ H P S) as (uri & A & _ & -> & _). set (text := ul_encode _ _) in *.
  exists (raw ++ "?" ++ text)%string. split; [exact A|].
  assert (F : free "#" (raw ++ "?" ++ text)%string) by (apply free_app; [exact F2|]; apply free_app; [reflexivity|exact F3]).
  assert (E : query_of (raw ++ "?" ++ text) = Some (q ++ "?" ++ text)%string).
  { unfold query_of in *. rewrite (cut_free _ _ F). rewrite (cut_free _ _ F2) in Q. cbn [fst] in *.
    rewrite ResponseHeadProofs.cut_app. destruct (cut "?" raw) as [b o]. cbn [snd] in Q. subst o. reflexivity. }
  split; [exact E|]. intros [C|(q' & C)]; rewrite E in C.
  - assert (L : slen (q ++ "?" ++ text) = slen text) by (f_equal; congruence). rewrite !slen_app in L. change (slen "?") with 1%nat in L. lia.
  - assert (C' : ((q ++ "?" ++ text) = (q' ++ "&" ++ text))%string) by congruence. rewrite <- !str_app_assoc in C'. apply str_app_cancel_r in C'.
    exact (last_differs q q' "?" "&" ltac:(discriminate) C').
Qed.
Print Assumptions C69_query_refuted.

(** ** C42: the sessions that end *)
(** Logging out everywhere: of the clients the user has sessions with, exactly those that can be told (they have registered a
    logout URI) have their sessions revoked. All else is as it was, tokens and grants too. What is missing: the other
    clients. *)
Theorem C42_all_partial : forall e u c g w n w' ui,
  fine (w_db w) -> good u -> good c -> good g -> view (w_db w) [u] = Some (EInfo ui) -> Forall good (si_sub ui) ->
  logout_all_clients e (session_key [u; c; g]) w = (Ok n, w') ->
  w_cdb w' = w_cdb w /\ fine (w_db w') /\
  logs_out u (fun c => In c (si_sub ui) /\ told (w_cdb w) c) (w_db w) (w_db w').
Proof. exact all_effect. Qed.
Print Assumptions C42_all_partial.

(** It works if each of the clients can be told. *)
Theorem C42_works : forall e u c g w ui,
  fine (w_db w) -> good u -> good c -> good g -> view (w_db w) [u] = Some (EInfo ui) -> Forall good (si_sub ui) ->
  view (w_db w) [u; c] <> None ->
  (forall c', In c' (si_sub ui) -> view (w_db w) [u; c'] <> None /\ can_tell e (w_cdb w) u c') ->
  exists n w', logout_all_clients e (session_key [u; c; g]) w = (Ok n, w').
Proof. exact all_works. Qed.
Print Assumptions C42_works.

(** A client without a logout URI keeps its session, the one the user logs out from included. *)
Theorem C42_silent_refuted : forall e u c g w n w' ui c',
  fine (w_db w) -> good u -> good c -> good g -> view (w_db w) [u] = Some (EInfo ui) -> Forall good (si_sub ui) ->
  good c' -> ~ told (w_cdb w) c' ->
  logout_all_clients e (session_key [u; c; g]) w = (Ok n, w') ->
  view (w_db w') [u; c'] = view (w_db w) [u; c'] /\ forall g', good g' -> view (w_db w') [u; c'; g'] = view (w_db w) [u; c'; g'].
Proof.
  intros e u c g w n w' ui c' Hf Hu Hc Hg V F Hc' N H. destruct (all_effect _ _ _ _ _ _ _ _ Hf Hu Hc Hg V F H) as (_ & _ & _ & L).
  split; [|intros g' Hg']; (apply L; [auto with gp|]); intros c2 [_ T] E; [|discriminate]. injection E as <-. contradiction.
Qed.
Print Assumptions C42_silent_refuted.

(** One client that is no longer registered, and nobody is logged out. *)
Theorem C42_unknown_refuted : forall e u c g w ui c',
  good u -> good c -> good g -> view (w_db w) [u] = Some (EInfo ui) -> view (w_db w) [u; c] <> None ->
  In c' (si_sub ui) -> dget c' (w_cdb w) = None ->
  exists x, logout_all_clients e (session_key [u; c; g]) w = (Raise x, w) /\ do_verified_logout e (session_key [u; c; g]) true w = (Raise x, [], w).
Proof.
  intros e u c g w ui c' Hu Hc Hg V V2 I D. unfold do_verified_logout. rewrite (all_run e u c g w ui Hu Hc Hg V V2).
  destruct (note_clients_unknown e (w_cdb w) u (si_sub ui) c' I D [] (mkNotes [] [])) as (x & ->). exists x. split; reflexivity.
Qed.
Print Assumptions C42_unknown_refuted.

(** Logging out from one client: its session is revoked, nothing else changes; only that client is told. *)
Theorem C42_one : forall e u c g w n w' ci,
  fine (w_db w) -> good u -> good c -> good g -> view (w_db w) [u; c] = Some (EInfo ci) ->
  logout_from_client e (session_key [u; c; g]) w = (Ok n, w') ->
  w_cdb w' = w_cdb w /\ view (w_db w') [u; c] = Some (EInfo (stopped ci)) /\
  (forall q, good_path q -> q <> [u; c] -> view (w_db w') q = view (w_db w) q) /\
  (forall c', In c' (dkeys (no_back n)) \/ In c' (dkeys (no_front n)) -> c' = c) /\
  (told (w_cdb w) c -> dkeys (no_back n) = [c] \/ dkeys (no_front n) = [c]).
Proof.
  intros e u c g w n w' ci [Hk Hl] Hu Hc Hg V H. pose proof (one_ok_view _ _ _ _ _ _ _ Hu Hc Hg H) as V3.
  destruct (view (w_db w) [u; c; g]) as [x|] eqn:Vg; [|congruence].
  assert (K := view_kind (w_db w) [u; c; g] x Hk ltac:(auto with gp) Vg). destruct x as [i|gr]; [cbn in K; lia|].
  rewrite (one_run e u c g w gr Hu Hc Hg Vg) in H.
  destruct (revoke_client_effect (w_db w) u c g ci Hk Hl Hu Hc Hg V) as (s' & E & V' & Vo). rewrite E in H.
  destruct (note_client e (w_cdb w) c (session_key [u; c; g]) (mkNotes [] [])) as [[b n1]|] eqn:N; [|discriminate].
  assert (n1 = n /\ w' = mkW s' (w_cdb w)) as [-> ->] by (split; congruence). cbn [w_db w_cdb].
  split; [reflexivity|]. split; [exact V'|]. split; [exact Vo|].
  unfold note_client in N. destruct (dsub c (w_cdb w)) as [info|] eqn:D; [|discriminate]. apply dsub_ok in D. cbn [rbind] in N.
  destruct (dmem "backchannel_logout_uri" info) eqn:MB; [|destruct (dmem "frontchannel_logout_uri" info) eqn:MF].
  - destruct (back_channel e info _) as [o|] eqn:B; [|discriminate]. destruct (back_some _ _ _ _ MB B) as [y ->].
    cbn in N. injection N as <- <-. cbn. split; [intuition|auto].
  - destruct (iframe _ info _ _) as [o|] eqn:B; [|discriminate]. destruct (front_some _ _ _ _ _ MF B) as [y ->].
    cbn in N. injection N as <- <-. cbn. split; [intuition|auto].
  - injection N as <- <-. cbn. split; [intuition|]. intros T. apply told_b_spec in T. unfold told_b in T. rewrite D, MB, MF in T. discriminate.
Qed.
Print Assumptions C42_one.

(** The tokens of a session that has been logged out from work as before, at userinfo and introspection (compare
    C09_no_effect_refuted): for every session, token and request. *)
Theorem C42_tokens_refuted : forall sid_of cx clients clock un e w n w' u c g gr ui value (alla : bool),
  fine (w_db w) -> good u -> good c -> good g -> view (w_db w) [u] = Some (EInfo ui) -> Forall good (si_sub ui) ->
  view (w_db w) [u; c; g] = Some (EGrant gr) ->
  sid_of value = Ok (session_key [u; c; g]) -> In value (map t_value (g_issued gr)) ->
  (if alla then logout_all_clients e (session_key [u; c; g]) else logout_from_client e (session_key [u; c; g])) w = (Ok n, w') ->
  fst (userinfo_process sid_of cx clients clock (arq value) (w_db w')) = fst (userinfo_process sid_of cx clients clock (arq value) (w_db w)) /\
  fst (introspection_process sid_of cx clients clock un (irq value) (w_db w')) =
    fst (introspection_process sid_of cx clients clock un (irq value) (w_db w)).
Proof.
  intros sid_of cx clients clock un e w n w' u c g gr ui value alla Hf Hu Hc Hg V F Vg Hs Hin H.
  apply (same_answers sid_of cx clients clock un (w_db w) (w_db w') u c g gr gr value); auto. rewrite <- Vg. destruct alla.
  - destruct (all_effect _ _ _ _ _ _ _ _ Hf Hu Hc Hg V F H) as (_ & _ & _ & L). apply L; [auto with gp|]. discriminate.
  - assert (X : exists ci, view (w_db w) [u; c] = Some (EInfo ci)).
    { rewrite view3 in Vg. destruct (view (w_db w) [u; c]) as [[ci|]|]; try discriminate. eauto. }
    destruct X as [ci X]. destruct (C42_one _ _ _ _ _ _ _ _ Hf Hu Hc Hg X H) as (_ & _ & Vo & _). apply Vo; [auto with gp|discriminate].
Qed.
Print Assumptions C42_tokens_refuted.

(** ** C67: telling the clients *)
(** If logging out everywhere ends without an exception, each client with a back-channel URI has been sent one request with a
    logout token for it, signed for it; each of the others that have a front-channel URI has one frame; nobody else has been
    told. What is missing: exceptions on the way. *)
Theorem C67_told_partial : forall e u c0 g w frames sent w' ui,
  good u -> good c0 -> good g -> view (w_db w) [u] = Some (EInfo ui) ->
  do_verified_logout e (session_key [u; c0; g]) true w = (Ok frames, sent, w') ->
  exists (back : dict (string * string)) (front : dict string), NoDup (dkeys back) /\ NoDup (dkeys front) /\
    sent = map (fun x => (fst (snd x), ("logout_token=" ++ snd (snd x))%string)) back /\ frames = map snd front /\
    (forall c uri t, In (c, (uri, t)) back <-> In c (si_sub ui) /\ logout_message e (w_cdb w) (session_key [u; c]) c uri t) /\
    (forall c f, In (c, f) front <-> In c (si_sub ui) /\ logout_frame e (w_cdb w) (session_key [u; c]) c f) /\
    (forall c, In c (si_sub ui) -> told_at "backchannel_logout_uri" (w_cdb w) c -> In c (dkeys back)) /\
    (forall c, In c (si_sub ui) -> told_at "frontchannel_logout_uri" (w_cdb w) c -> In c (dkeys back) \/ In c (dkeys front)).
Proof.
  intros e u c0 g w frames sent w' ui Hu Hc Hg V H. unfold do_verified_logout in H.
  destruct (logout_all_clients e (session_key [u; c0; g]) w) as [[n|] w1] eqn:L; [|discriminate].
  destruct (all_ok_views _ _ _ _ _ _ _ Hu Hc Hg L) as [_ V2]. rewrite (all_run e u c0 g w ui Hu Hc Hg V V2) in L.
  destruct (note_clients e (w_cdb w) u (si_sub ui) [] (mkNotes [] [])) as [[sids n1]|] eqn:E; [|discriminate].
  assert (n1 = n) by (destruct (clean_sessions sids w) as [[]]; congruence). subst n1. clear L.
  destruct (note_clients_ok _ _ _ _ _ _ _ _ E) as (_ & _ & R3 & R4 & R5 & R6 & R7 & R8 & R9 & R10). cbn [no_back no_front] in *.
  destruct (post_all e (no_back n)) as [s r] eqn:P. destruct r as [[]|]; cbn [rbind] in H; [|discriminate].
  assert (map snd (no_front n) = frames /\ s = sent) as [<- ->] by (split; congruence).
  specialize (R9 (NoDup_nil _)). specialize (R10 (NoDup_nil _)).
  exists (no_back n), (no_front n). split; [exact R9|]. split; [exact R10|]. split; [now apply (post_all_ok e)|]. split; [reflexivity|].
  split; [|split; [|split]].
  - intros c uri t. split.
    + intros I. apply In_dget in I; [|exact R9]. destruct (R7 _ _ I) as [X|[X Y]]; [discriminate|]. split; [exact X|]. now apply back_message.
    + intros [I M]. apply back_message in M. apply dget_In. apply R5; auto.
  - intros c f. split.
    + intros I. apply In_dget in I; [|exact R10]. destruct (R8 _ _ I) as [X|[X Y]]; [discriminate|]. split; [exact X|]. now apply front_frame.
    + intros [I M]. apply front_frame in M. apply dget_In. apply R6; auto.
  - intros c I T. destruct (R3 c I T) as [x X]. eapply dget_key. apply R5; eauto.
  - intros c I T. destruct (told_b (w_cdb w) c) eqn:B. 2: { assert (T' : told (w_cdb w) c) by now right. apply told_b_spec in T'. congruence. }
    assert (D : told_at "backchannel_logout_uri" (w_cdb w) c \/ ~ told_at "backchannel_logout_uri" (w_cdb w) c).
    { unfold told_b in B. destruct (dget c (w_cdb w)) as [info|] eqn:D; [|discriminate]. unfold told_at. rewrite D.
      destruct (dget "backchannel_logout_uri" info) as [v|] eqn:Q; [left; eauto|right]. intros (i & v & X & Y). congruence. }
    destruct D as [D|D].
    + left. destruct (R3 c I D) as [x X]. eapply dget_key. apply R5; eauto.
    + right. destruct (R4 c I T D) as [x X]. eapply dget_key. apply R6; eauto.
Qed.
Print Assumptions C67_told_partial.

(** Logging out from one client: it is sent one request with a logout token for the session if it has a back-channel URI, else it
    has one frame if it has a front-channel URI. Nobody else is told. *)
Theorem C67_one : forall e u c g w frames sent w',
  fine (w_db w) -> good u -> good c -> good g ->
  do_verified_logout e (session_key [u; c; g]) false w = (Ok frames, sent, w') ->
  (exists uri t, logout_message e (w_cdb w) (session_key [u; c; g]) c uri t /\ sent = [(uri, ("logout_token=" ++ t)%string)] /\ frames = []) \/
  (exists f, logout_frame e (w_cdb w) (session_key [u; c; g]) c f /\ sent = [] /\ frames = [f]) \/
  (~ told (w_cdb w) c /\ sent = [] /\ frames = []).
Proof.
  intros e u c g w frames sent w' [Hk Hl] Hu Hc Hg H. unfold do_verified_logout in H.
  destruct (logout_from_client e (session_key [u; c; g]) w) as [[n|x] w1] eqn:L; [|discriminate].
  pose proof (one_ok_view _ _ _ _ _ _ _ Hu Hc Hg L) as V3.
  destruct (view (w_db w) [u; c; g]) as [x|] eqn:Vg; [|congruence].
  assert (K := view_kind (w_db w) [u; c; g] x Hk ltac:(auto with gp) Vg). destruct x as [i|gr]; [cbn in K; lia|].
  rewrite (one_run e u c g w gr Hu Hc Hg Vg) in L.
  destruct (note_client e (w_cdb w) c (session_key [u; c; g]) (mkNotes [] [])) as [[b n1]|] eqn:N; [|discriminate].
  assert (n1 = n) by (destruct (revoke_client_session (session_key [u; c; g]) (w_db w)) as [[]]; congruence). subst n1. clear L.
  destruct (post_all e (no_back n)) as [s1 r] eqn:P. destruct r as [[]|]; [|discriminate]. apply post_all_ok in P.
  cbn [rbind] in H. injection H as <- <- <-. subst s1.
  unfold note_client in N. destruct (dsub c (w_cdb w)) as [info|] eqn:D; [|discriminate]. apply dsub_ok in D. cbn [rbind] in N.
  destruct (dmem "backchannel_logout_uri" info) eqn:MB; [|destruct (dmem "frontchannel_logout_uri" info) eqn:MF].
  - destruct (back_channel e info _) as [o|] eqn:B; [|discriminate]. destruct (back_some _ _ _ _ MB B) as [[uri t] ->].
    cbn in N. injection N as <- <-. left. exists uri, t. split; [apply back_message_at; eauto|]. cbn. auto.
  - destruct (iframe _ info _ _) as [o|] eqn:B; [|discriminate]. destruct (front_some _ _ _ _ _ MF B) as [y ->].
    cbn in N. injection N as <- <-. right. left. exists y. split; [|cbn; auto]. exists info. unfold dmem in MB, MF.
    split; [exact D|]. split; [now destruct (dget "backchannel_logout_uri" info)|]. split; [now destruct (dget "frontchannel_logout_uri" info)|exact B].
  - injection N as <- <-. right. right. cbn. split; [|auto]. intros T. apply told_b_spec in T. unfold told_b in T. rewrite D, MB, MF in T. discriminate.
Qed.
Print Assumptions C67_one.

(** A request that fails (no answer, say) ends the logout: the clients after it are not told, no frame is returned, and the
    caller sees an exception; the sessions have been revoked all the same. *)
Theorem C67_stop_refuted : forall e sid w n w' pre c url t post x,
  logout_all_clients e sid w = (Ok n, w') -> no_back n = pre ++ (c, (url, t)) :: post ->
  (forall c' url' t', In (c', (url', t')) pre -> exists z, lo_post e url' ("logout_token=" ++ t') = Ok z) ->
  lo_post e url ("logout_token=" ++ t) = Raise x ->
  do_verified_logout e sid true w =
    (Raise x, map (fun x => (fst (snd x), ("logout_token=" ++ snd (snd x))%string)) (pre ++ [(c, (url, t))]), w').
Proof.
  intros e sid w n w' pre c url t post x L N P X. unfold do_verified_logout. rewrite L, N. clear N L.
  assert (E : post_all e (pre ++ (c, (url, t)) :: post) =
    (map (fun x => (fst (snd x), ("logout_token=" ++ snd (snd x))%string)) (pre ++ [(c, (url, t))]), Raise x)).
  { induction pre as [|[c' [url' t']] pre IH]; cbn [app post_all map fst snd].
    - rewrite X. reflexivity.
    - destruct (P c' url' t' (or_introl eq_refl)) as [z ->]. rewrite IH; [reflexivity|]. intros c2 u2 t2 I. apply (P c2 u2 t2). now right. }
  rewrite E. reflexivity.
Qed.
Print Assumptions C67_stop_refuted.

(** What the clients answer makes no difference: the caller cannot tell a refusal from a success. *)
Theorem C67_status_refuted : forall issuer provider path vurl alg url sign encrypt post1 post2 sid alla w,
  (forall u d, exists z, post1 u d = Ok z) -> (forall u d, exists z, post2 u d = Ok z) ->
  do_verified_logout (mkLO issuer provider path vurl alg url sign encrypt post1) sid alla w =
  do_verified_logout (mkLO issuer provider path vurl alg url sign encrypt post2) sid alla w.
Proof.
  intros issuer provider path vurl alg url sign encrypt post1 post2 sid alla w W1 W2.
  set (e1 := mkLO _ _ _ _ _ _ _ _ post1). set (e2 := mkLO _ _ _ _ _ _ _ _ post2). unfold do_verified_logout.
  assert (N : forall clients c s n, note_client e1 clients c s n = note_client e2 clients c s n) by reflexivity.
  assert (Ns : forall clients uid cs sids n, note_clients e1 clients uid cs sids n = note_clients e2 clients uid cs sids n).
  { intros clients uid cs. induction cs as [|c cs IH]; intros sids n; [reflexivity|]. cbn [note_clients]. rewrite N.
    destruct (note_client e2 clients c _ n); [|reflexivity]. cbn [rbind]. apply IH. }
  assert (E : (if alla then logout_all_clients e1 sid else logout_from_client e1 sid) w =
              (if alla then logout_all_clients e2 sid else logout_from_client e2 sid) w).
  { destruct alla; [|reflexivity]. unfold logout_all_clients, bind, lift. destruct (in_db _ w) as [[i|] w1]; [|reflexivity].
    destruct (gets w_cdb w1) as [[cl|] w2]; [|reflexivity]. destruct (match in_usi i with Some x => subordinate x | None => Raise EKey end); [|reflexivity].
    now rewrite Ns. }
  rewrite E. destruct ((if alla then logout_all_clients e2 sid else logout_from_client e2 sid) w) as [[n|] w1]; [|reflexivity].
  destruct (post_all_works e1 (no_back n) W1) as [s1 P1]. destruct (post_all_works e2 (no_back n) W2) as [s2 P2].
  rewrite P1, P2. now rewrite (post_all_ok _ _ _ P1), (post_all_ok _ _ _ P2).
Qed.
Print Assumptions C67_status_refuted.

(** ** C68: frames *)
Lemma frame_text a rest : ("<iframe src=""" ++ a ++ """" ++ rest)%string = ("<iframe src=" ++ String quote (a ++ String quote rest))%string.
Proof. reflexivity. Qed.

Definition session_required (info : msg) : bool :=
  match dget "frontchannel_logout_session_required" info with Some v => truthy v | None => false end.

(** A registered URI without fragment and quotes: the frame addresses it, and if the client requires it with the issuer and the
    session as parameters, beside the registered ones. What is missing: URIs with a fragment or quotes. *)
Theorem C68_frame_partial : forall u info iss sid f uri,
  dget "frontchannel_logout_uri" info = Some (VStr uri) -> iframe u info iss sid = Ok (Some f) ->
  (forall q, proper_query (ul_qs u q)) -> (forall ps, free quote (ul_encode u ps)) ->
  free quote uri -> (forall p, ul_split u uri = Ok p -> free quote (up_base p) /\ up_fragment p = ""%string) ->
  if session_required info then
    exists base registered ps, addresses f (base ++ "?" ++ ul_encode u ps) /\
      (forall k v, In (k, v) ps <-> logout_params iss sid registered k v) /\
      ((free "?" uri /\ base = uri /\ registered = []) \/
       (~ free "?" uri /\ exists p, ul_split u uri = Ok p /\ base = up_base p /\ registered = ul_qs u (up_query p)))
  else addresses f uri.
Proof.
  intros u info iss sid f uri D H Q Fe Fu Fp. unfold session_required.
  destruct (frame_ok _ _ _ _ _ _ D H) as [[-> ->]|[-> [[C ->]|(C & p & S & ->)]]]; try rewrite cut_contains in C.
  - split; [exact Fu|]. exists ">"%string. reflexivity.
  - exists uri, [], [("iss"%string, iss); ("sid"%string, sid)]. split; [|split].
    + split. { apply free_app; [exact Fu|]. apply free_app; [reflexivity|apply Fe]. }
      exists ">"%string. rewrite <- frame_text. now rewrite !str_app_assoc.
    + intros k v. rewrite <- (logout_params_flat iss sid [] k v) by constructor. reflexivity.
    + left. split; [|auto]. unfold free. now destruct (snd (cut "?" uri)).
  - destruct (Fp p S) as [Fb Fr]. rewrite Fr. cbn [nonempty]. rewrite str_app_nil_r.
    exists (up_base p), (ul_qs u (up_query p)), (flat (dset "sid" [sid] (dset "iss" [iss] (ul_qs u (up_query p))))).
    split; [|split].
    + split. { apply free_app; [exact Fb|]. apply free_app; [reflexivity|apply Fe]. }
      exists ">"%string. rewrite <- frame_text. now rewrite !str_app_assoc.
    + intros k v. apply logout_params_flat. apply Q.
    + right. split; [|eauto]. unfold free. destruct (snd (cut "?" uri)); [discriminate|discriminate C].
Qed.
Print Assumptions C68_frame_partial.

(** A URI with a fragment: the parameters become part of the fragment, which no client ever gets to see. *)
Theorem C68_fragment_refuted : forall u info iss sid f uri fr,
  dget "frontchannel_logout_uri" info = Some (VStr uri) -> session_required info = true -> iframe u info iss sid = Ok (Some f) ->
  free "?" uri -> fragment_of uri = Some fr ->
  let src := (uri ++ "?" ++ ul_encode u [("iss", iss); ("sid", sid)])%string in
  f = ("<iframe src=""" ++ src ++ """>")%string /\ query_of src = None /\
  fragment_of src = Some (fr ++ "?" ++ ul_encode u [("iss", iss); ("sid", sid)])%string.
Proof.
  intros u info iss sid f uri fr D R H F Fr src. unfold session_required in R.
  destruct (frame_ok _ _ _ _ _ _ D H) as [[R' _]|[_ [[_ ->]|(C & _)]]]; [congruence| |].
  2: { rewrite cut_contains in C. unfold free in F. rewrite F in C. discriminate. }
  split; [unfold src; now rewrite !str_app_assoc|]. unfold fragment_of in Fr.
  assert (E : cut "#" src = (fst (cut "#" uri), Some (fr ++ "?" ++ ul_encode u [("iss"%string, iss); ("sid"%string, sid)])%string)).
  { unfold src. rewrite ResponseHeadProofs.cut_app. destruct (cut "#" uri) as [a o]. cbn in Fr. subst o. reflexivity. }
  unfold query_of, fragment_of. rewrite E. cbn [fst snd]. split; [|reflexivity]. clear -F. unfold free in F.
  induction uri as [|x s IH]; [reflexivity|]. cbn [cut] in F |- *. destruct (Ascii.eqb x "?") eqn:Ex; [discriminate|].
  destruct (cut "?" s) as [b p] eqn:Eb. cbn in F. subst p. specialize (IH eq_refl). destruct (Ascii.eqb x "#"); [reflexivity|].
  destruct (cut "#" s) as [a o]. cbn [fst cut] in *. rewrite Ex. destruct (cut "?" a). exact IH.
Qed.
Print Assumptions C68_fragment_refuted.

(** A quote in the URI ends the attribute: the browser is sent elsewhere, and the rest of the URI is read as part of the page. *)
Theorem C68_quote_refuted : forall u info iss sid f a b,
  dget "frontchannel_logout_uri" info = Some (VStr (a ++ String quote b)) -> session_required info = false -> iframe u info iss sid = Ok (Some f) ->
  free quote a -> addresses f a /\ f = ("<iframe src=" ++ String quote (a ++ String quote (b ++ String quote ">")))%string.
Proof.
  intros u info iss sid f a b D R H F. unfold session_required in R.
  destruct (frame_ok _ _ _ _ _ _ D H) as [[_ ->]|[R' _]]; [|congruence].
  assert (E : ("<iframe src=""" ++ (a ++ String quote b) ++ """>")%string = ("<iframe src=" ++ String quote (a ++ String quote (b ++ String quote ">")))%string).
  { rewrite str_app_assoc. reflexivity. }
  split; [|exact E]. split; [exact F|]. eexists. exact E.
Qed.
Print Assumptions C68_quote_refuted.

(** The session given to the client is the provider's key of it, which is where the user's id can be read, whatever kind
    of subject the client knows the user by. *)
Theorem C68_user_refuted : forall e clients u c f info uri,
  good u -> good c -> logout_frame e clients (session_key [u; c]) c f -> dget c clients = Some info -> session_required info = true ->
  dget "frontchannel_logout_uri" info = Some (VStr uri) -> (forall q, proper_query (ul_qs (lo_url e) q)) ->
  exists a ps, f = ("<iframe src=""" ++ a ++ "?" ++ ul_encode (lo_url e) ps ++ """>")%string /\
    In ("sid"%string, (u ++ ";;" ++ c)%string) ps /\ unpack_session_key (u ++ ";;" ++ c) = [u; c].
Proof.
  intros e clients u c f info uri Hu Hc (i & D & _ & _ & H) D' R Du Q. assert (i = info) by congruence. subst i. unfold session_required in R.
  assert (K : unpack_session_key (u ++ ";;" ++ c) = [u; c]) by (apply (unpack_good [u; c]); auto with gp).
  destruct (frame_ok _ _ _ _ _ _ Du H) as [[R' _]|[_ [[_ ->]|(_ & p & _ & ->)]]]; [congruence| |].
  - exists uri. eexists. split; [reflexivity|]. split; [right; now left|exact K].
  - eexists. eexists. split; [reflexivity|]. split; [|exact K]. apply (logout_params_flat (lo_issuer e) (session_key [u; c])); [apply Q|].
    right. left. split; reflexivity.
Qed.
Print Assumptions C68_user_refuted.

(** ** C70: end_session requests *)
(** A request given as a dict is used only if it verifies, and a hint in it only if it is signed with a supported algorithm. *)
Theorem C70_verified : forall o ep of_token aka verify alg_of supported rq auth s r s',
  parse_end_session o ep of_token aka verify alg_of supported (GDict rq) auth s = (Ok r, s') ->
  exists given m, r = inl m /\ verify given = Ok (Some m) /\ (forall k, k <> "client_id"%string -> k <> "access_token"%string -> dget k given = dget k rq) /\
    (forall h, dget (verified "id_token_hint") m = Some h -> exists a l, alg_of h = Ok a /\ supported = Ok l /\ val_in a l = Ok true).
Proof.
  intros o ep of_token aka verify alg_of supported rq auth s r s' H. unfold parse_end_session in H.
  destruct (bind_ok _ _ _ _ _ H) as (ai & s1 & E1 & H1). clear H.
  destruct (bind_ok _ _ _ _ _ H1) as (given & s2 & E2 & H2). clear H1.
  destruct (bind_ok _ _ _ _ _ H2) as (v & s3 & E3 & H3). clear H2. unfold lift in E3.
  destruct v as [m|]; [|discriminate]. exists given, m.
  assert (A : forall k, k <> "client_id"%string -> k <> "access_token"%string -> dget k given = dget k rq).
  { intros k N1 N2. destruct ai as [ai|].
    - destruct (bind_ok _ _ _ _ _ E2) as (c & s4 & F1 & G1). destruct (bind_ok _ _ _ _ _ G1) as (t & s5 & F2 & G2).
      unfold ret in G2. injection G2 as <- <-. now rewrite !dget_dset_neq by assumption.
    - unfold ret in E2. now injection E2 as <- <-. }
  destruct (dget (verified "id_token_hint") m) as [h|] eqn:Hh.
  - destruct (bind_ok _ _ _ _ _ H3) as (a & s4 & F1 & G1). destruct (bind_ok _ _ _ _ _ G1) as (l & s5 & F2 & G2).
    destruct (bind_ok _ _ _ _ _ G2) as (b & s6 & F3 & G3). unfold lift in F1, F2, F3. destruct b; [|discriminate]. unfold ret in G3.
    split; [congruence|]. split; [congruence|]. split; [exact A|]. intros h' Eh. assert (h' = h) by congruence. subst h'. exists a, l. repeat split; congruence.
  - unfold ret in H3. split; [congruence|]. split; [congruence|]. split; [exact A|]. discriminate.
Qed.
Print Assumptions C70_verified.

(** Anything else is used as it is: no verification, no hint. *)
Theorem C70_unverified_refuted : forall o named targets iss of_token aka verify alg_of supported x rq text auth s,
  parse_end_session o (mkEp [] named targets iss) of_token aka verify alg_of supported (GOther (x :: rq)) auth s = (Ok (inl (x :: rq)), s) /\
  (nonempty text = true ->
   parse_end_session o (mkEp [] named targets iss) of_token aka verify alg_of supported (GText text) auth s = (Ok (inr text), s)).
Proof.
  intros. split; [destruct named; reflexivity|]. destruct text; [discriminate|]. intros _. destruct named; reflexivity.
Qed.
Print Assumptions C70_unverified_refuted.

Lemma verify_no_token o e m rq auth s ai s' : m <> MBearerHeader -> m <> MBearerBody -> verify o e m rq auth s = (Ok ai, s') -> ai_token ai = None.
Proof.
  destruct m; cbn [verify]; intros N1 N2 H; try contradiction.
  - apply basic_ok in H. destruct H as (_ & h & c & x & _ & _ & _ & ->). reflexivity.
  - apply post_ok in H. destruct H as (_ & h & c & x & _ & _ & _ & _ & ->). reflexivity.
  - apply jws_ok in H. destruct H as (? & ? & ? & ? & _ & _ & _ & _ & _ & _ & _ & ->). reflexivity.
  - apply jws_ok in H. destruct H as (? & ? & ? & ? & _ & _ & _ & _ & _ & _ & _ & ->). reflexivity.
  - apply request_ok in H. destruct H as (? & ? & ? & ? & _ & _ & _ & _ & _ & ->). reflexivity.
Qed.

(** With any client authentication configured for the endpoint, except by access token, no request is ever accepted: not from
    a client that authenticates, and not from one that need not. *)
Theorem C70_methods_refuted : forall o ep of_token aka verify alg_of supported request auth s,
  ep_methods ep <> [] -> ~ In (Some MBearerHeader) (ep_methods ep) -> ~ In (Some MBearerBody) (ep_methods ep) ->
  exists x s', parse_end_session o ep of_token aka verify alg_of supported request auth s = (Raise x, s').
Proof.
  intros o ep of_token aka verify alg_of supported request auth s N B1 B2.
  destruct (parse_end_session o ep of_token aka verify alg_of supported request auth s) as [[r|x] s'] eqn:H; [exfalso|eauto].
  unfold parse_end_session in H. destruct (bind_ok _ _ _ _ _ H) as (ai & s1 & E1 & H1). clear H.
  unfold client_authentication in E1. destruct (bind_ok _ _ _ _ _ E1) as (f & s2 & E2 & E3). clear E1.
  destruct f as [ai'|]; [|destruct (ep_methods ep); [contradiction|discriminate]]. unfold ret in E3. injection E3 as <- <-.
  apply verify_client_ok in E2. destruct E2 as (_ & ai0 & s3 & (cid & _ & _ & D) & W).
  assert (T0 : ai_token ai0 = None).
  { destruct W as [(l1 & m & l2 & El & _ & V & _)|(_ & _ & -> & _)]; [|reflexivity].
    eapply verify_no_token; [| |exact V]; intros ->; [apply B1|apply B2]; rewrite El; apply in_or_app; right; now left. }
  assert (T : ai_token ai' = None).
  { destruct D as [(c & _ & _ & _ & T & _)|(_ & _ & t & c & T & _)]; congruence. }
  destruct (bind_ok _ _ _ _ _ H1) as (rq & s4 & E4 & _). destruct (match request with GText s => nonempty s | _ => false end); [discriminate|].
  destruct (bind_ok _ _ _ _ _ E4) as (c & s5 & _ & E5). rewrite T in E5. discriminate.
Qed.
Print Assumptions C70_methods_refuted.

(** Nor with any at all, as the endpoint does not tell client authentication which endpoint it is. *)
Theorem C70_unnamed_refuted : forall o ep of_token aka verify alg_of supported request auth s,
  ep_methods ep <> [] -> ep_named ep = false ->
  parse_end_session o ep of_token aka verify alg_of supported request auth s = (Raise EUnAuthorizedClient, s).
Proof.
  intros o ep of_token aka verify alg_of supported request auth s N E. unfold parse_end_session, client_authentication, verify_client. rewrite E.
  destruct (ep_methods ep); [contradiction|reflexivity].
Qed.
Print Assumptions C70_unnamed_refuted.

(** ** C71: session ids in logout tokens *)
(** While the endpoint lives, it can read the session ids it has put in logout tokens. *)
Theorem C71_read_partial : forall gcm ungcm cut_tag b64 unb64 symkey iv sid,
  (forall s, unb64 (b64 s) = Some s) ->
  (forall m, let x := cut_tag (gcm symkey iv m) in ungcm symkey iv (fst x) (snd x) = Some m) ->
  decrypt_sid ungcm cut_tag unb64 symkey iv (encrypt_sid gcm b64 symkey iv sid) = Ok sid.
Proof. intros gcm ungcm cut_tag b64 unb64 symkey iv sid B G. unfold decrypt_sid, encrypt_sid. rewrite B. cbn [rbind of_option]. now rewrite G. Qed.
Print Assumptions C71_read_partial.

(** After a restart, or at another instance with the same key, it cannot: the initialisation vector is another one. *)
Theorem C71_restart_refuted : forall gcm ungcm cut_tag b64 unb64 symkey iv iv' sid,
  (forall s, unb64 (b64 s) = Some s) ->
  (forall m, let x := cut_tag (gcm symkey iv m) in ungcm symkey iv' (fst x) (snd x) = None) ->
  exists x, decrypt_sid ungcm cut_tag unb64 symkey iv' (encrypt_sid gcm b64 symkey iv sid) = Raise x.
Proof.
  intros gcm ungcm cut_tag b64 unb64 symkey iv iv' sid B G. unfold decrypt_sid, encrypt_sid. rewrite B. cbn [rbind of_option].
  rewrite (G sid). cbn [of_option]. eauto.
Qed.
Print Assumptions C71_restart_refuted.

Definition axor (a b : ascii) : ascii :=
  match a, b with
  | Ascii a0 a1 a2 a3 a4 a5 a6 a7, Ascii b0 b1 b2 b3 b4 b5 b6 b7 =>
      Ascii (xorb a0 b0) (xorb a1 b1) (xorb a2 b2) (xorb a3 b3) (xorb a4 b4) (xorb a5 b5) (xorb a6 b6) (xorb a7 b7)
  end.
(** Counter mode: each character with the next one of a stream. *)
Fixpoint mask (stream : nat -> ascii) (n : nat) (s : string) : string :=
  match s with "" => "" | String c s' => String (axor (stream n) c) (mask stream (S n) s') end%string.
Fixpoint unmask (c1 c2 s2 : string) : string :=
  match c1, c2, s2 with
  | String a c1', String b c2', String c s2' => String (axor a (axor b c)) (unmask c1' c2' s2')
  | _, _, _ => ""%string
  end.
Lemma axor3 k x y : axor (axor k x) (axor (axor k y) y) = x.
Proof.
  destruct k as [k0 k1 k2 k3 k4 k5 k6 k7], x as [x0 x1 x2 x3 x4 x5 x6 x7], y as [y0 y1 y2 y3 y4 y5 y6 y7]. unfold axor.
  assert (B : forall a b c, xorb (xorb a b) (xorb (xorb a c) c) = b) by (intros [] [] []; reflexivity). now rewrite !B.
Qed.
Lemma unmask_mask stream : forall s1 s2 n, (slen s1 <= slen s2)%nat -> unmask (mask stream n s1) (mask stream n s2) s2 = s1.
Proof.
  induction s1 as [|x s1 IH]; intros s2 n L; [reflexivity|]. destruct s2 as [|y s2]; [cbn in L; lia|]. cbn [mask unmask]. rewrite axor3. f_equal.
  apply IH. cbn [slen String.length] in L. unfold slen in *. cbn in L. lia.
Qed.

(** All of them are encrypted with the same key and the same initialisation vector. Where the cipher is one that adds a
    stream made from these two (AES in GCM does), who has two logout tokens and knows the one session id (a client knows the
    user's logins with it) reads the other: one and the same way for every key. *)
Theorem C71_secret_refuted : forall (gcm : string -> string -> string -> string) (cut_tag : string -> string * string) b64 unb64,
  (forall s, unb64 (b64 s) = Some s) ->
  exists read : string -> string -> string -> option string, forall symkey iv sid1 sid2,
    (exists stream, forall m, fst (cut_tag (gcm symkey iv m)) = mask stream 0 m) -> (slen sid1 <= slen sid2)%nat ->
    read (encrypt_sid gcm b64 symkey iv sid1) (encrypt_sid gcm b64 symkey iv sid2) sid2 = Some sid1.
Proof.
  intros gcm cut_tag b64 unb64 B.
  exists (fun m1 m2 s2 => match unb64 m1, unb64 m2 with
                          | Some x1, Some x2 => Some (unmask (fst (cut_tag x1)) (fst (cut_tag x2)) s2)
                          | _, _ => None
                          end).
  intros symkey iv sid1 sid2 [stream E] L. unfold encrypt_sid. rewrite !B. rewrite !E. now rewrite unmask_mask.
Qed.
Print Assumptions C71_secret_refuted.

(** ** Cases *)
(** One user with sessions at three clients: [c1] has a back-channel, [c2] a front-channel, [c3] neither. [c4] has another
    front-channel, with a fragment; [c5] a second back-channel. *)
Definition start (g c : string) : mop := OCreate 1000 g None (Some [("client_id", VStr c)]) "diana" c (Ok ("sub-" ++ c)%string) None None.
Definition store_of (cs : list string) : store := mrun true (map (fun c => start ("g-" ++ c)%string c) cs) [].
Definition back_page : string := "https://rp1.example.org/bye".
Definition clients10 : cdb :=
  [("c1", [("client_id", VStr "c1"); ("backchannel_logout_uri", VStr "https://rp1.example.org/logout");
           ("post_logout_redirect_uris", VList [UriSpec.entry back_page (VStr "")])]);
   ("c2", [("client_id", VStr "c2"); ("frontchannel_logout_uri", VStr "https://rp2.example.org/out?a=b");
           ("frontchannel_logout_session_required", VBool true);
           ("post_logout_redirect_uris", VList [UriSpec.entry "https://rp2.example.org/bye" (VDict [("lang", vstrs ["sv"])])])]);
   ("c3", [("client_id", VStr "c3")]);
   ("c4", [("client_id", VStr "c4"); ("frontchannel_logout_uri", VStr "https://rp4.example.org/#out");
           ("frontchannel_logout_session_required", VBool true)]);
   ("c5", [("client_id", VStr "c5"); ("backchannel_logout_uri", VStr "https://rp5.example.org/logout")])].
(** No answer from [c1]'s server when [dead]. *)
Definition lo10 (dead : bool) : lo_env :=
  mkLO "https://op.example.org" [("id_token_signing_alg_values_supported", vstrs ["RS256"])]
    (Some "bye"%string) (Some "https://op.example.org/verify_logout"%string) (Some "ES256"%string) py_url
    (fun alg p recv => match alg, dget "sid" p, recv with
                       | VStr a, Some (VStr s), VStr r => Ok (a ++ "(" ++ s ++ ")" ++ r)%string
                       | _, _, _ => Raise EType
                       end)
    (fun s => Ok ("<" ++ s ++ ">")%string)
    (fun url _ => if dead && contains "rp1" url then Raise EOther else Ok 200).
Definition w10 (cs : list string) : world := mkW (store_of cs) clients10.
Definition sid10 : string := "diana;;c1;;g-c1".

Lemma store_of_fine cs : Forall (fun c => good c /\ good ("g-" ++ c)%string /\ c <> "diana"%string) cs -> fine (store_of cs).
Proof.
  intros F. assert (W : well_formed (fun x => x = "diana"%string) (store_of cs)).
  { apply mrun_wf; [|apply wf_empty]. rewrite Forall_map. eapply Forall_impl; [|exact F]. intros c (A & B & C).
    unfold op_ok, start. cbn [op_user op_client op_grant]. split; [apply good_by; reflexivity|]. auto. }
  destruct W as (A & B & _). split; assumption.
Qed.
Definition ui10 (cs : list string) : sinfo := mkSInfo SUser (Some "diana"%string) cs false [].
Example w10_ok : fine (w_db (w10 ["c1"; "c2"; "c3"])) /\ good "diana" /\ good "c1" /\ good "g-c1" /\ sid10 = session_key ["diana"; "c1"; "g-c1"] /\
  view (w_db (w10 ["c1"; "c2"; "c3"])) ["diana"] = Some (EInfo (ui10 ["c1"; "c2"; "c3"])) /\ Forall good (si_sub (ui10 ["c1"; "c2"; "c3"])).
Proof.
  split. { apply store_of_fine. repeat (constructor; [split; [good_tac|split; [good_tac|discriminate]]|]). constructor. }
  do 3 (split; [good_tac|]). split; [reflexivity|]. split; [vm_compute; reflexivity|].
  repeat (constructor; [good_tac|]). constructor.
Qed.

(** Logging out everywhere: [c1] and [c2] are revoked and told, [c3] is not. *)
Example C42_ex :
  (forall c', In c' (si_sub (ui10 ["c1"; "c2"; "c3"])) -> view (w_db (w10 ["c1"; "c2"; "c3"])) ["diana"; c'] <> None /\ can_tell (lo10 false) clients10 "diana" c') /\
  exists w', do_verified_logout (lo10 false) sid10 true (w10 ["c1"; "c2"; "c3"]) =
    (Ok ["<iframe src=""https://rp2.example.org/out?a=b&iss=https%3A%2F%2Fop.example.org&sid=diana%3B%3Bc2"">"%string],
     [("https://rp1.example.org/logout", "logout_token=RS256(<diana;;c1>)c1")]%string, w') /\
    map (fun c => match view (w_db w') ["diana"; c] with Some (EInfo i) => Some (si_revoked i) | _ => None end) ["c1"; "c2"; "c3"]%string =
      [Some true; Some true; Some false].
Proof.
  split.
  - intros c' [<-|[<-|[<-|[]]]]; (split; [vm_compute; discriminate|]); (eexists; split; [vm_compute; reflexivity|]).
    + left. split; [discriminate|]. do 2 eexists. do 4 eexists. split; [vm_compute; reflexivity|]. split; [vm_compute; reflexivity|].
      split; [vm_compute; reflexivity|]. split; [right; split; [reflexivity|]; eexists; vm_compute; reflexivity|].
      split; vm_compute; reflexivity.
    + right. split; [reflexivity|]. intros v E. vm_compute in E. injection E as <-. do 2 eexists. split; vm_compute; reflexivity.
    + right. split; [reflexivity|]. intros v E. vm_compute in E. discriminate.
  - eexists. split; vm_compute; reflexivity.
Qed.
Example C42_silent_ex : ~ told clients10 "c3".
Proof. intros T. apply told_b_spec in T. vm_compute in T. discriminate. Qed.

(** From one client. *)
Example C42_one_ex :
  exists w', do_verified_logout (lo10 false) sid10 false (w10 ["c1"; "c2"; "c3"]) =
    (Ok [], [("https://rp1.example.org/logout", "logout_token=RS256(<diana;;c1;;g-c1>)c1")]%string, w') /\
    map (fun c => match view (w_db w') ["diana"; c] with Some (EInfo i) => Some (si_revoked i) | _ => None end) ["c1"; "c2"; "c3"]%string =
      [Some true; Some false; Some false].
Proof. eexists. split; vm_compute; reflexivity. Qed.

(** A client that has been removed: nobody is logged out. *)
Example C42_unknown_ex : do_verified_logout (lo10 false) sid10 true (w10 ["c1"; "c2"; "c6"]) = (Raise EKey, [], w10 ["c1"; "c2"; "c6"]).
Proof. vm_compute. reflexivity. Qed.

(** The first client's server does not answer: [c5] is not told, no frame for [c2], all revoked. *)
Example C67_stop_ex :
  exists w', do_verified_logout (lo10 true) sid10 true (w10 ["c1"; "c2"; "c5"]) =
    (Raise EOther, [("https://rp1.example.org/logout", "logout_token=RS256(<diana;;c1>)c1")]%string, w') /\
    map (fun c => match view (w_db w') ["diana"; c] with Some (EInfo i) => Some (si_revoked i) | _ => None end) ["c1"; "c2"; "c5"]%string =
      [Some true; Some true; Some true].
Proof. eexists. split; vm_compute; reflexivity. Qed.

Example C68_ex : iframe py_url (match dget "c4" clients10 with Some i => i | None => [] end) "https://op.example.org" "s" =
  Ok (Some "<iframe src=""https://rp4.example.org/#out?iss=https%3A%2F%2Fop.example.org&sid=s"">"%string).
Proof. vm_compute. reflexivity. Qed.
Example C68_quote_ex : exists f, iframe py_url [("frontchannel_logout_uri", VStr "https://rp/""><script src=""https://evil/")] "iss" "sid" = Ok (Some f) /\
  f = "<iframe src=""https://rp/""><script src=""https://evil/"">"%string /\ addresses f "https://rp/".
Proof. eexists. split; [vm_compute; reflexivity|]. split; [reflexivity|]. split; [reflexivity|]. eexists. reflexivity. Qed.

(** End-session requests: the hint names the client and the subject. *)
Definition hint10 : msg := [("id_token_hint", VStr "jwt"); (verified "id_token_hint", VDict [("aud", vstrs ["c1"]); ("sub", VStr "sub-c1")])].
Definition decode10 (v : string) : result val := Ok (VDict [("sid", VStr sid10)]).
Definition cookie10 : result (option (string * string * string)) := Ok (Some ("v", "1000", "session")%string).
Definition ended10 (rq : msg) : result (option val * string) :=
  match end_session (lo10 false) cookie10 decode10 rq (w10 ["c1"; "c2"]) with
  | (Ok r, _) => Ok (dget "redirect_uri" (en_payload r), en_location r)
  | (Raise x, _) => Raise x
  end.
Example C41_ex :
  ended10 [] = Ok (Some (VStr "https://op.example.org/bye"), "https://op.example.org/verify_logout?sjwt=ES256%28diana%3B%3Bc1%3B%3Bg-c1%29https%3A%2F%2Fop.example.org"%string) /\
  ended10 (("post_logout_redirect_uri", VStr back_page) :: ("state", VStr "a b") :: hint10) =
    Ok (Some (VStr "https://rp1.example.org/bye?state=a+b"), "https://op.example.org/verify_logout?sjwt=ES256%28diana%3B%3Bc1%3B%3Bg-c1%29https%3A%2F%2Fop.example.org"%string) /\
  ended10 [("post_logout_redirect_uri", VStr back_page)] = Raise EInvalidRequest /\
  ended10 (("post_logout_redirect_uri", VStr "https://rp2.example.org/bye?lang=sv") :: hint10) = Raise ERedirectURI /\
  (* with client_id another client's page is accepted, and its query is damaged *)
  ended10 (("post_logout_redirect_uri", VStr "https://rp2.example.org/bye?lang=sv") :: ("client_id", VStr "c2") :: ("state", VStr "st") :: hint10) =
    Ok (Some (VStr "https://rp2.example.org/bye?lang=sv?state=st"), "https://op.example.org/verify_logout?sjwt=ES256%28diana%3B%3Bc1%3B%3Bg-c1%29https%3A%2F%2Fop.example.org"%string).
Proof. repeat split; vm_compute; reflexivity. Qed.

(** Requests at an endpoint without client authentication, and with. *)
Definition verify10 (m : msg) : result (option msg) := Ok (if dmem "bad" m then None else Some m).
Definition parse10 (ms : list (option cmethod)) (named : bool) (g : given) (auth : authz_data) : result (msg + string) :=
  fst (parse_end_session (PropsClientAuthn.out1) (mkEp ms named [] "iss") PropsClientAuthn.no_token [] verify10 (fun _ => Ok (VStr "RS256")) (Ok (vstrs ["RS256"])) g auth
         PropsClientAuthn.s1).
Example C70_ex :
  parse10 [] true (GDict hint10) NoAuthz = Ok (inl hint10) /\ parse10 [] true (GDict [("bad", VNone)]) NoAuthz = Raise EInvalidRequest /\
  parse10 [] true (GOther [("bad", VNone)]) NoAuthz = Ok (inl [("bad", VNone)]) /\
  parse10 [Some MBasic] true (GDict hint10) (AuthzStr "Basic c1:secret1") = Raise EKey /\
  parse10 [Some MBasic] false (GDict hint10) (AuthzStr "Basic c1:secret1") = Raise EUnAuthorizedClient.
Proof. repeat split; vm_compute; reflexivity. Qed.

(** A cipher that satisfies what C71 asks for: the stream is the key's and the vector's length; the tag is the vector. *)
Definition toy_stream (k iv : string) (n : nat) : ascii := ascii_of_nat (slen k + slen iv + n)%nat.
Definition toy_gcm (k iv m : string) : string := (iv ++ "|" ++ mask (toy_stream k iv) 0 m)%string.
Definition toy_cut (x : string) : string * string := match cut "|" x with (t, Some c) => (c, t) | (t, None) => (""%string, t) end.
Definition toy_ungcm (k iv c t : string) : option string := if String.eqb t iv then Some (mask (toy_stream k iv) 0 c) else None.
Example C71_ex : forall iv iv' m, free "|" iv -> iv <> iv' ->
  (let x := toy_cut (toy_gcm "key" iv m) in toy_ungcm "key" iv (fst x) (snd x) = Some m) /\
  (let x := toy_cut (toy_gcm "key" iv m) in toy_ungcm "key" iv' (fst x) (snd x) = None) /\
  fst (toy_cut (toy_gcm "key" iv m)) = mask (toy_stream "key" iv) 0 m.
Proof.
  intros iv iv' m F N. assert (E : toy_cut (toy_gcm "key" iv m) = (mask (toy_stream "key" iv) 0 m, iv)).
  { unfold toy_cut, toy_gcm. rewrite ResponseHeadProofs.cut_app, (cut_free _ _ F). cbn. now rewrite str_app_nil_r. }
  rewrite E. cbn [fst snd]. unfold toy_ungcm. rewrite String.eqb_refl. destruct (String.eqb_spec iv iv'); [contradiction|]. split; [|auto]. f_equal.
  assert (M : forall n, mask (toy_stream "key" iv) n (mask (toy_stream "key" iv) n m) = m).
  { clear. induction m as [|c m IH]; intros n; [reflexivity|]. cbn [mask]. rewrite IH. f_equal.
    destruct (toy_stream "key" iv n) as [k0 k1 k2 k3 k4 k5 k6 k7], c as [c0 c1 c2 c3 c4 c5 c6 c7]. unfold axor.
    assert (B : forall a b, xorb a (xorb a b) = b) by (intros [] []; reflexivity). now rewrite !B. }
  apply M.
Qed.
