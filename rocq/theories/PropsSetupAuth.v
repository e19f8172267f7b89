(** PropsSetupAuth.v: who the user is. prompt (C30), the authentication event (C31), max_age (C62), the session cookie (C63),
    the supplied methods (C64), hints (C65), whose session it is (C66), the error login_required (C59). *)
From Verif Require Import Base BaseProofs Monad MonadProofs Types PyInt SessionKey SessionKeyProofs Token Grant Database DatabaseSpec DatabaseProofs
  Manager ManagerSpec ManagerProofs Ctx Scopes World Minting Cookie AuthnBroker Response ResponseHeadSpec ResponseHeadProofs
  AuthzEndpoint AuthzEndpointSpec SetupAuth SetupAuthSpec SetupAuthProofs PropsClaims PropsTokenEndpoint PropsResponse PropsAuthzEndpoint.
Local Open Scope Z_scope.

(** ** C30: prompt *)

(** With prompt=none the user is not asked for anything, if what the methods tell does not name a session: there is the
    error login_required for the redirect_uri, and nothing happens; or somebody has been recognised. *)
Theorem C30_none_partial : forall e az oidc (request : msg) w a w',
  prompts "none" request ->
  (forall name m limit id ts uid, dget name (au_methods e) = Some m -> me_auth m limit = Ok (Some id, ts) ->
     dget "sid" id = None /\ (dget "uid" id = Some uid -> au_decode e uid = Ok None)) ->
  process_request e az oidc (inr request) w = (Ok a, w') ->
  match a with
  | AInteraction _ _ _ => False
  | AError info => dget "error" info = Some (VStr "login_required") /\ dget "return_uri" info = dget "redirect_uri" request /\ w' = w
  | AResponse _ => exists name acr m id ts, method_for e request name acr m /\ finds e m request id ts
  end.
Proof.
  intros e az oidc request w a w' P N H. destruct (process_inv _ _ _ _ _ _ _ H) as (uri & cinfo & ru & s & w1 & U & _ & S & A). clear H.
  destruct (setup_inv _ _ _ _ _ _ _ _ S) as (name & acr & m & o & ts & args & M & I & _ & G). clear S.
  pose proof (prompts_none_asks _ P) as An. rewrite <- (asks_none_changed e) in An.
  destruct (identify_inv _ _ _ _ _ _ _ I) as (_ & limit & L & F). rewrite age_limit_changed in L. unfold go_on in G.
  destruct o as [id|].
  - destruct (bind_ok _ _ _ _ _ G) as (user & w2 & E2 & G2). clear G. destruct (lift_ok _ _ _ _ E2) as [Us ->]. pose proof (dsub_ok _ _ _ Us) as Us'.
    destruct F as [[A1 F]|(id0 & uid & sid & g & A1 & F1 & F2 & _)].
    2: { destruct M as [_ M]. destruct (N _ _ _ _ _ uid M A1) as [_ X]. rewrite X in F2 by exact F1. discriminate. }
    assert (D : au_decode e user = Ok None).
    { destruct F as [-> |(uid & F1 & F2)]; [discriminate|]. assert (uid = user) by congruence. congruence. }
    assert (Fi : finds e m request id ts) by (exists limit, user; auto).
    destruct (N _ _ _ _ _ user (proj2 M) A1) as [Ns _]. rewrite Ns in G2.
    destruct (match ru with Some r => negb (val_eqb user r) | None => false end).
    + rewrite (bind_run _ _ w true w) in G2 by (unfold lift; rewrite An; reflexivity).
      assert (s = SError [("error"%string, VStr "login_required"); ("return_uri"%string, uri)] /\ w1 = w) as [-> ->] by (unfold ret in G2; split; congruence).
      destruct A as [-> ->]. repeat split. rewrite U. reflexivity.
    + rewrite (bind_run _ _ w (Some ""%string) w eq_refl) in G2. cbn [nonempty String.eqb negb] in G2.
      destruct (bind_ok _ _ _ _ _ G2) as (sid & w3 & _ & G3). assert (s = SDone sid id user) by (unfold ret in G3; congruence). subst s.
      destruct A as (r & -> & _). exists name, acr, m, id, ts. auto.
  - rewrite (bind_run _ _ w true w) in G by (unfold lift; rewrite An; reflexivity).
    destruct (bind_ok _ _ _ _ _ G) as (rt & w3 & E3 & G3). destruct (lift_ok _ _ _ _ E3) as [_ ->].
    assert (s = SError [("error"%string, VStr "login_required"); ("return_uri"%string, uri); ("return_type"%string, rt)] /\ w1 = w) as [-> ->]
      by (unfold ret in G3; split; congruence).
    destruct A as [-> ->]. repeat split. rewrite U. reflexivity.
Qed.
Print Assumptions C30_none_partial.

(** If nobody is recognised, that error is the answer. *)
Theorem C30_none_error : forall e az oidc w (request : msg) cid cinfo uri name acr m rt,
  prompts "none" request -> entered e az oidc w request cid cinfo uri -> method_for e request name acr m -> nobody m request ->
  dget "response_type" request = Some rt ->
  process_request e az oidc (inr request) w =
    (Ok (AError [("error", VStr "login_required"); ("return_uri", uri); ("return_type", rt)]), w)%string.
Proof.
  intros e az oidc w request cid cinfo uri name acr m rt P En M Nb Rt.
  rewrite (process_entered _ _ _ _ _ _ _ _ En). destruct En as (_ & _ & _ & U & _).
  destruct (identify_nobody e m (changed e request) w (proj2 (nobody_changed _ _ _) Nb)) as [ts I].
  destruct (authn_args_ok e request acr cinfo None uri U) as [args A].
  assert (S : setup_auth e request uri cinfo None w = (Ok (SError [("error", VStr "login_required"); ("return_uri", uri); ("return_type", rt)]), w)%string).
  { rewrite (setup_run _ _ _ _ _ _ _ _ _ _ _ _ M I A). unfold go_on. unfold bind at 1, lift at 1. rewrite asks_none_changed, (prompts_none_asks _ P).
    assert (Rt' : dget "response_type" (changed e request) = Some rt) by (rewrite changed_get; [exact Rt|discriminate]).
    rewrite (dsub_get _ _ _ Rt'). reflexivity. }
  rewrite (bind_run _ _ _ _ _ S). reflexivity.
Qed.
Print Assumptions C30_none_error.

(** But if the methods name a session of another client, or one that is revoked or whose authentication is over, the user
    is asked whatever prompt says. *)
Theorem C30_none_refuted : forall e az oidc w (request : msg) cid cinfo uri name acr m id ts user u c g,
  entered e az oidc w request cid cinfo uri -> method_for e request name acr m -> finds e m request id ts ->
  dget "uid" id = Some user -> dget "sid" id = Some (VStr (session_key [u; c; g])) -> good u -> good c -> good g ->
  c <> cid \/
  (exists gr ae, view (w_db w) [u; c; g] = Some (EGrant gr) /\ g_authn gr = Some ae /\
     (g_revoked gr = true \/ ae_valid_until ae <= au_now e)) ->
  exists args, process_request e az oidc (inr request) w = (Ok (AInteraction name args uri), w).
Proof.
  intros e az oidc w request cid cinfo uri name acr m id ts user u c g En M F Us Sd Hu Hc Hg K.
  rewrite (process_entered _ _ _ _ _ _ _ _ En). destruct En as (C & _ & _ & U & _).
  pose proof (identify_finds e m (changed e request) id ts w (proj2 (finds_changed _ _ _ _ _) F)) as I.
  destruct (authn_args_ok e request acr cinfo None uri U) as [args A]. exists args.
  assert (C' : dget "client_id" (changed e request) = Some (VStr cid)) by (rewrite changed_get; [exact C|discriminate]).
  assert (S : setup_auth e request uri cinfo None w = (Ok (SLogin name args), w)).
  { rewrite (setup_run _ _ _ _ _ _ _ _ _ _ _ _ M I A). unfold go_on. rewrite (dsub_get _ _ _ Us), Sd.
    unfold lift at 1. rewrite (bind_run _ _ w user w eq_refl). cbv beta iota.
    assert (Kn : known_session e (changed e request) user (VStr (session_key [u; c; g])) w = (Ok None, w) \/
      known_session e (changed e request) user (VStr (session_key [u; c; g])) w = (Ok (Some (session_key [u; c; g])), w) /\
      valid_event e (session_key [u; c; g]) w = (Ok None, w)).
    { remember (known_session e (changed e request) user (VStr (session_key [u; c; g])) w) as ks eqn:Ek.
      unfold known_session in Ek. unfold lift at 1 in Ek. rewrite (bind_run _ _ w (session_key [u; c; g]) w eq_refl) in Ek. cbv beta in Ek.
      rewrite unpack3_good in Ek by auto. unfold lift at 1 in Ek. rewrite (bind_run _ _ w (u, c, g) w eq_refl) in Ek. cbv beta iota in Ek.
      rewrite (dsub_get _ _ _ C') in Ek. unfold lift at 1 in Ek. rewrite (bind_run _ _ w (VStr cid) w eq_refl) in Ek. cbv beta in Ek.
      destruct (val_eqb (VStr cid) (VStr c)) eqn:E; cbn [negb] in Ek; [|left; exact Ek].
      cbn in E. apply String.eqb_eq in E. destruct K as [K|(gr & ae & V & Ae & K)]; [congruence|].
      assert (R : in_db (mget (session_key [u; c; g])) w = (Ok (EGrant gr), w)).
      { unfold in_db. rewrite (mget_read u c g _ _ Hu Hc Hg V). rewrite world_eta. reflexivity. }
      rewrite (bind_run _ _ _ _ _ R) in Ek. cbv beta in Ek.
      assert (Gg : in_db (as_grant (EGrant gr)) w = (Ok gr, w)) by (unfold in_db; cbn; rewrite world_eta; reflexivity).
      rewrite (bind_run _ _ _ _ _ Gg) in Ek. cbv beta in Ek.
      destruct (g_active (au_now e) gr) eqn:Ga; cbn [negb] in Ek; [|left; exact Ek].
      assert (Rv : g_revoked gr = false).
      { destruct (g_revoked gr) eqn:X; [|reflexivity]. unfold g_active, item_is_active in Ga. rewrite X in Ga. destruct (max_usage_reached _ _); discriminate. }
      destruct K as [K|K]; [congruence|].
      assert (Ev : valid_event e (session_key [u; c; g]) w = (Ok None, w)).
      { rewrite (valid_event_read e u c g gr ae w Hu Hc Hg V Ae). unfold ae_is_valid.
        destruct (au_now e <? ae_valid_until ae) eqn:X; [lia|reflexivity]. }
      destruct (match g_authreq gr with Some r => au_same e (changed e request) r | None => false end); [right; auto|left].
      rewrite (bind_run _ _ _ _ _ Ev) in Ek. exact Ek. }
    destruct Kn as [Kn|[Kn Ev]]; rewrite (bind_run _ _ _ _ _ Kn); [reflexivity|]. cbv beta iota. rewrite session_key3_ne.
    rewrite (bind_run _ _ _ _ _ Ev). reflexivity. }
  rewrite (bind_run _ _ _ _ _ S). reflexivity.
Qed.
Print Assumptions C30_none_refuted.

(** A recognised user is not asked, whatever prompt says, "login" included: a new session is set up. *)
Theorem C30_login_refuted : forall is_user e (request : msg) uri cinfo w cid ru name acr m id ts u,
  method_for e request name acr m -> finds e m request id ts ->
  dget "uid" id = Some (VStr u) -> dget "sid" id = None -> dget "client_id" request = Some (VStr cid) ->
  dget "redirect_uri" request = Some ru ->
  well_formed is_user (w_db w) -> good u -> good cid -> good (au_newid e) -> is_user u -> ~ is_user cid ->
  exists w', setup_auth e request uri cinfo None w = (Ok (SDone (session_key [u; cid; au_newid e]) id (VStr u)), w').
Proof.
  intros is_user e request uri cinfo w cid ru name acr m id ts u M F Us Sd C R W Hu Hc Hn Uu Uc.
  pose proof (identify_finds e m (changed e request) id ts w (proj2 (finds_changed _ _ _ _ _) F)) as I.
  destruct (authn_args_ok e request acr cinfo None ru R) as [args A].
  assert (C' : dget "client_id" (changed e request) = Some (VStr cid)) by (rewrite changed_get; [exact C|discriminate]).
  destruct (first_session_effect is_user e m acr (changed e request) u cid w W Hu Hc Hn Uu Uc C') as (s' & E & _).
  exists (mkW s' (w_cdb w)). rewrite (setup_run _ _ _ _ _ _ _ _ _ _ _ _ M I A). unfold go_on. rewrite (dsub_get _ _ _ Us), Sd.
  unfold lift at 1. rewrite (bind_run _ _ w (VStr u) w eq_refl). cbv beta iota.
  rewrite (bind_run _ _ w (Some ""%string) w eq_refl). cbn [nonempty String.eqb negb]. rewrite (bind_run _ _ _ _ _ E). reflexivity.
Qed.
Print Assumptions C30_login_refuted.

(** ** C31: the authentication event *)

(** An event made for a user: the time is the one given, under one of two names, or the current one; it is valid until the
    moment given, or as long as given, or for an hour. *)
Theorem C31_event : forall now uid info authn_time valid_until expires_in timestamp sub,
  let ae := create_authn_event now uid info authn_time valid_until expires_in timestamp sub in
  ae_uid ae = uid /\ ae_authn_info ae = info /\
  (authn_time <> 0 -> ae_authn_time ae = authn_time) /\
  (authn_time = 0 -> timestamp <> 0 -> ae_authn_time ae = timestamp) /\
  (authn_time = 0 -> timestamp = 0 -> ae_authn_time ae = now) /\
  (valid_until <> 0 -> ae_valid_until ae = valid_until) /\
  (valid_until = 0 -> expires_in <> 0 -> ae_valid_until ae = ae_authn_time ae + expires_in) /\
  (valid_until = 0 -> expires_in = 0 -> ae_valid_until ae = ae_authn_time ae + 3600) /\
  (forall t, ae_is_valid t ae = true <-> t < ae_valid_until ae).
Proof.
  intros now uid info at_ vu ei ts sub ae. unfold ae, create_authn_event, ae_is_valid, DEFAULT_AUTHN_EXPIRES_IN. cbn.
  split; [reflexivity|]. split; [reflexivity|].
  do 6 (split; [intros; repeat match goal with |- context [?x =? 0] => destruct (Z.eqb_spec x 0); cbn [negb] end; lia|]).
  intros t. apply Z.ltb_lt.
Qed.
Print Assumptions C31_event.

(** A session set up for a recognised user has an event of that user and the class of the method, valid as long as
    configured, an hour otherwise. The rest of the store is untouched. *)
Theorem C31_lifetime : forall is_user e (request : msg) uri cinfo w cid ru name acr m id ts u sid w',
  method_for e request name acr m -> finds e m request id ts ->
  dget "uid" id = Some (VStr u) -> dget "sid" id = None -> dget "client_id" request = Some (VStr cid) ->
  well_formed is_user (w_db w) -> good u -> good cid -> good (au_newid e) -> is_user u -> ~ is_user cid ->
  setup_auth e request uri cinfo ru w = (Ok (SDone sid id (VStr u)), w') ->
  sid = session_key [u; cid; au_newid e] /\
  (exists ae, event_of (w_db w') u cid (au_newid e) = Some ae /\ ae_uid ae = u /\ ae_authn_info ae = Some acr /\
     ae_valid_until ae = ae_authn_time ae + lifetime m) /\
  w_cdb w' = w_cdb w /\
  (forall q, good_path q -> q <> [u] -> ~ is_prefix [u; cid] q -> view (w_db w') q = view (w_db w) q).
Proof.
  intros is_user e request uri cinfo w cid ru name acr m id ts u sid w' M F Us Sd C W Hu Hc Hn Uu Uc H.
  pose proof (identify_finds e m (changed e request) id ts w (proj2 (finds_changed _ _ _ _ _) F)) as I.
  assert (C' : dget "client_id" (changed e request) = Some (VStr cid)) by (rewrite changed_get; [exact C|discriminate]).
  destruct (setup_inv _ _ _ _ _ _ _ _ H) as (name' & acr' & m' & o & ts' & args & M' & I' & A & G). clear H.
  assert (name' = name /\ acr' = acr) as [-> ->] by (destruct M, M'; split; congruence).
  assert (m' = m) by (destruct M, M'; congruence). subst m'. assert (o = Some id) by congruence. subst o.
  destruct (first_session_effect is_user e m acr (changed e request) u cid w W Hu Hc Hn Uu Uc C') as (s' & E & V & Fr).
  unfold go_on in G. rewrite (dsub_get _ _ _ Us), Sd in G. unfold lift at 1 in G. rewrite (bind_run _ _ w (VStr u) w eq_refl) in G. cbv beta iota in G.
  destruct (match ru with Some r => negb (val_eqb (VStr u) r) | None => false end).
  { destruct (bind_ok _ _ _ _ _ G) as ([] & w1 & _ & G1); unfold ret in G1; congruence. }
  rewrite (bind_run _ _ w (Some ""%string) w eq_refl) in G. cbn [nonempty String.eqb negb] in G. rewrite (bind_run _ _ _ _ _ E) in G.
  unfold ret in G. assert (sid = session_key [u; cid; au_newid e] /\ w' = mkW s' (w_cdb w)) as [-> ->] by (split; congruence).
  split; [reflexivity|]. split; [|split; [reflexivity|exact Fr]].
  exists (first_event e m u acr). split; [unfold event_of; cbn [w_db]; rewrite V; reflexivity|]. auto.
Qed.
Print Assumptions C31_lifetime.

(** But the time of the authentication in it is the current time, whatever time the method told. *)
Theorem C31_time_refuted : forall is_user e (request : msg) uri cinfo w cid ru name acr m id ts u sid w',
  method_for e request name acr m -> finds e m request id ts ->
  dget "uid" id = Some (VStr u) -> dget "sid" id = None -> dget "client_id" request = Some (VStr cid) ->
  well_formed is_user (w_db w) -> good u -> good cid -> good (au_newid e) -> is_user u -> ~ is_user cid ->
  setup_auth e request uri cinfo ru w = (Ok (SDone sid id (VStr u)), w') ->
  exists ae, event_of (w_db w') u cid (au_newid e) = Some ae /\ ae_authn_time ae = au_now e.
Proof.
  intros is_user e request uri cinfo w cid ru name acr m id ts u sid w' M F Us Sd C W Hu Hc Hn Uu Uc H.
  pose proof (identify_finds e m (changed e request) id ts w (proj2 (finds_changed _ _ _ _ _) F)) as I.
  assert (C' : dget "client_id" (changed e request) = Some (VStr cid)) by (rewrite changed_get; [exact C|discriminate]).
  destruct (setup_inv _ _ _ _ _ _ _ _ H) as (name' & acr' & m' & o & ts' & args & M' & I' & A & G). clear H.
  assert (name' = name /\ acr' = acr) as [-> ->] by (destruct M, M'; split; congruence).
  assert (m' = m) by (destruct M, M'; congruence). subst m'. assert (o = Some id) by congruence. subst o.
  destruct (first_session_effect is_user e m acr (changed e request) u cid w W Hu Hc Hn Uu Uc C') as (s' & E & V & Fr).
  unfold go_on in G. rewrite (dsub_get _ _ _ Us), Sd in G. unfold lift at 1 in G. rewrite (bind_run _ _ w (VStr u) w eq_refl) in G. cbv beta iota in G.
  destruct (match ru with Some r => negb (val_eqb (VStr u) r) | None => false end).
  { destruct (bind_ok _ _ _ _ _ G) as ([] & w1 & _ & G1); unfold ret in G1; congruence. }
  rewrite (bind_run _ _ w (Some ""%string) w eq_refl) in G. cbn [nonempty String.eqb negb] in G. rewrite (bind_run _ _ _ _ _ E) in G.
  unfold ret in G. assert (w' = mkW s' (w_cdb w)) as -> by congruence.
  exists (first_event e m u acr). split; [unfold event_of; cbn [w_db]; rewrite V; reflexivity|reflexivity].
Qed.
Print Assumptions C31_time_refuted.

(** When a session is continued, or a further grant is made beside it, the event is the one of that session, and it is
    still valid. *)
Theorem C31_reused : forall is_user e (request : msg) uri cinfo w ru id us u c g sid w',
  well_formed is_user (w_db w) -> good u -> good c -> good g -> good us -> good (au_newid e) -> is_user us -> ~ is_user c ->
  dget "sid" id = Some (VStr (session_key [u; c; g])) ->
  setup_auth e request uri cinfo ru w = (Ok (SDone sid id (VStr us)), w') ->
  exists u' g' ae, sid = session_key [u'; c; g'] /\ event_of (w_db w) u c g = Some ae /\ event_of (w_db w') u' c g' = Some ae /\
    au_now e < ae_valid_until ae.
Proof.
  intros is_user e request uri cinfo w ru id us u c g sid w' W Hu Hc Hg Hus Hn Uu Uc Sd H.
  destruct (setup_inv _ _ _ _ _ _ _ _ H) as (name & acr & m & o & ts & args & M & I & A & G). clear H.
  unfold go_on in G. destruct o as [id'|].
  2: { destruct (bind_ok _ _ _ _ _ G) as ([] & w1 & _ & G1).
       - destruct (bind_ok _ _ _ _ _ G1) as (x & w2 & _ & G2). unfold ret in G2. congruence.
       - unfold ret in G1. congruence. }
  destruct (bind_ok _ _ _ _ _ G) as (user & w1 & E1 & G1). clear G. destruct (lift_ok _ _ _ _ E1) as [Us ->].
  destruct (match ru with Some r => negb (val_eqb user r) | None => false end).
  { destruct (bind_ok _ _ _ _ _ G1) as ([] & w1 & _ & G2); unfold ret in G2; congruence. }
  destruct (bind_ok _ _ _ _ _ G1) as (o & w2 & E2 & G2). clear G1.
  destruct o as [s0|]; [|unfold ret in G2; congruence].
  assert (X : id' = id /\ user = VStr us).
  { destruct (nonempty s0).
    - destruct (bind_ok _ _ _ _ _ G2) as (v & w3 & _ & G3). unfold ret in G3. destruct v; split; congruence.
    - destruct (bind_ok _ _ _ _ _ G2) as (v & w3 & _ & G3). unfold ret in G3. split; congruence. }
  destruct X as [-> ->]. rewrite Sd in E2.
  destruct (known_inv _ _ _ _ _ _ _ E2) as (sd & u0 & c0 & g0 & cid & V & Un & C & K).
  assert (sd = session_key [u; c; g]) by congruence. subst sd. rewrite unpack3_good in Un by auto.
  assert (u0 = u /\ c0 = c /\ g0 = g) as (-> & -> & ->) by (repeat split; congruence).
  destruct K as [[K _]|(-> & gr & R & Ga & [(K & -> & _)|(gr2 & ae & us' & R2 & Ae & Av & Eu & K & Cg)])]; [discriminate| |].
  - assert (s0 = session_key [u; c; g]) by congruence. subst s0. rewrite session_key3_ne in G2.
    destruct (bind_ok _ _ _ _ _ G2) as (v & w3 & E3 & G3). clear G2.
    destruct (valid_event_ok _ _ _ _ _ E3) as (-> & u1 & c1 & g1 & gr3 & ae & U1 & R3 & A3 & ->).
    rewrite unpack3_good in U1 by auto. assert (u1 = u /\ c1 = c /\ g1 = g) as (-> & -> & ->) by (repeat split; congruence).
    destruct (ae_is_valid (au_now e) ae) eqn:Av; unfold ret in G3; [|congruence].
    assert (sid = session_key [u; c; g] /\ w' = w) as [-> ->] by (split; congruence).
    exists u, g, ae. split; [reflexivity|].
    assert (Ev : event_of (w_db w) u c g = Some ae) by (unfold event_of, view; rewrite R3; exact A3).
    split; [exact Ev|]. split; [exact Ev|]. unfold ae_is_valid in Av. lia.
  - assert (us' = us) by congruence. subst us'. assert (s0 = session_key [us; c; au_newid e]) by congruence. subst s0.
    rewrite session_key3_ne in G2. destruct (bind_ok _ _ _ _ _ G2) as (v & w3 & E3 & G3). clear G2.
    destruct (valid_event_ok _ _ _ _ _ E3) as (-> & u1 & c1 & g1 & gr3 & ae3 & U1 & R3 & A3 & ->).
    rewrite unpack3_good in U1 by auto. assert (u1 = us /\ c1 = c /\ g1 = au_newid e) as (-> & -> & ->) by (repeat split; congruence).
    destruct (ae_is_valid (au_now e) ae3) eqn:Av3; unfold ret in G3; [|congruence].
    assert (sid = session_key [us; c; au_newid e] /\ w' = w2) as [-> ->] by (split; congruence).
    exists us, (au_newid e), ae. split; [reflexivity|].
    split; [unfold event_of, view; rewrite R2; exact Ae|].
    split; [|unfold ae_is_valid in Av; lia].
    destruct (in_db_ok _ _ _ _ Cg) as (s' & Cg' & ->). cbn [w_db]. unfold create_grant, sub_of in Cg'. rewrite make_sub_public in Cg'.
    unfold lift at 1 in Cg'. rewrite (bind_run _ _ (w_db w) (public_id (au_sha e) us (au_salt e)) (w_db w) eq_refl) in Cg'. cbv beta zeta in Cg'.
    set (ng := new_grant _ _ _ _ _ _ _) in Cg'. destruct W as (Wk & Wl & _).
    destruct (store3_view (w_db w) us c (au_newid e) ng Wk Wl Hus Hc Hn) as (Vn & _).
    destruct (bind_ok _ _ _ _ _ Cg') as (t & s1 & St & E4). unfold ret in E4. rewrite St in Vn. cbn [snd] in Vn.
    assert (s1 = s') by congruence. subst s1. unfold event_of. rewrite Vn. reflexivity.
Qed.
Print Assumptions C31_reused.

(** ** C62: max_age *)

Lemma asked_limit (request : msg) n : asked_age request n -> dget "upm_answer" request <> Some (VStr "true") ->
  exists v, age_limit request = Ok v /\ (n <> 0 -> v = VInt n) /\ (n = 0 -> truthy v = false \/ exists x, dget "max_age" request = Some x /\ v = x).
Proof.
  intros A U.
  assert (E : age_limit request = max_age request).
  { unfold age_limit. destruct (dget "upm_answer" request) as [v|] eqn:G; [|reflexivity].
    destruct (val_eqb v (VStr "true")) eqn:X; [|reflexivity]. exfalso. destruct v; try discriminate. cbn in X. apply String.eqb_eq in X. congruence. }
  rewrite E. unfold max_age, asked_age in *. change (verified "request") with "__verified_request"%string.
  destruct (dget "__verified_request" request) as [[| | | | |d]|]; try contradiction.
  - destruct (dget "max_age" d) as [v|] eqn:G.
    + subst v. unfold dget_or. cbn [rbind truthy]. destruct (Z.eqb_spec n 0) as [-> |N]; cbn [negb].
      * destruct (dget "max_age" request) as [x|]; eexists; (split; [reflexivity|]); (split; [lia|]); intros _; [right; eauto|left; reflexivity].
      * eexists. split; [reflexivity|]. split; [reflexivity|]. lia.
    + unfold dget_or. cbn [rbind]. rewrite A. eexists. split; [reflexivity|]. split; [auto|]. intros ->. left. reflexivity.
  - unfold dget_or. cbn [rbind]. rewrite A. eexists. split; [reflexivity|]. split; [auto|]. intros ->. left. reflexivity.
Qed.

(** If the session cookie is older than the age the client asks for, no session is handed on, and nothing changes. Missing:
    requests with upm_answer, an age of 0. *)
Theorem C62_max_age_partial : forall e (request : msg) uri cinfo ru w name acr m now u ts typ t n s w',
  method_for e request name acr m -> me_auth m = authenticated_as now (Ok (Some (u, ts, typ))) -> py_int ts = Some t ->
  asked_age request n -> n <> 0 -> dget "upm_answer" request <> Some (VStr "true") ->
  t + n < now ->
  setup_auth e request uri cinfo ru w = (Ok s, w') ->
  w' = w /\ match s with SDone _ _ _ => False | _ => True end.
Proof.
  intros e request uri cinfo ru w name acr m now u ts typ t n s w' M Am Pt A N U Old H.
  destruct (asked_limit _ _ A U) as (v & L & V & _). rewrite (V N) in L. clear V.
  destruct (setup_inv _ _ _ _ _ _ _ _ H) as (name' & acr' & m' & o & ts' & args & M' & I' & _ & G). clear H.
  assert (m' = m) by (destruct M, M'; congruence). subst m'.
  destruct (identify_inv _ _ _ _ _ _ _ I') as (_ & limit & L' & F). rewrite age_limit_changed, L in L'.
  assert (limit = VInt n) by congruence. subst limit.
  assert (Q : me_auth m (VInt n) = Raise EAttr \/ me_auth m (VInt n) = Raise EToOld).
  { rewrite Am. unfold authenticated_as. cbn [read_cookie rbind]. destruct (String.eqb typ "uam"); [left; reflexivity|right].
    cbn [truthy]. destruct (Z.eqb_spec n 0); [contradiction|]. cbn [negb]. rewrite Pt. cbn [of_option rbind int_of].
    assert (X : t + n <? now = true) by (apply Z.ltb_lt; exact Old). rewrite X. reflexivity. }
  destruct o as [id|].
  - exfalso. destruct F as [[X _]|(id0 & uid & sid & g & X & _)]; destruct Q; congruence.
  - unfold go_on in G. destruct (bind_ok _ _ _ _ _ G) as ([] & w2 & E2 & G2); destruct (lift_ok _ _ _ _ E2) as [_ ->].
    + destruct (bind_ok _ _ _ _ _ G2) as (rt & w3 & E3 & G3). destruct (lift_ok _ _ _ _ E3) as [_ ->]. unfold ret in G3.
      assert (w' = w) by congruence. split; [assumption|]. destruct s; try exact Logic.I. congruence.
    + unfold ret in G2. assert (w' = w) by congruence. split; [assumption|]. destruct s; try exact Logic.I. congruence.
Qed.
Print Assumptions C62_max_age_partial.

(** A younger cookie is as good as without max_age. *)
Theorem C62_young : forall e (request : msg) m now u ts typ t n,
  me_auth m = authenticated_as now (Ok (Some (u, ts, typ))) -> py_int ts = Some t -> typ <> "uam"%string ->
  asked_age request n -> n <> 0 -> dget "upm_answer" request <> Some (VStr "true") ->
  now <= t + n -> au_decode e (VStr u) = Ok None ->
  finds e m request [("uid"%string, VStr u)] (VStr ts).
Proof.
  intros e request m now u ts typ t n Am Pt Ty A N U Y D. destruct (asked_limit _ _ A U) as (v & L & V & _). rewrite (V N) in L.
  exists (VInt n), (VStr u). split; [exact L|]. split; [|split; [reflexivity|exact D]].
  rewrite Am. unfold authenticated_as. cbn [read_cookie rbind]. destruct (String.eqb_spec typ "uam"); [contradiction|].
  cbn [truthy]. destruct (Z.eqb_spec n 0); [contradiction|]. cbn [negb]. rewrite Pt. cbn [of_option rbind int_of].
  destruct (t + n <? now) eqn:X; [apply Z.ltb_lt in X; lia|]. reflexivity.
Qed.
Print Assumptions C62_young.

(** With upm_answer=true in the request max_age has no effect: the cookie may be as old as you like. *)
Theorem C62_upm_refuted : forall is_user e (request : msg) uri cinfo w cid ru name acr m now u ts typ,
  method_for e request name acr m -> me_auth m = authenticated_as now (Ok (Some (u, ts, typ))) -> typ <> "uam"%string ->
  dget "upm_answer" request = Some (VStr "true") -> au_decode e (VStr u) = Ok None ->
  dget "client_id" request = Some (VStr cid) -> dget "redirect_uri" request = Some ru ->
  well_formed is_user (w_db w) -> good u -> good cid -> good (au_newid e) -> is_user u -> ~ is_user cid ->
  exists w', setup_auth e request uri cinfo None w =
    (Ok (SDone (session_key [u; cid; au_newid e]) [("uid"%string, VStr u)] (VStr u)), w').
Proof.
  intros is_user e request uri cinfo w cid ru name acr m now u ts typ M Am Ty Up D C R W Hu Hc Hn Uu Uc.
  apply (C30_login_refuted is_user e request uri cinfo w cid ru name acr m [("uid"%string, VStr u)] (VStr ts) u); auto.
  exists (VInt 0), (VStr u). split; [unfold age_limit; rewrite Up; reflexivity|]. split; [|split; [reflexivity|exact D]].
  rewrite Am. unfold authenticated_as. cbn [read_cookie rbind]. destruct (String.eqb_spec typ "uam"); [contradiction|]. reflexivity.
Qed.
Print Assumptions C62_upm_refuted.

(** max_age=0, which asks for a new authentication, is no limit at all. *)
Theorem C62_zero_refuted : forall is_user e (request : msg) uri cinfo w cid ru name acr m now u ts typ,
  method_for e request name acr m -> me_auth m = authenticated_as now (Ok (Some (u, ts, typ))) -> typ <> "uam"%string ->
  dget "__verified_request" request = None -> dget "max_age" request = Some (VInt 0) -> au_decode e (VStr u) = Ok None ->
  dget "client_id" request = Some (VStr cid) -> dget "redirect_uri" request = Some ru ->
  well_formed is_user (w_db w) -> good u -> good cid -> good (au_newid e) -> is_user u -> ~ is_user cid ->
  exists w', setup_auth e request uri cinfo None w =
    (Ok (SDone (session_key [u; cid; au_newid e]) [("uid"%string, VStr u)] (VStr u)), w').
Proof.
  intros is_user e request uri cinfo w cid ru name acr m now u ts typ M Am Ty Vr Mx D C R W Hu Hc Hn Uu Uc.
  apply (C30_login_refuted is_user e request uri cinfo w cid ru name acr m [("uid"%string, VStr u)] (VStr ts) u); auto.
  exists (VInt 0), (VStr u). split; [|split; [|split; [reflexivity|exact D]]].
  - assert (X : max_age request = Ok (VInt 0)).
    { unfold max_age, dget_or. change (verified "request") with "__verified_request"%string. rewrite Vr, Mx. reflexivity. }
    unfold age_limit. rewrite X. destruct (dget "upm_answer" request) as [v|]; [destruct (val_eqb v (VStr "true"))|]; reflexivity.
  - rewrite Am. unfold authenticated_as. cbn [read_cookie rbind]. destruct (String.eqb_spec typ "uam"); [contradiction|]. reflexivity.
Qed.
Print Assumptions C62_zero_refuted.

(** ** C63: the session cookie *)

(** A cookie of the kind the provider sets after an authorization, with the session id and the state, makes the next
    authorization request fail with an exception as long as the session is active. *)
Theorem C63_recognised_refuted : forall e (request : msg) uri cinfo ru w name acr m limit v ts u c g gr state,
  method_for e request name acr m -> age_limit request = Ok limit ->
  me_auth m limit = Ok (Some [("uid"%string, VStr v)], ts) ->
  au_decode e (VStr v) = Ok (Some (VDict [("sid", VStr (session_key [u; c; g])); ("state", state)]%string)) ->
  good u -> good c -> good g -> view (w_db w) [u; c; g] = Some (EGrant gr) -> g_active (au_now e) gr = true ->
  dget "redirect_uri" request <> None ->
  setup_auth e request uri cinfo ru w = (Raise EKey, w).
Proof.
  intros e request uri cinfo ru w name acr m limit v ts u c g gr state M L A D Hu Hc Hg V Ga R.
  assert (I : identify e m (changed e request) w = (Ok (Some [("sid", VStr (session_key [u; c; g])); ("state", state)]%string, ts), w)).
  { unfold identify. rewrite age_limit_changed, L. unfold lift at 1. rewrite (bind_run _ _ w limit w eq_refl). cbv beta. rewrite A.
    unfold lift at 1. rewrite (bind_run _ _ w (VStr v) w eq_refl). cbv beta. rewrite D. unfold lift at 1.
    rewrite (bind_run _ _ w (Some (VDict [("sid", VStr (session_key [u; c; g])); ("state", state)]%string)) w eq_refl). cbv beta iota.
    change (dget "sid" [("sid", VStr (session_key [u; c; g])); ("state", state)]%string) with (Some (VStr (session_key [u; c; g]))). cbv iota.
    assert (X : in_db (mget (session_key [u; c; g])) w = (Ok (EGrant gr), w)).
    { unfold in_db. rewrite (mget_read u c g _ _ Hu Hc Hg V). rewrite world_eta. reflexivity. }
    rewrite (bind_run _ _ _ _ _ X). cbv beta.
    assert (Gg : in_db (as_grant (EGrant gr)) w = (Ok gr, w)) by (unfold in_db; cbn; rewrite world_eta; reflexivity).
    rewrite (bind_run _ _ _ _ _ Gg). cbv beta. rewrite Ga. reflexivity. }
  destruct (dget "redirect_uri" request) as [ruri|] eqn:Ru; [|congruence].
  destruct (authn_args_ok e request acr cinfo ru ruri Ru) as [args Aa].
  rewrite (setup_run _ _ _ _ _ _ _ _ _ _ _ _ M I Aa). reflexivity.
Qed.
Print Assumptions C63_recognised_refuted.

(** Once the session is over such a cookie is as good as none. *)
Theorem C63_over : forall e (request : msg) uri cinfo ru w name acr m limit v ts sid id gr,
  method_for e request name acr m -> age_limit request = Ok limit ->
  me_auth m limit = Ok (Some [("uid"%string, VStr v)], ts) -> au_decode e (VStr v) = Ok (Some (VDict id)) ->
  dget "sid" id = Some (VStr sid) -> mget sid (w_db w) = (Ok (EGrant gr), w_db w) -> g_active (au_now e) gr = false ->
  asks_none request = Ok false -> dget "redirect_uri" request <> None ->
  exists args, setup_auth e request uri cinfo ru w = (Ok (SLogin name args), w).
Proof.
  intros e request uri cinfo ru w name acr m limit v ts sid id gr M L A D Sd V Ga An R.
  assert (I : identify e m (changed e request) w = (Ok (None, ts), w)).
  { unfold identify. rewrite age_limit_changed, L. unfold lift at 1. rewrite (bind_run _ _ w limit w eq_refl). cbv beta. rewrite A.
    unfold lift at 1. rewrite (bind_run _ _ w (VStr v) w eq_refl). cbv beta. rewrite D. unfold lift at 1.
    rewrite (bind_run _ _ w (Some (VDict id)) w eq_refl). cbv beta iota. rewrite Sd.
    assert (X : in_db (mget sid) w = (Ok (EGrant gr), w)) by (unfold in_db; rewrite V, world_eta; reflexivity).
    rewrite (bind_run _ _ _ _ _ X). cbv beta.
    assert (Gg : in_db (as_grant (EGrant gr)) w = (Ok gr, w)) by (unfold in_db; cbn; rewrite world_eta; reflexivity).
    rewrite (bind_run _ _ _ _ _ Gg). cbv beta. rewrite Ga. reflexivity. }
  destruct (dget "redirect_uri" request) as [ruri|] eqn:Ru; [|congruence].
  destruct (authn_args_ok e request acr cinfo ru ruri Ru) as [args Aa]. exists args.
  rewrite (setup_run _ _ _ _ _ _ _ _ _ _ _ _ M I Aa). unfold go_on. rewrite asks_none_changed, An. reflexivity.
Qed.
Print Assumptions C63_over.

(** A signed cookie whose signature is wrong does not count as "no authentication": the request fails with an exception. *)
Theorem C63_forged_refuted : forall mac_verify gcm_dec unb64 header_value d cname kaka e (request : msg) uri cinfo ru w name acr m now limit
    key value ts load b64mac mac,
  d_sign d = Some key -> kaka <> ""%string -> header_value cname kaka = Some value -> split "|" value = [ts; load; b64mac] ->
  unb64 b64mac = Some mac -> mac_verify key (load ++ ts)%string mac = false ->
  method_for e request name acr m -> age_limit request = Ok limit ->
  me_auth m = authenticated_as now (get_cookie_value mac_verify gcm_dec unb64 header_value d cname kaka) ->
  setup_auth e request uri cinfo ru w = (Raise EOther, w).
Proof.
  intros mac_verify gcm_dec unb64 header_value d cname kaka e request uri cinfo ru w name acr m now limit key value ts load b64mac mac
    K Nk H S B V M L A.
  assert (G : get_cookie_value mac_verify gcm_dec unb64 header_value d cname kaka = Raise EOther).
  { unfold get_cookie_value, parse_cookie. assert (X : nonempty kaka = true) by (destruct kaka; [congruence|reflexivity]). rewrite X. cbn [negb].
    rewrite H, S. unfold ver_dec_content, b64dec. rewrite B. cbn [of_option rbind]. rewrite K. cbn [of_option rbind]. rewrite V. reflexivity. }
  apply (setup_raise _ _ _ _ _ _ _ _ _ _ M). unfold identify. rewrite age_limit_changed, L. unfold lift at 1.
  rewrite (bind_run _ _ w limit w eq_refl). cbv beta. rewrite A, G. reflexivity.
Qed.
Print Assumptions C63_forged_refuted.

(** ** C64: the supplied methods *)

(** User name and password: accepted exactly when this password is stored for the user. *)
Theorem C64_password : forall user_db username password u,
  verify_password user_db username (VStr password) = Ok u <-> u = username /\ dget username user_db = Some (VStr password).
Proof.
  intros db n p u. unfold verify_password. destruct (dget n db) as [v|].
  - destruct (val_eqb v (VStr p)) eqn:E.
    + assert (v = VStr p) as ->. { destruct v; try discriminate. cbn in E. apply String.eqb_eq in E. congruence. }
      split; [intros [= <-]; auto|intros [-> _]; reflexivity].
    + split; [discriminate|]. intros [_ [= ->]]. cbn in E. rewrite String.eqb_refl in E. discriminate.
  - split; [discriminate|intros [_ X]; discriminate].
Qed.
Print Assumptions C64_password.

(** With Basic authentication or a symmetric key nobody is ever recognised, whatever the Authorization header says and the
    user can do: every authorization request fails with an exception. *)
Theorem C64_header_refuted : forall (decode : string -> option string) unquote passwd decrypt now header e (request : msg) uri cinfo ru w name acr m limit,
  method_for e request name acr m -> age_limit request = Ok limit ->
  let b64decode := fun s => of_option EBinascii (decode s) in
  me_auth m = (fun _ => basic_authn b64decode unquote passwd now header) \/
  me_auth m = (fun _ => symkey_authn b64decode decrypt now header) ->
  exists x, setup_auth e request uri cinfo ru w = (Raise x, w).
Proof.
  intros decode unquote passwd decrypt now header e request uri cinfo ru w name acr m limit M L b64decode A.
  assert (X : exists x, me_auth m limit = Raise x /\ (x = EBinascii \/ x = EType)).
  { destruct A as [-> | ->]; [unfold basic_authn|unfold symkey_authn].
    - destruct (b64decode _) as [raw|x] eqn:E; cbn [rbind py_split]; [eauto|]. unfold b64decode, of_option in E. destruct (decode _); [discriminate|].
      exists x. split; [reflexivity|]. left. congruence.
    - destruct (b64decode _) as [raw|x] eqn:E; cbn [rbind py_split]; [eauto|]. unfold b64decode, of_option in E. destruct (decode _); [discriminate|].
      exists x. split; [reflexivity|]. left. congruence. }
  destruct X as (x & X & Y). exists x. apply (setup_raise _ _ _ _ _ _ _ _ _ _ M). unfold identify. rewrite age_limit_changed, L. unfold lift at 1.
  rewrite (bind_run _ _ w limit w eq_refl). cbv beta. rewrite X. destruct Y as [-> | ->]; reflexivity.
Qed.
Print Assumptions C64_header_refuted.

(** ** C65: hints *)

(** If the endpoint has found out whom the client wants to see, it goes on with nobody else. *)
Theorem C65_user_partial : forall e (request : msg) uri cinfo wanted w sid id user w',
  setup_auth e request uri cinfo (Some (VStr wanted)) w = (Ok (SDone sid id user), w') -> user = VStr wanted.
Proof.
  intros e request uri cinfo wanted w sid id user w' H.
  destruct (setup_inv _ _ _ _ _ _ _ _ H) as (name & acr & m & o & ts & args & M & I & A & G). clear H. unfold go_on in G.
  destruct o as [id'|].
  - destruct (bind_ok _ _ _ _ _ G) as (user' & w1 & E1 & G1). clear G. destruct (lift_ok _ _ _ _ E1) as [Us ->].
    destruct (val_eqb user' (VStr wanted)) eqn:E; cbn [negb] in G1.
    + assert (user' = VStr wanted) as ->. { destruct user'; try discriminate. cbn in E. apply String.eqb_eq in E. congruence. }
      destruct (bind_ok _ _ _ _ _ G1) as (o & w2 & _ & G2). destruct o as [s0|]; [|unfold ret in G2; congruence].
      destruct (nonempty s0); destruct (bind_ok _ _ _ _ _ G2) as (v & w3 & _ & G3); unfold ret in G3; [destruct v|]; congruence.
    + destruct (bind_ok _ _ _ _ _ G1) as ([] & w2 & _ & G2); unfold ret in G2; congruence.
  - destruct (bind_ok _ _ _ _ _ G) as ([] & w1 & _ & G1); [|unfold ret in G1; congruence].
    destruct (bind_ok _ _ _ _ _ G1) as (x & w2 & _ & G2). unfold ret in G2. congruence.
Qed.
Print Assumptions C65_user_partial.

(** But it does not look at the id_token_hint: whoever is recognised gets a session, whomever the hint names. *)
Theorem C65_id_token_hint_refuted : forall is_user e (request : msg) uri cinfo w cid ru name acr m id ts u hint,
  dget "__verified_id_token_hint" request = Some (VDict hint) -> dget "__verified_it_token_hint" request = None ->
  au_lookup e = None ->
  method_for e request name acr m -> finds e m request id ts ->
  dget "uid" id = Some (VStr u) -> dget "sid" id = None -> dget "client_id" request = Some (VStr cid) ->
  dget "redirect_uri" request = Some ru ->
  well_formed is_user (w_db w) -> good u -> good cid -> good (au_newid e) -> is_user u -> ~ is_user cid ->
  do_request_user e request = Ok None /\
  exists w', setup_auth e request uri cinfo None w = (Ok (SDone (session_key [u; cid; au_newid e]) id (VStr u)), w').
Proof.
  intros is_user e request uri cinfo w cid ru name acr m id ts u hint Hi Hm Lk M F Us Sd C R W Hu Hc Hn Uu Uc. split.
  - unfold do_request_user, proposed_user, truthy_get. change (verified "it_token_hint") with "__verified_it_token_hint"%string.
    rewrite Hm. cbn [rbind truthy nonempty]. cbv beta iota. rewrite Lk.
    destruct (dget "login_hint" request) as [v|]; [destruct (truthy v)|]; reflexivity.
  - exact (C30_login_refuted is_user e request uri cinfo w cid ru name acr m id ts u M F Us Sd C R W Hu Hc Hn Uu Uc).
Qed.
Print Assumptions C65_id_token_hint_refuted.

(** With the supplied lookup configured, no request with a login_hint is answered. *)
Theorem C65_login_hint_refuted : forall e az (request : msg) w hint a w',
  au_lookup e = Some supplied_lookup -> dget "login_hint" request = Some hint -> truthy hint = true ->
  dget "__verified_it_token_hint" request = None ->
  process_request e az true (inr request) w <> (Ok a, w').
Proof.
  intros e az request w hint a w' Lk Hh T Hm H. destruct (process_inv _ _ _ _ _ _ _ H) as (uri & cinfo & ru & s & w1 & _ & D & _).
  unfold do_request_user, proposed_user in D. change (verified "it_token_hint") with "__verified_it_token_hint"%string in D.
  assert (X : truthy_get "__verified_it_token_hint" request = None) by (unfold truthy_get; rewrite Hm; reflexivity).
  rewrite X in D. cbn [rbind truthy nonempty] in D. cbv beta iota in D.
  assert (Y : truthy_get "login_hint" request = Some hint) by (unfold truthy_get; rewrite Hh, T; reflexivity).
  rewrite Y, Lk in D. discriminate.
Qed.
Print Assumptions C65_login_hint_refuted.

(** ** C66: whose session it is *)

(** A session is handed on only after the method has vouched for the user, and it is one of the client that asks. It is one
    of that user, or the one that came with the identity. *)
Theorem C66_session_partial : forall e (request : msg) uri cinfo ru w cid sid id user w',
  dget "client_id" request = Some (VStr cid) -> good cid -> good (au_newid e) -> (forall us, user = VStr us -> good us) ->
  setup_auth e request uri cinfo ru w = (Ok (SDone sid id user), w') ->
  (exists name acr m limit id0 ts, method_for e request name acr m /\ age_limit request = Ok limit /\ me_auth m limit = Ok (Some id0, ts) /\
     dget "uid" id = Some user /\ (id = id0 \/ exists uid, dget "uid" id0 = Some uid /\ au_decode e uid = Ok (Some (VDict id)))) /\
  exists u g, unpack3 sid = Ok (u, cid, g) /\ (user = VStr u \/ dget "sid" id = Some (VStr sid)).
Proof.
  intros e request uri cinfo ru w cid sid id user w' C Hc Hn Hg H.
  destruct (setup_inv _ _ _ _ _ _ _ _ H) as (name & acr & m & o & ts & args & M & I & A & G). clear H. unfold go_on in G.
  assert (C' : dget "client_id" (changed e request) = Some (VStr cid)) by (rewrite changed_get; [exact C|discriminate]).
  destruct o as [id'|].
  2: { exfalso. destruct (bind_ok _ _ _ _ _ G) as ([] & w1 & _ & G1); [|unfold ret in G1; congruence].
       destruct (bind_ok _ _ _ _ _ G1) as (x & w2 & _ & G2). unfold ret in G2. congruence. }
  destruct (bind_ok _ _ _ _ _ G) as (user' & w1 & E1 & G1). clear G. destruct (lift_ok _ _ _ _ E1) as [Us ->]. apply dsub_ok in Us.
  destruct (match ru with Some r => negb (val_eqb user' r) | None => false end).
  { exfalso. destruct (bind_ok _ _ _ _ _ G1) as ([] & w2 & _ & G2); unfold ret in G2; congruence. }
  destruct (bind_ok _ _ _ _ _ G1) as (o & w2 & E2 & G2). clear G1. destruct o as [s0|]; [|unfold ret in G2; congruence].
  assert (X : id' = id /\ user' = user).
  { destruct (nonempty s0).
    - destruct (bind_ok _ _ _ _ _ G2) as (v & w3 & _ & G3). unfold ret in G3. destruct v; split; congruence.
    - destruct (bind_ok _ _ _ _ _ G2) as (v & w3 & _ & G3). unfold ret in G3. split; congruence. }
  destruct X as [-> ->]. destruct (identify_inv _ _ _ _ _ _ _ I) as (_ & limit & L & F). rewrite age_limit_changed in L.
  split.
  { destruct F as [[F _]|(id0 & uid & sd & g & F & F1 & F2 & _)].
    - exists name, acr, m, limit, id, ts. auto 6.
    - exists name, acr, m, limit, id0, ts. split; [exact M|]. split; [exact L|]. split; [exact F|]. split; [exact Us|]. right. eauto. }
  destruct (dget "sid" id) as [v|] eqn:Sd.
  - destruct (known_inv _ _ _ _ _ _ _ E2) as (sd & u0 & c0 & g0 & cv & V & Un & Cv & K).
    assert (cv = VStr cid) by congruence. subst cv.
    assert (S0 : nonempty s0 = true -> sid = s0).
    { intros Ne. rewrite Ne in G2. destruct (bind_ok _ _ _ _ _ G2) as (v2 & w3 & _ & G3). unfold ret in G3. destruct v2; congruence. }
    destruct K as [[K _]|(Ec & gr & R & Ga & [(K & _ & _)|(gr2 & ae & us & _ & _ & _ & Eu & K & _)])]; [discriminate| |];
      assert (c0 = cid) by congruence; subst c0.
    + assert (s0 = sd) by congruence. subst s0. destruct (nonempty sd) eqn:Ne.
      * rewrite (S0 eq_refl) in *. exists u0, g0. split; [exact Un|]. right. congruence.
      * exfalso. assert (sd = ""%string) by (destruct sd; [reflexivity|discriminate]). subst sd. discriminate Un.
    + assert (s0 = session_key [us; cid; au_newid e]) by congruence. subst s0. rewrite (S0 (session_key3_ne _ _ _)).
      exists us, (au_newid e). split; [apply unpack3_good; auto|]. left. exact Eu.
  - assert (s0 = ""%string) by (unfold ret in E2; congruence). subst s0. cbn [nonempty String.eqb negb] in G2.
    destruct (bind_ok _ _ _ _ _ G2) as (sd & w3 & E3 & G3). unfold ret in G3. assert (sd = sid) by congruence. subst sd.
    destruct (first_session_ok _ _ _ _ _ _ _ _ E3) as (u & c & Eu & Ec & Es). unfold msub_str in Ec. rewrite C' in Ec.
    assert (c = cid) by congruence. subst c. rewrite (Es (good_ne _ Hc)). exists u, (au_newid e).
    split; [apply unpack3_good; auto|]. left. exact Eu.
Qed.
Print Assumptions C66_session_partial.

(** A session the identity names is used only if it is one of the client, not revoked and not expired. *)
Theorem C66_active : forall e (request : msg) uri cinfo ru w u c g sid id user w',
  dget "sid" id = Some (VStr (session_key [u; c; g])) -> good u -> good c -> good g ->
  setup_auth e request uri cinfo ru w = (Ok (SDone sid id user), w') ->
  dget "client_id" request = Some (VStr c) /\
  exists gr, view (w_db w) [u; c; g] = Some (EGrant gr) /\ g_revoked gr = false /\ (g_expires_at gr = 0 \/ au_now e <= g_expires_at gr).
Proof.
  intros e request uri cinfo ru w u c g sid id user w' Sd Hu Hc Hg H.
  destruct (setup_inv _ _ _ _ _ _ _ _ H) as (name & acr & m & o & ts & args & M & I & A & G). clear H. unfold go_on in G.
  destruct o as [id'|].
  2: { exfalso. destruct (bind_ok _ _ _ _ _ G) as ([] & w1 & _ & G1); [|unfold ret in G1; congruence].
       destruct (bind_ok _ _ _ _ _ G1) as (x & w2 & _ & G2). unfold ret in G2. congruence. }
  destruct (bind_ok _ _ _ _ _ G) as (user' & w1 & E1 & G1). clear G. destruct (lift_ok _ _ _ _ E1) as [Us ->].
  destruct (match ru with Some r => negb (val_eqb user' r) | None => false end).
  { exfalso. destruct (bind_ok _ _ _ _ _ G1) as ([] & w2 & _ & G2); unfold ret in G2; congruence. }
  destruct (bind_ok _ _ _ _ _ G1) as (o & w2 & E2 & G2). clear G1. destruct o as [s0|]; [|unfold ret in G2; congruence].
  assert (X : id' = id).
  { destruct (nonempty s0).
    - destruct (bind_ok _ _ _ _ _ G2) as (v & w3 & _ & G3). unfold ret in G3. destruct v; congruence.
    - destruct (bind_ok _ _ _ _ _ G2) as (v & w3 & _ & G3). unfold ret in G3. congruence. }
  subst id'. rewrite Sd in E2. destruct (known_inv _ _ _ _ _ _ _ E2) as (sd & u0 & c0 & g0 & cv & V & Un & Cv & K).
  assert (sd = session_key [u; c; g]) by congruence. subst sd. rewrite unpack3_good in Un by auto.
  assert (u0 = u /\ c0 = c /\ g0 = g) as (-> & -> & ->) by (repeat split; congruence).
  destruct K as [[K _]|(Ec & gr & R & Ga & _)]; [discriminate|]. rewrite Ec, changed_get in Cv by discriminate. split; [exact Cv|].
  rewrite unpack_good in R by auto with gp. exists gr. split; [unfold view; rewrite R; reflexivity|].
  unfold g_active, item_is_active in Ga. destruct (max_usage_reached _ _); [discriminate|]. destruct (g_revoked gr); [discriminate|].
  split; [reflexivity|]. change (0 =? 0) with true in Ga. cbv iota in Ga. destruct (negb (g_not_before gr =? 0) && (au_now e <? g_not_before gr)); [discriminate|].
  destruct (Z.eqb_spec (g_expires_at gr) 0); [left; assumption|]. right. cbn [negb andb] in Ga.
  destruct (g_expires_at gr <? au_now e) eqn:X; [discriminate|lia].
Qed.
Print Assumptions C66_active.

(** A session the identity names may be somebody else's: the user of the session is not compared with the one recognised. *)
Theorem C66_user_refuted : forall e (request : msg) uri cinfo w ruri name acr m id ts other u c g gr ae r,
  method_for e request name acr m -> finds e m request id ts ->
  dget "uid" id = Some other -> dget "sid" id = Some (VStr (session_key [u; c; g])) -> good u -> good c -> good g ->
  dget "client_id" request = Some (VStr c) -> dget "redirect_uri" request = Some ruri ->
  view (w_db w) [u; c; g] = Some (EGrant gr) -> g_active (au_now e) gr = true -> g_authn gr = Some ae -> au_now e < ae_valid_until ae ->
  g_authreq gr = Some r -> au_same e (changed e request) r = true ->
  setup_auth e request uri cinfo None w = (Ok (SDone (session_key [u; c; g]) id other), w).
Proof.
  intros e request uri cinfo w ruri name acr m id ts other u c g gr ae r M F Us Sd Hu Hc Hg C R V Ga Ae Av Gr Sm.
  pose proof (identify_finds e m (changed e request) id ts w (proj2 (finds_changed _ _ _ _ _) F)) as I.
  destruct (authn_args_ok e request acr cinfo None ruri R) as [args A].
  assert (C' : dget "client_id" (changed e request) = Some (VStr c)) by (rewrite changed_get; [exact C|discriminate]).
  rewrite (setup_run _ _ _ _ _ _ _ _ _ _ _ _ M I A). unfold go_on. rewrite (dsub_get _ _ _ Us), Sd.
  unfold lift at 1. rewrite (bind_run _ _ w other w eq_refl). cbv beta iota.
  assert (Kn : known_session e (changed e request) other (VStr (session_key [u; c; g])) w = (Ok (Some (session_key [u; c; g])), w)).
  { unfold known_session. unfold lift at 1. rewrite (bind_run _ _ w (session_key [u; c; g]) w eq_refl). cbv beta.
    rewrite unpack3_good by auto. unfold lift at 1. rewrite (bind_run _ _ w (u, c, g) w eq_refl). cbv beta iota.
    rewrite (dsub_get _ _ _ C'). unfold lift at 1. rewrite (bind_run _ _ w (VStr c) w eq_refl). cbv beta.
    cbn [val_eqb]. rewrite String.eqb_refl. cbn [negb].
    assert (X : in_db (mget (session_key [u; c; g])) w = (Ok (EGrant gr), w)).
    { unfold in_db. rewrite (mget_read u c g _ _ Hu Hc Hg V). rewrite world_eta. reflexivity. }
    rewrite (bind_run _ _ _ _ _ X). cbv beta.
    assert (Gg : in_db (as_grant (EGrant gr)) w = (Ok gr, w)) by (unfold in_db; cbn; rewrite world_eta; reflexivity).
    rewrite (bind_run _ _ _ _ _ Gg). cbv beta. rewrite Ga, Gr, Sm. reflexivity. }
  rewrite (bind_run _ _ _ _ _ Kn). cbv beta iota. rewrite session_key3_ne.
  assert (Ev : valid_event e (session_key [u; c; g]) w = (Ok (Some ae), w)).
  { rewrite (valid_event_read e u c g gr ae w Hu Hc Hg V Ae). unfold ae_is_valid.
    destruct (au_now e <? ae_valid_until ae) eqn:X; [reflexivity|lia]. }
  rewrite (bind_run _ _ _ _ _ Ev). reflexivity.
Qed.
Print Assumptions C66_user_refuted.

(** With the method NoAuthn, which is for tests, the cookie with the session id and the state is recognised: a session of the
    client whose authorization request is the same is used again. Without a cookie everybody is the configured user. *)
Theorem C63_no_authn : forall e (request : msg) uri cinfo w ruri name acr m now user b64 ts typ info u c g gr ae r state,
  method_for e request name acr m -> (exists limit, age_limit request = Ok limit) ->
  me_auth m = (fun _ => no_authn now user true (Ok (Some (b64, ts, typ))) info) ->
  info b64 = VDict [("sid", VStr (session_key [u; c; g])); ("state", state)]%string ->
  au_decode e (VStr user) = Ok None -> good u -> good c -> good g ->
  dget "client_id" request = Some (VStr c) -> dget "redirect_uri" request = Some ruri ->
  view (w_db w) [u; c; g] = Some (EGrant gr) -> g_active (au_now e) gr = true -> g_authn gr = Some ae -> au_now e < ae_valid_until ae ->
  g_authreq gr = Some r -> au_same e (changed e request) r = true ->
  setup_auth e request uri cinfo None w =
    (Ok (SDone (session_key [u; c; g]) [("uid", VStr user); ("sid", VStr (session_key [u; c; g])); ("state", state)]%string (VStr user)), w).
Proof.
  intros e request uri cinfo w ruri name acr m now user b64 ts typ info u c g gr ae r state M [limit L] A Hi D Hu Hc Hg C R V Ga Ae Av Gr Sm.
  apply (C66_user_refuted e request uri cinfo w ruri name acr m _ (VInt now) (VStr user) u c g gr ae r); auto.
  exists limit, (VStr user). split; [exact L|]. split; [|split; [reflexivity|exact D]].
  rewrite A. unfold no_authn. cbn [read_cookie rbind]. rewrite Hi. reflexivity.
Qed.
Print Assumptions C63_no_authn.
Theorem C63_no_cookie : forall is_user e (request : msg) uri cinfo w cid ru name acr m now user cookie info limit,
  method_for e request name acr m -> age_limit request = Ok limit -> me_auth m = (fun _ => no_authn now user false cookie info) ->
  au_decode e (VStr user) = Ok None -> dget "client_id" request = Some (VStr cid) -> dget "redirect_uri" request = Some ru ->
  well_formed is_user (w_db w) -> good user -> good cid -> good (au_newid e) -> is_user user -> ~ is_user cid ->
  exists w', setup_auth e request uri cinfo None w =
    (Ok (SDone (session_key [user; cid; au_newid e]) [("uid"%string, VStr user)] (VStr user)), w').
Proof.
  intros is_user e request uri cinfo w cid ru name acr m now user cookie info limit M L A D C R W Hu Hc Hn Uu Uc.
  apply (C30_login_refuted is_user e request uri cinfo w cid ru name acr m [("uid"%string, VStr user)] (VInt now) user); auto.
  exists limit, (VStr user). split; [exact L|]. split; [|split; [reflexivity|exact D]]. rewrite A. reflexivity.
Qed.
Print Assumptions C63_no_cookie.

(** ** C59: login_required *)

(** The error goes to the redirect_uri, in the query for response type code and in the fragment otherwise; without the state
    of the request. *)
Theorem C59_login_required_partial : forall en uri rt,
  let info := [("error", VStr "login_required"); ("return_uri", VStr uri); ("return_type", VList (map VStr rt))]%string in
  let text := to_urlencoded en [("error", VStr "login_required")]%string in
  free "#" uri -> free "#" text -> rt <> [] ->
  exists resp, respond_error en authorization_endpoint info = Ok resp /\
    (rt = ["code"%string] -> in_query uri text resp) /\ (rt <> ["code"%string] -> in_fragment uri text resp).
Proof.
  intros en uri rt info text Fu Ft Nr. unfold respond_error. change (msub_str "error" info) with (Ok "login_required"%string : result string).
  cbn [rbind]. rewrite do_response_eq. cbn [nonempty String.eqb negb]. unfold error_msg, place. cbn [kw_error_description kw_content_type].
  change (dget "error_description" info) with (@None val). cbn [ep_placement authorization_endpoint String.eqb Ascii.eqb Bool.eqb].
  change (mget_str "return_uri" info) with (Some uri).
  assert (L : mget_list "return_type" info = Some rt).
  { unfold mget_list. change (dget "return_type" info) with (Some (VList (map VStr rt))). cbv iota. f_equal. clear. induction rt as [|x l IH]; [reflexivity|]. cbn. f_equal. exact IH. }
  rewrite L. cbn [kw_fragment_enc kw_return_type kw_return_uri rbind fst snd].
  eexists. split; [reflexivity|]. destruct rt as [|x l]; [congruence|]. split.
  - intros [= -> ->]. exists (msg_request en [("error", VStr "login_required")]%string uri false). split; [reflexivity|].
    exact (loc_query en _ uri Fu Ft).
  - intros N. assert (X : fragment_encoding (x :: l) = true).
    { unfold fragment_encoding. destruct l; [|repeat match goal with |- context [match ?t with _ => _ end] => destruct t end; reflexivity].
      repeat match goal with |- context [match ?t with _ => _ end] => destruct t end; try reflexivity. now destruct N. }
    rewrite X. exists (msg_request en [("error", VStr "login_required")]%string uri true). split; [reflexivity|].
    destruct (loc_fragment en [("error", VStr "login_required")]%string uri Fu) as [A B]. split; [exact B|]. intros _. exact A.
Qed.
Print Assumptions C59_login_required_partial.

(** ** Cases *)
Definition usr9 (u : string) : Prop := In u ["diana"; "bob"]%string.
Lemma st1_well_formed g rv : well_formed usr9 (st1 g rv).
Proof.
  destruct (st1_fine g rv) as [K L]. split; [exact K|]. split; [exact L|].
  intros u c Hu Hc E. unfold stored in E. cbn -[String.eqb session_key] in E.
  destruct (String.eqb_spec (session_key [u; c]) "diana") as [X|_].
  { change "diana"%string with (session_key ["diana"]) in X. apply key_eq in X; [|auto with gp|apply gp1, good_by; reflexivity]. discriminate. }
  destruct (String.eqb_spec (session_key [u; c]) "diana;;c1") as [X|_].
  { change "diana;;c1"%string with (session_key ["diana"; "c1"]) in X.
    apply key_eq in X; [|auto with gp|apply gp2; apply good_by; reflexivity]. injection X as -> ->. left. reflexivity. }
  destruct (String.eqb_spec (session_key [u; c]) sid1) as [X|_]; [|contradiction].
  change sid1 with (session_key ["diana"; "c1"; "g1"]) in X.
  apply key_eq in X; [|auto with gp|apply gp3; apply good_by; reflexivity]. discriminate.
Qed.

(** A method with a cookie; base64 and JSON are played by names: "S" stands for the cookie the provider sets. *)
Definition decode9 (v : val) : result (option val) :=
  match v with
  | VStr "S" => Ok (Some (VDict [("sid", VStr sid1); ("state", VStr "xyz")]%string))
  | _ => Ok None
  end.
Definition e9 (auth : val -> whoami) : auth_env :=
  mkAU 2000 (mkBroker [("m1", mkMI (Some "pw") (Some "user"))] [("pw", ["m1"])])%string None None None
    [("user", mkMethod auth 600)]%string decode9 (fun _ _ => true) (fun _ => "query"%string) (fun _ _ => None) None
    (fun s => s) "salt" "uuid" "g9".
Definition cookie9 (u ts : string) : val -> whoami := authenticated_as 2000 (Ok (Some (u, ts, "sso"%string))).
Definition nocookie9 : val -> whoami := authenticated_as 2000 (Ok None).
Definition names9 (user sid : string) : val -> whoami := fun _ => Ok (Some [("uid", VStr user); ("sid", VStr sid)]%string, VInt 1900).
Definition rq9 (more : msg) : msg := rq7 ["code"] cb more.
Definition none9 : msg := rq9 [("prompt", vstrs ["none"])]%string.
Definition setup9 auth more := setup_auth (e9 auth) (rq9 more) (VStr cb) [] None w7.

Example method9 : forall auth more, method_for (e9 auth) (rq9 more) "user" "pw" (mkMethod auth 600).
Proof. intros. split; reflexivity. Qed.
Example entered9 : forall auth,
  entered (e9 auth) (az7 false) true w7 none9 "c1" (match clients7 with (_, i) :: _ => i | [] => [] end) (VStr cb).
Proof.
  intros. split; [reflexivity|]. split; [reflexivity|]. split; [|split; [reflexivity|reflexivity]]. right. eexists. split; [reflexivity|]. vm_compute. reflexivity.
Qed.

(** prompt=none: without a cookie; with one; when the methods name a session of another client *)
Example C30_ex :
  prompts "none" none9 /\ nobody (mkMethod nocookie9 600) none9 /\
  finds (e9 (cookie9 "bob" "1900")) (mkMethod (cookie9 "bob" "1900") 600) none9 [("uid", VStr "bob")]%string (VStr "1900") /\
  process_request (e9 nocookie9) (az7 false) true (inr none9) w7 =
     (Ok (AError [("error", VStr "login_required"); ("return_uri", VStr cb); ("return_type", vstrs ["code"])]%string), w7) /\
  (exists r, fst (process_request (e9 (cookie9 "bob" "1900")) (az7 false) true (inr none9) w7) = Ok (AResponse r)) /\
  (exists args, fst (process_request (e9 (names9 "diana" "diana;;c2;;g1")) (az7 false) true (inr none9) w7) = Ok (AInteraction "user" args (VStr cb))).
Proof.
  split; [eexists; split; [vm_compute; reflexivity|left; reflexivity]|].
  split; [exists (VInt 0); split; [reflexivity|left; eexists; vm_compute; reflexivity]|].
  split; [exists (VInt 0), (VStr "bob"); repeat split|].
  split; [vm_compute; reflexivity|].
  split; eexists; vm_compute; reflexivity.
Qed.
(** No hypothesis about what the methods tell is violated by a cookie that holds a user name. *)
Example C30_partial_ex : forall name m limit id ts uid, dget name (au_methods (e9 (cookie9 "bob" "1900"))) = Some m ->
  me_auth m limit = Ok (Some id, ts) -> dget "sid" id = None /\ (dget "uid" id = Some uid -> decode9 uid = Ok None).
Proof.
  intros name m limit id ts uid H A. unfold e9 in H. cbn [au_methods dget] in H. destruct (String.eqb name "user"); [|discriminate].
  assert (m = mkMethod (cookie9 "bob" "1900") 600) by congruence. subst m. cbn [me_auth] in A. unfold cookie9, authenticated_as in A. cbn [read_cookie rbind String.eqb Ascii.eqb Bool.eqb] in A.
  assert (X : id = [("uid", VStr "bob")]%string).
  { destruct (truthy limit); [|congruence]. cbn in A. destruct (int_of limit) as [n|]; [|discriminate]. cbn [rbind] in A.
    destruct (_ <? _); [discriminate|]. congruence. }
  subst id. split; [reflexivity|]. intros [= <-]. reflexivity.
Qed.
(** prompt=login *)
Example C30_login_ex : exists w', setup9 (cookie9 "bob" "1") [("prompt", vstrs ["login"])]%string = (Ok (SDone "bob;;c1;;g9" [("uid", VStr "bob")] (VStr "bob")), w')%string /\
  well_formed usr9 (w_db w7) /\ good "bob" /\ good "c1" /\ good "g9" /\ usr9 "bob" /\ ~ usr9 "c1".
Proof.
  eexists. split; [vm_compute; reflexivity|]. split; [apply st1_well_formed|]. do 3 (split; [apply good_by; reflexivity|]).
  split; [right; left; reflexivity|]. intros [X|[X|[]]]; discriminate.
Qed.

(** The event of a new session says 2000, although the cookie is of 1900. *)
Example C31_ex :
  let w' := snd (setup9 (cookie9 "bob" "1900") []) in
  event_of (w_db w') "bob" "c1" "g9" = Some (mkAE "bob" (Some "pw") 2000 2600 None)%string.
Proof. vm_compute. reflexivity. Qed.
(** A session named by the cookie: its event is used again. *)
Example C31_reused_ex :
  setup9 (names9 "diana" sid1) [] = (Ok (SDone sid1 [("uid", VStr "diana"); ("sid", VStr sid1)]%string (VStr "diana")), w7) /\
  event_of (w_db w7) "diana" "c1" "g1" = Some ae1 /\ 2000 < ae_valid_until ae1.
Proof. vm_compute. repeat split. Qed.

(** max_age *)
Example C62_ex :
  asked_age (rq9 [("max_age", VInt 100)]%string) 100 /\
  asked_age (rq9 [("max_age", VInt 100); ("__verified_request", VDict [("max_age", VInt 60)])]%string) 60 /\
  (exists args, fst (setup9 (cookie9 "bob" "1899") [("max_age", VInt 100)]%string) = Ok (SLogin "user" args)) /\
  (exists sid id u, fst (setup9 (cookie9 "bob" "1900") [("max_age", VInt 100)]%string) = Ok (SDone sid id u)) /\
  (exists sid id u, fst (setup9 (cookie9 "bob" "1899") [("max_age", VInt 100); ("upm_answer", VStr "true")]%string) = Ok (SDone sid id u)) /\
  (exists sid id u, fst (setup9 (cookie9 "bob" "1899") [("max_age", VInt 0)]%string) = Ok (SDone sid id u)).
Proof. split; [reflexivity|]. split; [reflexivity|]. repeat split; repeat eexists; vm_compute; reflexivity. Qed.

(** The provider's own cookie *)
Example C63_ex :
  fst (setup9 (cookie9 "S" "1900") []) = Raise EKey /\
  view (w_db w7) ["diana"; "c1"; "g1"] = Some (EGrant gr7) /\ g_active 2000 gr7 = true /\ sid1 = session_key ["diana"; "c1"; "g1"].
Proof. repeat split; vm_compute; reflexivity. Qed.
Example C63_no_authn_ex :
  fst (setup9 (fun _ => no_authn 2000 "diana" true (Ok (Some ("S", "1900", "sso")%string)) (fun _ => VDict [("sid", VStr sid1); ("state", VStr "xyz")]%string)) [])
    = Ok (SDone sid1 [("uid", VStr "diana"); ("sid", VStr sid1); ("state", VStr "xyz")]%string (VStr "diana")) /\
  fst (setup9 (fun _ => no_authn 2000 "diana" false (Ok None) (fun s => VStr s)) []) = Ok (SDone "diana;;c1;;g9" [("uid", VStr "diana")] (VStr "diana"))%string.
Proof. split; vm_compute; reflexivity. Qed.
(** the same session, revoked *)
Example C63_over_ex :
  let w := mkW (st1 (mkGrant "g1" "sub-of-diana" [] [] [] (Some ar2) (Some ae1) [] no_grules 1000 0 0 true 0) false) clients7 in
  exists args, setup_auth (e9 (cookie9 "S" "1900")) (rq9 []) (VStr cb) [] None w = (Ok (SLogin "user" args), w).
Proof. eexists. vm_compute. reflexivity. Qed.
Example C63_forged_ex :
  let d := mkDealer (Some "sk") None "/" "example.com" 0 in
  split "|" "1900|load|mac" = ["1900"; "load"; "mac"]%string /\
  fst (setup9 (authenticated_as 2000 (get_cookie_value (fun _ _ _ => false) (fun _ _ _ _ => None) (fun s => Some s) (fun _ s => Some s) d "oidc_op" "1900|load|mac")) [])
    = Raise EOther.
Proof. split; vm_compute; reflexivity. Qed.

Example C64_ex :
  verify_password [("diana", VStr "krall")]%string "diana" (VStr "krall") = Ok "diana"%string /\
  verify_password [("diana", VStr "krall")]%string "diana" (VStr "Krall") = Raise EFailedAuthentication /\
  let b := fun s => of_option EBinascii (if String.eqb s "ZGlhbmE6a3JhbGw=" then Some "diana:krall"%string else None) in
  fst (setup9 (fun _ => basic_authn b (fun s => s) [("diana", "krall")]%string 2000 "Basic ZGlhbmE6a3JhbGw=") []) = Raise EType.
Proof. repeat split; vm_compute; reflexivity. Qed.

(** The client asks for diana and gets bob. *)
Example C65_ex :
  let hint := [("__verified_id_token_hint", VDict [("sub", VStr "sub-of-diana")])]%string in
  do_request_user (e9 (cookie9 "bob" "1900")) (rq9 hint) = Ok None /\
  fst (setup9 (cookie9 "bob" "1900") hint) = Ok (SDone "bob;;c1;;g9" [("uid", VStr "bob")] (VStr "bob"))%string /\
  (* if it knew *)
  (exists args, fst (setup_auth (e9 (cookie9 "bob" "1900")) (rq9 []) (VStr cb) [] (Some (VStr "diana")) w7) = Ok (SLogin "user" args)) /\
  (exists sid id, fst (setup_auth (e9 (cookie9 "bob" "1900")) (rq9 []) (VStr cb) [] (Some (VStr "bob")) w7) = Ok (SDone sid id (VStr "bob"))).
Proof. repeat split; repeat eexists; vm_compute; reflexivity. Qed.

(** bob goes on with the session of diana *)
Example C66_ex :
  fst (setup9 (names9 "bob" sid1) []) = Ok (SDone sid1 [("uid", VStr "bob"); ("sid", VStr sid1)]%string (VStr "bob")) /\
  finds (e9 (names9 "bob" sid1)) (mkMethod (names9 "bob" sid1) 600) (rq9 []) [("uid", VStr "bob"); ("sid", VStr sid1)]%string (VInt 1900) /\
  g_authn gr7 = Some ae1 /\ g_authreq gr7 = Some ar2.
Proof. split; [vm_compute; reflexivity|]. split; [exists (VInt 0), (VStr "bob"); repeat split|]. split; reflexivity. Qed.

Example C59_login_required_ex :
  (let* r := respond_error ex_enc authorization_endpoint [("error", VStr "login_required"); ("return_uri", VStr cb); ("return_type", vstrs ["code"])]%string in Ok (rs_body r))
    = Ok (Text "https://rp.example.org/cb?error=login_required") /\
  (let* r := respond_error ex_enc authorization_endpoint [("error", VStr "login_required"); ("return_uri", VStr cb); ("return_type", vstrs ["code"; "token"])]%string in Ok (rs_body r))
    = Ok (Text "https://rp.example.org/cb#error=login_required").
Proof. split; vm_compute; reflexivity. Qed.
