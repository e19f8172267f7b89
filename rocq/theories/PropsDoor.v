(** PropsDoor.v: no access without a login, from the received requests on (C97). *)
From Verif Require Import Base BaseProofs SessionKey SessionKeyProofs Monad MonadProofs Types Token Grant GrantSpec Database DatabaseSpec DatabaseProofs
  Manager ManagerSpec ManagerProofs Ctx UserInfo UserInfoSpec UserInfoProofs World Minting ClientAuthn ClientAuthnSpec TokenEndpoint WorldSpec WorldProofs
  Uri AuthzRequest AuthzEndpoint Logout SetupAuthSpec System SystemSpec SystemProofs Preserve Fronts FrontsSpec FrontsProofs AuthzFront Door DoorSpec DoorProofs DoorRequestProofs SetupAuthProofs.
From Verif Require UserinfoFront UserinfoFrontSpec PropsUserinfoFront PropsFronts.
From Verif Require Import PropsIntrospection SetupAuth.
Local Open Scope Z_scope.

(** The provider holds the session [u], [c], [g] with the grant [gr]. *)
Definition keeps_session (a : astate) (u c g : string) (gr : grant) : Prop := view (sessions_of a) [u; c; g] = Some (EGrant gr).

Lemma kept_accounted y a dp u c g gr : sids_ok (sy_sid_of y) -> arrivals y a dp -> good u -> good c -> good g -> keeps_session a u c g gr ->
  dopened dp u c g (g_sub gr) /\ forall t, In t (g_issued gr) -> dtraced y dp u c g (t_class t) (t_value t).
Proof.
  intros Hs H Hu Hc Hg V. apply view_key in V. destruct (account_all y Hs a dp H _ _ V) as (u' & c' & g' & Hu' & Hc' & Hg' & K & O & T).
  destruct (key3_inj _ _ _ _ _ _ Hu Hc Hg Hu' Hc' Hg' K) as (<- & <- & <-). auto.
Qed.
Lemma named_accounted y a dp v u c gr t : sids_ok (sy_sid_of y) -> arrivals y a dp -> names (sy_sid_of y) (sessions_of a) v u c gr t ->
  exists g, dopened dp u c g (g_sub gr) /\ dtraced y dp u c g (t_class t) v.
Proof.
  intros Hs H (sid & g & Es & U & V & Vt & l1 & l2 & Ei & _). destruct (Hs _ _ Es) as (u' & c' & g' & Hu & Hc & Hg & ->).
  rewrite unpack3_good in U by assumption. assert (u' = u /\ c' = c /\ g' = g) as (-> & -> & ->) by (repeat split; congruence).
  destruct (kept_accounted y a dp u c g gr Hs H Hu Hc Hg V) as [O T]. exists g. split; [exact O|]. rewrite <- Vt. apply T. rewrite Ei. apply in_elt.
Qed.

(** ** C97 *)
(** Whoever has a session with a client has come to the provider with an authorization request of that client, which was registered
    then, and was recognised; their name in the session is made from who they were recognised as. *)
Theorem C97_session : forall y a dp u c g gr,
  sids_ok (sy_sid_of y) -> arrivals y a dp -> good u -> good c -> good g -> keeps_session a u c g gr -> dopened dp u c g (g_sub gr).
Proof. intros y a dp u c g gr Hs H Hu Hc Hg V. eapply kept_accounted; eauto. Qed.
Print Assumptions C97_session.

(** Every token of a session goes back to such a visit, step by step; each step was made for a request that showed the credentials of a
    registered client, if the endpoint asks for them. *)
Theorem C97_token : forall y a dp u c g gr t,
  sids_ok (sy_sid_of y) -> arrivals y a dp -> good u -> good c -> good g -> keeps_session a u c g gr -> In t (g_issued gr) ->
  dtraced y dp u c g (t_class t) (t_value t).
Proof. intros y a dp u c g gr t Hs H Hu Hc Hg V I. eapply kept_accounted; eauto. Qed.
Print Assumptions C97_token.

(** The session keeps the request of such a visit as it was understood, except that requested authentication classes may have been put in a
    list: nobody's session is made from another request. *)
Theorem C97_request : forall y a dp u c g gr,
  sids_ok (sy_sid_of y) -> arrivals y a dp -> good u -> good c -> good g -> keeps_session a u c g gr ->
  exists m ar, came_with dp u c g m /\ g_authreq gr = Some ar /\ forall k, k <> "acr_values"%string -> dget k ar = dget k m.
Proof.
  intros y a dp u c g gr Hs H Hu Hc Hg V. apply view_key in V.
  destruct (requests_all y Hs a dp H _ _ V) as (ar & E & u' & c' & g' & m & e & Hu' & Hc' & Hg' & K & C & ->).
  destruct (key3_inj _ _ _ _ _ _ Hu Hc Hg Hu' Hc' Hg' K) as (<- & <- & <-). exists m, (changed e m). split; [exact C|]. split; [exact E|].
  intros k N. now apply changed_get.
Qed.
Print Assumptions C97_request.

(** The token endpoint answers a received request with tokens only if it presents a value of a session its user has opened, and shows
    credentials if the endpoint asks for them. *)
Theorem C97_exchange : forall y a dp gt clock m1 m2 ir rq auth args cid f,
  sids_ok (sy_sid_of y) -> arrivals y a dp -> keeps (gt_check gt) ->
  token_at y gt clock m1 m2 ir rq auth (as_front a) = (Ok (AOk args cid), f) ->
  credentials gt rq auth a /\
  exists u c g sub k k' v, presents rq k v /\ dtraced y dp u c g k' v /\ dopened dp u c g sub.
Proof.
  intros y a dp gt clock m1 m2 ir rq auth args cid f Hs H Hk E.
  destruct (token_door y Hs _ _ _ _ _ _ _ _ _ _ Hk E) as [[_ X]|(rq1 & w & W & Et & Ps & Sh)]; [now destruct (X args cid)|].
  split; [exact Sh|]. apply (token_based _ Hs) in Et. destruct Et as (key & k & v & g0 & t0 & Pr & D & I & V). rewrite W in D.
  destruct (account_all y Hs a dp H _ _ D) as (u & c & g & _ & _ & _ & _ & O & T). exists u, c, g, (g_sub g0), k, (t_class t0), v.
  split; [now apply Ps|]. split; [rewrite <- V; now apply T|exact O].
Qed.
Print Assumptions C97_exchange.

(** Claims about a user are given to nobody but the bearer of an access token that goes back to a visit of that user. *)
Theorem C97_userinfo : forall y a dp gt clock rq auth args c how f,
  sids_ok (sy_sid_of y) -> arrivals y a dp ->
  userinfo_at y gt clock rq auth (as_front a) = (Ok (UserinfoFront.UClaims args c how), f) -> dget "error" args = None ->
  exists u g sub v, UserinfoFrontSpec.presented (gt_ep gt) rq auth v /\ dtraced y dp u c g CAccess v /\ dopened dp u c g sub /\
    dget "sub" args = Some (VStr sub) /\ forall k x, k <> "sub"%string -> dget k args = Some x -> user_has (sy_cx y) u k x.
Proof.
  intros y a dp gt clock rq auth args c how f Hs H E Ne. unfold userinfo_at in E.
  destruct (UserinfoFront.userinfo_request _ _ _ _ _ _ _ _ _ _) as [r s] eqn:Eu in E. assert (r = Ok (UserinfoFront.UClaims args c how)) by congruence. subst r. clear E.
  apply PropsUserinfoFront.C85_served in Eu. destruct Eu as (_ & v & u & gr & t & ae & Pr & N & Ct & _ & _ & [[_ ->]|(_ & Sb & Cl)]); [discriminate|].
  destruct (named_accounted y a dp v u c gr t Hs H N) as (g & O & T). exists u, g, (g_sub gr), v. rewrite Ct in T.
  split; [exact Pr|]. split; [exact T|]. split; [exact O|]. split; [exact Sb|]. intros k x Nk Dk. now destruct (Cl k x Nk Dk).
Qed.
Print Assumptions C97_userinfo.

(** A token is called active only if it goes back to a visit, and only to who shows credentials if the endpoint asks for them. *)
Theorem C97_introspection : forall y a dp gt clock un rq auth args f,
  sids_ok (sy_sid_of y) -> arrivals y a dp -> keeps (gt_check gt) -> asks (gt_ep gt) -> gt_aka gt = [] ->
  introspection_request (sy_sid_of y) (sy_cx y) gt clock un rq auth (as_front a) = (Ok (IAnswer args), f) -> dget "active" args = Some (VBool true) ->
  (exists c, shows (gt_out gt) (gt_ep gt) (clients_of a) rq auth c) /\
  exists u c g sub k v, dget "token" rq = Some (VStr v) /\ dtraced y dp u c g k v /\ dopened dp u c g sub.
Proof.
  intros y a dp gt clock un rq auth args f Hs H Hk Ha Hz E Act.
  destruct (PropsFronts.C86_introspection _ _ _ _ _ _ _ _ _ _ Ha Hz Hk E) as (_ & c & Sh & K). split; [exists c; exact Sh|].
  destruct (K args eq_refl Act) as (v & u & c' & gr & t & Ev & N & _). destruct (named_accounted y a dp v u c' gr t Hs H N) as (g & O & T).
  exists u, c', g, (g_sub gr), (t_class t), v. auto.
Qed.
Print Assumptions C97_introspection.

(** As long as no authorization request was understood with somebody recognised, there is no session, and no request gets tokens or claims. *)
Theorem C97_nobody : forall y a dp, sids_ok (sy_sid_of y) -> arrivals y a dp ->
  (forall h e az c id, In h dp -> ~ dvisit h e az c id) ->
  (forall u c g gr, good u -> good c -> good g -> ~ keeps_session a u c g gr) /\
  (forall gt clock m1 m2 ir rq auth args cid f, keeps (gt_check gt) -> token_at y gt clock m1 m2 ir rq auth (as_front a) <> (Ok (AOk args cid), f)) /\
  (forall gt clock rq auth args c how f, userinfo_at y gt clock rq auth (as_front a) <> (Ok (UserinfoFront.UClaims args c how), f)).
Proof.
  intros y a dp Hs H N. assert (X : forall u c g sub, ~ dopened dp u c g sub).
  { intros u c g sub (h & e & az & id & I & V & _). exact (N _ _ _ _ _ I V). }
  split; [intros u c g gr Hu Hc Hg V; exact (X _ _ _ _ (C97_session y a dp u c g gr Hs H Hu Hc Hg V))|]. split.
  - intros gt clock m1 m2 ir rq auth args cid f Hk E. destruct (C97_exchange _ _ _ _ _ _ _ _ _ _ _ _ _ Hs H Hk E) as (_ & u & c & g & sub & _ & _ & _ & _ & _ & O).
    exact (X _ _ _ _ O).
  - intros gt clock rq auth args c how f E. unfold userinfo_at in E.
    destruct (UserinfoFront.userinfo_request _ _ _ _ _ _ _ _ _ _) as [r s] eqn:Eu in E. assert (r = Ok (UserinfoFront.UClaims args c how)) by congruence. subst r. clear E.
    apply PropsUserinfoFront.C85_served in Eu. destruct Eu as (_ & v & u & gr & t & ae & _ & Nm & _).
    destruct (named_accounted y a dp v u c gr t Hs H Nm) as (g & O & _). exact (X _ _ _ _ O).
Qed.
Print Assumptions C97_nobody.

(** ** A case: c1 pushes its request, with HTTP Basic; diana comes with the address of the pushed request and is recognised; c1 exchanges the
    code with HTTP Basic; the access token is used at the userinfo endpoint and looked up at the introspection endpoint. *)
From Verif Require Import PropsClientAuthn PropsClaims PropsTokenEndpoint PropsAuthzEndpoint PropsSetupAuth PropsSystem PropsFlow PyUrl PropsFrontFlow.
Definition y97 : setup_of := mkSy sid79 hash2 cx7 idt2 true both true.
Definition a97 : astate := mkAS (mkFS (mkW [] [("c1", cli95)]%string) []) [].
Definition short97 : msg := [("client_id", VStr "c1"); ("request_uri", VStr "urn:uuid:u1"); ("response_type", vstrs ["code"])]%string.
Definition push97 : knock := KPush (gate95 [Some MBasic]) re95 "u1" rq81 basic95.
Definition visit97 : knock := KAuthorize (gate95 []) re95 true pk95 e81 (az7 true) short97 NoAuthz.
Definition token97 : knock := KToken (gate95 [Some MBasic; Some MPost]) 2000 (mt2 "at8") (mt2 "rt8") None tr81 basic95.
Definition a97_1 : astate := dstep y97 push97 a97.
Definition a97_2 : astate := dstep y97 visit97 a97_1.
Definition a97_3 : astate := dstep y97 token97 a97_2.
Definition dp97 : dpast := [(token97, a97_2); (visit97, a97_1); (push97, a97)].

(** The pushed request is what is understood, and nothing else. *)
Lemma understood_det gt re oidc pk rq auth a m m' : understood gt re oidc pk rq auth a m -> understood gt re oidc pk rq auth a m' -> m' = m.
Proof.
  intros (rq1 & c1 & ca1 & n1 & p1 & A1 & A2 & A3) (rq2 & c2 & ca2 & n2 & p2 & B1 & B2 & B3).
  rewrite A1 in B1. assert (rq2 = rq1 /\ c2 = c1 /\ ca2 = ca1) as (-> & -> & ->) by (repeat split; congruence).
  assert (n2 = n1) by congruence. subst n2. congruence.
Qed.
Example C97_ex_understood : exists m, understood (gate95 []) re95 true pk95 short97 NoAuthz a97_1 m /\ dget "client_id" m = Some (VStr "c1") /\ dget "state" m = Some (VStr "xyz").
Proof. eexists. split; [|split]; [do 5 eexists; split; [vm_compute; reflexivity|]; split; [vm_compute; reflexivity|]; vm_compute; reflexivity|reflexivity|reflexivity]. Qed.
Example C97_ex_arrivals : arrivals y97 a97_3 dp97.
Proof.
  apply ar_step; [apply ar_step; [apply ar_step; [apply ar_start|exact I]|]|].
  - cbn [knock_ok visit97]. intros m U. destruct C97_ex_understood as (m' & U' & E1 & _). pose proof (understood_det _ _ _ _ _ _ _ _ _ U' U). subst m.
    split; [apply good_by; reflexivity|]. split.
    + intros c E. assert (c = "c1"%string) by congruence. subst c. apply good_by; reflexivity.
    + intros id R. rewrite (cookie_recognises _ _ R). split.
      * intros u E. assert (u = "diana"%string) by (cbn in E; congruence). subst u. apply good_by; reflexivity.
      * intros v E. discriminate.
  - cbn. intros c m m' E k _. congruence.
Qed.
Example C97_ex :
  fst (pushed_request (gate95 [Some MBasic]) re95 "u1" rq81 basic95 a97) = Ok (inr "urn:uuid:u1"%string) /\
  (exists args f, token_at y97 (gate95 [Some MBasic; Some MPost]) 2000 (mt2 "at8") (mt2 "rt8") None tr81 basic95 (as_front a97_2) = (Ok (AOk args None), f) /\
     dget "access_token" args = Some (VStr "at8")) /\
  (exists gr, keeps_session a97_3 "diana" "c1" "g9" gr /\ map t_value (g_issued gr) = ["code7"; "at8"]%string) /\
  (exists args f, userinfo_at y97 (gate95 [Some MBearerHeader]) 2100 [] (AuthzStr "Bearer at8") (as_front a97_3) = (Ok (UserinfoFront.UClaims args "c1" PJson), f) /\
     dget "error" args = None /\ dget "email" args = Some (VStr "diana@example.org")) /\
  (exists args f, introspection_request sid79 cx7 (gate95 [Some MBasic]) 2100 false [("token", VStr "at8")]%string basic95 (as_front a97_3) = (Ok (IAnswer args), f) /\
     dget "active" args = Some (VBool true)) /\
  asks (gt_ep (gate95 [Some MBasic; Some MPost])) /\ asks (gt_ep (gate95 [Some MBasic])).
Proof.
  split; [vm_compute; reflexivity|]. split; [do 2 eexists; split; vm_compute; reflexivity|]. split; [eexists; split; vm_compute; reflexivity|].
  split; [do 2 eexists; split; [vm_compute; reflexivity|]; split; reflexivity|]. split; [do 2 eexists; split; [vm_compute; reflexivity|reflexivity]|].
  split; (split; [discriminate|]; intros x I; cbn in I; cbn; intuition).
Qed.
(** Diana has opened the session, and the access token goes back to the visit through the code. *)
Example C97_ex_opened : dopened dp97 "diana" "c1" "g9" "dianasalt".
Proof.
  destruct C97_ex as (_ & _ & (gr & V & _) & _). assert (S : g_sub gr = "dianasalt"%string).
  { unfold keeps_session in V. vm_compute in V. injection V as <-. reflexivity. }
  rewrite <- S. apply (C97_session y97 a97_3 dp97 "diana" "c1" "g9" gr); [exact sid79_ok|exact C97_ex_arrivals| | | |exact V]; apply good_by; reflexivity.
Qed.
(** Before the visit nobody was there: the same token request gets nothing. *)
Example C97_nobody_ex : arrivals y97 a97_1 [(push97, a97)] /\ (forall h e az c id, In h [(push97, a97)] -> ~ dvisit h e az c id) /\
  exists f, token_at y97 (gate95 [Some MBasic; Some MPost]) 2000 (mt2 "at8") (mt2 "rt8") None tr81 basic95 (as_front a97_1) = (Ok (UserInfo.AError "invalid_grant" "Unknown code"), f).
Proof.
  split; [apply ar_step; [apply ar_start|exact I]|]. split; [|eexists; vm_compute; reflexivity].
  intros h e az c id [<-|[]] (gt & re & oidc & pk & rq & auth & m & E & _). discriminate.
Qed.
