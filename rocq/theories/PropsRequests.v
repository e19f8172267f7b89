(** PropsRequests.v: more of C66 (a session is used again for its own request only) and C40 (unknown scopes are denied where the request is processed). *)
From Verif Require Import Base BaseProofs Monad MonadProofs Types PyInt SessionKey SessionKeyProofs Token Grant Database DatabaseSpec DatabaseProofs
  Manager ManagerSpec ManagerProofs Ctx Scopes ScopesSpec World Minting Cookie AuthnBroker Response ResponseHeadSpec ResponseHeadProofs
  AuthzEndpoint AuthzEndpointSpec SetupAuth SetupAuthSpec SetupAuthProofs PropsClaims PropsTokenEndpoint PropsResponse PropsAuthzEndpoint PropsSetupAuth.
Local Open Scope Z_scope.

(** A session is used again for its own request only: another request gets a session of its own, in which it is recorded. *)
Theorem C66_other_request : forall is_user e (request : msg) uri cinfo w ru id us u c g gr sid w',
  well_formed is_user (w_db w) -> good u -> good c -> good g -> good us -> good (au_newid e) ->
  dget "sid" id = Some (VStr (session_key [u; c; g])) ->
  setup_auth e request uri cinfo ru w = (Ok (SDone sid id (VStr us)), w') ->
  view (w_db w) [u; c; g] = Some (EGrant gr) -> (forall r, g_authreq gr = Some r -> au_same e (changed e request) r = false) ->
  sid = session_key [us; c; au_newid e] /\
  exists gr', view (w_db w') [us; c; au_newid e] = Some (EGrant gr') /\ g_authreq gr' = Some (changed e request).
Proof.
  intros is_user e request uri cinfo w ru id us u c g gr0 sid w' W Hu Hc Hg Hus Hn Sd H Vg Other.
  destruct (SetupAuthProofs.setup_inv _ _ _ _ _ _ _ _ H) as (name & acr & m & o & ts & args & M & I & A & G). clear H.
  unfold go_on in G. destruct o as [id'|].
  2: { destruct (bind_ok _ _ _ _ _ G) as ([] & w1 & _ & G1).
       - destruct (bind_ok _ _ _ _ _ G1) as (x & w2 & _ & G2). unfold ret in G2. congruence.
       - unfold ret in G1. congruence. }
  destruct (bind_ok _ _ _ _ _ G) as (user & w1 & E1 & G1). clear G. destruct (lift_ok _ _ _ _ E1) as [Us ->].
  destruct (match ru with Some r => negb (val_eqb user r) | None => false end).
  { destruct (bind_ok _ _ _ _ _ G1) as ([] & w1 & _ & G2); unfold ret in G2; congruence. }
  destruct (bind_ok _ _ _ _ _ G1) as (o & w2 & E2 & G2). clear G1.
  destruct o as [s0|]; [|unfold ret in G2; congruence].
  assert (X : id' = id /\ user = VStr us).
  { destruct (nonempty s0).
    - destruct (bind_ok _ _ _ _ _ G2) as (v & w3 & _ & G3). unfold ret in G3. destruct v; split; congruence.
    - destruct (bind_ok _ _ _ _ _ G2) as (v & w3 & _ & G3). unfold ret in G3. split; congruence. }
  destruct X as [-> ->]. rewrite Sd in E2.
  destruct (known_inv _ _ _ _ _ _ _ E2) as (sd & u0 & c0 & g0 & cid & V & Un & C & K).
  assert (sd = session_key [u; c; g]) by congruence. subst sd. rewrite unpack3_good in Un by auto.
  assert (u0 = u /\ c0 = c /\ g0 = g) as (-> & -> & ->) by (repeat split; congruence).
  destruct K as [[K _]|(-> & gr & R & Ga & [(K & _ & r & Rq & Same)|(gr2 & ae & us' & R2 & Ae & Av & Eu & K & Cg)])]; [discriminate| |].
  - exfalso. rewrite unpack_good in R by auto with gp. unfold view in Vg. rewrite R in Vg. cbn in Vg. assert (gr0 = gr) by congruence. subst gr0.
    rewrite (Other _ Rq) in Same. discriminate.
  - assert (us' = us) by congruence. subst us'. assert (s0 = session_key [us; c; au_newid e]) by congruence. subst s0.
    rewrite session_key3_ne in G2. destruct (bind_ok _ _ _ _ _ G2) as (v & w3 & E3 & G3). clear G2.
    destruct (valid_event_ok _ _ _ _ _ E3) as (-> & _).
    assert (sid = session_key [us; c; au_newid e] /\ w' = w2) as [-> ->] by (unfold ret in G3; destruct v; split; congruence).
    split; [reflexivity|].
    destruct (in_db_ok _ _ _ _ Cg) as (s' & Cg' & ->). cbn [w_db]. unfold create_grant, sub_of in Cg'. rewrite make_sub_public in Cg'.
    unfold lift at 1 in Cg'. rewrite (bind_run _ _ (w_db w) (public_id (au_sha e) us (au_salt e)) (w_db w) eq_refl) in Cg'. cbv beta zeta in Cg'.
    set (ng := new_grant _ _ _ _ _ _ _) in Cg'. destruct W as (Wk & Wl & _).
    destruct (store3_view (w_db w) us c (au_newid e) ng Wk Wl Hus Hc Hn) as (Vn & _).
    destruct (bind_ok _ _ _ _ _ Cg') as (t & s1 & St & E4). unfold ret in E4. rewrite St in Vn. cbn [snd] in Vn.
    assert (s1 = s') by congruence. subst s1. exists ng. split; [exact Vn|reflexivity].
Qed.
Print Assumptions C66_other_request.

(** Where unknown scopes are denied, a request with one is refused before anything else is done with it. *)
Theorem C40_denied : forall e az oidc (rq : msg) w cid cinfo scopes,
  denies_unknown (az_cx az) -> (exists l, capability (az_cx az) "scopes_supported" = Some (VList l)) ->
  dget "client_id" rq = Some (VStr cid) -> dget cid (w_cdb w) = Some cinfo -> dmem "client_id" cinfo = true -> list_or_absent "allowed_scopes" cinfo ->
  dget "scope" rq = Some (vstrs scopes) -> Exists (fun s => ~ policy_allows (az_cx az) cinfo s) scopes ->
  process_request e az oidc (inr rq) w = (Raise EUnAuthorizedClient, w).
Proof.
  intros e az oidc rq w cid cinfo scopes Dn Cp C Ci Mc La Sc Ex.
  destruct (C40_deny_unknown (az_cx az) cinfo scopes La Cp Mc) as [X _]. destruct (X Dn) as [[_ F]|[R _]].
  - exfalso. apply Exists_exists in Ex. destruct Ex as (x & I & N). rewrite Forall_forall in F. exact (N (F x I)).
  - unfold process_request. assert (C' : msub_str "client_id" rq = Ok cid) by (unfold msub_str; rewrite C; reflexivity).
    rewrite C'. unfold lift at 1. rewrite (bind_run _ _ w cid w eq_refl). cbv beta.
    rewrite (bind_run (gets w_cdb) _ w (w_cdb w) w eq_refl). cbv beta.
    rewrite (dsub_get _ _ _ Ci). unfold lift at 1. rewrite (bind_run _ _ w cinfo w eq_refl). cbv beta.
    assert (Y : (if is_nil cinfo then ret tt
       else scope <-- lift (of_option EKey (mget_list "scope" rq)) ;;
            lift (check_unknown_scopes_policy (az_cx az) scope cinfo)) w = (Raise EUnAuthorizedClient, w)).
    { destruct cinfo; [discriminate|]. cbn [is_nil]. unfold bind, lift, mget_list. rewrite Sc. unfold vstrs. cbn [of_option].
      assert (Z : strs_of (map VStr scopes) = scopes) by (clear; induction scopes as [|x l IH]; [reflexivity|]; cbn; now f_equal). rewrite Z, R. reflexivity. }
    exact (bind_raise _ _ _ _ _ Y).
Qed.
Print Assumptions C40_denied.


(** ** Cases *)
(** diana's session is there; the request is another one. *)
Definition other9 : auth_env :=
  mkAU 2000 (mkBroker [("m1", mkMI (Some "pw") (Some "user"))] [("pw", ["m1"])])%string None None None
    [("user", mkMethod (names9 "diana" sid1) 600)]%string decode9 (fun _ _ => false) (fun _ => "query"%string) (fun _ _ => None) None
    (fun s => s) "salt" "uuid" "g9".
Example C66_ex_other : exists id w',
  setup_auth other9 (rq9 [("state", VStr "new")]%string) (VStr cb) [] None w7 = (Ok (SDone "diana;;c1;;g9"%string id (VStr "diana")), w') /\
  dget "sid" id = Some (VStr (session_key ["diana"; "c1"; "g1"]%string)) /\
  (exists gr, view (w_db w7) ["diana"; "c1"; "g1"]%string = Some (EGrant gr)) /\
  exists gr', view (w_db w') ["diana"; "c1"; "g9"]%string = Some (EGrant gr') /\ g_authreq gr' = Some (rq9 [("state", VStr "new")]%string).
Proof.
  do 2 eexists. split; [vm_compute; reflexivity|]. split; [vm_compute; reflexivity|]. split; [eexists; vm_compute; reflexivity|].
  eexists. split; [vm_compute; reflexivity|]. vm_compute. reflexivity.
Qed.
Example C40_ex_denied :
  let e := az7 true in
  let az := mkAZ cx1 (az_u e) true 2000 2010 "salt" (az_code e) (az_access e) (az_idtoken e) (az_cookie e) (az_opbs e) (az_sha e) (az_origin e) (az_show e)
    (az_text e) true Authz.AHandling in
  let w := mkW (st1 gr7 false) clients1 in
  let rq := dset "scope" (vstrs ["openid"; "profile"]) (rq9 []) in
  fst (process_request other9 az true (inr rq) w) = Raise EUnAuthorizedClient /\ denies_unknown (az_cx az) /\
  (exists cinfo, dget "c1" (w_cdb w) = Some cinfo /\ list_or_absent "allowed_scopes" cinfo /\ dmem "client_id" cinfo = true /\
     Exists (fun s => ~ policy_allows (az_cx az) cinfo s) ["openid"; "profile"]%string) /\
  fst (process_request other9 az true (inr (rq9 [])) w) <> Raise EUnAuthorizedClient.
Proof.
  cbv zeta. split; [vm_compute; reflexivity|]. split; [reflexivity|]. split; [|vm_compute; discriminate].
  eexists. split; [reflexivity|]. split; [right; eexists; reflexivity|]. split; [reflexivity|].
  apply Exists_cons_tl, Exists_cons_hd. intros [(l & A & B)|(A & _)]; [|specialize (A _ eq_refl); discriminate].
  cbn in A. injection A as <-. cbn in B. destruct B as [B|[B|[]]]; discriminate.
Qed.
