(** PropsIsolation.v: theorems for C82 (specification in IsolationSpec.v, lemmas in IsolationProofs.v). *)
From Verif Require Import Base BaseProofs Monad MonadProofs Types SessionKey SessionKeyProofs Token Grant GrantSpec Database DatabaseSpec DatabaseProofs
  Manager ManagerSpec ManagerProofs Ctx ScopesSpec Claims ClaimsSpec Authz UserInfo UserInfoSpec UserInfoProofs World Minting TokenEndpoint WorldSpec
  WorldProofs Uri UriSpec Response AuthzEndpoint AuthzEndpointSpec SetupAuth SetupAuthSpec System SystemSpec SystemProofs FlowSpec PropsFlow
  IsolationSpec IsolationProofs.
Local Open Scope Z_scope.

(** *** C82: what is done about other sessions does not touch a session. *)
(** The states that calls with proper names lead to are orderly. *)
Theorem C82_orderly : forall is_user y clients l,
  sids_ok (sy_sid_of y) -> Forall (proper_names is_user) l -> orderly is_user (fst (srun y l (fresh clients) [])).
Proof.
  intros is_user y clients l Hs Hl. apply orderly_run; auto. split.
  - split; [|split].
    + intros q e Hq E. discriminate.
    + intros u c Hu Hc E. exfalso. apply E. reflexivity.
    + intros u c Hu Hc E. exfalso. apply E. reflexivity.
  - intros q i Hq E. discriminate.
Qed.
Print Assumptions C82_orderly.

(** Any number of calls at any endpoint, none of them about sessions of [u] at [c], leave all these sessions exactly as they
    were: none appears, disappears or changes. *)
Theorem C82_isolated : forall is_user y u c l s p,
  sids_ok (sy_sid_of y) -> orderly is_user s -> good u -> good c -> elsewhere is_user y u c l s ->
  orderly is_user (fst (srun y l s p)) /\
  forall g, good g -> view (w_db (ss_world (fst (srun y l s p)))) [u; c; g] = view (w_db (ss_world s)) [u; c; g].
Proof. intros is_user y u c l s p Hs O Hu Hc E. now apply elsewhere_run. Qed.
Print Assumptions C82_isolated.

(** So the userinfo and the introspection endpoint say about a token of such a session what they would have said before. *)
Theorem C82_answers : forall is_user y u c l s p g gr value,
  sids_ok (sy_sid_of y) -> orderly is_user s -> good u -> good c -> good g -> elsewhere is_user y u c l s ->
  sy_sid_of y value = Ok (session_key [u; c; g]) -> view (w_db (ss_world s)) [u; c; g] = Some (EGrant gr) ->
  (forall usage c' usage', dget usage (g_claims gr) = Some (CClient c' usage') ->
     dget c' (w_cdb (ss_world (fst (srun y l s p)))) = dget c' (w_cdb (ss_world s))) ->
  (forall clock request, dget "access_token" request = Some (VStr value) ->
     snd (sstep y (SUserinfo clock request) (fst (srun y l s p))) = snd (sstep y (SUserinfo clock request) s)) /\
  (forall clock username request, dget "token" request = Some (VStr value) ->
     snd (sstep y (SIntrospect clock username request) (fst (srun y l s p))) = snd (sstep y (SIntrospect clock username request) s)).
Proof.
  intros is_user y u c l s p g gr value Hs O Hu Hc Hg E Sv V Cl.
  destruct (elsewhere_run is_user y u c l Hs Hu Hc s p O E) as [_ V']. specialize (V' g Hg). rewrite V in V'.
  set (s' := fst (srun y l s p)) in *. clearbody s'.
  assert (Cg : forall usage, grant_claims (w_cdb (ss_world s')) usage gr = grant_claims (w_cdb (ss_world s)) usage gr).
  { intros usage. unfold grant_claims. destruct (dget usage (g_claims gr)) as [[d|c' us]|] eqn:Eg; [reflexivity| |reflexivity].
    cbn [resolve]. now rewrite (Cl usage c' us Eg). }
  destruct (info_same u c g _ _ _ Hu Hc Hg V V') as [I1 I2]. split.
  - intros clock request R. cbn [sstep]. unfold in_db, userinfo_process, get_session_info_by_token, msub_str, bind, lift, ret. rewrite R.
    rewrite !Sv, I1, I2. unfold grant_of, as_grant, ret. cbn [in_grant in_uid in_cid]. rewrite Cg.
    destruct (get_token value gr) as [t|]; [|reflexivity]. destruct (negb _); [reflexivity|]. destruct (negb _); [reflexivity|].
    destruct (g_authn gr) as [ae|]; [|reflexivity]. destruct (clock <? ae_valid_until ae); [|reflexivity].
    destruct (get_user_claims _ _ _); reflexivity.
  - intros clock un request R. cbn [sstep]. unfold in_db, introspection_process, get_session_info_by_token, msub_str, gets, id, bind, lift, ret. rewrite R.
    rewrite !Sv, I1, I2. cbn [fst]. unfold grant_of, as_grant, ret. cbn [in_grant in_uid in_cid]. rewrite Cg.
    destruct (get_token value gr) as [t|]; [|reflexivity]. destruct (introspect _ _ _ _ _) as [info|]; [|reflexivity].
    destruct (if is_nil _ then _ else _); reflexivity.
Qed.
Print Assumptions C82_answers.

(** The code flow (C81) works whatever happens in between at the endpoints, as long as it is not about the sessions of this user
    at this client, and what is known about the client stays. *)
Theorem C82_flow : forall is_user y e az oidc s0 request c cli uri u m scopes,
  sids_ok (sy_sid_of y) -> az_cx az = sy_cx y -> orderly is_user s0 -> proper_names is_user (SAuthorize e az oidc (inr request)) ->
  recognised is_user e az oidc (ss_world s0) request c cli uri u m -> asks_code az (ss_world s0) request c uri scopes ->
  code_provided (sy_sid_of y) e az (ss_world s0) c cli uri u m ->
  exists r s1 code,
    sstep y (SAuthorize e az oidc (inr request)) s0 = (s1, OAuthorize (Ok (AResponse r))) /\
    ~ failed (ri_args r) /\ dget "code" (ri_args r) = Some (VStr code) /\ ri_uri r = Some uri /\
  forall l1 p1 s2 m1 m2 ir now token_request,
    elsewhere is_user y u c l1 s1 -> s2 = fst (srun y l1 s1 p1) -> dget c (w_cdb (ss_world s2)) = dget c (w_cdb (ss_world s1)) ->
    code_request (sy_b64hash y) (sy_pkce y) request token_request code ->
    tokens_provided (sy_sid_of y) e az (ss_world s0) c cli u scopes (sy_idtoken y) (sy_helpers y) m1 m2 ir now ->
    exists rq args s3 s4 access_token,
      sstep y (SParse now token_request) s2 = (s3, OParse (Ok (PReq rq))) /\
      sstep y (SProcess m1 m2 ir (length (ss_accepted s2))) s3 = (s4, OProcess rq (Ok (AOk args None))) /\
      dget "access_token" args = Some (VStr access_token) /\
  forall l2 p2 s5 later userinfo_request,
    elsewhere is_user y u c l2 s4 -> s5 = fst (srun y l2 s4 p2) -> dget c (w_cdb (ss_world s5)) = dget c (w_cdb (ss_world s4)) ->
    dget "access_token" userinfo_request = Some (VStr access_token) ->
    usable_once (rule (rules_of e az (ss_world s0) c) "access_token") ->
    in_time (ur_expires_in (rule (rules_of e az (ss_world s0) c) "access_token")) (mt_clock m1) later -> later < au_now e + lifetime m ->
    exists claims s6,
      sstep y (SUserinfo later userinfo_request) s5 = (s6, OInfo (Ok (AOk claims (Some c)))) /\
      dget "sub" claims = Some (VStr (public_id (au_sha e) u (au_salt e))) /\
      forall k x, k <> "sub"%string -> (dget k claims = Some x <->
        az_handler az = AHandling /\ user_has (sy_cx y) u k x /\
        exists spec, wanted (sy_cx y) (w_cdb (ss_world s0)) c (Some request) scopes "userinfo" k (Some spec) /\ admits spec x).
Proof.
  intros is_user y e az oidc s0 request c cli uri u m scopes Hs Cx O Pn R A P. rewrite <- Cx.
  destruct (re_names _ _ _ _ _ _ _ _ _ _ _ R) as (Hu & Hc & Hg & _).
  destruct (C81_flow (sy_sid_of y) (sy_b64hash y) is_user e az oidc (ss_world s0) request c cli uri u m scopes R A P)
    as (r & w1 & code & E1 & Nf & Ec & Eu & K).
  assert (St1 : sstep y (SAuthorize e az oidc (inr request)) s0 = (mkSys w1 (ss_accepted s0), OAuthorize (Ok (AResponse r)))).
  { cbn [sstep]. rewrite E1. reflexivity. }
  assert (O1 : orderly is_user (mkSys w1 (ss_accepted s0))).
  { pose proof (order_step is_user y _ s0 Hs Pn O) as X. rewrite St1 in X. exact X. }
  exists r, (mkSys w1 (ss_accepted s0)), code. split; [exact St1|]. split; [exact Nf|]. split; [exact Ec|]. split; [exact Eu|].
  intros l1 p1 s2 m1 m2 ir now tr El1 -> C2 Cr Tp.
  destruct (elsewhere_run is_user y u c l1 Hs Hu Hc _ p1 O1 El1) as [O2 V2]. set (s2 := fst (srun y l1 (mkSys w1 (ss_accepted s0)) p1)) in *. clearbody s2.
  assert (Un : forall s s', orderly is_user s' -> (forall g, good g -> view (w_db (ss_world s')) [u; c; g] = view (w_db (ss_world s)) [u; c; g]) ->
    dget c (w_cdb (ss_world s')) = dget c (w_cdb (ss_world s)) -> undisturbed u c (au_newid e) (ss_world s) (ss_world s')).
  { intros s s' ((Hk & Hl & _) & _) V C. split; [now apply V|]. auto. }
  destruct (K (ss_world s2) (sy_idtoken y) (sy_sharing y) (sy_helpers y) (sy_pkce y) m1 m2 ir now tr (Un _ s2 O2 V2 C2) Cr Tp)
    as (rq & args & w3 & at_ & Ep & Et & Ea & K3).
  rewrite Cx in Et.
  exists rq, args, (mkSys (ss_world s2) (ss_accepted s2 ++ [rq])), (mkSys w3 (ss_accepted s2 ++ [rq])), at_.
  assert (St2 : sstep y (SParse now tr) s2 = (mkSys (ss_world s2) (ss_accepted s2 ++ [rq]), OParse (Ok (PReq rq)))).
  { cbn [sstep]. unfold in_db. rewrite Ep. now destruct (ss_world s2). }
  assert (St3 : sstep y (SProcess m1 m2 ir (length (ss_accepted s2))) (mkSys (ss_world s2) (ss_accepted s2 ++ [rq])) =
      (mkSys w3 (ss_accepted s2 ++ [rq]), OProcess rq (Ok (AOk args None)))).
  { cbn [sstep ss_accepted ss_world]. rewrite nth_error_app2 by lia. rewrite Nat.sub_diag. cbn [nth_error]. rewrite Et. reflexivity. }
  split; [exact St2|]. split; [exact St3|]. split; [exact Ea|].
  assert (O3 : orderly is_user (mkSys w3 (ss_accepted s2 ++ [rq]))).
  { pose proof (order_step is_user y _ s2 Hs (Logic.I : proper_names is_user (SParse now tr)) O2) as X. rewrite St2 in X.
    pose proof (order_step is_user y _ _ Hs (Logic.I : proper_names is_user (SProcess m1 m2 ir (length (ss_accepted s2)))) X) as Y. cbn [fst] in Y. rewrite St3 in Y. exact Y. }
  intros l2 p2 s5 later ur El2 -> C5 Eur Uo It Lt.
  destruct (elsewhere_run is_user y u c l2 Hs Hu Hc _ p2 O3 El2) as [O5 V5]. set (s5 := fst (srun y l2 (mkSys w3 (ss_accepted s2 ++ [rq])) p2)) in *. clearbody s5.
  destruct (K3 (ss_world s5) later ur (Un _ s5 O5 V5 C5) Eur Uo It Lt) as (claims & Ei & Sub & Cl).
  exists claims, (mkSys (mkW (w_db (ss_world s5)) (w_cdb (ss_world s5))) (ss_accepted s5)). split; [|split; [exact Sub|exact Cl]].
  rewrite Cx in Ei. cbn [sstep]. unfold in_db. rewrite Ei. reflexivity.
Qed.
Print Assumptions C82_flow.

(** ** A case: while diana's code waits to be exchanged, bob comes with the same client, gets a code and tokens, and logs out of
    all clients; then his session is removed. *)
From Verif Require Import PropsClaims PropsTokenEndpoint PropsAuthzEndpoint PropsSetupAuth PropsSystem PropsLogout PyUrl Logout SetupAuth AuthzEndpoint FlowSpec.
Definition sid82 (v : string) : result string :=
  if smem v ["code7"; "at8"]%string then Ok "diana;;c1;;g9"%string
  else if smem v ["code8"; "at9"]%string then Ok "bob;;c1;;g9"%string else Raise EUnknownToken.
Definition y82 : setup_of := mkSy sid82 hash2 cx7 idt2 true both true.
Definition az82 : authz_env :=
  mkAZ cx7 py_url true 2000 2010 "salt" (mt2 "code8") (mt2 "at7") (az_idtoken (az7 true)) (az_cookie (az7 true)) (az_opbs (az7 true))
    (az_sha (az7 true)) (az_origin (az7 true)) (az_show (az7 true)) (az_text (az7 true)) true AHandling.
Definition diana82 : call := SAuthorize e81 (az7 true) true (inr rq81).
Definition tr82 : msg :=
  [("grant_type", VStr "authorization_code"); ("code", VStr "code8"); ("redirect_uri", VStr cb); ("code_verifier", VStr "secret")]%string.
Definition bob82 : list call :=
  [SAuthorize (e9 (cookie9 "bob" "1900")) az82 true (inr rq81); SParse 2000 tr82; SProcess (mt2 "at9") (mt2 "rt9") None 0;
   SUserinfo 2000 [("access_token", VStr "at9")]%string; SLogout (lo10 false) "bob;;c1;;g9" true;
   SRevoke (ORemove "bob" "c1" "g9"); SUserinfo 2000 [("access_token", VStr "at9")]%string].
Definition s82 : sys := mkSys w7 [].
Definition s82a : sys := fst (sstep y82 diana82 s82).

Example sid82_ok : sids_ok (sy_sid_of y82).
Proof.
  intros v sid H. cbn [sy_sid_of y82] in H. unfold sid82 in H.
  destruct (smem v _); [|destruct (smem v _); [|discriminate]]; injection H as <-;
    [exists "diana"%string, "c1"%string, "g9"%string|exists "bob"%string, "c1"%string, "g9"%string];
    (do 3 (split; [apply good_by; reflexivity|]); reflexivity).
Qed.
Lemma bob_recognises request id : recognises (e9 (cookie9 "bob" "1900")) request id -> id = [("uid", VStr "bob")]%string.
Proof.
  intros (name & acr & m & limit & id0 & ts & [_ M] & _ & A & D). unfold e9 in M. cbn [au_methods dget] in M.
  destruct (String.eqb name "user"); [|discriminate]. assert (m = mkMethod (cookie9 "bob" "1900") 600) by congruence. subst m.
  cbn [me_auth] in A. unfold cookie9, authenticated_as in A. cbn [read_cookie rbind String.eqb Ascii.eqb Bool.eqb] in A.
  assert (X : id0 = [("uid", VStr "bob")]%string).
  { destruct (truthy limit); [|congruence]. cbn in A. destruct (int_of limit) as [n|]; [|discriminate]. cbn [rbind] in A.
    destruct (_ <? _); [discriminate|]. congruence. }
  subst id0. destruct D as [->|(uid & U & De)]; [reflexivity|]. assert (uid = VStr "bob") by (cbn in U; congruence). subst uid. discriminate.
Qed.
Example C82_ex_orderly : orderly usr9 s82.
Proof.
  split; [apply st1_well_formed|]. intros q i Hq E. unfold stored in E. cbn [s82 ss_world w7 w_db] in E. unfold st1 in E.
  apply dget_In in E. cbn in E. destruct E as [E|[E|[E|[]]]]; injection E as _ E; try discriminate; subst i; repeat constructor; apply good_by; reflexivity.
Qed.
Lemma not_user_c1 : ~ usr9 "c1".
Proof. intros [X|[X|[]]]; discriminate. Qed.
Lemma client_c1 : forall c, dget "client_id" rq81 = Some (VStr c) -> good c /\ ~ usr9 c.
Proof.
  intros c E. assert (c = "c1"%string) by (cbn in E; congruence). subst c. split; [apply good_by; reflexivity|apply not_user_c1].
Qed.
Example C82_ex_proper : proper_names usr9 diana82.
Proof.
  split; [apply good_by; reflexivity|]. split; [apply client_c1|].
  intros id R. rewrite (cookie_recognises _ _ R). split; [|discriminate].
  intros u E. assert (u = "diana"%string) by (cbn in E; congruence). subst u. split; [apply good_by; reflexivity|now left].
Qed.
Lemma bob_names : names_session usr9 "bob;;c1;;g9".
Proof.
  exists "bob"%string, "c1"%string, "g9"%string. do 3 (split; [apply good_by; reflexivity|]). split; [right; now left|]. split; [apply not_user_c1|reflexivity].
Qed.
(** All of this is not about diana at c1. *)
Example C82_ex_elsewhere : elsewhere usr9 y82 "diana" "c1" bob82 s82a.
Proof.
  split; [|split].
  { split; [apply good_by; reflexivity|]. split; [apply client_c1|].
    intros id R. rewrite (bob_recognises _ _ R). split; [|discriminate].
    intros u E. assert (u = "bob"%string) by (cbn in E; congruence). subst u. split; [apply good_by; reflexivity|right; now left]. }
  { intros (id & R & H). rewrite (bob_recognises _ _ R) in H. destruct H as [[H _]|[g H]]; discriminate. }
  split; [exact Logic.I|]. split; [intros []|].
  split; [exact Logic.I|]. split.
  { intros (rq & k & p & g & En & Pr & Sp). 
    assert (X : rq = tr82 ++ [("client_id", VStr "c1")]%string) by (vm_compute in En; injection En as <-; reflexivity). subst rq. clear En.
    destruct Pr as [(_ & _ & raw & Er & ->)|(_ & E & _)]; [|discriminate].
    assert (raw = "code8"%string) by (cbn in Er; congruence). subst raw. discriminate. }
  split; [exact Logic.I|]. split; [intros []|].
  split; [apply bob_names|]. split.
  { intros (c' & g & E & _). discriminate. }
  split.
  { split; [|exact Logic.I]. do 3 (split; [apply good_by; reflexivity|]). split; [right; now left|apply not_user_c1]. }
  split. { intros [E _]. discriminate. }
  split; [exact Logic.I|]. split; [intros []|exact Logic.I].
Qed.
(** They do happen: bob gets his tokens, his claims, and at the end nothing any more; diana's code is still there. *)
Example C82_ex : exists args claims x gr,
  let p := snd (srun y82 bob82 s82a []) in
  nth_error p 4 = Some (SProcess (mt2 "at9") (mt2 "rt9") None 0, OProcess (tr82 ++ [("client_id", VStr "c1")]%string) (Ok (AOk args None))) /\
  nth_error (map snd p) 3 = Some (OInfo (Ok (AOk claims (Some "c1"%string)))) /\ dget "sub" claims = Some (VStr "bobsalt") /\
  nth_error (map snd p) 0 = Some (OInfo (Raise x)) /\
  view (w_db (ss_world (fst (srun y82 bob82 s82a [])))) ["diana"; "c1"; "g9"]%string = Some (EGrant gr) /\ map t_value (g_issued gr) = ["code7"]%string.
Proof. do 4 eexists. vm_compute. repeat split. Qed.
