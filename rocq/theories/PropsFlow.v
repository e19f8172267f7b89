(** PropsFlow.v: C81, the code flow works. *)
From Verif Require Import Base BaseProofs Monad MonadProofs Types SessionKey SessionKeyProofs Token Grant GrantSpec GrantProofs Database DatabaseSpec DatabaseProofs
  Manager ManagerSpec ManagerProofs Ctx Scopes ScopesSpec ScopesProofs Claims ClaimsSpec ClaimsProofs Authz AuthzProofs UserInfo UserInfoSpec UserInfoProofs PropsClaims
  World Minting TokenEndpoint WorldSpec WorldProofs ResponseSpec ResponseProofs Uri UriSpec UriProofs PropsUri Response AuthzEndpoint AuthzEndpointSpec AuthzEndpointProofs
  SetupAuth SetupAuthSpec SetupAuthProofs FlowSpec FlowProofs FlowAuthzProofs.
Local Open Scope Z_scope.

Lemma uri_works az w e request c uri scopes : good c -> dget "client_id" request = Some (VStr c) -> dget "redirect_uri" request = Some (VStr uri) ->
  (forall q, proper_query (ul_qs (az_u az) q)) -> asks_code az w request c uri scopes ->
  get_uri (az_u az) (w_cdb w) (changed e request) "redirect_uri" = Ok uri.
Proof.
  intros Hc C U Q [_ _ _ _ (l & R & Pe & Nd & M)].
  assert (C' : dget "client_id" (changed e request) = Some (VStr c)) by (rewrite changed_get; [exact C|discriminate]).
  assert (U' : dget "redirect_uri" (changed e request) = Some (VStr uri)) by (rewrite changed_get; [exact U|discriminate]).
  unfold get_uri. unfold dmem. rewrite U'.
  assert (V : verify_uri (az_u az) (w_cdb w) (changed e request) "redirect_uri" None = Ok tt).
  { apply (C20_exact (az_u az) (w_cdb w) (changed e request) "redirect_uri" None c uri l); auto.
    split; [|now left]. intros ->. now destruct Hc. }
  rewrite V. cbn [rbind]. unfold msub_str. now rewrite U'.
Qed.

(** A user who is recognised is sent back to the client with a code. *)
Theorem C81_authorize : forall sid_of is_user e az oidc w request c cli uri u m scopes,
  recognised is_user e az oidc w request c cli uri u m -> asks_code az w request c uri scopes ->
  code_provided sid_of e az w c cli uri u m ->
  exists r w' code, process_request e az oidc (inr request) w = (Ok (AResponse r), w') /\
    ~ failed (ri_args r) /\ dget "code" (ri_args r) = Some (VStr code) /\ ri_uri r = Some uri /\ sid_of code = Ok (session_key [u; c; au_newid e]).
Proof.
  intros sid_of is_user e az oidc w request c cli uri u m scopes R A P.
  assert (Gu : get_uri (az_u az) (w_cdb w) (changed e request) "redirect_uri" = Ok uri).
  { destruct (re_entered _ _ _ _ _ _ _ _ _ _ _ R) as (Ci & _ & _ & Ru & _).
    apply (uri_works az w e request c uri scopes); auto; [apply R|apply P]. }
  destruct (session_works sid_of is_user e az oidc w request c cli uri u m scopes R A P Gu)
    as (r & w' & g & code & p & E & Er & Ec & Eu & _ & _ & _ & _ & _ & _ & _ & _ & _ & _ & _ & _ & _ & _ & _ & _ & _ & Pv).
  exists r, w', (t_value code). split; [exact E|]. split; [intros [v X]; congruence|]. split; [exact Ec|]. split; [exact Eu|].
  destruct (cp_handler _ _ _ _ _ _ _ _ _ P p) as (v & Ev & Es). congruence.
Qed.
Print Assumptions C81_authorize.

Lemma upd_values code l : map t_value (upd_first code register_usage l) = map t_value l.
Proof. induction l as [|t l IH]; cbn; [reflexivity|]. destruct (String.eqb (t_value t) code); cbn; [reflexivity|now rewrite IH]. Qed.

(** A client that presents a live code, with what belongs to it, gets an access token of the session of that code. *)
Theorem C81_exchange : forall sid_of b64hash cx idt u c gid sharing helpers pkce m1 m2 ir now request code t g l1 l2 ar scopes cli w,
  good u -> good c -> good gid -> fine (w_db w) ->
  (* the code is one of the session, and live *)
  sid_of code = Ok (session_key [u; c; gid]) -> view (w_db w) [u; c; gid] = Some (EGrant g) ->
  g_issued g = l1 ++ t :: l2 -> t_value t = code -> ~ In code (map t_value l1) ->
  t_class t = CCode -> token_usable now t -> token_usable (mt_clock m1) t -> blank_to_plus code = code ->
  (* the request is the one for that code *)
  g_authreq g = Some ar -> code_request b64hash pkce ar request code ->
  claims_asked ar -> dget "scope" ar = Some (vstrs scopes) ->
  (* what it takes to make the tokens is there *)
  dget "authorization_code" helpers = Some HCode -> dget c (w_cdb w) = Some cli -> claims_set_up cx cli ->
  mintable (mt_clock m1) 0 g -> may_mint t "access_token" -> handles sid_of m1 (session_key [u; c; gid]) ->
  (forall p v, mt_value m1 (session_key [u; c; gid]) p = Ok v -> ~ In v (map t_value (g_issued g))) ->
  (match ir with Some b => b | None => smem "offline_access" (g_scope g) end = true ->
   token_usable (mt_clock m2) t /\ mintable (mt_clock m2) 1 g /\ may_mint t "refresh_token" /\ handles sid_of m2 (session_key [u; c; gid])) ->
  (In "openid"%string scopes -> id_tokens_made idt u c gid cli) ->
  exists rq args w' value at_ g',
    token_parse sid_of b64hash helpers pkce now request (w_db w) = (Ok (PReq rq), w_db w) /\
    token_process sid_of cx idt sharing helpers m1 m2 ir (PReq rq) w = (Ok (AOk args None), w') /\
    dget "access_token" args = Some (VStr value) /\
    (* it is an access token of the session, made from the code under the rules of the grant *)
    sid_of value = Ok (session_key [u; c; gid]) /\ names sid_of (w_db w') value u c g' at_ /\ t_class at_ = CAccess /\ t_rules at_ = rule (g_rules g) "access_token" /\
    made (mt_clock m1) (g_rules g) "access_token" (Some t) at_ /\
    view (w_db w') [u; c; gid] = Some (EGrant g') /\ (exists l, same_but_issued g g' l) /\
    fine (w_db w') /\ dget c (w_cdb w') = Some cli.
Proof.
  intros sid_of b64hash cx idt u c gid sharing helpers pkce m1 m2 ir now request code t g l1 l2 ar scopes cli w
    Hu Hc Hg Hf Sc V Is Tv Ni Cl Un Um Bp Ar Cr As Sco Hh C St Mn My Ha Nw Hr Hid.
  assert (G : get_token code g = Some t).
  { unfold get_token, find_token. rewrite Is. clear -Tv Ni. induction l1 as [|a l1 IH]; cbn in *.
    - now rewrite Tv, String.eqb_refl.
    - destruct (String.eqb_spec (t_value a) code) as [E|N]; [destruct Ni; now left|]. apply IH. tauto. }
  destruct (parse_works sid_of b64hash u c gid Hu Hc Hg helpers pkce now request code g t ar (w_db w) Sc V G Cl Un Ar Cr Hh) as (rq & P & K).
  destruct (process_works sid_of cx idt u c gid Hu Hc Hg sharing helpers m1 m2 ir rq code g t ar (map VStr scopes) cli w)
    as (args & w' & g' & at_ & rest & p & E & Aa & Pv & Sa & Ca & Ra & Md & O & F & C' & Sb & _); auto.
  { intros I. apply Hid. apply in_map_iff in I. destruct I as (x & Ex & Ix). injection Ex as ->. exact Ix. }
  { rewrite K by discriminate. apply Cr. }
  { rewrite K by discriminate. apply Cr. }
  { rewrite (K "redirect_uri"%string) by discriminate. apply Cr. }
  exists rq, args, w', (t_value at_), at_, g'. split; [exact P|]. split; [exact E|]. split; [exact Aa|]. split; [exact Sa|].
  split. { exists (session_key [u; c; gid]), gid. split; [exact Sa|]. split; [now apply unpack3_good|]. split; [apply O|]. split; [reflexivity|].
    exists (upd_first code register_usage (g_issued g)), rest. split; [rewrite Sb; reflexivity|]. rewrite upd_values. eapply Nw; eauto. }
  split; [exact Ca|]. split; [exact Ra|]. split; [exact Md|]. split; [apply O|]. split; [eexists; exact Sb|]. split; [exact F|exact C'].
Qed.
Print Assumptions C81_exchange.

Lemma flow_any : forall sid_of b64hash is_user e az oidc w0 request c cli uri u m scopes,
  recognised is_user e az oidc w0 request c cli uri u m -> asks_code az w0 request c uri scopes ->
  code_provided sid_of e az w0 c cli uri u m ->
  exists r w1 code,
    process_request e az oidc (inr request) w0 = (Ok (AResponse r), w1) /\
    ~ failed (ri_args r) /\ dget "code" (ri_args r) = Some (VStr code) /\ ri_uri r = Some uri /\ kinds_ok (w_db w1) /\ linked (w_db w1) /\ dget c (w_cdb w1) = Some cli /\
  forall w2 idt sharing helpers pkce m1 m2 ir now token_request cli2,
    view (w_db w2) [u; c; au_newid e] = view (w_db w1) [u; c; au_newid e] -> kinds_ok (w_db w2) -> linked (w_db w2) ->
    dget c (w_cdb w2) = Some cli2 -> claims_set_up (az_cx az) cli2 -> code_request b64hash pkce request token_request code ->
    tokens_provided sid_of e az w0 c cli2 u scopes idt helpers m1 m2 ir now ->
    exists rq args w3 access_token,
      token_parse sid_of b64hash helpers pkce now token_request (w_db w2) = (Ok (PReq rq), w_db w2) /\
      token_process sid_of (az_cx az) idt sharing helpers m1 m2 ir (PReq rq) w2 = (Ok (AOk args None), w3) /\
      dget "access_token" args = Some (VStr access_token) /\ sid_of access_token = Ok (session_key [u; c; au_newid e]) /\
      (exists cli3, dget c (w_cdb w3) = Some cli3) /\ kinds_ok (w_db w3) /\ linked (w_db w3) /\
  forall w4 later userinfo_request,
    view (w_db w4) [u; c; au_newid e] = view (w_db w3) [u; c; au_newid e] -> kinds_ok (w_db w4) -> linked (w_db w4) -> dget "access_token" userinfo_request = Some (VStr access_token) ->
    usable_once (rule (rules_of e az w0 c) "access_token") ->
    in_time (ur_expires_in (rule (rules_of e az w0 c) "access_token")) (mt_clock m1) later -> later < au_now e + lifetime m ->
    exists claims,
      userinfo_process sid_of (az_cx az) (w_cdb w4) later userinfo_request (w_db w4) = (Ok (AOk claims (Some c)), w_db w4) /\
      dget "sub" claims = Some (VStr (public_id (au_sha e) u (au_salt e))) /\
      forall k x, k <> "sub"%string -> (dget k claims = Some x <->
        az_handler az = AHandling /\ user_has (az_cx az) u k x /\
        exists spec, wanted (az_cx az) (w_cdb w0) c (Some request) scopes "userinfo" k (Some spec) /\ admits spec x).
Proof.
  intros sid_of b64hash is_user e az oidc w request c cli uri u m scopes R A P.
  set (gid := au_newid e). set (sid := session_key [u; c; gid]). set (rl := rules_of e az w c).
  assert (Cc : dget c (w_cdb w) = Some cli) by apply (re_entered _ _ _ _ _ _ _ _ _ _ _ R).
  assert (Gu : get_uri (az_u az) (w_cdb w) (changed e request) "redirect_uri" = Ok uri).
  { destruct (re_entered _ _ _ _ _ _ _ _ _ _ _ R) as (Ci & _ & _ & Ru & _).
    apply (uri_works az w e request c uri scopes); auto; [apply R|apply P]. }
  destruct (session_works sid_of is_user e az oidc w request c cli uri u m scopes R A P Gu)
    as (r & w1 & g & code & p & E & Er & Ec & Eu & V1 & F1 & Cd1 & Gs & Gr & Gi & Gu1 & Grv & Gnb & Grl & Gex & (ae & Gae & Aev) & Gsc & Gcl & Mdc & Clc & Trc & Pv).
  fold gid sid rl in V1, Mdc, Trc, Pv, Grl.
  exists r, w1, (t_value code). split; [exact E|]. split; [intros [v X]; congruence|]. split; [exact Ec|]. split; [exact Eu|]. split; [apply F1|]. split; [apply F1|]. split; [now rewrite Cd1|].
  destruct (re_names _ _ _ _ _ _ _ _ _ _ _ R) as (Hu & Hc & Hg & _ & _). fold gid in Hg.
  intros w2 idt sharing helpers pkce m1 m2 ir now tr cli2 Un1 Un3 Un4 Un2 Cs2 Cr [Hh Bp Xn Xa Hm Ap Hr Hid].
  fold gid in Un1. fold gid sid in Bp, Hm, Ap, Hr, Hid.
  assert (K := changed_get e request).
  assert (Sc : sid_of (t_value code) = Ok sid).
  { destruct (cp_handler _ _ _ _ _ _ _ _ _ P p) as (v & Ev & Es). unfold sid, gid in *. congruence. }
  assert (Is : t_issued_at code = mt_clock (az_code az)) by apply Mdc.
  assert (Use : forall ty n t, exchangeable e az w c ty n t -> token_usable t code).
  { intros ty n t (_ & _ & It). eapply made_usable; [rewrite Is; exact Mdc|reflexivity| |].
    - rewrite Is. exact It.
    - rewrite Trc. cbn. intros k Ek. injection Ek as <-. lia. }
  assert (Mnt : forall ty n t, exchangeable e az w c ty n t -> mintable t (n - 2) g).
  { intros ty n t (_ & (L1 & L2) & _). unfold mintable, usable_at. rewrite Grl, Gu1, Grv, Gnb, Gex. split; [reflexivity|].
    split. { intros k Hk. apply L1 in Hk. lia. }
    split; [congruence|exact L2]. }
  assert (May : forall ty n t, exchangeable e az w c ty n t -> may_mint code ty).
  { intros ty n t (Gv & _). unfold may_mint. rewrite Trc. cbn [set_defaults ur_mints]. unfold code_gives in Gv. fold rl in Gv.
    destruct (ur_mints (rule rl "authorization_code")); eauto. }
  destruct (C81_exchange sid_of b64hash (az_cx az) idt u c gid sharing helpers pkce m1 m2 ir now tr (t_value code) code g [] []
    (changed e request) scopes cli2 w2) as (rq & args & w3 & value & at_ & g' & Pa & Pr & Aa & Sa & Nm & Ca & Ra & Mda & V3 & (l & Sb) & F3 & Cd3); auto.
  { split; assumption. }
  { now rewrite Un1. }
  { eapply Use; exact Xn. }
  { eapply Use; exact Xa. }
  { eapply Bp; exact Pv. }
  { destruct Cr as [T1 T2 T3 T4 T5]. constructor; auto.
    - rewrite K by discriminate. exact T3.
    - rewrite K by discriminate. exact T4.
    - intros Hp. specialize (T5 Hp). unfold answers_challenge in *. rewrite !K by discriminate. exact T5. }
  { eapply claims_asked_ext; [|exact (ac_claims _ _ _ _ _ _ A)]. apply K. discriminate. }
  { rewrite K by discriminate. apply A. }
  { exact (Mnt _ _ _ Xa). }
  { exact (May _ _ _ Xa). }
  { intros q v Ev. rewrite Gi. cbn. intros [X|[]]. symmetry in X. revert X. apply not_eq_sym. eapply Ap; eauto. }
  { rewrite Gsc. intros Rf. destruct (Hr Rf) as (Xr & Hm2). split; [exact (Use _ _ _ Xr)|]. split; [exact (Mnt _ _ _ Xr)|]. split; [exact (May _ _ _ Xr)|exact Hm2]. }
  exists rq, args, w3, value. split; [exact Pa|]. split; [exact Pr|]. split; [exact Aa|]. split; [exact Sa|]. split; [eexists; exact Cd3|]. split; [apply F3|]. split; [apply F3|].
  intros w4 later ur Un5 Un7 Un8 Uv Uo It Lt. fold gid in Un5. fold rl in Uo, It.
  assert (Isa : t_issued_at at_ = mt_clock m1) by apply Mda.
  destruct (C17_userinfo_complete sid_of (az_cx az) (w_cdb w4) later ur (w_db w4) value u c g' at_ ae) as (claims & Eu4 & Su & Cl4); auto.
  { destruct Nm as (sid' & gid' & N1 & N2 & N3 & N4). exists sid, gid.
    fold sid in Sa. assert (sid' = sid) by congruence. subst sid'.
    assert (X := unpack3_good u c gid Hu Hc Hg). fold sid in X. assert (gid' = gid) by congruence. subst gid'.
    split; [exact Sa|]. split; [exact N2|]. split; [now rewrite Un5|exact N4]. }
  { eapply made_usable; [rewrite Isa; exact Mda|reflexivity| |].
    - rewrite Isa, Grl. exact It.
    - rewrite Ra, Grl. intros n En. unfold usable_once in Uo. rewrite En in Uo. exact Uo. }
  { rewrite Sb. exact Gae. }
  { lia. }
  { intros r0 Er0. rewrite Sb in Er0. cbn [g_claims g_set_used g_set_issued] in Er0. destruct (az_handler az); [|rewrite Gcl in Er0; discriminate].
    destruct Gcl as (d & Gcl & Dr & Dw). assert (r0 = CVal d) by congruence. subst r0. exact Dr. }
  exists claims. split; [exact Eu4|]. split. { rewrite Su, Sb. cbn. now rewrite Gs. }
  intros k x Nk. rewrite (Cl4 k x Nk). unfold listed. rewrite Sb. cbn [g_claims g_set_used g_set_issued].
  destruct (az_handler az).
  2: { rewrite Gcl. split; [intros (_ & spec & (r0 & Er0 & _) & _); discriminate|intros (X & _); discriminate]. }
  destruct Gcl as (d & Gcl & Dr & Dw).
  assert (Ls : forall spec, In (k, spec) d <-> wanted (az_cx az) (w_cdb w) c (Some request) scopes "userinfo" k (Some spec)).
  { intros spec. specialize (Dw k). split.
    - intros I. apply In_dget in I; [|apply Dr]. rewrite I in Dw. exact Dw.
    - intros Wd. apply dget_In. revert Dw Wd. unfold wanted. destruct (from_request _ _ _); [congruence|].
      intros [[X1 Y1]|[X1 Y1]] [[X2 Y2]|[X2 Y2]]; try tauto; [congruence|]. revert Y1 Y2. destruct (from_base _ _ _); [congruence|].
      intros [[X3 Y3]|[X3 Y3]] [[X4 Y4]|[X4 Y4]]; try tauto; congruence. }
  split.
  - intros (Uh & spec & (r0 & Er0 & I) & Ad). split; [reflexivity|]. split; [exact Uh|]. assert (r0 = CVal d) by congruence. subst r0.
    exists spec. split; [now apply Ls|exact Ad].
  - intros (_ & Uh & spec & Wd & Ad). split; [exact Uh|]. exists spec. split; [|exact Ad]. exists (CVal d). split; [exact Gcl|]. now apply Ls.
Qed.

(** The whole: the authorization endpoint gives the client a code for the user; with the code the token endpoint gives it an
    access token; with the access token the userinfo endpoint gives it the subject of the session and exactly those claims
    that are wanted - by the client's request, by its scopes or by the configuration - and that the user has. The claims come
    only if the authorization handler AuthzHandling is configured. *)
Theorem C81_flow : forall sid_of b64hash is_user e az oidc w0 request c cli uri u m scopes,
  recognised is_user e az oidc w0 request c cli uri u m -> asks_code az w0 request c uri scopes ->
  code_provided sid_of e az w0 c cli uri u m ->
  exists r w1 code,
    process_request e az oidc (inr request) w0 = (Ok (AResponse r), w1) /\
    ~ failed (ri_args r) /\ dget "code" (ri_args r) = Some (VStr code) /\ ri_uri r = Some uri /\
  forall w2 idt sharing helpers pkce m1 m2 ir now token_request,
    undisturbed u c (au_newid e) w1 w2 -> code_request b64hash pkce request token_request code ->
    tokens_provided sid_of e az w0 c cli u scopes idt helpers m1 m2 ir now ->
    exists rq args w3 access_token,
      token_parse sid_of b64hash helpers pkce now token_request (w_db w2) = (Ok (PReq rq), w_db w2) /\
      token_process sid_of (az_cx az) idt sharing helpers m1 m2 ir (PReq rq) w2 = (Ok (AOk args None), w3) /\
      dget "access_token" args = Some (VStr access_token) /\
  forall w4 later userinfo_request,
    undisturbed u c (au_newid e) w3 w4 -> dget "access_token" userinfo_request = Some (VStr access_token) ->
    usable_once (rule (rules_of e az w0 c) "access_token") ->
    in_time (ur_expires_in (rule (rules_of e az w0 c) "access_token")) (mt_clock m1) later -> later < au_now e + lifetime m ->
    exists claims,
      userinfo_process sid_of (az_cx az) (w_cdb w4) later userinfo_request (w_db w4) = (Ok (AOk claims (Some c)), w_db w4) /\
      dget "sub" claims = Some (VStr (public_id (au_sha e) u (au_salt e))) /\
      forall k x, k <> "sub"%string -> (dget k claims = Some x <->
        az_handler az = AHandling /\ user_has (az_cx az) u k x /\
        exists spec, wanted (az_cx az) (w_cdb w0) c (Some request) scopes "userinfo" k (Some spec) /\ admits spec x).
Proof.
  intros sid_of b64hash is_user e az oidc w request c cli uri u m scopes R A P.
  destruct (flow_any sid_of b64hash is_user e az oidc w request c cli uri u m scopes R A P) as (r & w1 & code & E & Er & Ec & Eu & _ & _ & Cc & H).
  exists r, w1, code. do 4 (split; [assumption|]).
  intros w2 idt sharing helpers pkce m1 m2 ir now tr (Un1 & Un2 & Un3 & Un4) Cr T.
  destruct (H w2 idt sharing helpers pkce m1 m2 ir now tr cli) as (rq & args & w3 & at_ & Pa & Pr & Aa & _ & _ & _ & _ & H2); auto; [congruence|apply P|].
  exists rq, args, w3, at_. do 3 (split; [assumption|]).
  intros w4 later ur (Un5 & Un6 & Un7 & Un8). now apply H2.
Qed.
Print Assumptions C81_flow.

(** ** A case: diana comes with c1, which asks for the e-mail address by scope and for the name by the claims parameter, with a
    code challenge. There is session management, and diana already has a session with c1. *)
From Verif Require Import PropsTokenEndpoint PropsAuthzEndpoint PropsSetupAuth PropsSystem PyUrl FlowSpec.
Definition rq81 : msg :=
  [("client_id", VStr "c1"); ("redirect_uri", VStr cb); ("response_type", vstrs ["code"]); ("scope", vstrs ["openid"; "email"]);
   ("state", VStr "xyz"); ("code_challenge", VStr "S256:secret"); ("code_challenge_method", VStr "S256");
   ("claims", VDict [("userinfo", VDict [("name", VNone); ("nickname", VNone)])])]%string.
Definition cli81 : msg := match clients7 with (_, i) :: _ => i | [] => [] end.
Definition e81 : auth_env := e9 (cookie9 "diana" "1900").
Definition tr81 : msg :=
  [("grant_type", VStr "authorization_code"); ("code", VStr "code7"); ("redirect_uri", VStr cb); ("code_verifier", VStr "secret")]%string.

Example C81_ex_recognised : recognised usr9 e81 (az7 true) true w7 rq81 "c1" cli81 cb "diana" (mkMethod (cookie9 "diana" "1900") 600).
Proof.
  constructor.
  - apply st1_well_formed.
  - do 3 (split; [apply good_by; reflexivity|]). split; [left; reflexivity|]. intros [X|[X|[]]]; discriminate.
  - split; [reflexivity|]. split; [reflexivity|]. split; [|split; reflexivity]. right. eexists. split; [reflexivity|]. vm_compute. reflexivity.
  - exists "user"%string, "pw"%string. split; reflexivity.
  - exists [("uid", VStr "diana")]%string, (VStr "1900"). split; [|split; reflexivity]. exists (VInt 0), (VStr "diana"). repeat split.
Qed.
Example C81_ex_asks : asks_code (az7 true) w7 rq81 "c1" cb ["openid"; "email"]%string.
Proof.
  constructor; [reflexivity|reflexivity| |now left|].
  - right. eexists. split; [reflexivity|]. intros usage v [<-|[<-|[]]] E; [discriminate|]. assert (v = VDict [("name", VNone); ("nickname", VNone)]%string) by (cbn in E; congruence).
    subst v. eexists. split; [reflexivity|]. split; [repeat constructor; cbn; intuition discriminate|].
    intros k spec [X|[X|[]]]; injection X as <- <-; now left.
  - exists [UriSpec.entry cb (VStr "")]. split; [eexists; split; reflexivity|]. split; [repeat constructor; exists cb, (VStr ""); auto|].
    split; [repeat constructor; intros []|]. eexists. exists (VStr ""). split; [vm_compute; reflexivity|]. split; [reflexivity|]. split; [left; reflexivity|].
    intros k s. reflexivity.
Qed.
Example C81_ex_claims : claims_set_up cx7 cli81.
Proof.
  constructor.
  - intros usage v Hu E. cbn in Hu. destruct Hu as [<-|[<-|[<-|[<-|[]]]]]; vm_compute in E; try discriminate E;
      injection E as <-; eexists; (split; [reflexivity|]); (split; [repeat constructor; cbn; intuition discriminate|]);
      intros k spec; cbn; intros X; repeat (destruct X as [X|X]; [injection X as <- <-; first [now left|right; eexists; split; [reflexivity|cbn; intuition congruence]]|]); destruct X.
  - intros usage v Hu E. cbn in Hu. destruct Hu as [<-|[<-|[<-|[<-|[]]]]]; discriminate.
  - vm_compute. eauto.
  - right. eexists. split; [reflexivity|]. intros s [X|[X|[]]]; injection X as <-; cbn; auto 10.
Qed.
Example C81_ex_provided : code_provided sid79 e81 (az7 true) w7 "c1" cli81 cb "diana" (mkMethod (cookie9 "diana" "1900") 600).
Proof.
  constructor.
  - exact C81_ex_claims.
  - exact py_proper.
  - split; [intros k E; discriminate|]. intros _. cbn. lia.
  - intros p. exists "code7"%string. split; reflexivity.
  - intros state. eexists. reflexivity.
  - intros _. split; [cbn; lia|]. split; [intros t; eexists; reflexivity|eexists; reflexivity].
  - now left.
Qed.
Example C81_ex_request : FlowSpec.code_request hash2 true rq81 tr81 "code7".
Proof.
  constructor; try reflexivity.
  - right. exists cb. split; reflexivity.
  - right. discriminate.
  - intros _. right. exists "secret"%string, "S256:secret"%string, "S256"%string. do 3 (split; [reflexivity|]). right. split; [now left|split; reflexivity].
Qed.
Example C81_ex_tokens : tokens_provided sid79 e81 (az7 true) w7 "c1" cli81 "diana" ["openid"; "email"]%string idt2 both (mt2 "at8") (mt2 "rt8") None 2000.
Proof.
  assert (X : exchangeable e81 (az7 true) w7 "c1" "access_token" 2 2000).
  { split; [left; reflexivity|]. split; [split; [intros k E; discriminate|intros _; cbn; lia]|]. cbn. lia. }
  constructor; auto.
  - intros p v E. cbn in E. injection E as <-. reflexivity.
  - intros p. exists "at8"%string. split; reflexivity.
  - intros p1 p2 v1 v2 E1 E2. cbn in E1, E2. injection E1 as <-. injection E2 as <-. discriminate.
  - discriminate.
  - intros _ s gr clients V C. eexists. exists clients. split; [reflexivity|exact C].
Qed.
(** All of it together: she gets her e-mail address and her name, but no nickname, as none is known. *)
Example C81_ex : exists r w1 rq args w3 claims,
  process_request e81 (az7 true) true (inr rq81) w7 = (Ok (AResponse r), w1) /\
  token_parse sid79 hash2 both true 2000 tr81 (w_db w1) = (Ok (PReq rq), w_db w1) /\
  token_process sid79 cx7 idt2 true both (mt2 "at8") (mt2 "rt8") None (PReq rq) w1 = (Ok (AOk args None), w3) /\
  userinfo_process sid79 cx7 (w_cdb w3) 2100 [("access_token", VStr "at8")]%string (w_db w3) = (Ok (AOk claims (Some "c1"%string)), w_db w3) /\
  dget "sub" claims = Some (VStr "dianasalt") /\ dget "email" claims = Some (VStr "diana@example.org") /\
  dget "name" claims = Some (VStr "Diana Krall") /\ dget "nickname" claims = None.
Proof. do 6 eexists. vm_compute. repeat split. Qed.
