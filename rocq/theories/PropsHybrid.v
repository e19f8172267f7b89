(** PropsHybrid.v: C93, the implicit and the hybrid flows work. *)
From Verif Require Import Base BaseProofs Monad MonadProofs Types SessionKey SessionKeyProofs Token Grant GrantSpec GrantProofs Database DatabaseSpec DatabaseProofs
  Manager ManagerSpec ManagerProofs Ctx Scopes ScopesSpec ScopesProofs Claims ClaimsSpec ClaimsProofs Authz AuthzProofs UserInfo UserInfoSpec UserInfoProofs PropsClaims
  World Minting TokenEndpoint WorldSpec WorldProofs ResponseSpec ResponseProofs Uri UriSpec UriProofs PropsUri Response AuthzEndpoint AuthzEndpointSpec AuthzEndpointProofs
  SetupAuth SetupAuthSpec SetupAuthProofs FlowSpec FlowProofs FlowAuthzProofs PropsFlow HybridSpec HybridProofs.
Local Open Scope Z_scope.

Lemma in_issued code access (t : token) : In t (single code ++ single access) <-> code = Some t \/ access = Some t.
Proof. destruct code as [a|], access as [b|]; cbn; intuition (try congruence; try discriminate); subst; auto. Qed.

(** A user who is recognised is sent back to the client with what the client asked for: a code, an access token, an ID Token, any
    two of them or all three, and nothing else of that kind. It is put into the fragment unless it is but a code. The code and the
    token belong to the new session of the user. *)
Theorem C93_response : forall sid_of is_user e az oidc w request c cli uri u m scopes rt,
  recognised is_user e az oidc w request c cli uri u m -> asks az w request c uri scopes rt ->
  provided sid_of e az w c cli uri u m rt ->
  exists r w' code access id_token g, process_request e az oidc (inr request) w = (Ok (AResponse r), w') /\
    ~ failed (ri_args r) /\ gives rt (ri_args r) code access id_token /\
    ri_uri r = Some uri /\ (ri_fragment r = Some true <-> more_than_code rt) /\
    view (w_db w') [u; c; au_newid e] = Some (EGrant g) /\
    forall t, (In t (g_issued g) <-> code = Some t \/ access = Some t) /\
      (In t (g_issued g) -> sid_of (t_value t) = Ok (session_key [u; c; au_newid e])).
Proof.
  intros sid_of is_user e az oidc w request c cli uri u m scopes rt R A P.
  destruct (session_any sid_of is_user e az oidc w request c cli uri u m scopes rt R A P)
    as (r & w' & g & code & access & idt & E & Eu & [[Gv Nf] (f & Ff & Fr) V F C Fc Fa] & _ & _ & Gi & _).
  exists r, w', code, access, idt. eexists. split; [exact E|]. split; [exact Nf|]. split; [exact Gv|]. split; [exact Eu|].
  split. { rewrite Ff. rewrite <- Fr. split; congruence. }
  split; [exact V|]. intros t. assert (X : In t (g_issued (with_tokens (single code ++ single access) g)) <-> code = Some t \/ access = Some t).
  { unfold with_tokens. cbn [g_issued g_set_used g_set_issued]. rewrite Gi. apply in_issued. }
  split; [exact X|]. intros I. apply X in I. destruct I as [I|I].
  - destruct (Fc t I) as (_ & _ & _ & p & Pv). destruct (pr_code _ _ _ _ _ _ _ _ _ _ P) as (_ & Ha). { apply (gv_code _ _ _ _ _ Gv). congruence. }
    destruct (Ha p) as (v & Ev & Es). congruence.
  - destruct (Fa t I) as (_ & _ & _ & p & Pv). destruct (pr_token _ _ _ _ _ _ _ _ _ _ P) as (_ & Ha). { apply (gv_token _ _ _ _ _ Gv). congruence. }
    destruct (Ha p) as (v & Ev & Es). congruence.
Qed.
Print Assumptions C93_response.

Lemma token_serves sid_of e az w request scopes u c m w1 g at_ mt ty base :
  good u -> good c -> good (au_newid e) -> view (w_db w1) [u; c; au_newid e] = Some (EGrant g) ->
  sid_of (t_value at_) = Ok (session_key [u; c; au_newid e]) -> (exists l1 l2, g_issued g = l1 ++ at_ :: l2 /\ ~ In (t_value at_) (map t_value l1)) -> t_class at_ = CAccess -> t_rules at_ = rule (rules_of e az w c) "access_token" ->
  made (mt_clock mt) (rules_of e az w c) ty base at_ -> ty = "access_token"%string ->
  g_sub g = public_id (au_sha e) u (au_salt e) -> (exists ae, g_authn g = Some ae /\ ae_valid_until ae = au_now e + lifetime m) ->
  (match az_handler az with AHandling => fit_claims (az_cx az) (w_cdb w) c request scopes "userinfo" g | AImplicit _ => g_claims g = [] end) ->
  serves sid_of e az w request scopes u c m (mt_clock mt) w1 (t_value at_).
Proof.
  intros Hu Hc Hg V Sa Is Ca Ra Mda -> Gs (ae & Gae & Aev) Gcl w4 later ur (Un5 & Un6 & Un7 & Un8) Uv Uo It Lt.
  assert (Isa : t_issued_at at_ = mt_clock mt) by apply Mda.
  destruct (C17_userinfo_complete sid_of (az_cx az) (w_cdb w4) later ur (w_db w4) (t_value at_) u c g at_ ae) as (claims & Eu4 & Su & Cl4); auto.
  { exists (session_key [u; c; au_newid e]), (au_newid e). split; [exact Sa|]. split; [now apply unpack3_good|]. split; [now rewrite Un5|]. split; [reflexivity|exact Is]. }
  { eapply made_usable; [rewrite Isa; exact Mda|reflexivity| |].
    - rewrite Isa. exact It.
    - rewrite Ra. intros n En. unfold usable_once in Uo. rewrite En in Uo. exact Uo. }
  { lia. }
  { intros r0 Er0. destruct (az_handler az); [|rewrite Gcl in Er0; discriminate].
    destruct Gcl as (d & Gcl & Dr & Dw). assert (r0 = CVal d) by congruence. subst r0. exact Dr. }
  exists claims. split; [exact Eu4|]. split. { rewrite Su. now rewrite Gs. }
  intros k x Nk. rewrite (Cl4 k x Nk). unfold listed.
  destruct (az_handler az).
  2: { rewrite Gcl. split; [intros (_ & spec & (r0 & Er0 & _) & _); discriminate|intros (X & _); discriminate]. }
  destruct Gcl as (d & Gcl & Dr & Dw).
  assert (Ls : forall spec, In (k, spec) d <-> wanted (az_cx az) (w_cdb w) c (Some request) scopes "userinfo" k (Some spec)).
  { intros spec. specialize (Dw k). split.
    - intros I. apply In_dget in I; [|apply Dr]. rewrite I in Dw. exact Dw.
    - intros Wd. apply dget_In. revert Dw Wd. unfold wanted. destruct (from_request _ _ _); [congruence|].
      intros [[X1 Y1]|[X1 Y1]] [[X2 Y2]|[X2 Y2]]; try tauto; [congruence|]. revert Y1 Y2. destruct (from_base _ _ _); [congruence|].
      intros [[X3 Y3]|[X3 Y3]] [[X4 Y4]|[X4 Y4]]; try tauto; congruence. }
  split.
  - intros (Uh & spec & (r0 & Er0 & I) & Ad). split; [reflexivity|]. split; [exact Uh|]. assert (r0 = CVal d) by congruence. subst r0.
    exists spec. split; [now apply Ls|exact Ad].
  - intros (_ & Uh & spec & Wd & Ad). split; [exact Uh|]. exists spec. split; [|exact Ad]. exists (CVal d). split; [exact Gcl|]. now apply Ls.
Qed.

(** An access token that came with that response can be used at the userinfo endpoint. *)
Theorem C93_token : forall sid_of is_user e az oidc w request c cli uri u m scopes rt r w1 token,
  recognised is_user e az oidc w request c cli uri u m -> asks az w request c uri scopes rt ->
  provided sid_of e az w c cli uri u m rt ->
  process_request e az oidc (inr request) w = (Ok (AResponse r), w1) -> dget "access_token" (ri_args r) = Some (VStr token) ->
  serves sid_of e az w request scopes u c m (mt_clock (az_access az)) w1 token.
Proof.
  intros sid_of is_user e az oidc w request c cli uri u m scopes rt r w1 token R A P E Ht.
  destruct (session_any sid_of is_user e az oidc w request c cli uri u m scopes rt R A P)
    as (r' & w' & g & code & access & idt & E' & Eu & [[Gv Nf] _ V F C Fc Fa] & Gs & Gr & Gi & Gu & Grv & Gnb & Grl & Gex & Gae & Gsc & Gcl).
  assert (r' = r) by congruence. assert (w' = w1) by congruence. subst r' w'. clear E'.
  rewrite (gv_token_shown _ _ _ _ _ Gv) in Ht. destruct access as [t|]; [|discriminate]. cbn in Ht. injection Ht as <-.
  assert (It : In "token"%string rt) by (apply (gv_token _ _ _ _ _ Gv); discriminate).
  destruct (Fa t eq_refl) as (Md & Cl & Tr & p & Pv). rewrite Grl in Md, Tr.
  destruct (pr_token _ _ _ _ _ _ _ _ _ _ P It) as (_ & Ha). destruct (Ha p) as (v & Ev & Es). assert (v = t_value t) by congruence. subst v.
  destruct (re_names _ _ _ _ _ _ _ _ _ _ _ R) as (Hu & Hc & Hg & _ & _).
  eapply (token_serves sid_of e az w request scopes u c m w1 _ t (az_access az) "access_token" code); eauto.
  unfold with_tokens. cbn [g_issued g_set_used g_set_issued]. rewrite Gi. cbn [app single]. exists (single code), []. split; [reflexivity|].
  destruct code as [tc|]; cbn; [|tauto]. intros [X|[]].
  assert (Ic : In "code"%string rt) by (apply (gv_code _ _ _ _ _ Gv); discriminate).
  destruct (pr_both _ _ _ _ _ _ _ _ _ _ P Ic It) as (_ & Ap). destruct (Fc tc eq_refl) as (_ & _ & _ & pc & Pc). exact (Ap _ _ _ _ Pc Pv X).
Qed.
Print Assumptions C93_token.

(** A code that came with that response, alone or not, can be exchanged at the token endpoint; the access token from there can be
    used at the userinfo endpoint. *)
Theorem C93_code : forall sid_of b64hash is_user e az oidc w request c cli uri u m scopes rt r w1 code,
  recognised is_user e az oidc w request c cli uri u m -> asks az w request c uri scopes rt ->
  provided sid_of e az w c cli uri u m rt ->
  process_request e az oidc (inr request) w = (Ok (AResponse r), w1) -> dget "code" (ri_args r) = Some (VStr code) ->
  forall w2 idt sharing helpers pkce m1 m2 ir now token_request,
    undisturbed u c (au_newid e) w1 w2 -> code_request b64hash pkce request token_request code ->
    more_provided sid_of e az w c cli u scopes rt idt helpers m1 m2 ir now ->
    exists rq args w3 access_token,
      token_parse sid_of b64hash helpers pkce now token_request (w_db w2) = (Ok (PReq rq), w_db w2) /\
      token_process sid_of (az_cx az) idt sharing helpers m1 m2 ir (PReq rq) w2 = (Ok (AOk args None), w3) /\
      dget "access_token" args = Some (VStr access_token) /\
      serves sid_of e az w request scopes u c m (mt_clock m1) w3 access_token.
Proof.
  intros sid_of b64hash is_user e az oidc w request c cli uri u m scopes rt r w1 cv R A P E Ht
    w2 idt sharing helpers pkce m1 m2 ir now tr (Un1 & Un2 & Un3 & Un4) Cr [Hh Bp Xn Xa Hm (Ap & Ap2) Hr Hid].
  destruct (session_any sid_of is_user e az oidc w request c cli uri u m scopes rt R A P)
    as (r' & w' & g & code & access & idt' & E' & Eu & [[Gv Nf] _ V F C Fc Fa] & Gs & Gr & Gi & Gu & Grv & Gnb & Grl & Gex & Gae & Gsc & Gcl).
  assert (r' = r) by congruence. assert (w' = w1) by congruence. subst r' w'. clear E'.
  rewrite (gv_code_shown _ _ _ _ _ Gv) in Ht. destruct code as [t|]; [|discriminate]. cbn in Ht. injection Ht as <-.
  assert (Ic : In "code"%string rt) by (apply (gv_code _ _ _ _ _ Gv); discriminate).
  assert (Ft := Fc t eq_refl). rewrite Grl in Ft.
  destruct (re_names _ _ _ _ _ _ _ _ _ _ _ R) as (Hu & Hc & Hg & _ & _).
  set (gid := au_newid e) in *. set (sid := session_key [u; c; gid]) in *.
  assert (Sc : sid_of (t_value t) = Ok sid).
  { destruct Ft as (_ & _ & _ & p & Pv). destruct (pr_code _ _ _ _ _ _ _ _ _ _ P Ic) as (_ & Ha). destruct (Ha p) as (v & Ev & Es).
    unfold sid, gid in *. congruence. }
  assert (K := changed_get e request).
  set (g2 := with_tokens (single (Some t) ++ single access) g) in *.
  assert (U2 : g_used g2 = made_there rt).
  { unfold g2, with_tokens. cbn [g_used g_set_used]. rewrite Gu. unfold made_there.
    assert (X : smem "code" rt = true) by now apply smem_In. rewrite X. destruct access as [ta|]; cbn [single app length].
    - assert (Y : smem "token" rt = true) by (apply smem_In; apply (gv_token _ _ _ _ _ Gv); discriminate). now rewrite Y.
    - assert (Y : smem "token" rt = false) by (apply smem_false; intros I; apply (gv_token _ _ _ _ _ Gv) in I; congruence). now rewrite Y. }
  assert (Mnt : forall ty n k, exchangeable e az w c ty (made_there rt + 1 + n) k -> mintable k n g2).
  { intros ty n k (_ & (L1 & L2) & _). unfold mintable, usable_at. rewrite U2.
    change (g_rules g2) with (g_rules g). change (g_revoked g2) with (g_revoked g). change (g_not_before g2) with (g_not_before g). change (g_expires_at g2) with (g_expires_at g).
    rewrite Grl, Grv, Gnb, Gex. split; [reflexivity|].
    split. { intros q Hq. apply L1 in Hq. lia. }
    split; [congruence|exact L2]. }
  destruct (fresh_code_usable _ _ _ _ _ _ _ _ _ Xn Ft) as (Un & _). destruct (fresh_code_usable _ _ _ _ _ _ _ _ _ Xa Ft) as (Um & My).
  destruct (C81_exchange sid_of b64hash (az_cx az) idt u c gid sharing helpers pkce m1 m2 ir now tr (t_value t) t g2 [] (single access)
    (changed e request) scopes cli w2) as (rq & args & w3 & value & at_ & g' & Pa & Pr & Aa & Sa & Nm & Ca & Ra & Mda & V3 & (l & Sb) & F3 & Cd3); auto.
  { split; assumption. }
  { now rewrite Un1. }
  { unfold g2, with_tokens. cbn [g_issued g_set_used g_set_issued]. now rewrite Gi. }
  { apply Ft. }
  { destruct Ft as (_ & _ & _ & p & Pv). eapply Bp; exact Pv. }
  { destruct Cr as [T1 T2 T3 T4 T5]. constructor; auto.
    - rewrite K by discriminate. exact T3.
    - rewrite K by discriminate. exact T4.
    - intros Hp. specialize (T5 Hp). unfold answers_challenge in *. rewrite !K by discriminate. exact T5. }
  { eapply claims_asked_ext; [|exact (as_claims _ _ _ _ _ _ _ A)]. apply K. discriminate. }
  { rewrite K by discriminate. apply A. }
  { rewrite Un2. exact C. }
  { apply P. }
  { apply (Mnt "access_token"%string). now rewrite Z.add_0_r. }
  { intros q v Ev. unfold g2, with_tokens. cbn [g_issued g_set_used g_set_issued]. rewrite Gi. cbn [app map single].
    destruct Ft as (_ & _ & _ & p & Pv). intros [X|X]; [exact (Ap _ _ _ _ Pv Ev X)|].
    destruct access as [ta|]; cbn in X; [|tauto]. destruct X as [X|[]].
    destruct (Fa ta eq_refl) as (_ & _ & _ & pa & Pva). refine (Ap2 _ _ _ _ _ Pva Ev X). apply (gv_token _ _ _ _ _ Gv). discriminate. }
  { change (g_scope g2) with (g_scope g). rewrite Gsc. intros Rf. destruct (Hr Rf) as (Xr & Hm2).
    destruct (fresh_code_usable _ _ _ _ _ _ _ _ _ Xr Ft) as (Ur & Myr). split; [exact Ur|]. split; [|split; [exact Myr|exact Hm2]].
    apply (Mnt "refresh_token"%string). now rewrite <- Z.add_assoc. }
  exists rq, args, w3, value. split; [exact Pa|]. split; [exact Pr|]. split; [exact Aa|].
  assert (Nv : t_value at_ = value) by (destruct Nm as (? & ? & _ & _ & _ & X & _); exact X). rewrite <- Nv in *.
  eapply (token_serves sid_of e az w request scopes u c m w3 g' at_ m1 "access_token" (Some t)); auto.
  { destruct Nm as (sid' & gid' & N1 & N2 & N3 & _ & N4).
    assert (X := unpack3_good u c gid Hu Hc Hg). fold sid in X, Sa. assert (sid' = sid) by congruence. subst sid'. assert (gid' = gid) by congruence. subst gid'. exact N4. }
  { rewrite Ra. change (g_rules g2) with (g_rules g). now rewrite Grl. }
  { change (g_rules g2) with (g_rules g) in Mda. rewrite Grl in Mda. exact Mda. }
  { rewrite Sb. exact Gs. }
  { rewrite Sb. exact Gae. }
  { rewrite Sb. exact Gcl. }
Qed.
Print Assumptions C93_code.

(** ** A case: diana comes with c1, which asks for all three. *)
From Verif Require Import PropsTokenEndpoint PropsAuthzEndpoint PropsSetupAuth PropsSystem PyUrl FlowSpec PropsFlow HybridSpec.
Definition rt93 : list string := ["code"; "id_token"; "token"]%string.
Definition rq93 : msg :=
  [("client_id", VStr "c1"); ("redirect_uri", VStr cb); ("response_type", vstrs rt93); ("scope", vstrs ["openid"; "email"]);
   ("state", VStr "xyz"); ("nonce", VStr "n"); ("response_mode", VStr "fragment"); ("code_challenge", VStr "S256:secret"); ("code_challenge_method", VStr "S256")]%string.
Definition sid93 (v : string) : result string :=
  if smem v ["code7"; "at7"; "at8"]%string then Ok "diana;;c1;;g9"%string else Raise EUnknownToken.
Definition mt93 : method := mkMethod (cookie9 "diana" "1900") 600.

Example C93_ex_recognised : recognised usr9 e81 (az7 true) true w7 rq93 "c1" cli81 cb "diana" mt93.
Proof.
  constructor.
  - apply st1_well_formed.
  - do 3 (split; [apply good_by; reflexivity|]). split; [left; reflexivity|]. intros [X|[X|[]]]; discriminate.
  - split; [reflexivity|]. split; [reflexivity|]. split; [|split; reflexivity]. right. eexists. split; [reflexivity|]. vm_compute. reflexivity.
  - exists "user"%string, "pw"%string. split; reflexivity.
  - exists [("uid", VStr "diana")]%string, (VStr "1900"). split; [|split; reflexivity]. exists (VInt 0), (VStr "diana"). repeat split.
Qed.
Example C93_ex_asks : asks (az7 true) w7 rq93 "c1" cb ["openid"; "email"]%string rt93.
Proof.
  constructor; [reflexivity| |reflexivity|now left| |].
  - split; [discriminate|]. unfold rt93. cbn. intuition.
  - right. right. right. split; [reflexivity|]. exists "token"%string. split; [cbn; auto|discriminate].
  - apply C81_ex_asks.
Qed.
Example C93_ex_exchangeable : forall n now, now <= 2010 -> exchangeable e81 (az7 true) w7 "c1" "access_token" n now.
Proof.
  intros n now Hn. split; [left; reflexivity|].
  split; [split; [intros k E; discriminate|intros _; cbn; lia]|]. cbn. lia.
Qed.
Example C93_ex_provided : provided sid93 e81 (az7 true) w7 "c1" cli81 cb "diana" mt93 rt93.
Proof.
  constructor.
  - exact C81_ex_claims.
  - exact py_proper.
  - intros _. split. { split; [intros k E; discriminate|]. intros _. cbn. lia. } intros p. exists "code7"%string. split; reflexivity.
  - intros _. split. { split; [intros k E; discriminate|]. intros _. cbn. lia. } intros p. exists "at7"%string. split; reflexivity.
  - intros _ _. split; [apply C93_ex_exchangeable; cbn; lia|]. intros p1 p2 v1 v2 E1 E2. cbn in E1, E2. injection E1 as <-. injection E2 as <-. discriminate.
  - intros _ s gr clients code access V C. eexists. exists clients. split; [reflexivity|exact C].
  - intros state. eexists. reflexivity.
  - intros _. split; [cbn; lia|]. split; [intros t; eexists; reflexivity|eexists; reflexivity].
  - now left.
Qed.
Example C93_ex_more : more_provided sid93 e81 (az7 true) w7 "c1" cli81 "diana" ["openid"; "email"]%string rt93 idt2 both (mt2 "at8") (mt2 "rt8") None 2000.
Proof.
  constructor; try (apply C93_ex_exchangeable; cbn; lia).
  - reflexivity.
  - intros p v E. cbn in E. injection E as <-. reflexivity.
  - intros p. exists "at8"%string. split; reflexivity.
  - split; [|intros _]; intros p1 p2 v1 v2 E1 E2; cbn in E1, E2; injection E1 as <-; injection E2 as <-; discriminate.
  - discriminate.
  - intros _ s gr clients V C. eexists. exists clients. split; [reflexivity|exact C].
Qed.
Example C93_ex : exists r w1 claims rq args w3 claims',
  process_request e81 (az7 true) true (inr rq93) w7 = (Ok (AResponse r), w1) /\
  map fst (ri_args r) = ["state"; "scope"; "code"; "access_token"; "token_type"; "expires_in"; "id_token"; "session_state"; "iss"; "client_id"]%string /\
  dget "id_token" (ri_args r) = Some (VStr "idt:code7:at7") /\ ri_fragment r = Some true /\
  userinfo_process sid93 cx7 (w_cdb w1) 2100 [("access_token", VStr "at7")]%string (w_db w1) = (Ok (AOk claims (Some "c1"%string)), w_db w1) /\
  dget "email" claims = Some (VStr "diana@example.org") /\
  token_parse sid93 hash2 both true 2000 tr81 (w_db w1) = (Ok (PReq rq), w_db w1) /\
  token_process sid93 cx7 idt2 true both (mt2 "at8") (mt2 "rt8") None (PReq rq) w1 = (Ok (AOk args None), w3) /\
  userinfo_process sid93 cx7 (w_cdb w3) 2100 [("access_token", VStr "at8")]%string (w_db w3) = (Ok (AOk claims' (Some "c1"%string)), w_db w3).
Proof. do 7 eexists. repeat first [split; [vm_compute; reflexivity|] | vm_compute; reflexivity]. Qed.
