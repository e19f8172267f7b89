(** PropsClaims.v: scopes (C40), claims (C17, C18), usage rules (C39), introspection (C43), and what
    userinfo and introspection do with dead and with wrong tokens (C08, C09, C16). *)
From Verif Require Import Base BaseProofs Types Monad SessionKey Token Grant GrantSpec Database DatabaseSpec Manager
  Ctx Scopes ScopesSpec ScopesProofs Claims ClaimsSpec ClaimsProofs Authz AuthzSpec AuthzProofs
  UserInfo UserInfoSpec UserInfoProofs.
Local Open Scope Z_scope.

(** ** C40 *)
(** filter_scopes returns, in order, exactly the requested scopes the client may use. *)
Theorem C40_filter_scopes :
  forall cx clients c scopes,
  list_or_absent "scopes_supported" (cx_provider_info cx) ->
  (forall cli, dget c clients = Some cli -> list_or_absent "allowed_scopes" cli) ->
  exists r, filter_scopes cx clients c scopes = Ok r /\ kept (may_use cx clients c) scopes r.
Proof. exact filter_kept. Qed.
Print Assumptions C40_filter_scopes.

(** Scope derived claims come from allowed scopes only, and from all of them. *)
Theorem C40_scope_claims :
  forall cx clients c scopes sc d,
  list_or_absent "scopes_supported" (cx_provider_info cx) ->
  (forall cli, dget c clients = Some cli -> list_or_absent "allowed_scopes" cli) ->
  filter_scopes cx clients c scopes = Ok sc ->
  convert_scopes2claims sc None (cx_scope2claims cx) [] = Ok d ->
  forall k, (dget k d = Some VNone <->
             exists s names, In s scopes /\ may_use cx clients c s /\ dget s (cx_scope2claims cx) = Some names /\ In k names) /\
            (dget k d = Some VNone \/ dget k d = None).
Proof.
  intros cx clients c scopes sc d T1 T2 Hf Hc k.
  destruct (filter_kept cx clients c scopes T1 T2) as (r & Hr & Hk). assert (r = sc) by congruence. subst r.
  assert (All : forall x, In x sc -> dmem x (cx_scope2claims cx) = true).
  { destruct (forallb (fun x => dmem x (cx_scope2claims cx)) sc) eqn:F.
    - rewrite forallb_forall in F. exact F.
    - rewrite convert_fails in Hc; [discriminate|]. intros A. apply Bool.not_true_iff_false in F. apply F. now apply forallb_forall. }
  destruct (convert_go (cx_scope2claims cx) sc [] All) as (d' & Hd & Hdk & _). assert (d' = d) by congruence. subst d'.
  rewrite Hdk. destruct (brings (cx_scope2claims cx) sc k) eqn:B.
  - split; [|now left]. split; [intros _|reflexivity]. apply brings_iff in B. destruct B as (x & names & Hx & Hn & Hi).
    apply (kept_In _ _ _ Hk) in Hx. exists x, names. tauto.
  - split; [|now right]. split; [discriminate|]. intros (x & names & A1 & A2 & A3 & A4). exfalso.
    apply Bool.not_true_iff_false in B. apply B. apply brings_iff. exists x, names. split; [|auto]. apply (kept_In _ _ _ Hk). auto.
Qed.
Print Assumptions C40_scope_claims.

(** With deny_unknown_scopes a request with a scope the policy does not list is refused, any other is
    let through; without it every request is let through. *)
Theorem C40_deny_unknown :
  forall cx cinfo scopes,
  list_or_absent "allowed_scopes" cinfo -> (exists l, capability cx "scopes_supported" = Some (VList l)) ->
  dmem "client_id" cinfo = true ->
  (denies_unknown cx ->
   (check_unknown_scopes_policy cx scopes cinfo = Ok tt /\ Forall (policy_allows cx cinfo) scopes) \/
   (check_unknown_scopes_policy cx scopes cinfo = Raise EUnAuthorizedClient /\
    Exists (fun s => ~ policy_allows cx cinfo s) scopes)) /\
  ((forall v, capability cx "deny_unknown_scopes" = Some v -> truthy v = false) ->
   check_unknown_scopes_policy cx scopes cinfo = Ok tt).
Proof. exact check_policy. Qed.
Print Assumptions C40_deny_unknown.

(** The two lists agree when the capabilities list only scopes there are claims for and the provider
    information repeats them. *)
Theorem C40_policy_agrees :
  forall cx clients c cinfo sup,
  dget c clients = Some cinfo ->
  capability cx "scopes_supported" = Some (VList sup) ->
  dget "scopes_supported" (cx_provider_info cx) = Some (VList sup) -> sup <> [] ->
  (forall s, In (VStr s) sup -> In s (dkeys (cx_scope2claims cx))) ->
  forall s, policy_allows cx cinfo s <-> may_use cx clients c s.
Proof.
  intros cx clients c cinfo sup Hc H1 H2 Hn Hall s. unfold policy_allows, may_use. split.
  - intros [A|(A & l & B & C)]; exists cinfo; (split; [exact Hc|]); [now left|right].
    assert (l = sup) by congruence. subst. split; [exact A|]. split; [auto|]. intros l Hl _. congruence.
  - intros (cli & E & [A|(A & B & D)]); assert (cli = cinfo) by congruence; subst; [now left|right].
    split; [exact A|]. exists sup. split; [exact H1|]. now apply D.
Qed.
Print Assumptions C40_policy_agrees.

Definition s2c : dict (list string) :=
  [("openid", ["sub"]); ("email", ["email"; "email_verified"]); ("profile", ["name"; "nickname"])].
Definition mods : dict msg :=
  [("userinfo", [("add_claims_by_scope", VBool true); ("enable_claims_per_client", VBool true)]);
   ("id_token", [("base_claims", VDict [("acr", VNone)]); ("enable_claims_per_client", VBool true)]);
   ("introspection", [("add_claims_by_scope", VBool true)])].
Definition users : dict msg :=
  [("diana", [("name", VStr "Diana Krall"); ("email", VStr "diana@example.org"); ("sub", VStr "dikr0001");
              ("eduperson", VStr "staff")])].
Definition cx1 : ctx :=
  mkCtx "https://op.example.org"
    [("scopes_supported", vstrs ["openid"; "email"; "profile"])]
    (Some [("scopes_supported", vstrs ["openid"; "email"; "profile"; "research"]); ("deny_unknown_scopes", VBool true)])
    s2c mods users (mkGConf None None).
Definition clients1 : cdb :=
  [("c1", [("client_id", VStr "c1"); ("allowed_scopes", vstrs ["openid"; "email"])]);
   ("c2", [("client_id", VStr "c2"); ("userinfo_claims", vstrs ["nickname"])]);
   ("c3", [("client_id", VStr "c3"); ("userinfo_claims", VDict [("nickname", VNone)])]);
   ("c4", [("client_id", VStr "c4"); ("allowed_scopes", VStr "openid email")])].

Example C40_ex_filter :
  filter_scopes cx1 clients1 "c1" ["email"; "profile"; "openid"; "foo"] = Ok ["email"; "openid"] /\
  filter_scopes cx1 clients1 "c2" ["email"; "profile"; "openid"; "foo"] = Ok ["email"; "profile"; "openid"] /\
  filter_scopes cx1 clients1 "nobody" ["email"] = Ok [].
Proof. repeat split. Qed.
Example C40_ex_typed : list_or_absent "scopes_supported" (cx_provider_info cx1) /\
  (forall cli, dget "c1" clients1 = Some cli -> list_or_absent "allowed_scopes" cli).
Proof. split; [right; eexists; reflexivity|]. intros cli H. injection H as <-. right. eexists. reflexivity. Qed.
Example C40_ex_policy :
  check_unknown_scopes_policy cx1 ["openid"; "email"] [("client_id", VStr "c1"); ("allowed_scopes", vstrs ["openid"; "email"])] = Ok tt /\
  check_unknown_scopes_policy cx1 ["openid"; "profile"] [("client_id", VStr "c1"); ("allowed_scopes", vstrs ["openid"; "email"])]
    = Raise EUnAuthorizedClient /\ denies_unknown cx1.
Proof. repeat split. Qed.

(** The policy can accept a scope that the client may not use by filter_scopes: one that the
    capabilities list and that stands for no claims. *)
Theorem C40_policy_differs_refuted :
  exists cx clients c cinfo s, dget c clients = Some cinfo /\ denies_unknown cx /\
    check_unknown_scopes_policy cx [s] cinfo = Ok tt /\ ~ may_use cx clients c s /\
    filter_scopes cx clients c [s] = Ok [].
Proof.
  exists cx1, clients1, "c2", [("client_id", VStr "c2"); ("userinfo_claims", vstrs ["nickname"])], "research".
  repeat (split; [reflexivity|]). split; [|reflexivity].
  intros (cli & E & [(l & A & _)|(_ & A & _)]).
  - injection E as <-. discriminate.
  - cbn in A. intuition discriminate.
Qed.
Print Assumptions C40_policy_differs_refuted.

(** allowed_scopes given as one str, as a client can register it, is searched for substrings. *)
Theorem C40_str_refuted :
  exists cx clients c s, dget c clients = Some [("client_id", VStr c); ("allowed_scopes", VStr "openid email")] /\
    ~ In s ["openid"; "email"]%string /\ filter_scopes cx clients c [s] = Ok [s] /\
    check_unknown_scopes_policy cx [s] [("client_id", VStr c); ("allowed_scopes", VStr "openid email")] = Ok tt.
Proof. exists cx1, clients1, "c4", "mail". repeat split. cbn. intuition discriminate. Qed.
Print Assumptions C40_str_refuted.

(** The scope of the grant is what was asked for, allowed or not. *)
Theorem C40_grant_scope_refuted :
  exists cx clients c request g g' s, 
    authz_call cx 1000 c request None (clients, g) = (Ok tt, (clients, g')) /\
    In s (g_scope g') /\ ~ may_use cx clients c s.
Proof.
  exists cx1, clients1, "c1", [("scope", vstrs ["openid"; "profile"])],
    (new_grant 1000 "g1" "sub" (Some [("scope", vstrs ["openid"; "profile"])]) None None None).
  eexists. exists "profile". split; [vm_compute; reflexivity|]. split; [cbn; auto|].
  intros (cli & E & [(l & A & B)|(A & _)]); injection E as <-.
  - injection A as <-. cbn in B. intuition discriminate.
  - specialize (A _ eq_refl). discriminate.
Qed.
Print Assumptions C40_grant_scope_refuted.

(** ** C17 *)
(** A userinfo answer that is not an error message is about a live access token of that very grant.
    Unless the authentication is too old, it has the grant's subject identifier as sub, and every other
    claim in it is listed in the grant's userinfo claims, has the value that the user database
    holds for the user of the session, and satisfies the claim request. *)
Theorem C17_userinfo :
  forall sid_of cx clients clock request s args cid s',
  userinfo_process sid_of cx clients clock request s = (Ok (AOk args cid), s') ->
  s' = s /\
  exists value u c g t ae, dget "access_token" request = Some (VStr value) /\
    names sid_of s value u c g t /\ t_class t = CAccess /\ token_usable clock t /\ cid = Some c /\ g_authn g = Some ae /\
    ((ae_valid_until ae <= clock /\
      args = [("error", VStr "invalid_request"); ("error_description", VStr "Access not granted")]) \/
     (clock < ae_valid_until ae /\
      dget "sub" args = Some (VStr (g_sub g)) /\
      forall k x, k <> "sub" -> dget k args = Some x ->
        user_has cx u k x /\ exists spec, listed clients g "userinfo" k spec /\ (claim_request spec -> admits spec x))).
Proof.
  intros sid_of cx clients clock request s args cid s' H.
  assert (Hs : s' = s) by (rewrite <- (userinfo_state sid_of cx clients clock request s), H; reflexivity).
  split; [exact Hs|].
  destruct (userinfo_cases sid_of cx clients clock request s _ s' H) as (value & sid & u & c & gid & g & Hv & _ & _ & _ & D).
  destruct D as [(_ & D)|(t & Hn & [(_ & D)|[(_ & _ & D)|(Hc & Hu & ae & Hae & [(Hl & info & Hi & D)|(Hl & D)])]])]; try discriminate D;
  injection D as D1 D2; exists value, u, c, g, t, ae; repeat (split; [assumption|]).
  - right. split; [exact Hl|]. subst args. split; [apply dget_dset_eq|]. intros k x Hk Hx.
    rewrite dget_dset_neq in Hx by assumption. apply dget_In in Hx.
    destruct (release_sound _ _ _ _ _ Hi Hx) as (spec & A & B & C & D). split; [now apply dget_user|].
    exists spec. split; [now apply grant_claims_listed|exact D].
  - left. split; [exact Hl|exact D1].
Qed.
Print Assumptions C17_userinfo.

(** Conversely: for a live access token and a fresh authentication the answer is given, and it has every
    listed claim that the user has and that satisfies its request. *)
Theorem C17_userinfo_complete :
  forall sid_of cx clients clock request s value u c g t ae,
  dget "access_token" request = Some (VStr value) -> names sid_of s value u c g t ->
  t_class t = CAccess -> token_usable clock t -> g_authn g = Some ae -> clock < ae_valid_until ae ->
  claims_ok clients g "userinfo" ->
  exists args, userinfo_process sid_of cx clients clock request s = (Ok (AOk args (Some c)), s) /\
    dget "sub" args = Some (VStr (g_sub g)) /\
    forall k x, k <> "sub" -> 
      (dget k args = Some x <->
       user_has cx u k x /\ exists spec, listed clients g "userinfo" k spec /\ admits spec x).
Proof.
  intros sid_of cx clients clock request s value u c g t ae Hv Hn Hc Hu Hae Hl Hok.
  assert (Hp : proper (grant_claims clients "userinfo" g) /\ forall k spec, In (k, spec) (grant_claims clients "userinfo" g) -> claim_request spec).
  { unfold grant_claims. destruct (dget "userinfo" (g_claims g)) as [r|] eqn:E; [now apply Hok|]. split; [constructor|intros ? ? []]. }
  destruct Hp as [Hp Hr]. destruct (release_spec (userinfo cx u) _ Hr) as (info & Hi & Hin).
  destruct (unpack3_names _ _ _ _ _ _ _ Hn) as (sid & gid & A & B & C).
  exists (dset "sub" (VStr (g_sub g)) info). split.
  - unfold userinfo_process, get_session_info_by_token, grant_of, as_grant, bind, lift, ret, raise.
    unfold msub_str. rewrite Hv, A, B. cbn [in_grant in_uid in_cid]. rewrite C, Hc. cbn [tclass_eqb negb].
    apply GrantProofs.t_active_iff in Hu. rewrite Hu. cbn [negb]. rewrite Hae. apply Z.ltb_lt in Hl. rewrite Hl.
    unfold get_user_claims. rewrite Hi. reflexivity.
  - split; [apply dget_dset_eq|]. intros k x Hk. rewrite dget_dset_neq by assumption.
    assert (Pi : proper info) by (eapply release_keys; eauto).
    split.
    + intros Hx. apply dget_In, Hin in Hx. destruct Hx as (spec & X1 & X2 & X3 & X4). split; [now apply dget_user|].
      exists spec. split; [now apply grant_claims_listed|exact X4].
    + intros ((rec & X1 & X2 & X3) & spec & X4 & X5). apply In_dget; [exact Pi|]. apply Hin. exists spec.
      split; [now apply grant_claims_listed|]. split; [|auto]. unfold userinfo, dget_or. now rewrite X1.
Qed.
Print Assumptions C17_userinfo_complete.

(** "values" given as a str is searched for substrings. *)
Theorem C17_str_values_refuted :
  exists info restriction k x, dget k restriction = Some (VDict [("values", VStr "administrator")]) /\
    dget k info = Some (VStr x) /\ x <> "administrator"%string /\
    release info restriction = Ok [(k, VStr x)].
Proof.
  exists [("role", VStr "min")], [("role", VDict [("values", VStr "administrator")])], "role", "min".
  repeat (split; [reflexivity|]). split; [discriminate|]. reflexivity.
Qed.
Print Assumptions C17_str_values_refuted.

(** A session for the examples *)
Definition sid1 : string := "diana;;c1;;g1".
Definition tok (cls : tclass) (ty v : string) (rv : bool) : token :=
  mkToken cls ty v None no_rules 1000 5000 0 rv 0 "id" [] [] [].
Definition ae1 : authn_event := mkAE "diana" None 1000 4600 None.
Definition gr1 : grant :=
  mkGrant "g1" "sub-of-diana" ["openid"; "email"]
    [("userinfo", CVal [("email", VNone); ("name", VDict [("essential", VBool true)]);
                        ("eduperson", VDict [("values", vstrs ["student"])]); ("phone", VNone); ("sub", VNone)]);
     ("introspection", CVal [("eduperson", VNone)])]
    ["c1"] (Some [("client_id", VStr "c1")]) (Some ae1)
    [tok CCode "authorization_code" "code1" false; tok CAccess "access_token" "at1" false;
     tok CRefresh "refresh_token" "rt1" false; tok CAccess "access_token" "at2" true]
    no_grules 1000 0 0 false 4.
Definition st1 (g : grant) (revoked : bool) : store :=
  [("diana", EInfo (mkSInfo SUser (Some "diana") ["c1"] false []));
   ("diana;;c1", EInfo (mkSInfo SClient (Some "c1") ["g1"] revoked []));
   (sid1, EGrant g)].
Definition sids (v : string) : result string :=
  if smem v ["code1"; "at1"; "rt1"; "at2"] then Ok sid1 else Raise EUnknownToken.
Definition arq (v : string) : msg := [("access_token", VStr v)].
Definition irq (v : string) : msg := [("token", VStr v)].

Example C17_ex :
  userinfo_process sids cx1 clients1 2000 (arq "at1") (st1 gr1 false) =
  (Ok (AOk [("email", VStr "diana@example.org"); ("name", VStr "Diana Krall"); ("sub", VStr "sub-of-diana")] (Some "c1")), st1 gr1 false).
Proof. vm_compute. reflexivity. Qed.
Example C17_ex_names : names sids (st1 gr1 false) "at1" "diana" "c1" gr1 (tok CAccess "access_token" "at1" false).
Proof.
  exists sid1, "g1". repeat (split; [reflexivity|]).
  exists [tok CCode "authorization_code" "code1" false], [tok CRefresh "refresh_token" "rt1" false; tok CAccess "access_token" "at2" true].
  split; [reflexivity|]. cbn. intuition discriminate.
Qed.
Example C17_ex_ok : claims_ok clients1 gr1 "userinfo".
Proof.
  intros r H. injection H as <-. split.
  - unfold proper. cbn. repeat (constructor; [cbn; intuition discriminate|]). constructor.
  - cbn. intros k spec H. unfold claim_request.
    repeat (destruct H as [H|H]; [injection H as <- <-; first [now left | right; eexists; split; [reflexivity|]; cbn; intros v Hv;
      repeat (destruct Hv as [Hv|Hv]; [first [discriminate Hv | injection Hv as <-; eexists; reflexivity]|]); destruct Hv]|]). destruct H.
Qed.

(** ** C18 *)
(** The claims worked out for a session are determined by its own request, its scopes and the
    configuration, and the client database is not changed (no client has dict valued claims). *)
Theorem C18_get_claims :
  forall cx clients c ar scopes usage r clients',
  In usage usages -> typed_config cx clients c -> typed_request ar -> unshared cx clients ->
  get_claims cx c ar scopes usage clients = (Ok r, clients') ->
  clients' = clients /\ exists d, r = CVal d /\ forall k, wanted cx clients c ar scopes usage k (dget k d).
Proof. intros cx clients. exact (get_claims_wanted cx clients). Qed.
Print Assumptions C18_get_claims.

(** The same for authorizing a grant as a whole: what is put into the grant. *)
Theorem C18_authorize :
  forall cx clock c request res clients g clients' g',
  typed_config cx clients c -> typed_request (g_authreq g) -> unshared cx clients ->
  authz_call cx clock c request res (clients, g) = (Ok tt, (clients', g')) ->
  exists scopes, mget_list "scope" request = Some scopes /\ clients' = clients /\
    forall usage, In usage usages ->
      exists d, dget usage (g_claims g') = Some (CVal d) /\
                forall k, wanted cx clients c (g_authreq g) scopes usage k (dget k d).
Proof.
  intros cx clock c request res clients g clients' g' T1 T2 T3 H.
  destruct (authz_call_effect cx clock c request res clients g clients' g' T1 T2 T3 H) as (sc & A & B & _ & _ & _ & _ & _ & C).
  exists sc. auto.
Qed.
Print Assumptions C18_authorize.

(** Over every history of such calls, whatever their outcomes. *)
Theorem C18_history :
  forall cx clients qs, unshared cx clients -> Forall (fun q => In (cq_usage q) usages) qs ->
  crun cx qs clients = clients /\
  forall c ar scopes usage,
    get_claims cx c ar scopes usage (crun cx qs clients) = get_claims cx c ar scopes usage clients.
Proof. intros cx clients qs H1 H2. rewrite (crun_same cx qs clients H1 H2). auto. Qed.
Print Assumptions C18_history.

(** With dict valued per-client claims: the sessions of other clients have no influence still. *)
Theorem C18_other_clients :
  forall cx clients qs c ar scopes usage r,
  Forall (fun q => cq_client q <> c) qs ->
  fst (get_claims cx c ar scopes usage clients) = Ok r ->
  dget c (crun cx qs clients) = dget c clients /\
  exists r', fst (get_claims cx c ar scopes usage (crun cx qs clients)) = Ok r' /\
    resolve (snd (get_claims cx c ar scopes usage (crun cx qs clients))) r' =
    resolve (snd (get_claims cx c ar scopes usage clients)) r.
Proof.
  intros cx clients qs c ar scopes usage r H1 H2. assert (E := crun_others cx qs clients c H1). split; [exact E|].
  now apply get_claims_local.
Qed.
Print Assumptions C18_other_clients.

(** What a call may change: this client's claims for this usage, which do not lose names. *)
Theorem C18_frame :
  forall cx clients c ar scopes usage,
  let clients' := snd (get_claims cx c ar scopes usage clients) in
  (forall c', c' <> c -> dget c' clients' = dget c' clients) /\
  match dget c clients with
  | None => dget c clients' = None
  | Some info => exists info', dget c clients' = Some info' /\
      (forall k, k <> (usage ++ "_claims")%string -> dget k info' = dget k info) /\
      (dget (usage ++ "_claims")%string info' = dget (usage ++ "_claims")%string info \/
       exists d d', dget (usage ++ "_claims")%string info = Some (VDict d) /\ dget (usage ++ "_claims")%string info' = Some (VDict d') /\
                    forall k, dmem k d = true -> dmem k d' = true)
  end.
Proof. intros cx clients c ar scopes usage. apply (get_claims_main cx c ar scopes usage clients). Qed.
Print Assumptions C18_frame.

Definition ask (names : list string) : option msg :=
  Some [("claims", VDict [("userinfo", VDict (none_of names))])].
(** A client with dict valued claims: what one session asks for is there for the next one, which
    did not ask, and the client database is changed. *)
Theorem C18_later_session_refuted :
  exists cx clients c usage ar1 k r1 clients' r2 clients'',
    get_claims cx c ar1 ["openid"] usage clients = (Ok r1, clients') /\ clients' <> clients /\
     get_claims cx c (Some []) ["openid"] usage clients' = (Ok r2, clients'') /\
     dmem k (resolve clients'' r2) = true /\
     (forall r0 clients0, get_claims cx c (Some []) ["openid"] usage clients = (Ok r0, clients0) -> dmem k (resolve clients0 r0) = false).
Proof.
  exists cx1, clients1, "c3", "userinfo", (ask ["email"]), "email".
  do 4 eexists. split; [vm_compute; reflexivity|]. split; [vm_compute; discriminate|].
  split; [vm_compute; reflexivity|]. split; [vm_compute; reflexivity|].
  intros r0 c0 H. vm_compute in H. injection H as <- <-. reflexivity.
Qed.
Print Assumptions C18_later_session_refuted.
