(** PropsIntrospection.v: usage rules (C39), introspection (C43), and what userinfo and introspection do
    with tokens of the wrong type (C16), dead tokens (C08) and tokens of revoked sessions (C09). *)
From Verif Require Import Base BaseProofs Types Monad SessionKey Token Grant GrantSpec Database DatabaseSpec Manager
  ManagerProofs Ctx Scopes ScopesSpec ScopesProofs Claims ClaimsSpec ClaimsProofs Authz AuthzSpec AuthzProofs
  UserInfo UserInfoSpec UserInfoProofs PropsClaims.
Local Open Scope Z_scope.

(** ** C18, continued *)
(** The claims of a session that is over and done with grow when the same client (with dict valued
    claims) starts another one: the session refers to the client's dict. *)
Theorem C18_earlier_session_refuted :
  exists cx clients c usage ar2 k r1 clients' r2 clients'',
    get_claims cx c (Some []) ["openid"] usage clients = (Ok r1, clients') /\
    dmem k (resolve clients' r1) = false /\
    get_claims cx c ar2 ["openid"] usage clients' = (Ok r2, clients'') /\
    dmem k (resolve clients'' r1) = true.
Proof.
  exists cx1, clients1, "c3", "userinfo", (ask ["email"]), "email".
  do 4 eexists. split; [vm_compute; reflexivity|]. split; [vm_compute; reflexivity|].
  split; [vm_compute; reflexivity|]. vm_compute. reflexivity.
Qed.
Print Assumptions C18_earlier_session_refuted.

Example C18_ex_unshared : unshared cx1 (filter (fun kv => negb (fst kv =? "c3")%string) clients1).
Proof.
  intros c info usage d Hu Hc _. cbn in Hc.
  repeat match type of Hc with (if ?b then _ else _) = _ => destruct b end; try discriminate; injection Hc as <-;
  cbn in Hu; repeat (destruct Hu as [<-|Hu]; [vm_compute; discriminate|]); destruct Hu.
Qed.

(** ** C39 *)
(** The rules worked out for a client: the provider's, overridden key by key by the client's. *)
Theorem C39_usage_rules :
  forall env c ttype,
  applied env (usage_rules env c) ttype = effective env c ttype /\
  usage_rules_for env c ttype = match effective env c ttype with Some r => r | None => no_rules end.
Proof. intros. split; [apply usage_rules_applied|apply usage_rules_for_effective]. Qed.
Print Assumptions C39_usage_rules.

(** Whatever tokens have been made for whatever clients, the rules of a new token are the same. *)
Theorem C39_history :
  forall ops env c ttype cls, of_type ttype cls ->
  fst (make_rules (rrun ops env) (usage_rules (rrun ops env) c) ttype) =
    set_defaults cls (match effective env c ttype with Some r => r | None => no_rules end).
Proof.
  intros ops env c ttype cls Hc. assert (Ht : TOKEN_MAP ttype = Some cls) by (destruct Hc as [(-> & ->)|[(-> & ->)|(-> & ->)]]; reflexivity).
  assert (H : Some (fst (make_rules (rrun ops env) (usage_rules (rrun ops env) c) ttype)) = token_rules env c ttype);
    [|unfold token_rules in H; rewrite Ht in H; congruence].
  rewrite <- (token_rules_stable ops env c ttype). generalize (rrun ops env). intros e.
  unfold token_rules, make_rules. rewrite Ht, <- usage_rules_applied. unfold applied.
  destruct (rules_at e (usage_rules e c) ttype); reflexivity.
Qed.
Print Assumptions C39_history.

(** ... but the authorization handler throws the client's rules away when the provider has any
    (authz/__init__.py:74-78): for every token type the rules are then the provider's alone. *)
Theorem C39_authorized_ignores_client_refuted :
  (forall env c ttype, re_config env <> None ->
     applied env (authz_rules env (usage_rules env c)) ttype = provider_default env ttype) /\
  exists env c ttype, applied env (authz_rules env (usage_rules env c)) ttype <> effective env c ttype.
Proof.
  split.
  - intros env c ttype H. unfold applied, authz_rules, provider_default, config_rules in *.
    destruct (re_config env) as [d|] eqn:E; [|congruence]. cbn [rules_at]. unfold config_rules. rewrite E.
    destruct (dmem ttype d) eqn:M; cbn [option_map rules_now].
    + unfold config_rules. rewrite E. unfold dget_or, dmem in *. destruct (dget ttype d); [reflexivity|discriminate].
    + unfold dmem in M. destruct (dget ttype d); [discriminate|reflexivity].
  - exists (mkRE (Some [("access_token", mkURules None None (Some 3600))])
              [("c1", [("access_token", mkURules None None (Some 60))])]), "c1", "access_token".
    vm_compute. discriminate.
Qed.
Print Assumptions C39_authorized_ignores_client_refuted.

(** Making a token can change the dicts of the configuration. *)
Theorem C39_config_changed_refuted :
  exists env c ttype, re_config (rrun [mkROp c ttype true] env) <> re_config env.
Proof.
  exists (mkRE (Some [("authorization_code", mkURules None None (Some 300))]) []), "c1", "authorization_code".
  vm_compute. discriminate.
Qed.
Print Assumptions C39_config_changed_refuted.

Definition env1 : rules_env :=
  mkRE (Some [("authorization_code", mkURules (Some 1) (Some ["access_token"]) (Some 300)); ("access_token", mkURules None None (Some 3600))])
       [("c1", [("access_token", mkURules None None (Some 60)); ("refresh_token", mkURules None (Some ["access_token"]) (Some 900))])].
Example C39_ex :
  effective env1 "c1" "access_token" = Some (mkURules None None (Some 60)) /\
  effective env1 "c1" "refresh_token" = Some (mkURules None (Some ["access_token"]) (Some 900)) /\
  effective env1 "c2" "access_token" = Some (mkURules None None (Some 3600)) /\
  effective env1 "c2" "refresh_token" = None.
Proof. repeat split. Qed.

(** ** C43 *)
(** For a token of a session: active exactly when it is an access or refresh token that is usable;
    otherwise nothing else is said about it. No session is changed. *)
Theorem C43_active_iff :
  forall sid_of cx clients clock un request s value u c g t,
  dget "token" request = Some (VStr value) -> names sid_of s value u c g t ->
  claims_ok clients g "introspection" ->
  exists args, introspection_process sid_of cx clients clock un request s = (Ok (AOk args None), s) /\
    (dget "active" args = Some (VBool true) <->
     (t_type t = "access_token" \/ t_type t = "refresh_token") /\ token_usable clock t) /\
    (dget "active" args <> Some (VBool true) -> args = [("active", VBool false)]).
Proof.
  intros sid_of cx clients clock un request s value u c g t Hv Hn Hok.
  assert (Hr : exists ui, release (userinfo cx u) (grant_claims clients "introspection" g) = Ok ui).
  { unfold grant_claims. destruct (dget "introspection" (g_claims g)) as [r|] eqn:E; [|exists []; reflexivity].
    destruct (Hok r E) as [_ Hq]. destruct (release_spec (userinfo cx u) _ Hq) as (ui & A & _). eauto. }
  destruct Hr as [ui Hr].
  destruct (introspect cx clock t c g) as [info|] eqn:Ei.
  - eexists. split; [eapply introspection_run; eauto|]. rewrite dget_dset_eq. split; [|congruence].
    split; [intros _|reflexivity]. apply (introspect_iff cx clock t c g). congruence.
  - exists [("active", VBool false)]. split.
    + destruct (unpack3_names _ _ _ _ _ _ _ Hn) as (sid & gid & A & B & C).
      unfold introspection_process, get_session_info_by_token, grant_of, as_grant, gets, id, bind, lift, ret, raise.
      unfold msub_str. rewrite Hv, A, B. cbn [fst in_grant in_cid in_uid]. rewrite C, Ei. reflexivity.
    + split; [|reflexivity]. split; [discriminate|]. intros X. apply (introspect_iff cx clock t c g) in X. congruence.
Qed.
Print Assumptions C43_active_iff.

(** Every answer "active" is about a usable access or refresh token of a session, and has the
    facts of that token, each unless the grant lists a user claim of that name for introspection. *)
Theorem C43_members_partial :
  forall sid_of cx clients clock un request s args cid s',
  introspection_process sid_of cx clients clock un request s = (Ok (AOk args cid), s') ->
  s' = s /\ cid = None /\
  (args = [("active", VBool false)] \/
   exists value u c g t, dget "token" request = Some (VStr value) /\ names sid_of s value u c g t /\
     (t_type t = "access_token" \/ t_type t = "refresh_token") /\ token_usable clock t /\
     dget "active" args = Some (VBool true) /\
     let says k v := (forall spec, ~ listed clients g "introspection" k spec) -> dget k args = Some v in
     says "client_id" (VStr c) /\ says "sub" (VStr (g_sub g)) /\ says "iss" (VStr (cx_issuer cx)) /\
     says "token_type" (VStr (t_type t)) /\ says "exp" (VInt (t_expires_at t)) /\ says "iat" (VInt (t_issued_at t)) /\
     says "scope" (VStr (join " " (if is_nil (t_scope t) then g_scope g else t_scope t)))).
Proof.
  intros sid_of cx clients clock un request s args cid s' H.
  assert (Hs : s' = s) by (rewrite <- (introspection_state sid_of cx clients clock un request s), H; reflexivity).
  split; [exact Hs|].
  destruct (introspection_cases sid_of cx clients clock un request s _ s' H) as (value & Hv & [(_ & D)|[(sid & _ & X & _)|(u & c & g & t & Hn & [(_ & D)|(info & ui & Hi & Hr & D)])]]).
  - injection D as -> ->. auto.
  - exfalso. exact (read_not_unknown _ _ X).
  - injection D as -> ->. auto.
  - injection D as -> ->. split; [reflexivity|]. right. exists value, u, c, g, t. split; [exact Hv|]. split; [exact Hn|].
    assert (T : introspect cx clock t c g <> None) by congruence. apply introspect_iff in T. destruct T as [T1 T2].
    split; [exact T1|]. split; [exact T2|]. split; [apply dget_dset_eq|].
    assert (P : proper info) by exact (introspect_proper sid_of _ _ _ _ _ _ Hi).
    assert (N : forall k, (forall spec, ~ listed clients g "introspection" k spec) -> dget k (rev ui) = None).
    { intros k Hk. destruct (dget k (rev ui)) as [x|] eqn:E; [|reflexivity]. exfalso. apply dget_In, in_rev in E.
      destruct (release_sound _ _ _ _ _ Hr E) as (spec & A & _). apply (Hk spec). now apply grant_claims_listed. }
    cbv zeta.
    assert (M : forall k v, k <> "active" -> k <> "username" -> dget k info = Some v ->
                (forall spec, ~ listed clients g "introspection" k spec) ->
                dget k (dset "active" (VBool true) (dupdate (dupdate [("active", VBool false)]
                   (if un then dset "username" (VStr u) info else info)) ui)) = Some v).
    { intros k v A B C D. rewrite (introspect_member k info ui un u P A B (N k D)). exact C. }
    assert (Hi' := Hi). unfold introspect in Hi'. destruct (negb _) in Hi'; [discriminate|]. destruct (negb _) in Hi'; [discriminate|].
    injection Hi' as <-.
    repeat split; apply M; try discriminate;
      destruct (is_nil (if is_nil (t_resources t) then g_resources g else t_resources t)); reflexivity.
Qed.
Print Assumptions C43_members_partial.

(** The full property fails: with the openid scope the claim "sub" is listed, and a user
    record with an attribute "sub" replaces the subject identifier; likewise client_id. *)
Theorem C43_members_refuted :
  exists cx clients clock request s args c g,
    introspection_process sids cx clients clock false request s = (Ok (AOk args None), s) /\
    names sids s "at1" "diana" c g (tok CAccess "access_token" "at1" false) /\
    dget "active" args = Some (VBool true) /\
    dget "sub" args <> Some (VStr (g_sub g)) /\ dget "client_id" args <> Some (VStr c).
Proof.
  set (g := g_set_claims [("introspection", CVal [("sub", VNone); ("client_id", VNone)])] gr1).
  exists (mkCtx "https://op.example.org" [] None s2c mods [("diana", [("sub", VStr "dikr0001"); ("client_id", VStr "other")])]
            (mkGConf None None)), clients1, 2000, (irq "at1"), (st1 g false).
  eexists. exists "c1", g. split; [vm_compute; reflexivity|]. split.
  { exists sid1, "g1". repeat (split; [reflexivity|]).
    exists [tok CCode "authorization_code" "code1" false], [tok CRefresh "refresh_token" "rt1" false; tok CAccess "access_token" "at2" true].
    split; [reflexivity|]. cbn. intuition discriminate. }
  split; [reflexivity|]. split; discriminate.
Qed.
Print Assumptions C43_members_refuted.

Example C43_ex :
  introspection_process sids cx1 clients1 2000 true (irq "rt1") (st1 gr1 false) =
  (Ok (AOk [("active", VBool true); ("scope", VStr "openid email"); ("client_id", VStr "c1"); ("token_type", VStr "refresh_token");
            ("exp", VInt 5000); ("iat", VInt 1000); ("sub", VStr "sub-of-diana"); ("iss", VStr "https://op.example.org");
            ("aud", vstrs ["c1"]); ("username", VStr "diana"); ("eduperson", VStr "staff")] None), st1 gr1 false) /\
  introspection_process sids cx1 clients1 5001 true (irq "rt1") (st1 gr1 false) = (Ok (AOk [("active", VBool false)] None), st1 gr1 false) /\
  introspection_process sids cx1 clients1 2000 true (irq "at2") (st1 gr1 false) = (Ok (AOk [("active", VBool false)] None), st1 gr1 false) /\
  introspection_process sids cx1 clients1 2000 true (irq "zzz") (st1 gr1 false) = (Ok (AOk [("active", VBool false)] None), st1 gr1 false).
Proof. vm_compute. repeat split. Qed.

(** ** C16, the userinfo and introspection parts *)
Theorem C16_userinfo :
  forall sid_of cx clients clock request s value u c g t,
  dget "access_token" request = Some (VStr value) -> names sid_of s value u c g t -> t_class t <> CAccess ->
  userinfo_process sid_of cx clients clock request s = (Ok (AError "invalid_token" "Wrong type of token"), s).
Proof.
  intros sid_of cx clients clock request s value u c g t Hv Hn Hc.
  destruct (unpack3_names _ _ _ _ _ _ _ Hn) as (sid & gid & A & B & C).
  unfold userinfo_process, get_session_info_by_token, grant_of, as_grant, bind, lift, ret, raise.
  unfold msub_str. rewrite Hv, A, B. cbn [in_grant in_uid in_cid]. rewrite C.
  destruct (t_class t); try reflexivity. congruence.
Qed.
Print Assumptions C16_userinfo.

Theorem C16_introspection :
  forall sid_of cx clients clock un request s value u c g t,
  dget "token" request = Some (VStr value) -> names sid_of s value u c g t ->
  t_type t <> "access_token" -> t_type t <> "refresh_token" ->
  introspection_process sid_of cx clients clock un request s = (Ok (AOk [("active", VBool false)] None), s).
Proof.
  intros sid_of cx clients clock un request s value u c g t Hv Hn H1 H2.
  destruct (unpack3_names _ _ _ _ _ _ _ Hn) as (sid & gid & A & B & C).
  unfold introspection_process, get_session_info_by_token, grant_of, as_grant, gets, id, bind, lift, ret, raise.
  unfold msub_str. rewrite Hv, A, B. cbn [fst in_grant in_cid in_uid]. rewrite C.
  assert (E : introspect cx clock t c g = None).
  { destruct (introspect cx clock t c g) eqn:E; [|reflexivity]. assert (X : introspect cx clock t c g <> None) by congruence.
    apply introspect_iff in X. tauto. }
  rewrite E. reflexivity.
Qed.
Print Assumptions C16_introspection.

(** ** C08, the userinfo and introspection parts: a dead token is refused. *)
Theorem C08_userinfo_partial :
  forall sid_of cx clients clock request s value u c g t,
  dget "access_token" request = Some (VStr value) -> names sid_of s value u c g t -> ~ token_usable clock t ->
  exists d, userinfo_process sid_of cx clients clock request s = (Ok (AError "invalid_token" d), s).
Proof.
  intros sid_of cx clients clock request s value u c g t Hv Hn Hu.
  destruct (unpack3_names _ _ _ _ _ _ _ Hn) as (sid & gid & A & B & C).
  unfold userinfo_process, get_session_info_by_token, grant_of, as_grant, bind, lift, ret, raise.
  unfold msub_str. rewrite Hv, A, B. cbn [in_grant in_uid in_cid]. rewrite C.
  destruct (negb (tclass_eqb _ _)); [eexists; reflexivity|].
  destruct (t_active clock t) eqn:E; [apply GrantProofs.t_active_iff in E; contradiction|]. eexists. reflexivity.
Qed.
Print Assumptions C08_userinfo_partial.

Theorem C08_introspection_partial :
  forall sid_of cx clients clock un request s value u c g t,
  dget "token" request = Some (VStr value) -> names sid_of s value u c g t -> ~ token_usable clock t ->
  introspection_process sid_of cx clients clock un request s = (Ok (AOk [("active", VBool false)] None), s).
Proof.
  intros sid_of cx clients clock un request s value u c g t Hv Hn Hu.
  destruct (unpack3_names _ _ _ _ _ _ _ Hn) as (sid & gid & A & B & C).
  unfold introspection_process, get_session_info_by_token, grant_of, as_grant, gets, id, bind, lift, ret, raise.
  unfold msub_str. rewrite Hv, A, B. cbn [fst in_grant in_cid in_uid]. rewrite C.
  assert (E : introspect cx clock t c g = None).
  { destruct (introspect cx clock t c g) eqn:E; [|reflexivity]. assert (X : introspect cx clock t c g <> None) by congruence.
    apply introspect_iff in X. tauto. }
  rewrite E. reflexivity.
Qed.
Print Assumptions C08_introspection_partial.

Lemma same_answers sid_of cx clients clock un s s' u c gid gr gr' value :
  good u -> good c -> good gid ->
  view s [u; c; gid] = Some (EGrant gr) -> view s' [u; c; gid] = Some (EGrant gr') -> gr' = gr \/ gr' = g_set_revoked true gr ->
  sid_of value = Ok (session_key [u; c; gid]) -> In value (map t_value (g_issued gr)) ->
  fst (userinfo_process sid_of cx clients clock (arq value) s') = fst (userinfo_process sid_of cx clients clock (arq value) s) /\
  fst (introspection_process sid_of cx clients clock un (irq value) s') = fst (introspection_process sid_of cx clients clock un (irq value) s).
Proof.
  intros Hu Hc Hg Vg V EE Hs Hin.
  assert (Hn : exists t, get_token value gr = Some t /\ names sid_of s value u c gr t).
  { destruct (get_token value gr) as [t|] eqn:E.
    - exists t. split; [reflexivity|]. eapply get_names; eauto. now apply unpack3_good.
    - exfalso. unfold get_token in E. apply in_map_iff in Hin. destruct Hin as (t & <- & Ht).
      eapply find_none in E; [|exact Ht]. cbv beta in E. now rewrite String.eqb_refl in E. }
  destruct Hn as (t & Ht & Hn).
  assert (Hn' : names sid_of s' value u c gr' t).
  { eapply get_names; eauto; [now apply unpack3_good|]. destruct EE; subst; exact Ht. }
  destruct (unpack3_names _ _ _ _ _ _ _ Hn) as (sid & gid0 & A & B & C).
  destruct (unpack3_names _ _ _ _ _ _ _ Hn') as (sid' & gid' & A' & B' & C').
  assert (sid' = sid) by congruence. subst sid'.
  unfold userinfo_process, introspection_process, get_session_info_by_token, grant_of, as_grant, gets, id, bind, lift, ret, raise.
  cbn [arq irq msub_str dget String.eqb Ascii.eqb Bool.eqb]. rewrite A, B, B'. cbn [fst in_grant in_uid in_cid]. rewrite C, C'.
  unfold introspect, grant_claims. destruct EE; subst gr'; cbn [g_set_revoked g_claims g_authn g_sub g_scope g_resources].
  all: split; repeat match goal with
    | |- fst ?x = fst ?x => reflexivity
    | |- fst (_, _) = fst (_, _) => reflexivity
    | |- fst ((if ?x then _ else _) _) = _ => destruct x
    | |- fst (match ?x with _ => _ end _) = _ => destruct x
    | |- fst (match ?x with _ => _ end) = _ => destruct x
    end.
Qed.

(** ** C09 fails at userinfo and introspection *)
(** Revoking the grant, or the client session, makes no difference to either endpoint: for every
    session, every token of it, and every request with that token the answer is what it was. *)
Theorem C09_no_effect_refuted :
  forall sid_of cx clients clock un s u c gid gr ci value,
  kinds_ok s -> linked s -> good u -> good c -> good gid ->
  view s [u; c; gid] = Some (EGrant gr) -> view s [u; c] = Some (EInfo ci) ->
  sid_of value = Ok (session_key [u; c; gid]) -> In value (map t_value (g_issued gr)) ->
  forall op, op = revoke_grant (session_key [u; c; gid]) \/ op = revoke_client_session (session_key [u; c; gid]) ->
  exists s', op s = (Ok tt, s') /\
    fst (userinfo_process sid_of cx clients clock (arq value) s') = fst (userinfo_process sid_of cx clients clock (arq value) s) /\
    fst (introspection_process sid_of cx clients clock un (irq value) s') = fst (introspection_process sid_of cx clients clock un (irq value) s).
Proof.
  intros sid_of cx clients clock un s u c gid gr ci value Hk Hl Hu Hc Hg Vg Vc Hs Hin op [-> | ->].
  - destruct (revoke_grant_effect s u c gid gr Hk Hl Hu Hc Hg Vg) as (s' & E & V & _). exists s'. split; [exact E|].
    eapply (same_answers _ _ _ _ _ s s' u c gid gr (g_set_revoked true gr)); auto.
  - destruct (revoke_client_effect s u c gid ci Hk Hl Hu Hc Hg Vc) as (s' & E & _ & Vo). exists s'. split; [exact E|].
    eapply (same_answers _ _ _ _ _ s s' u c gid gr gr); auto. rewrite Vo; [exact Vg| |discriminate]. auto with gp.
Qed.
Print Assumptions C09_no_effect_refuted.

(** A witness: the grant is revoked and userinfo releases the claims, introspection says active. *)
Example C09_ex :
  exists s', revoke_grant sid1 (st1 gr1 false) = (Ok tt, s') /\ s' = st1 (g_set_revoked true gr1) false /\
  (exists args, userinfo_process sids cx1 clients1 2000 (arq "at1") s' = (Ok (AOk args (Some "c1")), s') /\ dget "email" args <> None) /\
  (exists args, introspection_process sids cx1 clients1 2000 false (irq "at1") s' = (Ok (AOk args None), s') /\
                dget "active" args = Some (VBool true)).
Proof.
  eexists. split; [vm_compute; reflexivity|]. split; [reflexivity|].
  split; eexists; (split; [vm_compute; reflexivity|]); [discriminate|reflexivity].
Qed.
