(** PropsSelfRegistered.v: what a client can register about its own scopes, claims and usage rules (C111). *)
From Verif Require Import Base BaseProofs Monad Types Grant Ctx Uri ClientAuthn Registration RegistrationSpec RegistrationProofs RegisteredUrisSpec
  Token GrantSpec Scopes ScopesSpec ScopesProofs Claims ClaimsSpec Authz AuthzSpec AuthzProofs PropsRegistration PropsRegisteredUris PropsClaims PropsIntrospection PropsLogoutRegistered.
Local Open Scope Z_scope.

Lemma listed s l : In s l -> val_in (VStr s) (vstrs l) = Ok true.
Proof.
  intros I. cbn. f_equal. apply existsb_exists. exists (VStr s). split; [now apply in_map|]. cbn. now rewrite String.eqb_refl.
Qed.
Lemma keep_listed scopes l : incl scopes l -> rfilter (fun s => val_in (VStr s) (vstrs l)) scopes = Ok scopes.
Proof.
  induction scopes as [|s scopes IH]; intros I; [reflexivity|]. cbn [rfilter]. rewrite (listed s l) by (apply I; now left).
  cbn [rbind]. rewrite IH by (intros x X; apply I; now right). reflexivity.
Qed.
Lemma accept_listed deny cinfo scopes l : incl scopes l -> scope_policy deny (vstrs l) cinfo scopes = Ok tt.
Proof.
  induction scopes as [|s scopes IH]; intros I; [reflexivity|]. cbn [scope_policy]. rewrite (listed s l) by (apply I; now left).
  assert (J : incl scopes l) by (intros x X; apply I; now right). destruct deny; cbn [rmap rbind negb]; now apply IH.
Qed.

(** What is not in the request, and is not for the server to say, is not recorded. *)
Lemma not_recorded c d n ss rq s rq' info args k : registers c d n ss rq s rq' info args -> NoDup (dkeys rq') -> ~ In k special ->
  (forall i, server_value c d n ss i k = None) -> dget k rq' = None -> dget k info = None.
Proof.
  intros (s' & i & H & Ef & G & D) N S Sv Dk. destruct (C26_success _ _ _ _ _ _ _ _ H) as (i2 & rq2 & info2 & E2 & G2 & D2 & _ & _ & _ & K).
  assert (rq2 = rq'). { destruct Ef as (v1 & V1 & ->). destruct E2 as (v2 & V2 & ->). assert (v2 = v1) by congruence. now subst v2. } subst rq2.
  assert (i2 = i) by now apply (given_unique n d (rg_cdb s) rq'). subst i2. assert (info2 = info) by congruence. subst info2. rewrite (K N k S), Dk. apply Sv.
Qed.

(** The provider decides which scopes a client may use if the client's registration says nothing of them: exactly those that it has claims for and
    supports are let through. *)
Theorem C111_scopes_partial : forall co d n ss rq s rq' info args cx (clients : cdb) c scopes,
  registers co d n ss rq s rq' info args -> NoDup (dkeys rq') -> dget "allowed_scopes" rq' = None -> dget c clients = Some info ->
  list_or_absent "scopes_supported" (cx_provider_info cx) ->
  exists r, filter_scopes cx clients c scopes = Ok r /\
    ScopesSpec.kept (fun x => In x (dkeys (cx_scope2claims cx)) /\
                   forall l, dget "scopes_supported" (cx_provider_info cx) = Some (VList l) -> l <> [] -> In (VStr x) l) scopes r.
Proof.
  intros co d n ss rq s rq' info args cx clients c scopes H N D Dc T.
  assert (A : dget "allowed_scopes" info = None).
  { apply (not_recorded co d n ss rq s rq' info args _ H N); [cbn; intuition discriminate|reflexivity|exact D]. }
  destruct (filter_kept cx clients c scopes T) as (r & F & K).
  { intros cli E. assert (cli = info) by congruence. subst cli. now left. }
  exists r. split; [exact F|].
  assert (Q : forall x, may_use cx clients c x <-> (In x (dkeys (cx_scope2claims cx)) /\
                   forall l, dget "scopes_supported" (cx_provider_info cx) = Some (VList l) -> l <> [] -> In (VStr x) l)).
  { intros x. unfold may_use. split.
    - intros (cli & E & [(l & B & _)|(_ & B)]); assert (cli = info) by congruence; subst cli; [congruence|exact B].
    - intros B. exists info. split; [exact Dc|]. right. split; [|exact B]. intros l E. congruence. }
  clear F. induction K as [|x l l' P K IH|x l l' P K IH]; constructor; auto; rewrite <- Q; auto.
Qed.
Print Assumptions C111_scopes_partial.

(** Refuted that the provider decides which scopes a client may use: the scopes that a client says in its own registration are allowed to it are let
    through, whatever the provider is configured with, known to it or not. *)
Theorem C111_scopes_refuted : forall co d n ss rq s rq' info args l cx (clients : cdb) c scopes,
  registers co d n ss rq s rq' info args -> NoDup (dkeys rq') -> dget "allowed_scopes" rq' = Some (vstrs l) ->
  dget c clients = Some info -> scopes <> [] -> incl scopes l ->
  filter_scopes cx clients c scopes = Ok scopes /\
  (cx_capabilities cx <> None -> check_unknown_scopes_policy cx scopes info = Ok tt).
Proof.
  intros co d n ss rq s rq' info args l cx clients c scopes H N D Dc Ne I.
  assert (A : truthy_get "allowed_scopes" info = Some (vstrs l)).
  { unfold truthy_get. rewrite (registered_member co d n ss rq s rq' info args "allowed_scopes" (vstrs l) H N); [|cbn; intuition discriminate|exact D].
    destruct l as [|x l]; [|reflexivity]. destruct scopes as [|y scopes]; [now destruct Ne|]. destruct (I y). now left. }
  split.
  - unfold filter_scopes, allowed_scopes. rewrite Dc, A. cbn [rbind]. now apply keep_listed.
  - intros K. unfold check_unknown_scopes_policy. destruct (cx_capabilities cx) as [caps|]; [|now destruct K]. cbn [of_option rbind]. rewrite A. cbn [rbind].
    now apply accept_listed.
Qed.
Print Assumptions C111_scopes_refuted.

(** It decides too which claims are for the client if the client's registration lists none: those that the authorization request asks for, that a scope
    stands for and that are configured for all. *)
Theorem C111_claims_partial : forall co d n ss rq s rq' info args usage cx (clients : cdb) c ar scopes r clients',
  registers co d n ss rq s rq' info args -> NoDup (dkeys rq') -> In usage usages -> dget (usage ++ "_claims")%string rq' = None ->
  dget c clients = Some info ->
  typed_config cx clients c -> typed_request ar -> unshared cx clients ->
  get_claims cx c ar scopes usage clients = (Ok r, clients') ->
  exists claims, r = CVal claims /\
    forall k, dmem k claims = true <->
      (from_request ar usage k <> None \/ from_scope cx clients c scopes usage k \/ from_base cx usage k <> None).
Proof.
  intros co d n ss rq s rq' info args usage cx clients c ar scopes r clients' H N Iu D Dc T1 T2 U G.
  destruct (C18_get_claims _ _ _ _ _ _ _ _ Iu T1 T2 U G) as (_ & m & -> & W). exists m. split; [reflexivity|]. intros k. specialize (W k).
  assert (A : dget (usage ++ "_claims")%string info = None).
  { apply (not_recorded co d n ss rq s rq' info args _ H N); [| |exact D].
    - cbn in Iu. intuition (subst usage; match goal with X : In _ special |- _ => cbn in X; intuition discriminate end).
    - intros i. cbn in Iu. intuition (subst usage; reflexivity). }
  assert (F : ~ from_client cx clients c usage k).
  { intros (_ & cli & l & E & B & _). assert (cli = info) by congruence. subst cli. congruence. }
  unfold wanted in W. unfold dmem. destruct (from_request ar usage k).
  - rewrite W. split; [intros _; left; discriminate|reflexivity].
  - destruct W as [[S W]|[S W]]; [rewrite W; split; auto|]. destruct (from_base cx usage k).
    + rewrite W. split; [intros _; right; right; discriminate|reflexivity].
    + destruct W as [[W _]|[_ W]]; [tauto|]. rewrite W. split; [discriminate|]. intros [B|[B|B]]; tauto.
Qed.
Print Assumptions C111_claims_partial.

(** And refuted that it decides which claims are listed for a client: where claims per client are switched on, a client gets the claims that it has
    listed in its own registration, with no scope or request for them. *)
Theorem C111_claims_refuted : forall co d n ss rq s rq' info args usage l k cx (clients : cdb) c ar scopes r clients',
  registers co d n ss rq s rq' info args -> NoDup (dkeys rq') -> In usage usages -> dget (usage ++ "_claims")%string rq' = Some (vstrs l) -> In k l ->
  enabled cx usage "enable_claims_per_client" -> dget c clients = Some info ->
  typed_config cx clients c -> typed_request ar -> unshared cx clients ->
  get_claims cx c ar scopes usage clients = (Ok r, clients') ->
  exists claims, r = CVal claims /\ dmem k claims = true.
Proof.
  intros co d n ss rq s rq' info args usage l k cx clients c ar scopes r clients' H N Iu D Ik En Dc T1 T2 U G.
  destruct (C18_get_claims _ _ _ _ _ _ _ _ Iu T1 T2 U G) as (_ & m & -> & W). exists m. split; [reflexivity|]. specialize (W k).
  assert (F : from_client cx clients c usage k).
  { split; [exact En|]. exists info, (map VStr l). split; [exact Dc|]. split; [|now apply in_map].
    apply (registered_member _ _ _ _ _ _ _ _ _ _ _ H N); [|exact D].
    cbn in Iu. intuition (subst usage; match goal with X : In _ special |- _ => cbn in X; intuition discriminate end). }
  unfold wanted in W. unfold dmem. destruct (dget k m) as [x|]; [reflexivity|exfalso].
  destruct (from_request ar usage k); [discriminate|]. destruct W as [[_ W]|[_ W]]; [discriminate|].
  destruct (from_base cx usage k); [discriminate|]. destruct W as [[_ W]|[W _]]; [discriminate|tauto].
Qed.
Print Assumptions C111_claims_refuted.

(** Rule dicts as a registration request holds them, and what it means that the rules of clients are those in their records *)
Definition rule_val (r : urules) : val :=
  VDict ((match ur_max_usage r with Some n => [("max_usage"%string, VInt n)] | None => [] end) ++
         (match ur_mints r with Some l => [("supports_minting"%string, vstrs l)] | None => [] end) ++
         (match ur_expires_in r with Some n => [("expires_in"%string, VInt n)] | None => [] end))%list.
Definition rules_val (m : dict urules) : val := VDict (map (fun kr => (fst kr, rule_val (snd kr))) m).
Definition from_records (clients : cdb) (env : rules_env) : Prop :=
  forall c cli, dget c clients = Some cli ->
    (dget "token_usage_rules" cli = None -> dget c (re_clients env) = None) /\
    (forall m, dget "token_usage_rules" cli = Some (rules_val m) -> dget c (re_clients env) = Some m).

(** The provider decides on the rules of the tokens of a client whose registration says nothing of them. *)
Theorem C111_rules_partial : forall co d n ss rq s rq' info args (clients : cdb) env c ttype cls ops,
  registers co d n ss rq s rq' info args -> NoDup (dkeys rq') -> dget "token_usage_rules" rq' = None ->
  dget c clients = Some info -> from_records clients env -> of_type ttype cls ->
  let now := rrun ops env in
  fst (make_rules now (usage_rules now c) ttype) = set_defaults cls (match provider_default env ttype with Some r => r | None => no_rules end).
Proof.
  intros co d n ss rq s rq' info args clients env c ttype cls ops H N D Dc Fr T now.
  assert (Di : dget "token_usage_rules" info = None).
  { apply (not_recorded co d n ss rq s rq' info args _ H N); [cbn; intuition discriminate|reflexivity|exact D]. }
  unfold now. rewrite (C39_history ops env c ttype cls T). unfold AuthzSpec.effective, client_rules.
  rewrite (proj1 (Fr c info Dc) Di). now destruct (provider_default env ttype).
Qed.
Print Assumptions C111_rules_partial.

(** Refuted for the rules of tokens too: with the rules in its own registration a client decides how long its tokens live, whatever has happened before.
    Where the provider configures usage rules this is so for grants as they are made, and where it does not for those that the handler has authorized as well. *)
Theorem C111_rules_refuted : forall co d n ss rq s rq' info args m p k (clients : cdb) env c ttype cls ops,
  registers co d n ss rq s rq' info args -> NoDup (dkeys rq') -> dget "token_usage_rules" rq' = Some (rules_val m) -> dget ttype m = Some p ->
  ur_expires_in p = Some k -> dget c clients = Some info -> from_records clients env -> of_type ttype cls ->
  let now := rrun ops env in
  ur_expires_in (fst (make_rules now (usage_rules now c) ttype)) = Some k /\
  (re_config env = None -> ur_expires_in (fst (make_rules now (authz_rules now (usage_rules now c)) ttype)) = Some k).
Proof.
  intros co d n ss rq s rq' info args m p k clients env c ttype cls ops H N D Dp Ep Dc Fr T now.
  assert (Di : dget "token_usage_rules" info = Some (rules_val m)).
  { apply (registered_member co d n ss rq s rq' info args "token_usage_rules" (rules_val m) H N); [cbn; intuition discriminate|exact D]. }
  assert (E : exists r, AuthzSpec.effective env c ttype = Some r /\ ur_expires_in r = Some k).
  { unfold AuthzSpec.effective, client_rules. rewrite (proj2 (Fr c info Dc) m Di), Dp. destruct (provider_default env ttype) as [dr|]; eexists; (split; [reflexivity|]).
    - cbn. now rewrite Ep.
    - exact Ep. }
  assert (A : ur_expires_in (fst (make_rules now (usage_rules now c) ttype)) = Some k).
  { unfold now. rewrite (C39_history ops env c ttype cls T). destruct E as (r & -> & X). now destruct cls. }
  split; [exact A|]. intros Rc. unfold authz_rules.
  assert (Rn : re_config now = None).
  { unfold now. destruct (rrun_shape ops env) as [X _]. now apply X. }
  rewrite Rn. exact A.
Qed.
Print Assumptions C111_rules_refuted.

(** ** A case: the client c1 of C96 allows itself a scope the provider knows nothing of, and lists claims for itself. *)
From Verif Require Import PropsAuthzEndpoint PropsNewClient.
Definition rq_self : msg :=
  [("redirect_uris", vstrs [cb]); ("response_types", vstrs ["code"]); ("allowed_scopes", vstrs ["openid"; "admin"]); ("userinfo_claims", vstrs ["eduperson"])]%string.
Definition reg_self (rq : msg) : cdb := rg_cdb (snd (client_registration_setup conf96 draw96 true true rq reg0)).
Definition info_self : msg := Eval vm_compute in match dget "c1" (reg_self rq_self) with Some i => i | None => [] end.
Definition names_self (o : result cref * cdb) : list string := match o with (Ok (CVal m), _) => dkeys m | _ => [] end.
Example C111_ex_self : exists args,
  registers conf96 draw96 true true rq_self reg0 rq_self info_self args /\ NoDup (dkeys rq_self) /\ dget "c1" (reg_self rq_self) = Some info_self /\
  denies_unknown cx1 /\ ~ In "admin"%string (dkeys (cx_scope2claims cx1)) /\
  filter_scopes cx1 (reg_self rq_self) "c1" ["admin"]%string = Ok ["admin"]%string /\ check_unknown_scopes_policy cx1 ["admin"]%string info_self = Ok tt /\
  filter_scopes cx1 (reg_self (ddel "allowed_scopes" rq_self)) "c1" ["admin"]%string = Ok [] /\
  check_unknown_scopes_policy cx1 ["admin"]%string (ddel "allowed_scopes" info_self) = Raise EUnAuthorizedClient /\
  names_self (get_claims cx1 "c1" (Some []) ["openid"]%string "userinfo" (reg_self rq_self)) = ["eduperson"; "sub"]%string /\
  names_self (get_claims cx1 "c1" (Some []) ["openid"]%string "userinfo" (reg_self (ddel "userinfo_claims" rq_self))) = ["sub"]%string.
Proof.
  eexists. split.
  - eexists. exists "c1"%string. split; [vm_compute; reflexivity|]. split; [exists rq_self; split; reflexivity|]. split; [|vm_compute; reflexivity].
    exists ["taken"%string], []. split; [reflexivity|]. split; [reflexivity|]. constructor; [discriminate|constructor].
  - split; [cbn; repeat constructor; cbn; intuition discriminate|]. split; [vm_compute; reflexivity|]. split; [reflexivity|]. split; [cbn; intuition discriminate|].
    repeat (split; [vm_compute; reflexivity|]). vm_compute. reflexivity.
Qed.
(** ... and the other hypotheses of C111_claims_refuted hold there. *)
Example C111_ex_claims :
  enabled cx1 "userinfo" "enable_claims_per_client" /\ typed_config cx1 (reg_self rq_self) "c1" /\ typed_request (Some []) /\
  unshared cx1 (reg_self rq_self) /\ dget "userinfo_claims" rq_self = Some (vstrs ["eduperson"%string]) /\ In "userinfo"%string usages.
Proof.
  split; [eexists; split; reflexivity|]. split.
  - split; [right; eexists; reflexivity|]. split.
    + intros cli H. vm_compute in H. injection H as <-. right. eexists. vm_compute. reflexivity.
    + intros usage m H. unfold module_kwarg in H. cbn in H. 
      repeat match type of H with context [String.eqb ?a ?b] => destruct (String.eqb a b) end; cbn in H; try discriminate.
      injection H as <-. repeat constructor; cbn; intuition.
  - split; [intros ar cl u m [= <-]; discriminate|]. split; [|split; [reflexivity|now left]].
    intros c cli usage m Iu D _. apply dget_In in D. vm_compute in D. cbn in Iu.
    intuition (subst usage; repeat match goal with X : (_, _) = (_, _) |- _ => injection X as <- <- end; vm_compute; discriminate).
Qed.
(** A client that says nothing of either *)
Definition rq_silent : msg := [("redirect_uris", vstrs [cb]); ("response_types", vstrs ["code"])]%string.
Definition info_silent : msg := Eval vm_compute in match dget "c1" (reg_self rq_silent) with Some i => i | None => [] end.
Example C111_ex_silent : exists args,
  registers conf96 draw96 true true rq_silent reg0 rq_silent info_silent args /\ NoDup (dkeys rq_silent) /\ dget "c1" (reg_self rq_silent) = Some info_silent /\
  dget "allowed_scopes" rq_silent = None /\ dget "userinfo_claims" rq_silent = None /\
  filter_scopes cx1 (reg_self rq_silent) "c1" ["admin"; "email"; "openid"]%string = Ok ["email"; "openid"]%string /\
  names_self (get_claims cx1 "c1" (Some []) ["email"]%string "userinfo" (reg_self rq_silent)) = ["email"; "email_verified"]%string.
Proof.
  eexists. split.
  - eexists. exists "c1"%string. split; [vm_compute; reflexivity|]. split; [exists rq_silent; split; reflexivity|]. split; [|vm_compute; reflexivity].
    exists ["taken"%string], []. split; [reflexivity|]. split; [reflexivity|]. constructor; [discriminate|constructor].
  - split; [cbn; repeat constructor; cbn; intuition discriminate|]. repeat (split; [vm_compute; reflexivity|]). vm_compute. reflexivity.
Qed.
(** A client that gives its access tokens a year, at a provider that gives 10 minutes *)
Definition year : dict urules := [("access_token"%string, mkURules None None (Some 31536000))].
Definition rq_rules : msg := (rq_silent ++ [("token_usage_rules"%string, rules_val year)])%list.
Definition info_rules : msg := Eval vm_compute in match dget "c1" (reg_self rq_rules) with Some i => i | None => [] end.
Definition env_rules : rules_env := mkRE (Some [("access_token"%string, mkURules None None (Some 600))]) [("c1"%string, year)].
Example C111_ex_rules : exists args,
  registers conf96 draw96 true true rq_rules reg0 rq_rules info_rules args /\ NoDup (dkeys rq_rules) /\ dget "c1" (reg_self rq_rules) = Some info_rules /\
  dget "token_usage_rules" rq_rules = Some (rules_val year) /\ from_records [("c1"%string, info_rules)] env_rules /\
  provider_default env_rules "access_token" = Some (mkURules None None (Some 600)) /\
  fst (make_rules env_rules (usage_rules env_rules "c1") "access_token") = mkURules None None (Some 31536000) /\
  fst (make_rules env_rules (usage_rules env_rules "c2") "access_token") = mkURules None None (Some 600).
Proof.
  eexists. split.
  - eexists. exists "c1"%string. split; [vm_compute; reflexivity|]. split; [exists rq_rules; split; reflexivity|]. split; [|vm_compute; reflexivity].
    exists ["taken"%string], []. split; [reflexivity|]. split; [reflexivity|]. constructor; [discriminate|constructor].
  - split; [cbn; repeat constructor; cbn; intuition discriminate|]. split; [vm_compute; reflexivity|]. split; [reflexivity|]. split.
    + intros c cli H. cbn in H. destruct (String.eqb c "c1") eqn:E; [|discriminate]. apply String.eqb_eq in E. subst c. injection H as <-.
      split; [discriminate|]. intros m R. vm_compute in R. injection R as R. destruct m as [|[k [a b e]] [|]]; cbn in R; try discriminate.
      injection R as <- R. destruct a, b, e; cbn in R; try discriminate. injection R as <-. reflexivity.
    + repeat (split; [vm_compute; reflexivity|]). vm_compute. reflexivity.
Qed.
