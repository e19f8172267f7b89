(** PropsProvider.v: properties C72 to C77 (what a provider publishes about itself, and how it is set up). *)
From Verif Require Import Base BaseProofs Types Ctx Response Scopes ScopesSpec Provider ProviderSpec ProviderProofs Monad World AuthzEndpoint SetupAuth.
From Verif Require Registration PropsAuthzEndpoint PropsSetupAuth.

(** ** C72: addresses *)
(** Every endpoint is published with its address, which is the address it has, unless the capabilities say something else. *)
Theorem C72_published : forall init al cf pv c path, provider_setup al cf = Ok pv -> of_library init cf -> distinct cf ->
  configured cf c path -> In (ec_endpoint_name c) endpoint_names ->
  exists url i, address (cf_issuer cf) path url /\ dget (ec_name c) (pv_endpoints pv) = Some i /\ in_full_path i = url /\
    dget (ec_endpoint_name c) (pv_info pv) = Some (match capable cf (ec_endpoint_name c) with Some v => v | None => VStr url end).
Proof.
  intros init al cf pv c path H L D (s & S & E & P) N. destruct (setup_ok _ _ _ H) as (idt & _ & B & _).
  destruct (build_get _ _ _ _ _ s D B S) as (i & M & G). assert (X : spec_name s = ec_name c) by (unfold spec_name; now rewrite E). rewrite X in G.
  assert (C : In (in_class i) (library init)) by (destruct (lib_in init al cf pv _ _ H L (dget_In _ _ _ G)) as (? & _ & _ & _ & ?); assumption).
  destruct (lib_make init _ _ _ _ M C) as (E' & P' & F & K & _). assert (in_class i = c) by congruence. assert (in_path i = path) by congruence. subst.
  exists (in_full_path i), i. split; [rewrite F; apply full_address|]. split; [exact G|]. split; [reflexivity|].
  destruct (names_not cf _ N) as (N1 & N2). rewrite (published _ _ _ _ H N1 N2). destruct (capable cf (ec_endpoint_name (in_class i))) as [v|]; [reflexivity|].
  assert (Q : entry_of i (ec_endpoint_name (in_class i)) = Some (VStr (in_full_path i))) by (rewrite K by exact N; now rewrite String.eqb_refl).
  assert (W : ~ In (ec_name (in_class i)) ["webfinger"; "provider_config"]) by (apply (lib_web init); assumption).
  destruct (first_info_some _ _ _ _ _ (dget_In _ _ _ G) W Q) as (w & Y). rewrite Y. f_equal. destruct (first_info_in _ _ _ Y) as (n' & i' & I' & _ & Q').
  destruct (lib_in init al cf pv _ _ H L I') as (s' & S' & M' & E2 & C'). destruct (lib_make init _ _ _ _ M' C') as (E3 & _ & _ & K' & _).
  rewrite K' in Q' by exact N. destruct (String.eqb_spec (ec_endpoint_name (in_class i)) (ec_endpoint_name (in_class i'))) as [Z|Z]; [|discriminate].
  assert (V : ec_name (in_class i') = ec_name (in_class i)) by (apply (lib_inj init); assumption).
  assert (i' = i).
  { assert (ND : NoDup (dkeys (pv_endpoints pv))) by (apply (build_nodup _ _ _ _ _ B); constructor). rewrite E2, V in I'. apply (In_dget _ _ _ ND) in I'. congruence. }
  subst. congruence.
Qed.
Print Assumptions C72_published.

(** No other addresses are published. *)
Theorem C72_only : forall init al cf pv k v, provider_setup al cf = Ok pv -> of_library init cf -> In k endpoint_names ->
  dget k (pv_info pv) = Some v ->
  capable cf k = Some v \/ exists c path url, configured cf c path /\ ec_endpoint_name c = k /\ address (cf_issuer cf) path url /\ v = VStr url.
Proof.
  intros init al cf pv k v H L K V. destruct (names_not cf _ K) as (N1 & N2). rewrite (published _ _ _ _ H N1 N2) in V.
  destruct (capable cf k) as [w|]; [left; congruence|right]. destruct (first_info_in _ _ _ V) as (n & i & I & _ & Q).
  destruct (lib_in init al cf pv _ _ H L I) as (s & S & M & _ & C). destruct (lib_make init _ _ _ _ M C) as (E & P & F & G & _). rewrite G in Q by exact K.
  destruct (String.eqb_spec k (ec_endpoint_name (in_class i))) as [->|]; [|discriminate].
  exists (in_class i), (in_path i), (in_full_path i). split; [exists s; auto|]. split; [reflexivity|]. split; [rewrite F; apply full_address|congruence].
Qed.
Print Assumptions C72_only.

(** The issuer is the configured one, and the keys are at the issuer's address. *)
Theorem C72_issuer : forall al cf pv, provider_setup al cf = Ok pv ->
  dget "issuer" (pv_info pv) = Some (VStr (cf_issuer cf)) /\
  (cf_keys cf = true -> exists url, address (cf_issuer cf) (cf_jwks_path cf) url /\ dget "jwks_uri" (pv_info pv) = Some (VStr url)).
Proof.
  intros al cf pv H. destruct (setup_ok _ _ _ H) as (idt & I & B & P & _). destruct (idt_names _ _ _ I) as (D & F).
  assert (X : forall k, ~ In k id_token_names -> dget k idt = None). { intros k N. apply dget_None_key. intros J. now apply N, F. }
  split.
  - rewrite P, pinfo_get by assumption. rewrite X by (cbn; intuition discriminate). reflexivity.
  - intros K. exists (jwks_uri cf). split.
    + unfold jwks_uri. destruct (ends_with "/" (cf_issuer cf)) eqn:E.
      * apply LogoutProofs.ends_slash in E. destruct E as (b & ->). left. exists b. split; [reflexivity|]. now rewrite str_app_assoc.
      * right. split; [|reflexivity]. intros b Eb. assert (ends_with "/" (cf_issuer cf) = true) by (apply LogoutProofs.ends_slash; eauto). congruence.
    + rewrite P, pinfo_get by assumption. rewrite X by (cbn; intuition discriminate). rewrite K. reflexivity.
Qed.
Print Assumptions C72_issuer.

(** The document has what is published, and reading it changes nothing: the endpoint adds nothing to it. *)
Theorem C72_document : forall init al cf pv en cls kw, provider_setup al cf = Ok pv -> of_library init cf ->
  snd (provider_document en cls pv kw) = pv_info pv /\
  (forall m, cls (pv_info pv) = Ok m -> kw_content_type kw = None -> kw_response_msg kw = None -> kw_http_headers kw = None ->
   exists r, fst (provider_document en cls pv kw) = Ok r /\ rs_body r = Text (to_json en m) /\ In ("Content-type"%string, "application/json; charset=utf-8"%string) (rs_headers r)).
Proof.
  intros init al cf pv en cls kw H L.
  assert (A : add_endpoints (pv_endpoints pv) (pv_info pv) = pv_info pv).
  { unfold add_endpoints. assert (F : Forall (fun e => smem (fst e) ["authorization_endpoint"; "registration_endpoint"; "token_endpoint"; "userinfo_endpoint"; "end_session_endpoint"] = false) (pv_endpoints pv)).
    { apply Forall_forall. intros (n & i) I. destruct (lib_in init al cf pv _ _ H L I) as (s & _ & _ & -> & C). cbn [fst]. now apply (lib_added init). }
    induction F as [|e eps E F IH]; cbn [fold_left]; [reflexivity|]. now rewrite E. }
  unfold provider_document. cbn [fst snd]. split; [exact A|]. intros m M C R B. unfold do_response, place. cbn [nonempty String.eqb negb ep_construct ep_placement ep_response_format].
  rewrite R, A, M. cbn [rbind]. rewrite C, B. cbn. eexists. split; [reflexivity|]. cbn. auto.
Qed.
Print Assumptions C72_document.

(** An endpoint that calls itself token_endpoint, say, is published with its path only, and only once the document has been asked for. *)
Theorem C72_name_refuted : forall al cf pv i, provider_setup al cf = Ok pv -> pv_endpoints pv = [("token_endpoint"%string, i)] ->
  in_path i <> in_full_path i /\ forall en cls kw, dget "token_endpoint" (snd (provider_document en cls pv kw)) = Some (VStr (in_path i)).
Proof.
  intros al cf pv i H E. split.
  { destruct (setup_ok _ _ _ H) as (idt & _ & B & _). rewrite E in B. destruct (build_in _ _ _ _ _ B _ i (or_introl eq_refl)) as [[]|(s & _ & M & _)].
    destruct (make_ok _ _ _ _ M) as (c & kw & i0 & i1 & path & _ & _ & _ & _ & _ & _ & G & F & _). rewrite G, F. intros X. apply (f_equal slen) in X. rewrite !slen_app in X. cbn in X. lia. }
  intros en cls kw. unfold provider_document. cbn [snd]. rewrite E. unfold add_endpoints. cbn [fold_left fst snd]. apply dget_dset_eq.
Qed.
Print Assumptions C72_name_refuted.

(** ** C73: what is configured is published *)
(** Configured capabilities are published as they are, except for what the provider says itself. *)
Theorem C73_kept_partial : forall al cf pv k v, provider_setup al cf = Ok pv -> capable cf k = Some v -> ~ says_itself cf k -> dget k (pv_info pv) = Some v.
Proof.
  intros al cf pv k v H C N. destruct (in_dec string_dec k ["scopes_supported"; "claims_supported"]%string) as [I|I].
  - destruct (setup_ok _ _ _ H) as (idt & J & B & P & _). destruct (idt_names _ _ _ J) as (D & F).
    assert (X : dget k idt = None). { apply dget_None_key. intros K. apply F in K. destruct I as [<-|[<-|[]]]; cbn in K; intuition discriminate. }
    assert (G : dget k (fold_left add_info (pv_endpoints pv) match cf_capabilities cf with Some c => c | None => [] end) = Some v).
    { rewrite add_infos. unfold capable in C. destruct (cf_capabilities cf); [now rewrite C|discriminate]. }
    rewrite P, pinfo_get by assumption. rewrite X, G. destruct I as [<-|[<-|[]]]; reflexivity.
  - rewrite (published _ _ _ _ H N I). now rewrite C.
Qed.
Print Assumptions C73_kept_partial.

(** The algorithms for ID Tokens are always those of the ID Token module: whatever the capabilities say, all algorithms of the library are
    published, and clients can register every one of them. *)
Theorem C73_id_token_refuted : forall al cf pv, provider_setup al cf = Ok pv -> dget "id_token_signing_alg_values_supported" (cf_id_token cf) = None ->
  exists l, in_order (al_sign al) l /\ dget "id_token_signing_alg_values_supported" (pv_info pv) = Some (vstrs l) /\
    forall rc a, Registration.rc_provider rc = pv_info pv -> In a (al_sign al) ->
      Registration.match_client_request rc [("id_token_signed_response_alg", VStr a)] = Ok tt.
Proof.
  intros al cf pv H N. destruct (setup_ok _ _ _ H) as (idt & I & B & P & _). destruct (idt_names _ _ _ I) as (D & F).
  assert (ND : NoDup (dkeys id_token_capabilities)) by (apply nodup_dec; reflexivity).
  destruct (entries_present _ _ _ ND _ _ _ _ I (or_introl eq_refl)) as (e & E & G). unfold info_entry in E. rewrite N in E.
  change (algs_of "id_token_signing_alg_values_supported") with (Some SigningAlg) in E. cbn [assign_algorithms] in E.
  destruct (sort_algs (al_sign al)) as [l|] eqn:S; [|discriminate]. cbn [rbind] in E.
  change (String.eqb "id_token_signing_alg_values_supported" "token_endpoint_auth_signing_alg_values_supported") with false in E. cbv iota in E.
  assert (e = Some (vstrs l)) as -> by congruence. exists l. split; [now apply sort_order|].
  assert (X : dget "id_token_signing_alg_values_supported" (pv_info pv) = Some (vstrs l)) by (rewrite P, pinfo_get by assumption; now rewrite G).
  split; [exact X|]. intros rc a R A. unfold Registration.match_client_request. rewrite R. unfold Registration.preference2provider.
  cbn [Registration.match_prefs]. cbn [dget String.eqb Ascii.eqb Bool.eqb rbind]. unfold Registration.match_pref, dsub. rewrite X. cbn [of_option rbind].
  assert (smem "id_token_signed_response_alg" ["response_types"; "default_acr_values"] = false) as -> by reflexivity.
  assert (val_in (VStr a) (vstrs l) = Ok true) as ->; [|reflexivity].
  unfold val_in, vstrs. f_equal. apply existsb_exists. exists (VStr a). split; [apply in_map; now apply (sort_in _ _ _ S)|]. cbn. apply String.eqb_refl.
Qed.
Print Assumptions C73_id_token_refuted.

(** ** C74: algorithms *)
(** What is published are algorithms the library supports (unless the capabilities name others, see C74_capabilities_refuted). *)
Theorem C74_offered : forall init al cf pv k l v, provider_setup al cf = Ok pv -> of_library init cf -> supported al k l -> l <> [] ->
  dget k (pv_info pv) = Some (VList v) -> In k id_token_names \/ capable cf k = None -> forall x, In x v -> exists a, x = VStr a /\ In a l.
Proof.
  intros init al cf pv k l v H L S NE V C x I.
  destruct (algs_from init _ _ _ _ _ _ H L S V) as [(J & E)|[(J & E)|(J & E & s & c & kw & _ & _ & _ & _ & _ & F)]].
  - now apply (entry_algs _ _ _ _ _ S NE E).
  - destruct C as [C|C]; [contradiction|congruence].
  - now apply (entry_algs _ _ _ _ _ S NE F).
Qed.
Print Assumptions C74_offered.

(** A provider that is told to offer anything else for an endpoint cannot be set up. *)
Theorem C74_refused : forall init al cf s c d kw k l v x, In s (cf_endpoints cf) -> es_class s = Ok c -> In c (library init) ->
  ec_defaults c = Some d -> In (k, VNone) d -> supported al k l -> l <> [] ->
  es_kwargs s = Some kw -> dget k kw = Some (VList v) -> In x v -> (forall a, In a l -> x <> VStr a) -> exists e, provider_setup al cf = Raise e.
Proof.
  intros init al cf s c d kw k l v x S E L D K U NE W V I X. destruct (provider_setup al cf) as [pv|e] eqn:H; [exfalso|eauto].
  destruct (setup_ok _ _ _ H) as (idt & _ & B & _). destruct (build_made _ _ _ _ _ s B S) as (i & M).
  destruct (make_ok _ _ _ _ M) as (c1 & kw1 & i1 & j1 & p1 & E1 & _ & _ & _ & _ & F1 & _). assert (F : in_class i = c) by congruence. assert (L' := L). rewrite <- F in L'.
  destruct (lib_make init _ _ _ _ M L') as (_ & _ & _ & _ & kw' & R & Q). destruct (sup_name _ _ _ cf U) as (K1 & K2 & K3 & K4 & _ & _).
  destruct (Q k K1 K2 K3) as (_ & Q2). assert (J : In (k, VNone) (defaults (in_class i))) by (unfold defaults; now rewrite F, D). specialize (Q2 _ J).
  assert (G : dget k kw' = Some (VList v)). { rewrite (lib_pre init _ _ _ _ k L' R K4). unfold given_kwargs. rewrite W. exact V. }
  assert (Y : entry_of i k = Some (VList v)).
  { unfold info_entry in Q2. rewrite G in Q2. destruct (match algs_of k with Some t => _ | None => _ end) as [p|]; cbn [rbind] in Q2; [|discriminate].
    destruct (match p with Some (y :: m) => _ | _ => _ end) as [[]|]; cbn [rbind] in Q2; congruence. }
  rewrite Y in Q2. destruct (entry_algs _ _ _ _ _ U NE Q2 x I) as (a & -> & A). now apply (X a A).
Qed.
Print Assumptions C74_refused.

(** What nobody has configured is everything the library supports, signature algorithms in order; only clients at the token endpoint
    cannot use "none". *)
Theorem C74_default : forall init al cf pv k l v, provider_setup al cf = Ok pv -> of_library init cf -> supported al k l ->
  capable cf k = None -> dget k (cf_id_token cf) = None -> (forall s kw, In s (cf_endpoints cf) -> es_kwargs s = Some kw -> dget k kw = None) ->
  dget k (pv_info pv) = Some v -> exists o, (forall a, In a o <-> In a l) /\ (contains "signing_alg_values_supported" k = true -> in_order l o) /\
    (k <> "token_endpoint_auth_signing_alg_values_supported"%string -> v = vstrs o) /\
    (k = "token_endpoint_auth_signing_alg_values_supported"%string -> NoDup l ->
       exists p, v = vstrs p /\ ~ In "none"%string p /\ forall a, a <> "none"%string -> (In a p <-> In a l)).
Proof.
  intros init al cf pv k l v H L S C T N V.
  assert (E : exists kw, dget k kw = None /\ info_entry al kw k VNone = Ok (Some v)).
  { destruct (algs_from init _ _ _ _ _ _ H L S V) as [(J & E)|[(J & E)|(J & E & s & c & kw & I & _ & _ & _ & G & F)]]; [eauto|congruence|].
    exists kw. split; [|exact F]. rewrite G. unfold given_kwargs. destruct (es_kwargs s) as [kw0|] eqn:Y; [now apply (N s)|reflexivity]. }
  destruct E as (kw & G & E). destruct (entry_default _ _ _ _ _ S G E) as (o & A & B & W). exists o. split; [exact A|]. split; [exact B|]. split.
  - intros X. destruct (String.eqb_spec k "token_endpoint_auth_signing_alg_values_supported"); [contradiction|exact W].
  - intros -> ND. rewrite String.eqb_refl in W. exists (sremove "none" o). split; [exact W|].
    assert (NO : NoDup o). { destruct (B eq_refl) as (P & _). now apply (Permutation.Permutation_NoDup P). }
    destruct (NoDup_sremove "none" o NO) as (_ & Z). split; [exact Z|]. intros a X. rewrite <- A. split; [apply In_sremove|now apply In_sremove_neq].
Qed.
Print Assumptions C74_default.

(** But what is asked for there is offered, "none" as well, and capabilities are not looked at at all. *)
Theorem C74_none_refuted : forall init al cf pv s kw v, provider_setup al cf = Ok pv -> of_library init cf -> distinct cf ->
  In s (cf_endpoints cf) -> es_class s = Ok (TokenEP init) -> es_kwargs s = Some kw ->
  let k := "token_endpoint_auth_signing_alg_values_supported"%string in
  dget k kw = Some v -> capable cf k = None -> dget k (pv_info pv) = Some v.
Proof.
  intros init al cf pv s kw v H L D S E W k K C.
  assert (N1 : ~ says_itself cf k). { intros [X|[X|[(X & _)|[(X & _)|X]]]]; try discriminate X. cbn in X. intuition discriminate. }
  assert (N2 : ~ In k ["scopes_supported"; "claims_supported"]%string) by (cbn; intuition discriminate).
  rewrite (published _ _ _ _ H N1 N2), C. destruct (setup_ok _ _ _ H) as (idt & _ & B & _). destruct (build_get _ _ _ _ _ s D B S) as (i & M & G).
  assert (SN : spec_name s = "token"%string) by (unfold spec_name; now rewrite E). rewrite SN in G.
  assert (Q : forall n i', In (n, i') (pv_endpoints pv) -> forall w, entry_of i' k = Some w -> n = "token"%string).
  { intros n i' I' w Y. destruct (lib_in init al cf pv _ _ H L I') as (s' & S' & M' & -> & J'). destruct (lib_make init _ _ _ _ M' J') as (_ & _ & _ & _ & kw' & _ & U).
    destruct (U k) as (U1 & _); [discriminate|cbn; intuition discriminate|discriminate|].
    destruct (in_dec string_dec k (dkeys (defaults (in_class i')))) as [Z|Z]; [|rewrite U1 in Y by exact Z; discriminate].
    apply smem_In in Z. apply library_cases in J'. clear -Z J'. remember (in_class i') as c eqn:X. clear X.
    destruct J' as [->|[->|[->|[->|[->|[->|[->|[->|[->|[->| ->]]]]]]]]]]; try discriminate Z; reflexivity. }
  assert (J : In (in_class i) (library init)) by (destruct (lib_in init al cf pv _ _ H L (dget_In _ _ _ G)) as (? & _ & _ & _ & ?); assumption).
  destruct (lib_make init _ _ _ _ M J) as (E' & _ & _ & _ & kw' & R & U). assert (X : in_class i = TokenEP init) by congruence.
  destruct (U k) as (_ & U2); [discriminate|cbn; intuition discriminate|discriminate|].
  assert (V : entry_of i k = Some v).
  { assert (Z : In (k, VNone) (defaults (in_class i))) by (rewrite X; now left). specialize (U2 _ Z). unfold info_entry in U2.
    rewrite (lib_pre init _ _ _ _ k J R) in U2 by discriminate. unfold given_kwargs in U2. rewrite W, K in U2. change (algs_of k) with (Some SigningAlg) in U2. cbv beta iota in U2.
    
    destruct (assign_algorithms al SigningAlg) as [[|x m]|]; cbn [rmap rbind] in U2; [injection U2 as U2; now symmetry| |discriminate].
    destruct (issuperset (x :: m) v) as [[]|]; cbn [rbind] in U2; try discriminate. injection U2 as U2. now symmetry. }
  destruct (first_info_some _ _ _ _ _ (dget_In _ _ _ G) ltac:(cbn; intuition discriminate) V) as (w & F). rewrite F.
  destruct (first_info_in _ _ _ F) as (n' & i' & I' & _ & Y). assert (n' = "token"%string) by (apply (Q _ _ I' _ Y)). subst n'.
  assert (ND : NoDup (dkeys (pv_endpoints pv))) by (apply (build_nodup _ _ _ _ _ B); constructor). apply (In_dget _ _ _ ND) in I'. assert (i' = i) by congruence. subst. congruence.
Qed.
Print Assumptions C74_none_refuted.
Theorem C74_capabilities_refuted : forall init al cf pv k l v, provider_setup al cf = Ok pv -> of_library init cf -> supported al k l -> ~ In k id_token_names ->
  capable cf k = Some v -> dget k (pv_info pv) = Some v.
Proof.
  intros init al cf pv k l v H L S N C. apply (C73_kept_partial al cf); [exact H|exact C|]. destruct (sup_name _ _ _ cf S) as (_ & _ & _ & _ & _ & K). auto.
Qed.
Print Assumptions C74_capabilities_refuted.

(** ** C75: leaving things out of the configuration *)
(** Refresh tokens are said to be allowed exactly if there is a handler and the grant type is supported; *)
Theorem C75_refresh_partial : forall al cf pv b, provider_setup al cf = Ok pv -> pv_allow_refresh pv = Some b ->
  cf_refresh cf = true /\ dmem "token" (pv_endpoints pv) = true /\
  (b = true <-> cf_capabilities cf <> None /\ exists g, dget "grant_types_supported" (pv_info pv) = Some g /\ val_in (VStr "refresh_token") g = Ok true).
Proof.
  intros al cf pv b H A. unfold provider_setup in H.
  destruct (info_entries _ _ _ _) as [idt|]; cbn [rbind] in H; [|discriminate]. destruct (build_endpoints _ _ _ _) as [eps|]; cbn [rbind] in H; [|discriminate].
  cbv zeta in H. set (info := create_providerinfo cf idt _) in H. destruct (dmem "token" eps) eqn:T.
  - destruct (allow_refresh_token (cf_refresh cf) _) as [b'|] eqn:R; cbn [rmap rbind] in H; [|discriminate].
    assert (pv = mkProvider info (match cf_capabilities cf with Some _ => Some info | None => None end) eps (Some b')) by congruence. subst pv. cbn in A |- *.
    assert (b' = b) by congruence. subst b'. unfold allow_refresh_token in R. destruct (cf_refresh cf); [|discriminate]. cbn [negb] in R. split; [reflexivity|]. split; [exact T|].
    destruct (cf_capabilities cf) as [c|].
    + destruct info as [|x m] eqn:EI. { assert (b = false) by congruence. subst. split; [discriminate|]. intros (_ & g & G & _). discriminate. }
      unfold dsub in R. destruct (dget "grant_types_supported" (x :: m)) as [g|] eqn:G; cbn [of_option rbind] in R; [|discriminate]. split.
      * intros ->. split; [discriminate|]. exists g. auto.
      * intros (_ & g' & G' & V). congruence.
    + assert (b = false) by congruence. subst. split; [discriminate|]. intros (N & _). now destruct N.
  - cbn [rbind] in H. assert (pv_allow_refresh pv = None) by (injection H as <-; reflexivity). congruence.
Qed.
Print Assumptions C75_refresh_partial.
(** but without a handler for refresh tokens there is no provider with a token endpoint at all. *)
Theorem C75_no_handler_refuted : forall init al cf pv path, cf_refresh cf = false -> distinct cf -> configured cf (TokenEP init) path -> provider_setup al cf <> Ok pv.
Proof.
  intros init al cf pv path R D (s & S & E & P) H. destruct (setup_ok _ _ _ H) as (idt & _ & B & _).
  destruct (build_get _ _ _ _ _ s D B S) as (i & M & G). assert (X : spec_name s = "token"%string) by (unfold spec_name; now rewrite E). rewrite X in G.
  unfold provider_setup in H. destruct (info_entries _ _ _ _) as [idt'|]; cbn [rbind] in H; [|discriminate]. rewrite B in H. cbn [rbind] in H. cbv zeta in H.
  assert (dmem "token" (pv_endpoints pv) = true) as T by (unfold dmem; now rewrite G). rewrite T, R in H. discriminate.
Qed.
Print Assumptions C75_no_handler_refuted.
(** Without capabilities the provider is set up and publishes what it can do, but no request of a client it knows gets anywhere. *)
Theorem C75_no_capabilities_refuted : forall al cf pv modules users gc, provider_setup al cf = Ok pv -> cf_capabilities cf = None ->
  forall e az oidc request w cid cinfo scope, az_cx az = provider_ctx cf pv modules users gc ->
  dget "client_id" request = Some (VStr cid) -> dget cid (w_cdb w) = Some cinfo -> cinfo <> [] -> mget_list "scope" request = Some scope ->
  process_request e az oidc (inr request) w = (Raise EKey, w).
Proof.
  intros al cf pv modules users gc H C e az oidc request w cid cinfo scope X I D N S.
  assert (K : cx_capabilities (az_cx az) = None).
  { rewrite X. cbn. unfold provider_setup in H. destruct (info_entries _ _ _ _); cbn [rbind] in H; [|discriminate]. destruct (build_endpoints _ _ _ _); cbn [rbind] in H; [|discriminate].
    cbv zeta in H. destruct (if dmem "token" _ then _ else _); cbn [rbind] in H; [|discriminate]. injection H as <-. cbn. now rewrite C. }
  unfold process_request. unfold bind, lift at 1, msub_str, dsub, gets. rewrite I. cbn. rewrite D. cbn. destruct cinfo as [|kv m]; [congruence|]. cbn [is_nil].
  unfold lift, bind. rewrite S. cbn [of_option]. unfold check_unknown_scopes_policy. rewrite K. reflexivity.
Qed.
Print Assumptions C75_no_capabilities_refuted.

(** ** C76: scopes *)
(** A scope a client can get (by default) is one the provider has claims for, and it is published, if any are. *)
Theorem C76_available : forall cf pv modules users gc p l, dget "scopes_supported" (pv_info pv) = Some (VList p) -> p <> [] ->
  available_scopes (provider_ctx cf pv modules users gc) = Ok l ->
  forall s, In s l <-> In (VStr s) p /\ In s (dkeys (cf_scope2claims cf)).
Proof.
  intros cf pv modules users gc p l P NE A s. assert (Q : list_or_absent "scopes_supported" (cx_provider_info (provider_ctx cf pv modules users gc))) by (right; eauto).
  destruct (ScopesProofs.available_ok _ Q) as (r & R & I). assert (r = l) by congruence. subst r. rewrite I. cbn [cx_scope2claims cx_provider_info provider_ctx] in *. split.
  - intros (J & K). split; [apply K; [exact P|exact NE]|exact J].
  - intros (J & K). split; [exact K|]. intros l0 E _. rewrite P in E. injection E as <-. exact J.
Qed.
Print Assumptions C76_available.
(** Without an OAuth2 authorization or PAR endpoint, and if nothing else is configured, the published scopes are exactly the available ones. *)
Theorem C76_default : forall init al cf pv modules users gc, provider_setup al cf = Ok pv -> of_library init cf -> capable cf "scopes_supported" = None ->
  (forall s c, In s (cf_endpoints cf) -> es_class s = Ok c -> c <> OAuth2Authorization init /\ c <> PushedEP init) ->
  dget "scopes_supported" (pv_info pv) = Some (vstrs (dkeys (cf_scope2claims cf))) /\
  exists l, available_scopes (provider_ctx cf pv modules users gc) = Ok l /\ forall s, In s l <-> In s (dkeys (cf_scope2claims cf)).
Proof.
  intros init al cf pv modules users gc H L C N. assert (P := published_scopes _ _ _ H). rewrite C in P.
  destruct (first_info "scopes_supported" (pv_endpoints pv)) as [v|] eqn:F.
  - exfalso. destruct (first_info_in _ _ _ F) as (n & i & I & _ & E). destruct (lib_in init al cf pv _ _ H L I) as (s & S & M & _ & J).
    destruct (lib_make init _ _ _ _ M J) as (Z & _ & _ & _ & kw & _ & U). destruct (N s _ S Z) as (N1 & N2).
    destruct (U "scopes_supported"%string) as (U1 & _); [discriminate|cbn; intuition discriminate|discriminate|]. rewrite U1 in E; [discriminate|].
    apply library_cases in J. clear -J N1 N2. apply smem_false. remember (in_class i) as c eqn:X. clear X.
    destruct J as [->|[->|[->|[->|[->|[->|[->|[->|[->|[->| ->]]]]]]]]]]; try reflexivity; congruence.
  - split; [exact P|]. assert (Q : list_or_absent "scopes_supported" (cx_provider_info (provider_ctx cf pv modules users gc))) by (right; cbn; rewrite P; unfold vstrs; eauto).
    destruct (ScopesProofs.available_ok _ Q) as (r & R & I). exists r. split; [exact R|]. intros s. rewrite I. cbn [cx_scope2claims cx_provider_info provider_ctx]. split; [tauto|].
    intros K. split; [exact K|]. intros l0 E _. rewrite P in E. unfold vstrs in E. injection E as <-. now apply in_map.
Qed.
Print Assumptions C76_default.
(** With one of those two it publishes that it supports no scopes at all, all of them are available, and a provider that denies unknown scopes
    denies every scope of every client without a list of its own. *)
Theorem C76_none_published_refuted : forall init al cf pv modules users gc s c, provider_setup al cf = Ok pv -> of_library init cf -> distinct cf ->
  capable cf "scopes_supported" = None -> In s (cf_endpoints cf) -> es_class s = Ok c -> c = OAuth2Authorization init \/ c = PushedEP init ->
  (forall s kw, In s (cf_endpoints cf) -> es_kwargs s = Some kw -> dget "scopes_supported" kw = None) ->
  dget "scopes_supported" (pv_info pv) = Some (VList []) /\
  available_scopes (provider_ctx cf pv modules users gc) = Ok (dkeys (cf_scope2claims cf)) /\
  (capable cf "deny_unknown_scopes" = Some (VBool true) ->
   forall scope cinfo, scope <> [] -> dget "allowed_scopes" cinfo = None -> dmem "client_id" cinfo = true ->
     check_unknown_scopes_policy (provider_ctx cf pv modules users gc) scope cinfo = Raise EUnAuthorizedClient).
Proof.
  intros init al cf pv modules users gc s c H L D C S E K N.
  assert (P : dget "scopes_supported" (pv_info pv) = Some (VList [])).
  { rewrite (published_scopes _ _ _ H), C. destruct (setup_ok _ _ _ H) as (idt & _ & B & _). destruct (build_get _ _ _ _ _ s D B S) as (i & M & G).
    assert (J : In (in_class i) (library init)) by (destruct (lib_in init al cf pv _ _ H L (dget_In _ _ _ G)) as (? & _ & _ & _ & ?); assumption).
    assert (Q : forall i s, In s (cf_endpoints cf) -> make_endpoint al (cf_issuer cf) s = Ok i -> In (in_class i) (library init) ->
      entry_of i "scopes_supported" = (if smem "scopes_supported" (dkeys (defaults (in_class i))) then Some (VList []) else None)).
    { clear -N. intros i s S M J. destruct (lib_make init _ _ _ _ M J) as (_ & _ & _ & _ & kw & R & U).
      destruct (U "scopes_supported"%string) as (U1 & U2); [discriminate|cbn; intuition discriminate|discriminate|].
      assert (X : dget "scopes_supported" kw = None). { rewrite (lib_pre init _ _ _ _ _ J R) by discriminate. unfold given_kwargs. destruct (es_kwargs s) eqn:Y; [now apply (N s)|reflexivity]. }
      destruct (smem "scopes_supported" (dkeys (defaults (in_class i)))) eqn:W; [|now apply U1, smem_false].
      assert (V : In ("scopes_supported"%string, VList []) (defaults (in_class i))).
      { apply library_cases in J. clear -J W. remember (in_class i) as c eqn:Y. clear Y.
        destruct J as [->|[->|[->|[->|[->|[->|[->|[->|[->|[->| ->]]]]]]]]]]; try discriminate W; cbn; tauto. }
      specialize (U2 _ V). unfold info_entry in U2. rewrite X in U2. congruence. }
    destruct (lib_make init _ _ _ _ M J) as (E' & _). assert (X : in_class i = c) by congruence.
    assert (Q1 := Q i s S M J). rewrite X in Q1. assert (Y : smem "scopes_supported" (dkeys (defaults c)) = true) by (destruct K; subst; reflexivity). rewrite Y in Q1.
    assert (W : ~ In (spec_name s) ["webfinger"; "provider_config"]) by (unfold spec_name; rewrite E; destruct K; subst; cbn; intuition discriminate).
    destruct (first_info_some _ _ _ _ _ (dget_In _ _ _ G) W Q1) as (w & F). rewrite F. destruct (first_info_in _ _ _ F) as (n' & i' & I' & _ & Q').
    destruct (lib_in init al cf pv _ _ H L I') as (s' & S' & M' & _ & J'). rewrite (Q i' s' S' M' J') in Q'.
    destruct (smem "scopes_supported" (dkeys (defaults (in_class i')))); [|discriminate]. injection Q' as <-. reflexivity. }
  split; [exact P|]. split.
  - unfold available_scopes, truthy_get. cbn [cx_provider_info cx_scope2claims provider_ctx]. rewrite P. reflexivity.
  - intros T scope cinfo NE A I. assert (V : pv_capabilities pv = Some (pv_info pv)).
    { unfold capable in T. unfold provider_setup in H. destruct (cf_capabilities cf); [|discriminate]. destruct (info_entries _ _ _ _); cbn [rbind] in H; [|discriminate]. destruct (build_endpoints _ _ _ _); cbn [rbind] in H; [|discriminate].
      cbv zeta in H. destruct (if dmem "token" _ then _ else _); cbn [rbind] in H; [|discriminate]. injection H as <-. reflexivity. }
    assert (U : dget "deny_unknown_scopes" (pv_info pv) = Some (VBool true)).
    { apply (C73_kept_partial al cf); [exact H|exact T|]. intros [X|[X|[(X & _)|[(X & _)|X]]]]; try discriminate X. cbn in X. intuition discriminate. }
    unfold check_unknown_scopes_policy, truthy_get. cbn [cx_capabilities provider_ctx]. rewrite V. cbn [of_option rbind]. rewrite A. unfold dsub. rewrite P. cbn [of_option rbind]. rewrite U. cbn [truthy].
    destruct scope as [|x scope]; [congruence|]. cbn. now rewrite I.
Qed.
Print Assumptions C76_none_published_refuted.

(** ** C77: how the provider makes requests *)
(** The certificate of the other side goes unverified only if the configuration says so; the client's certificate is the configured one. *)
Theorem C77_verify : forall config params v, httpc_params config = Ok params -> dget "verify" params = Some v -> truthy v = false -> v <> VNone ->
  (exists c, truthy_get "httpc_params" config = Some (VDict c) /\ (dget "verify" c = Some v \/ dget "verify_ssl" c = Some v)) \/
  (truthy_get "httpc_params" config = None /\ dget "verify_ssl" config = Some v).
Proof.
  intros config params v H V F N. unfold httpc_params in H. destruct (truthy_get "httpc_params" config) as [[| | | | |c]|] eqn:T; try discriminate.
  - left. exists c. split; [reflexivity|]. assert (params = get_http_params c) as -> by congruence. clear H T. unfold get_http_params in V.
    set (verify := match dget_or "verify" VNone c with VNone => _ | w => w end) in V.
    assert (E : dget "verify" (if existsb (val_eqb verify) [VBool true; VBool false] then [("verify"%string, verify)] else []) = Some v).
    { destruct (existsb _ _); destruct (truthy_get "client_cert" c); try destruct (truthy_get "client_key" c); exact V. }
    destruct (existsb (val_eqb verify) [VBool true; VBool false]); [|discriminate]. injection E as E. subst verify. unfold dget_or in E.
    destruct (dget "verify" c) as [[| | | | |]|]; try (left; congruence); (destruct (dget "verify_ssl" c); [right|]; congruence).
  - right. split; [reflexivity|]. assert (params = [("verify"%string, dget_or "verify_ssl" VNone config)]) as -> by congruence. cbn in V. unfold dget_or in V.
    destruct (dget "verify_ssl" config); congruence.
Qed.
Print Assumptions C77_verify.
(** A file of trusted certificates is not used: only True and False are looked for. *)
Theorem C77_bundle_refuted : forall config c path, truthy_get "httpc_params" config = Some (VDict c) -> dget "verify" c = Some (VStr path) ->
  exists params, httpc_params config = Ok params /\ dget "verify" params = None.
Proof.
  intros config c path T V. unfold httpc_params. rewrite T. eexists. split; [reflexivity|]. unfold get_http_params, dget_or. rewrite V. cbn [existsb val_eqb orb].
  destruct (truthy_get "client_cert" c); try destruct (truthy_get "client_key" c); reflexivity.
Qed.
Print Assumptions C77_bundle_refuted.
Theorem C77_certificate : forall c, 
  (forall cert key, truthy_get "client_cert" c = Some cert -> truthy_get "client_key" c = Some key -> dget "cert" (get_http_params c) = Some (VList [cert; key])) /\
  (forall cert, truthy_get "client_cert" c = Some cert -> truthy_get "client_key" c = None -> dget "cert" (get_http_params c) = Some cert) /\
  (truthy_get "client_cert" c = None -> dget "cert" (get_http_params c) = None).
Proof.
  intros c. unfold get_http_params. cbv zeta. set (b := existsb _ _). repeat split; intros.
  - rewrite H, H0. now destruct b.
  - rewrite H, H0. now destruct b.
  - rewrite H. now destruct b.
Qed.
Print Assumptions C77_certificate.

(** ** Examples *)
Definition al1 := mkAlgs ["none"; "HS256"; "RS256"; "ES256"; "RS384"; "PS256"] ["RSA-OAEP"; "A128KW"] ["A128GCM"].
Definition init1 (name : string) (kw : msg) : result unit := Ok tt.
Definition std1 : dict (list string) := [("openid", ["sub"]); ("email", ["email"; "email_verified"])].
Definition eps1 : list espec :=
  [mkSpec (Ok (Authorization init1)) (Some [("response_modes_supported", vstrs ["query"])]) (Some "authorization");
   mkSpec (Ok (TokenEP init1)) (Some [("client_authn_method", vstrs ["client_secret_basic"])]) (Some "token");
   mkSpec (Ok (UserInfoEP init1)) (Some [("userinfo_signing_alg_values_supported", vstrs ["RS256"])]) (Some "userinfo");
   mkSpec (Ok (SessionEP init1)) (Some [("check_session_iframe", VStr "/static/c.html")]) (Some "session");
   mkSpec (Ok (ProviderConfigEP init1)) None (Some ".well-known/openid-configuration")].
Definition cf1 (capabilities : option msg) (endpoints : list espec) (refresh : bool) : conf :=
  mkConf "https://op.example/" capabilities endpoints "static/jwks.json" true [VStr "pwd"] [] refresh std1 ["sub"; "email"].
Definition caps1 : msg := [("subject_types_supported", vstrs ["public"]); ("id_token_signing_alg_values_supported", vstrs ["RS256"]);
  ("userinfo_endpoint", VStr "https://users.example/me"); ("grant_types_supported", vstrs ["authorization_code"; "refresh_token"])].
Definition pv1 := match provider_setup al1 (cf1 (Some caps1) eps1 true) with Ok pv => pv | Raise _ => mkProvider [] None [] None end.
Lemma lib1 capabilities refresh : of_library init1 (cf1 capabilities eps1 refresh).
Proof. unfold of_library. repeat (apply Forall_cons; [eexists; split; [reflexivity|cbn; tauto]|]). apply Forall_nil. Qed.
Example C72_ex :
  provider_setup al1 (cf1 (Some caps1) eps1 true) = Ok pv1 /\ of_library init1 (cf1 (Some caps1) eps1 true) /\ distinct (cf1 (Some caps1) eps1 true) /\
  dget "token_endpoint" (pv_info pv1) = Some (VStr "https://op.example/token") /\ dget "userinfo_endpoint" (pv_info pv1) = Some (VStr "https://users.example/me") /\
  dget "issuer" (pv_info pv1) = Some (VStr "https://op.example/") /\ dget "jwks_uri" (pv_info pv1) = Some (VStr "https://op.example/static/jwks.json") /\
  dget "check_session_iframe" (pv_info pv1) = Some (VStr "https://op.example/static/c.html") /\ dget "introspection_endpoint" (pv_info pv1) = None.
Proof.
  split; [vm_compute; reflexivity|]. split; [apply lib1|]. split; [apply nodup_dec; vm_compute; reflexivity|]. repeat split; vm_compute; reflexivity.
Qed.
(** A class of one's own that is called token_endpoint *)
Definition own1 := mkClass "token_endpoint" "token_endpoint" None (fun _ kw => Ok kw) (fun _ i => Ok i).
Example C72_name_ex : exists pv i, provider_setup al1 (cf1 None [mkSpec (Ok own1) None (Some "token")] false) = Ok pv /\ pv_endpoints pv = [("token_endpoint"%string, i)] /\
  dget "token_endpoint" (pv_info pv) = Some (VStr "https://op.example/token").
Proof. eexists _, _. split; [vm_compute; reflexivity|]. split; reflexivity. Qed.
(** RS256 is configured for ID Tokens, but everything is published, and a client can register "none". *)
Example C73_ex : capable (cf1 (Some caps1) eps1 true) "id_token_signing_alg_values_supported" = Some (vstrs ["RS256"]) /\
  dget "id_token_signing_alg_values_supported" (pv_info pv1) = Some (vstrs ["RS256"; "RS384"; "ES256"; "HS256"; "PS256"; "none"]) /\
  dget "subject_types_supported" (pv_info pv1) = Some (vstrs ["public"]).
Proof. repeat split; vm_compute; reflexivity. Qed.
Example C74_ex : dget "userinfo_signing_alg_values_supported" (pv_info pv1) = Some (vstrs ["RS256"]) /\
  dget "token_endpoint_auth_signing_alg_values_supported" (pv_info pv1) = Some (vstrs ["RS256"; "RS384"; "ES256"; "HS256"; "PS256"]) /\
  dget "request_object_encryption_alg_values_supported" (pv_info pv1) = Some (vstrs ["RSA-OAEP"; "A128KW"]) /\
  provider_setup al1 (cf1 None [mkSpec (Ok (UserInfoEP init1)) (Some [("userinfo_signing_alg_values_supported", vstrs ["XX256"])]) (Some "userinfo")] true) = Raise EValue /\
  exists pv, provider_setup al1 (cf1 None [mkSpec (Ok (TokenEP init1)) (Some [("token_endpoint_auth_signing_alg_values_supported", vstrs ["none"])]) (Some "token")] true) = Ok pv.
Proof. repeat split; try (vm_compute; reflexivity). eexists. vm_compute. reflexivity. Qed.
Example C75_ex : pv_allow_refresh pv1 = Some true /\
  (exists pv, provider_setup al1 (cf1 None eps1 true) = Ok pv /\ pv_allow_refresh pv = Some false /\ pv_capabilities pv = None) /\
  provider_setup al1 (cf1 (Some caps1) eps1 false) = Raise EKey.
Proof. split; [vm_compute; reflexivity|]. split; [eexists; repeat split; vm_compute; reflexivity|vm_compute; reflexivity]. Qed.
(** The provider above, and then with an endpoint for pushed authorization requests. *)
Definition eps2 := eps1 ++ [mkSpec (Ok (PushedEP init1)) None (Some "par")].
Definition caps2 : msg := dset "deny_unknown_scopes" (VBool true) caps1.
Example C76_ex : dget "scopes_supported" (pv_info pv1) = Some (vstrs ["openid"; "email"]) /\
  exists pv, provider_setup al1 (cf1 (Some caps2) eps2 true) = Ok pv /\ dget "scopes_supported" (pv_info pv) = Some (VList []) /\
    available_scopes (provider_ctx (cf1 (Some caps2) eps2 true) pv [] [] (mkGConf None None)) = Ok ["openid"; "email"]%string /\
    check_unknown_scopes_policy (provider_ctx (cf1 (Some caps2) eps2 true) pv [] [] (mkGConf None None)) ["openid"%string] [("client_id", VStr "c")] = Raise EUnAuthorizedClient.
Proof. split; [vm_compute; reflexivity|]. eexists. split; [vm_compute; reflexivity|]. repeat split; vm_compute; reflexivity. Qed.
Example C77_ex : httpc_params [("verify_ssl", VBool false)] = Ok [("verify", VBool false)] /\ httpc_params [] = Ok [("verify", VNone)] /\
  httpc_params [("httpc_params", VDict [("verify", VBool false); ("client_cert", VStr "c.pem")])] = Ok [("verify", VBool false); ("cert", VStr "c.pem")] /\
  httpc_params [("httpc_params", VDict [("verify", VStr "/etc/ca.pem")])] = Ok [].
Proof. repeat split. Qed.
Definition az_with (cx : ctx) : authz_env :=
  let az := PropsAuthzEndpoint.az7 false in
  mkAZ cx (az_u az) (az_sharing az) (az_clock az) (az_later az) (az_salt az) (az_code az) (az_access az) (az_idtoken az) (az_cookie az) (az_opbs az)
    (az_sha az) (az_origin az) (az_show az) (az_text az) (az_iframe az) (az_handler az).
Example C75_request_ex : forall pv, provider_setup al1 (cf1 None eps1 true) = Ok pv ->
  process_request (PropsSetupAuth.e9 PropsSetupAuth.nocookie9) (az_with (provider_ctx (cf1 None eps1 true) pv [] [] (mkGConf None None))) false
    (inr (PropsSetupAuth.rq9 [])) PropsAuthzEndpoint.w7 = (Raise EKey, PropsAuthzEndpoint.w7).
Proof.
  intros pv H. eapply C75_no_capabilities_refuted with (cid := "c1"%string) (scope := ["openid"%string]); [exact H|reflexivity|reflexivity|reflexivity|reflexivity|discriminate|reflexivity].
Qed.
