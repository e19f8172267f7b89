(** FlowProofs.v: see FlowSpec.v *)
From Verif Require Import Base BaseProofs Monad MonadProofs Types SessionKey SessionKeyProofs Token Grant GrantSpec GrantProofs Database DatabaseSpec DatabaseProofs
  Manager ManagerSpec ManagerProofs Ctx Scopes ScopesSpec ScopesProofs Claims ClaimsSpec ClaimsProofs Authz AuthzProofs UserInfo UserInfoSpec UserInfoProofs
  World Minting TokenEndpoint WorldSpec WorldProofs ResponseSpec ResponseProofs Uri AuthzEndpoint AuthzEndpointSpec AuthzEndpointProofs FlowSpec.
Local Open Scope Z_scope.

(** ** Claims *)
Lemma from_client_local cx (s s' : cdb) c usage k : dget c s' = dget c s -> from_client cx s c usage k <-> from_client cx s' c usage k.
Proof. intros E. unfold from_client. rewrite E. tauto. Qed.
Lemma may_use_local cx (s s' : cdb) c k : dget c s' = dget c s -> may_use cx s c k <-> may_use cx s' c k.
Proof. intros E. unfold may_use. rewrite E. tauto. Qed.
Lemma from_scope_local cx (s s' : cdb) c scopes usage k : dget c s' = dget c s -> from_scope cx s c scopes usage k <-> from_scope cx s' c scopes usage k.
Proof.
  intros E. unfold from_scope. split; intros (A & x & names & B & C & D); split; auto; exists x, names; split; auto; split; auto.
  - apply (may_use_local cx s s' c x E). exact C.
  - apply (may_use_local cx s s' c x E). exact C.
Qed.
Lemma wanted_local cx (s s' : cdb) c ar scopes usage k o : dget c s' = dget c s -> wanted cx s c ar scopes usage k o -> wanted cx s' c ar scopes usage k o.
Proof.
  intros E. unfold wanted. destruct (from_request ar usage k); auto.
  assert (A := from_scope_local cx s s' c scopes usage k E). assert (B := from_client_local cx s s' c usage k E).
  destruct (from_base cx usage k); tauto.
Qed.

Lemma start_own cx s c cli usage : In usage usages -> dget c s = Some cli -> claims_set_up cx cli ->
  exists m, start_ref cx s c usage = Ok (CVal m) /\ claim_requests m /\ unshared cx [(c, cli)].
Proof.
  intros Hu C S. assert (U : unshared cx [(c, cli)]).
  { intros c' cli' us d Hi G _ X. cbn in G. destruct (String.eqb_spec c' c) as [->|]; [|discriminate].
    injection G as <-. destruct (cs_client _ _ S us _ Hi X) as (l & Q). discriminate. }
  unfold start_ref. destruct (on cx usage "enable_claims_per_client").
  - unfold get_client_claims. rewrite C. destruct (dget (claims_key usage) cli) as [v|] eqn:E.
    + destruct (cs_client _ _ S usage v Hu E) as (l & ->). eexists. split; [reflexivity|]. split; [|exact U].
      split; [apply NoDup_none_of|]. intros k spec H. left.
      assert (D : dget k (none_of (strs_of l)) = Some spec) by (apply In_dget; [apply NoDup_none_of|exact H]).
      rewrite dget_none_of in D. destruct (smem k (strs_of l)); congruence.
    + eexists. split; [reflexivity|]. split; [split; [constructor|intros k sp []]|exact U].
  - eexists. split; [reflexivity|]. split; [split; [constructor|intros k sp []]|exact U].
Qed.

Lemma base_own cx cli usage : In usage usages -> claims_set_up cx cli -> exists b, base_of cx usage = Ok b /\ claim_requests b /\ forall k, dget k b = from_base cx usage k.
Proof.
  intros Hu S. unfold base_of, from_base. rewrite kwarg_of_module by assumption. destruct (module_kwarg cx usage "base_claims") as [v|] eqn:E.
  - destruct (cs_base _ _ S usage v Hu E) as (d & -> & R). cbn. eauto.
  - exists []. split; [reflexivity|]. split; [|reflexivity]. split; [constructor|intros k sp []].
Qed.

Lemma scoped_own cx s c cli scopes usage : In usage usages -> dget c s = Some cli -> claims_set_up cx cli ->
  exists d, scoped cx s c scopes usage = Ok d /\ claim_requests d /\
    forall k, (from_scope cx s c scopes usage k /\ dget k d = Some VNone) \/ (~ from_scope cx s c scopes usage k /\ dget k d = None).
Proof.
  intros Hu C S. unfold scoped. destruct (on cx usage "add_claims_by_scope" && negb (is_nil scopes)) eqn:Eo.
  - apply Bool.andb_true_iff in Eo. destruct Eo as [Eo _]. apply on_enabled in Eo; [|assumption].
    assert (T : forall x, dget c s = Some x -> list_or_absent "allowed_scopes" x).
    { intros x E. assert (x = cli) by congruence. subst x. destruct (cs_allowed _ _ S) as [N|(l & L & _)]; [left|right]; eauto. }
    destruct (filter_kept cx s c scopes (cs_supported _ _ S) T) as (sc & Hsc & Hk). rewrite Hsc. cbn [rbind].
    assert (All : forall x, In x sc -> dmem x (cx_scope2claims cx) = true).
    { intros x Hx. apply (kept_In _ _ _ Hk) in Hx. destruct Hx as (_ & cli' & E & Q). assert (cli' = cli) by congruence. subst cli'.
      rewrite dmem_keys. apply smem_In. destruct Q as [(l & L & I)|(_ & I & _)]; [|exact I].
      destruct (cs_allowed _ _ S) as [N|(l' & L' & All)]; [congruence|]. assert (l' = l) by congruence. subst l'. auto. }
    destruct (convert_go (cx_scope2claims cx) sc [] All) as (d & Hd & Hdk & Hnd). exists d. split; [exact Hd|].
    assert (P : proper d) by (apply Hnd; constructor). split.
    + split; [exact P|]. intros k spec I. left.
      assert (D : dget k d = Some spec) by (apply In_dget; assumption). rewrite Hdk in D.
      destruct (brings (cx_scope2claims cx) sc k); cbn in D; congruence.
    + intros k. rewrite Hdk. destruct (brings (cx_scope2claims cx) sc k) eqn:B.
      * left. split; [|reflexivity]. apply brings_iff in B. destruct B as (x & names & Hx & Hn & Hi).
        split; [exact Eo|]. exists x, names. apply (kept_In _ _ _ Hk) in Hx. tauto.
      * right. split; [|reflexivity]. intros (_ & x & names & A1 & A2 & A3 & A4).
        apply Bool.not_true_iff_false in B. apply B. apply brings_iff. exists x, names. split; [|auto].
        apply (kept_In _ _ _ Hk). auto.
  - exists []. split; [reflexivity|]. split; [split; [constructor|intros k sp []]|]. intros k. right. split; [|reflexivity].
    intros (A & x & names & A1 & _). apply on_enabled in A; [|assumption]. rewrite A in Eo. cbn in Eo. destruct scopes; [destruct A1|discriminate].
Qed.

Lemma requested_own ar usage : In usage usages -> claims_asked ar -> exists d, requested (Some ar) usage = Ok d /\ claim_requests d /\
  forall k, dget k d = from_request (Some ar) usage k.
Proof.
  intros Hu A. assert (N : claim_requests []) by (split; [constructor|intros k sp []]).
  unfold requested, authorization_request_claims, from_request. destruct (smem usage ["id_token"; "userinfo"]) eqn:M; [|exists []; auto].
  apply smem_In in M. destruct A as [E|(cl & E & W)]; rewrite E; cbn [rbind]; [exists []; auto|].
  destruct (dget usage cl) as [v|] eqn:G; [|exists []; auto]. destruct (W usage v M G) as (d & -> & R).
  destruct d as [|x d]; cbn; eauto.
Qed.

Lemma claim_requests_update d e : claim_requests d -> claim_requests e -> claim_requests (dupdate d e).
Proof.
  intros [P1 R1] [P2 R2]. split; [now apply NoDup_dupdate|]. intros k spec I.
  assert (D : dget k (dupdate d e) = Some spec) by (apply In_dget; [now apply NoDup_dupdate|exact I]).
  rewrite dget_update in D by assumption. destruct (dget k e) as [v|] eqn:E.
  - injection D as <-. apply (R2 k). now apply dget_In.
  - apply (R1 k). now apply dget_In.
Qed.

Lemma get_claims_works cx (s : cdb) c cli ar scopes usage :
  In usage usages -> dget c s = Some cli -> claims_set_up cx cli -> claims_asked ar ->
  exists d, get_claims cx c (Some ar) scopes usage s = (Ok (CVal d), s) /\ claim_requests d /\
    forall k, wanted cx s c (Some ar) scopes usage k (dget k d).
Proof.
  intros Hu C S A.
  destruct (start_own cx s c cli usage Hu C S) as (m & Em & Rm & U).
  destruct (base_own cx cli usage Hu S) as (b & Eb & Rb & Gb).
  destruct (scoped_own cx s c cli scopes usage Hu C S) as (scl & Es & Rs & Gs).
  destruct (requested_own ar usage Hu A) as (rq & Er & Rr & Gr).
  destruct (get_claims_main cx c (Some ar) scopes usage s) as (_ & Hok & Hex & _).
  destruct (Hex _ _ _ _ Em Eb Es Er) as (r & Er').
  destruct (Hok r Er') as (r0 & b' & scl' & rq' & E0 & E1 & E2 & E3 & _ & P & _).
  assert (r0 = CVal m) by congruence. subst r0. assert (b' = b) by congruence. subst b'.
  assert (scl' = scl) by congruence. subst scl'. assert (rq' = rq) by congruence. subst rq'.
  destruct (P m eq_refl) as [Q ->]. exists (dupdate (dupdate (dupdate m b) scl) rq).
  split. { rewrite (surjective_pairing (get_claims cx c (Some ar) scopes usage s)), Er', Q. reflexivity. }
  split; [auto using claim_requests_update|]. intros k.
  rewrite (dget_update _ rq) by apply Rr. rewrite (dget_update _ scl) by apply Rs. rewrite (dget_update _ b) by apply Rb.
  unfold wanted. rewrite Gr. destruct (from_request (Some ar) usage k); [reflexivity|].
  destruct (Gs k) as [(X & ->)|(X & ->)]; [left; auto|right; split; [exact X|]].
  rewrite Gb. destruct (from_base cx usage k); [reflexivity|].
  assert (D : dget c [(c, cli)] = dget c s) by (cbn; rewrite String.eqb_refl; congruence).
  destruct (start_spec cx [(c, cli)] c usage (CVal m) k Hu U) as (m' & Q' & Dm).
  { rewrite <- Em. unfold start_ref, get_client_claims. now rewrite D. }
  injection Q' as <-. assert (B := from_client_local cx s [(c, cli)] c usage k D). destruct Dm as [(Y & ->)|(Y & ->)]; tauto.
Qed.

(** ** Making a token *)
Lemma payload_works cx u c cli g ar ty w : In ty ["access_token"; "authorization_code"; "refresh_token"]%string ->
  dget c (w_cdb w) = Some cli -> claims_set_up cx cli -> g_authreq g = Some ar -> claims_asked ar ->
  exists p, payload_arguments cx u c g ty None w = (Ok p, w).
Proof.
  intros Hty C S Ar A. assert (G : exists d, claim_requests d /\ get_claims cx c (Some ar) (g_scope g) ty (w_cdb w) = (Ok (CVal d), w_cdb w)).
  { destruct Hty as [<-|[<-|[<-|[]]]].
    - destruct (get_claims_works cx (w_cdb w) c cli ar (g_scope g) "access_token") as (d & E & R & _); auto; [cbn; auto|]. eauto.
    - exists []. split; [split; [constructor|intros ? ? []]|reflexivity].
    - exists []. split; [split; [constructor|intros ? ? []]|reflexivity]. }
  destruct G as (d & R & G). unfold payload_arguments. unfold bind, in_cdb. rewrite Ar, G. destruct w as [db cdb].
  unfold gets, lift, ret. cbn [w_cdb w_db resolve].
  destruct (release_spec (userinfo cx u) d (proj2 R)) as (out & E & _). unfold get_user_claims. rewrite E. eauto.
Qed.

Definition based_ok (clock : Z) (base : option token) (ty : string) : Prop :=
  forall b, base = Some b -> supports_minting b ty = true /\ t_active clock b = true.

Lemma mint_works cx mt u c gid cli g g0 ar ty base w :
  In ty ["access_token"; "authorization_code"; "refresh_token"]%string ->
  fine (w_db w) -> good u -> good c -> good gid -> view (w_db w) [u; c; gid] = Some (EGrant g0) ->
  dget c (w_cdb w) = Some cli -> claims_set_up cx cli -> g_authreq g = Some ar -> claims_asked ar ->
  g_active (mt_clock mt) g = true -> based_ok (mt_clock mt) base ty ->
  (forall p, exists v, mt_value mt (session_key [u; c; gid]) p = Ok v) ->
  exists t g' w' p cls, endpoint_mint cx mt (session_key [u; c; gid]) g ty base w = (Ok (Some t, g'), w') /\ w_cdb w' = w_cdb w /\
    mt_value mt (session_key [u; c; gid]) p = Ok (t_value t) /\
    TOKEN_MAP ty = Some cls /\ t_rules t = set_defaults cls (rule (g_rules g) ty) /\ t_id t = mt_id mt.
Proof.
  intros Hty Hf Hu Hc Hg V C S Ar A Ac B Hv.
  assert (exists cls, TOKEN_MAP ty = Some cls) as (cls & Tm).
  { destruct Hty as [<-|[<-|[<-|[]]]]; eexists; reflexivity. }
  destruct (payload_works cx u c cli g ar ty w Hty C S Ar A) as (p & P). destruct (Hv p) as (v & Ev).
  assert (M : forall r, mint_token (mt_clock mt) (mt_id mt) g ty base (dget ty (gr_types (g_rules g))) None no_kw r =
    match r with
    | Ok v => let t := t_set_value v (new_token (mt_clock mt) (mt_id mt) cls ty (option_map t_value base) (dget ty (gr_types (g_rules g))) None 0 0 0 []) in
              Ok (Some t, g_set_used (g_used g + 1) (g_set_issued (g_issued g ++ [t]) g))
    | Raise e => Raise e
    end).
  { intros r. unfold mint_token. rewrite Ac. cbn [negb]. destruct base as [b|].
    - destruct (B b eq_refl) as [-> ->]. cbn [andb rbind]. rewrite Tm. destruct (dget ty (gr_types (g_rules g))); destruct r; reflexivity.
    - cbn [rbind]. rewrite Tm. destruct (dget ty (gr_types (g_rules g))); destruct r; reflexivity. }
  unfold endpoint_mint. unfold mint_in, bind, lift, ret. rewrite M. cbv zeta iota beta. rewrite unpack3_good by assumption. rewrite P, M, Ev.
  cbv zeta iota beta. unfold in_db. rewrite unpack_good by auto with gp. rewrite db_store3 by (auto; apply Hf).
  do 5 eexists. split; [reflexivity|]. split; [reflexivity|].
  set (rl := dget ty (gr_types (g_rules g))). split; [|split; [exact Tm|]].
  - rewrite Ev. f_equal. destruct (Minting.lifetime rl =? 0); reflexivity.
  - unfold rule. fold rl. destruct (Minting.lifetime rl =? 0); cbn; destruct rl; auto.
Qed.

(** ** The token endpoint *)
Section Exchange.
  Variable sid_of : string -> result string.
  Variable b64hash : string -> string -> string.
  Variable cx : ctx.
  Variable idt : store -> string -> ST cdb string.
  Variables u c gid : string.
  Hypotheses (Hu : good u) (Hc : good c) (Hg : good gid).
  Notation sid := (session_key [u; c; gid]).

  Lemma by_token v g s : sid_of v = Ok sid -> view s [u; c; gid] = Some (EGrant g) ->
    get_session_info_by_token sid_of v false false true false false s = (Ok (mkSI sid u c gid None None (Some (EGrant g)) None None), s).
  Proof.
    intros E V. unfold get_session_info_by_token, get_session_info, bind, lift, ret. rewrite E, unpack3_good by assumption.
    destruct (read_cases [u; c; gid] s) as [(e & Hr & Hv)|(x & Hr & Hv)]; rewrite Hr; [|congruence]. do 3 f_equal. congruence.
  Qed.
  Lemma session_by_works v g s : sid_of v = Ok sid -> view s [u; c; gid] = Some (EGrant g) ->
    session_by sid_of v s = (Ok (mkSI sid u c gid None None (Some (EGrant g)) None None, g), s).
  Proof. intros E V. unfold session_by. rewrite (bind_run _ _ s _ s (by_token v g s E V)). reflexivity. Qed.
  Lemma look_works name request v g s catches : dget name request = Some (VStr v) -> sid_of v = Ok sid -> view s [u; c; gid] = Some (EGrant g) ->
    look sid_of name request catches s = (Ok (Some (v, mkSI sid u c gid None None (Some (EGrant g)) None None)), s).
  Proof.
    intros R E V. unfold look, catch. unfold bind at 1, lift. unfold msub_str. rewrite R.
    rewrite (bind_run _ _ s _ s (by_token v g s E V)). reflexivity.
  Qed.

  Lemma parse_works helpers pkce clock request code g t ar s :
    sid_of code = Ok sid -> view s [u; c; gid] = Some (EGrant g) -> get_token code g = Some t -> t_class t = CCode ->
    token_usable clock t -> g_authreq g = Some ar -> code_request b64hash pkce ar request code ->
    dget "authorization_code" helpers = Some HCode ->
    exists rq, token_parse sid_of b64hash helpers pkce clock request s = (Ok (PReq rq), s) /\
      forall k, k <> "client_id"%string -> dget k rq = dget k request.
  Proof.
    intros E V G Cl Us Ar R H. apply t_active_iff in Us.
    assert (P : exists rq, token_post_parse sid_of helpers clock request s = (Ok (PReq rq), s) /\ 
      forall k, k <> "client_id"%string -> dget k rq = dget k request).
    { unfold token_post_parse. unfold msub_str. rewrite (cr_type _ _ _ _ _ R).
      unfold bind at 1, lift at 1. rewrite H. unfold code_parse.
      rewrite (bind_run _ _ s _ s (look_works _ _ _ g s is_key_or_unknown (cr_code _ _ _ _ _ R) E V)). cbv beta iota.
      unfold bind at 1, grant_of. cbn [in_grant as_grant ret]. unfold ret at 1. rewrite G, Cl, Us. cbn [tclass_eqb negb].
      destruct (dmem "client_id" request) eqn:D; [exists request; split; [reflexivity|auto]|]. rewrite Ar.
      destruct (cr_client _ _ _ _ _ R) as [N|N].
      { unfold dmem in D. destruct (dget "client_id" request); congruence. }
      destruct (dget "client_id" ar) as [x|] eqn:Q; [|congruence].
      exists (dset "client_id" x request). unfold bind, lift, dsub. rewrite Q. cbn. split; [reflexivity|].
      intros k Nk. now apply dget_dset_neq. }
    destruct P as (rq & P & K). exists rq. split; [|exact K]. unfold token_parse. rewrite (bind_run _ _ s _ s P). cbv beta iota.
    destruct pkce; [|reflexivity]. unfold post_token_parse.
    assert (Rc : dget "code" rq = Some (VStr code)) by (rewrite K by discriminate; apply R).
    rewrite (bind_run _ _ s _ s (look_works _ _ _ g s is_key_error Rc E V)). cbv beta iota.
    unfold bind at 1, grant_of. cbn [in_grant as_grant ret]. unfold ret at 1. rewrite Ar. unfold dmem.
    destruct (cr_pkce _ _ _ _ _ R eq_refl) as [N|(ve & ch & m & A1 & A2 & A3 & A4)]; [now rewrite N|].
    rewrite A2. rewrite K by discriminate. rewrite A1. cbn [negb]. unfold bind, lift, msub_str. rewrite A3, A2, K, A1 by discriminate.
    unfold verify_code_challenge, cc_method.
    destruct A4 as [[-> ->]|(I & As & <-)].
    - rewrite String.eqb_refl. cbn [rbind]. now rewrite String.eqb_refl.
    - assert (N : (m =? "plain")%string = false) by (destruct I as [<-|[<-|[<-|[]]]]; reflexivity). rewrite N.
      apply smem_In in I. rewrite I, As. cbn [rbind]. now rewrite String.eqb_refl.
  Qed.

  Lemma id_token_works cli gr w resp : id_tokens_made idt u c gid cli -> view (w_db w) [u; c; gid] = Some (EGrant gr) ->
    dget c (w_cdb w) = Some cli ->
    exists x w', add_id_token idt sid resp w = (Ok (AOk (dset "id_token" (VStr x) resp) None), w') /\ w_db w' = w_db w /\ dget c (w_cdb w') = Some cli.
  Proof.
    intros M V C. destruct (M (w_db w) gr (w_cdb w) V C) as (x & cs & E & C'). exists x, (mkW (w_db w) cs).
    unfold add_id_token, catch, id_token_for, bind, gets, in_cdb, ret. cbn [id]. change (id w) with w. rewrite E. auto.
  Qed.

  Lemma process_works sharing helpers m1 m2 ir rq code g t ar scope cli w :
    let refresh := match ir with Some b => b | None => smem "offline_access" (g_scope g) end in
    fine (w_db w) -> sid_of code = Ok sid -> view (w_db w) [u; c; gid] = Some (EGrant g) -> get_token code g = Some t ->
    blank_to_plus code = code -> g_authreq g = Some ar -> claims_asked ar -> dget "scope" ar = Some (VList scope) ->
    dget c (w_cdb w) = Some cli -> claims_set_up cx cli -> 
    token_usable (mt_clock m1) t -> mintable (mt_clock m1) 0 g -> may_mint t "access_token" -> handles sid_of m1 sid ->
    (refresh = true -> token_usable (mt_clock m2) t /\ mintable (mt_clock m2) 1 g /\ may_mint t "refresh_token" /\ handles sid_of m2 sid) ->
    (In (VStr "openid") scope -> id_tokens_made idt u c gid cli) ->
    dget "grant_type" rq = Some (VStr "authorization_code") -> dget "code" rq = Some (VStr code) ->
    (dget "redirect_uri" ar = None \/ exists uri, dget "redirect_uri" ar = Some (VStr uri) /\ dget "redirect_uri" rq = Some (VStr uri)) ->
    dget "authorization_code" helpers = Some HCode ->
    exists args w' g' at_ rest p,
      token_process sid_of cx idt sharing helpers m1 m2 ir (PReq rq) w = (Ok (AOk args None), w') /\
      dget "access_token" args = Some (VStr (t_value at_)) /\ mt_value m1 sid p = Ok (t_value at_) /\ sid_of (t_value at_) = Ok sid /\
      t_class at_ = CAccess /\ t_rules at_ = rule (g_rules g) "access_token" /\ made (mt_clock m1) (g_rules g) "access_token" (Some t) at_ /\
      only_grant (w_db w) u c gid g' (w_db w') /\ fine (w_db w') /\ dget c (w_cdb w') = Some cli /\
      same_but_issued g g' (upd_first code register_usage (g_issued g) ++ at_ :: rest) /\
      length rest = (if refresh then 1%nat else 0%nat) /\ g_used g' = g_used g + 1 + Z.of_nat (length rest) /\
      (forall rt, In rt rest -> dget "refresh_token" args = Some (VStr (t_value rt)) /\ (exists p2, mt_value m2 sid p2 = Ok (t_value rt)) /\
         t_rules rt = set_defaults CRefresh (rule (g_rules g) "refresh_token") /\ made (mt_clock m2) (g_rules g) "refresh_token" (Some t) rt).
  Proof.
    intros refresh Hf Sc V G B Ar As Sco C St Us Mn My Ha Hr Hid Gt Gc Ga Hh.
    assert (Sup : forall ty, may_mint t ty -> supports_minting t ty = true).
    { intros ty (l & L & I). unfold supports_minting. rewrite L. now apply smem_In. }
    assert (Act : forall n k, mintable n k g -> forall g', g_rules g' = g_rules g -> g_used g' = g_used g + k -> g_revoked g' = g_revoked g ->
      g_not_before g' = g_not_before g -> g_expires_at g' = g_expires_at g -> g_active n g' = true).
    { intros n k M g' R1 R2 R3 R4 R5. apply g_active_iff. unfold grant_usable. rewrite R1, R2, R3, R4, R5. exact M. }
    unfold token_process. unfold msub_str at 1. rewrite Gt. unfold bind at 1, lift at 1. rewrite Hh.
    (* the first token *)
    destruct (mint_works cx m1 u c gid cli g g ar "access_token" (Some t) w) as (at_ & g1 & w1 & p & cls & M1 & Cd1 & Pv & Tm & Tr & _); auto.
    { now left. }
    { eapply Act; eauto. lia. }
    { intros b Eb. injection Eb as <-. split; [auto|]. now apply t_active_iff. }
    { intros q. destruct (Ha q) as (v & Ev & _). eauto. }
    destruct (mint_made cx m1 u c gid g g "access_token" (Some t) w at_ g1 w1 Hf Hu Hc Hg V M1) as (O1 & F1 & G1 & Md).
    injection Tm as <-.
    assert (Sa : sid_of (t_value at_) = Ok sid). { destruct (Ha p) as (v & Ev & Es). congruence. }
    (* the second *)
    assert (N2 : exists g2 w2 rest,
      (forall resp : msg, (if refresh then
         '(o, g2) <-- endpoint_mint cx m2 sid g1 "refresh_token" (Some t) ;;
         rt <-- the_token o ;;
         ret (g2, dset "refresh_token" (VStr (t_value rt)) resp)
       else ret (g1, resp)) w1 =
      (Ok (g2, match rest with rt :: _ => dset "refresh_token" (VStr (t_value rt)) resp | [] => resp end), w2)) /\
      only_grant (w_db w) u c gid g2 (w_db w2) /\ fine (w_db w2) /\ w_cdb w2 = w_cdb w /\
      same_but_issued g g2 (g_issued g ++ at_ :: rest) /\ length rest = (if refresh then 1%nat else 0%nat) /\
      g_used g2 = g_used g + 1 + Z.of_nat (length rest) /\
      (forall rt, In rt rest -> rest = [rt] /\ (exists p2, mt_value m2 sid p2 = Ok (t_value rt)) /\
         t_rules rt = set_defaults CRefresh (rule (g_rules g) "refresh_token") /\ made (mt_clock m2) (g_rules g) "refresh_token" (Some t) rt)).
    { destruct refresh.
      - destruct (Hr eq_refl) as (Us2 & Mn2 & My2 & Ha2).
        destruct (mint_works cx m2 u c gid cli g1 g1 ar "refresh_token" (Some t) w1) as (rt & g2 & w2 & p2 & cls2 & M2 & Cd2 & Pv2 & Tm2 & Tr2 & _); auto.
        { right. right. now left. }
        { apply O1. }
        { now rewrite Cd1. }
        { rewrite G1. exact Ar. }
        { eapply Act; eauto; rewrite G1; reflexivity. }
        { intros b Eb. injection Eb as <-. split; [auto|]. now apply t_active_iff. }
        { intros q. destruct (Ha2 q) as (v & Ev & _). eauto. }
        destruct (mint_made cx m2 u c gid g1 g1 "refresh_token" (Some t) w1 rt g2 w2 F1 Hu Hc Hg (proj1 O1) M2) as (O2 & F2 & G2 & Md2).
        exists g2, w2, [rt]. split. { intros resp. unfold bind. rewrite M2. reflexivity. }
        split; [exact (only_trans _ _ _ _ _ _ _ _ O1 O2)|]. split; [exact F2|]. split; [congruence|].
        split. { unfold same_but_issued. rewrite G2, G1. cbn. rewrite <- app_assoc. reflexivity. }
        split; [reflexivity|]. split; [rewrite G2, G1; cbn; lia|]. intros rt' [<-|[]]. injection Tm2 as <-.
        assert (Rr : g_rules g1 = g_rules g) by (rewrite G1; reflexivity). rewrite Rr in Md2, Tr2. eauto.
      - exists g1, w1, []. split; [reflexivity|]. split; [exact O1|]. split; [exact F1|]. split; [exact Cd1|].
        split. { unfold same_but_issued. rewrite G1. reflexivity. }
        split; [reflexivity|]. split; [rewrite G1; cbn; lia|]. intros rt []. }
    destruct N2 as (g2 & w2 & rest & N2 & O2 & F2 & Cd2 & S2 & L2 & U2 & Q2).
    (* the use of the code *)
    set (g3 := upd_token code register_usage g2).
    destruct (put_step (w_db w2) u c gid g2 g3 F2 Hu Hc Hg (proj1 O2)) as [O3 F3].
    set (w3 := mkW (snd (db_store [u; c; gid] (EGrant g3) (w_db w2))) (w_cdb w2)).
    assert (P3 : in_db (mset sid (EGrant g3)) w2 = (Ok tt, w3)).
    { unfold in_db, mset. rewrite unpack_good by auto with gp. unfold w3. rewrite db_store3 by (auto; apply F2). reflexivity. }
    destruct (get_token_split _ _ _ G) as (l1 & l2 & I1 & I2 & I3).
    assert (S3 : same_but_issued g g3 (upd_first code register_usage (g_issued g) ++ at_ :: rest)).
    { unfold same_but_issued, g3, upd_token. rewrite S2. cbn. rewrite I1, <- app_assoc. cbn [app].
      rewrite !upd_first_counted by assumption. rewrite <- app_assoc. reflexivity. }
    set (resp0 := dset "expires_in" (VInt (t_expires_at at_ - mt_clock m1))
                    (dset "access_token" (VStr (t_value at_)) [("token_type", VStr "Bearer"); ("scope", vstrs (g_scope g))])%string).
    set (resp := match rest with rt :: _ => dset "refresh_token" (VStr (t_value rt)) resp0 | [] => resp0 end).
    assert (Ra : dget "access_token" resp = Some (VStr (t_value at_))).
    { unfold resp. destruct rest; [reflexivity|]. rewrite dget_dset_neq by discriminate. reflexivity. }
    assert (Rf : forall rt, rest = [rt] -> dget "refresh_token" resp = Some (VStr (t_value rt))) by (intros rt Er; unfold resp; rewrite Er; apply dget_dset_eq).
    assert (Id : exists args w4,
      (openid <-- lift (val_in (VStr "openid") (VList scope)) ;;
       if openid : bool then add_id_token idt sid resp else ret (AOk resp None)) w3 = (Ok (AOk args None), w4) /\
      dget "access_token" args = Some (VStr (t_value at_)) /\ dget "refresh_token" args = dget "refresh_token" resp /\ w_db w4 = w_db w3 /\ dget c (w_cdb w4) = Some cli).
    { assert (C3 : dget c (w_cdb w3) = Some cli) by (cbn; now rewrite Cd2).
      unfold bind, lift. cbn [val_in]. destruct (existsb (val_eqb (VStr "openid")) scope) eqn:Ex.
      - assert (In (VStr "openid") scope) as I.
        { apply existsb_exists in Ex. destruct Ex as (v & Iv & Ev). destruct v; try discriminate Ev. apply String.eqb_eq in Ev. congruence. }
        destruct (id_token_works cli g3 w3 resp (Hid I) (proj1 O3) C3) as (x & w4 & E4 & D4 & C4).
        exists (dset "id_token" (VStr x) resp), w4. split; [exact E4|]. rewrite !dget_dset_neq by discriminate. auto.
      - exists resp, w3. split; [reflexivity|]. auto. }
    destruct Id as (args & w4 & Ei & Aa & Af & D4 & C4).
    assert (CP : code_process sid_of cx idt m1 m2 ir rq w = (Ok (AOk args None), w4)).
    { unfold code_process. unfold msub_str at 1. rewrite Gt. unfold bind at 1, lift at 1. rewrite String.eqb_refl. cbn [negb].
      unfold dmem. rewrite Gc. cbn [negb]. unfold msub_str at 1. rewrite Gc. unfold bind at 1, lift at 1. rewrite B. cbv zeta.
      assert (SB : in_db (session_by sid_of code) w = (Ok (mkSI sid u c gid None None (Some (EGrant g)) None None, g), w)).
      { unfold in_db. rewrite (session_by_works code g (w_db w) Sc V). now destruct w. }
      rewrite (bind_run _ _ w _ w SB). cbv beta iota. rewrite G, Ar. unfold the_request at 1. cbn [of_option].
      rewrite (bind_run _ _ w ar w eq_refl).
      assert (Mm : (match dget "redirect_uri" ar with
                    | Some v => u' <-- lift (dsub "redirect_uri" rq) ;; ret (negb (val_eqb u' v))
                    | None => ret false
                    end : W bool) w = (Ok false, w)).
      { destruct Ga as [N|(uri & A1 & A2)]; [now rewrite N|]. rewrite A1. unfold bind, lift, dsub. rewrite A2. cbn. now rewrite String.eqb_refl. }
      rewrite (bind_run _ _ w _ w Mm). cbv beta iota zeta. cbn [in_sid]. fold refresh.
      rewrite (bind_run _ _ w _ w1 M1). cbv beta iota. unfold the_token at 1. cbn [of_option].
      rewrite (bind_run _ _ w1 at_ w1 eq_refl). fold resp0.
      rewrite (bind_run _ _ w1 _ w2 (N2 resp0)). cbv beta iota. rewrite (bind_run _ _ w2 tt w2 eq_refl).
      fold g3. rewrite (bind_run _ _ w2 tt w3 P3). unfold dsub. rewrite Sco. cbn [of_option].
      rewrite (bind_run _ _ w3 (VList scope) w3 eq_refl). fold resp. exact Ei. }
    exists args, w4, g3, at_, rest, p. rewrite (bind_run _ _ w _ w4 CP). cbv beta iota.
    assert (V4 : view (w_db w4) [u; c; gid] = Some (EGrant g3)) by (rewrite D4; apply O3).
    split.
    { unfold msub_str. rewrite Aa. unfold bind at 1, lift at 1. unfold bind, in_db.
      rewrite (session_by_works (t_value at_) g3 (w_db w4) Sa V4). now destruct w4. }
    split; [exact Aa|]. split; [exact Pv|]. split; [exact Sa|]. split. { destruct Md as (_ & X & _). apply token_map_of_type in X. cbn in X. congruence. }
    split; [exact Tr|]. split; [exact Md|]. split. { rewrite D4. exact (only_trans _ _ _ _ _ _ _ _ O2 O3). }
    split. { rewrite D4. exact F3. }
    split; [exact C4|]. split; [exact S3|]. split; [exact L2|]. split; [exact U2|].
    intros rt I. destruct (Q2 rt I) as (Er & Q). split; [rewrite Af; auto|exact Q].
  Qed.
End Exchange.

Lemma made_usable now rules ty src t r : made (t_issued_at t) rules ty src t -> r = rule rules ty -> 
  in_time (ur_expires_in r) (t_issued_at t) now ->
  (forall n, ur_max_usage (t_rules t) = Some n -> 0 < n) -> token_usable now t.
Proof.
  intros (_ & _ & _ & Rv & Us & _ & Nb & Ex) -> It Mx. unfold token_usable, usable_at. rewrite Rv, Us, Nb.
  split; [reflexivity|]. split; [exact Mx|]. split; [congruence|]. rewrite Ex. unfold rule in It.
  destruct (dget ty (gr_types rules)) as [[mu mi [n|]]|]; cbn in It; try congruence. destruct (n =? 0) eqn:Q; [congruence|]. 
  apply Z.eqb_neq in Q. lia.
Qed.
