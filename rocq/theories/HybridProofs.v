(** HybridProofs.v: see HybridSpec.v *)
From Verif Require Import Base BaseProofs Monad MonadProofs Types SessionKey SessionKeyProofs Token Grant GrantSpec GrantProofs Database DatabaseSpec DatabaseProofs
  Manager ManagerSpec ManagerProofs Ctx Scopes ScopesSpec ScopesProofs Claims ClaimsSpec ClaimsProofs Authz AuthzProofs UserInfo UserInfoSpec UserInfoProofs
  World Minting TokenEndpoint WorldSpec WorldProofs ResponseSpec ResponseProofs Uri UriSpec UriProofs PropsUri Response AuthzEndpoint AuthzEndpointSpec AuthzEndpointProofs
  SetupAuth SetupAuthSpec SetupAuthProofs FlowSpec FlowProofs FlowAuthzProofs HybridSpec.
Local Open Scope Z_scope.

(** A token made by the endpoint *)
Definition fresh (mt : minting) (rules : grules) (ty : string) (cls : tclass) (base : option token) (sid : string) (t : token) : Prop :=
  made (mt_clock mt) rules ty base t /\ t_class t = cls /\ t_rules t = set_defaults cls (rule rules ty) /\
  exists p, mt_value mt sid p = Ok (t_value t).

Lemma asked_some {A} name rt (x : A) : In name rt -> as_asked name rt (Some x).
Proof. intros I. split; [auto|discriminate]. Qed.
Lemma asked_none {A} name rt : ~ In name rt -> as_asked name rt (None : option A).
Proof. intros N. split; [congruence|tauto]. Qed.

Lemma fresh_minted cx mt u c gid cli g ar ty cls base w :
  In ty ["access_token"; "authorization_code"; "refresh_token"]%string -> TOKEN_MAP ty = Some cls ->
  fine (w_db w) -> good u -> good c -> good gid -> view (w_db w) [u; c; gid] = Some (EGrant g) ->
  dget c (w_cdb w) = Some cli -> claims_set_up cx cli -> g_authreq g = Some ar -> claims_asked ar ->
  g_active (mt_clock mt) g = true -> based_ok (mt_clock mt) base ty ->
  (forall p, exists v, mt_value mt (session_key [u; c; gid]) p = Ok v) ->
  exists t w', endpoint_mint cx mt (session_key [u; c; gid]) g ty base w = (Ok (Some t, with_tokens [t] g), w') /\ w_cdb w' = w_cdb w /\
    fresh mt (g_rules g) ty cls base (session_key [u; c; gid]) t /\
    only_grant (w_db w) u c gid (with_tokens [t] g) (w_db w') /\ fine (w_db w').
Proof.
  intros Hty Tm Hf Hu Hc Hg V C S Ar A Ac B Hv.
  destruct (mint_works cx mt u c gid cli g g ar ty base w) as (t & g1 & w1 & p & cls' & M1 & Cd1 & Pv & Tm' & Tr & _); auto.
  assert (cls' = cls) by congruence. subst cls'.
  destruct (mint_made cx mt u c gid g g ty base w t g1 w1 Hf Hu Hc Hg V M1) as (O1 & F1 & G1 & Md).
  assert (W : with_tokens [t] g = g1). { pose proof (with_more [] t g) as X. rewrite with_none in X. now rewrite G1, X. }
  exists t, w1. rewrite W. split; [exact M1|]. split; [exact Cd1|]. split; [|split; [exact O1|exact F1]].
  split; [exact Md|]. split; [destruct Md as (_ & X & _); apply token_map_of_type in X; congruence|]. split; [exact Tr|eauto].
Qed.

Section Made.
  Variables (e : authz_env) (u c gid : string) (cli ar : msg).
  Notation sid := (session_key [u; c; gid]).
  Hypotheses (Hu : good u) (Hc : good c) (Hg : good gid) (S : claims_set_up (az_cx e) cli) (A : claims_asked ar).

  Lemma code_part_works g rt a w : fine (w_db w) -> view (w_db w) [u; c; gid] = Some (EGrant g) -> dget c (w_cdb w) = Some cli ->
    g_authreq g = Some ar ->
    (In "code"%string rt -> g_active (mt_clock (az_code e)) g = true /\ forall p, exists v, mt_value (az_code e) sid p = Ok v) ->
    exists o w', code_part e sid g rt a w =
        (Ok (o, with_tokens (single o) g, match o with Some t => dset "code" (VStr (t_value t)) a | None => a end), w') /\
      as_asked "code" rt o /\ w_cdb w' = w_cdb w /\ fine (w_db w') /\ only_grant (w_db w) u c gid (with_tokens (single o) g) (w_db w') /\
      forall t, o = Some t -> fresh (az_code e) (g_rules g) "authorization_code" CCode None sid t.
  Proof.
    intros Hf V C Ar Hm. unfold code_part. destruct (smem "code" rt) eqn:M.
    - apply smem_In in M. destruct (Hm M) as (Ac & Hv).
      destruct (fresh_minted (az_cx e) (az_code e) u c gid cli g ar "authorization_code" CCode None w) as (t & w' & E & Cd & F & O & Hf'); auto.
      { cbn; auto. } { intros b X; discriminate. }
      exists (Some t), w'. rewrite (bind_run _ _ _ _ _ E). split; [reflexivity|]. split; [now apply asked_some|]. split; [exact Cd|].
      split; [exact Hf'|]. split; [exact O|]. intros t' X. injection X as <-. exact F.
    - exists None, w. cbn [single]. rewrite with_none. split; [reflexivity|].
      split. { apply asked_none. intros I. apply smem_In in I. congruence. }
      split; [reflexivity|]. split; [exact Hf|]. split; [|discriminate]. split; [exact V|reflexivity].
  Qed.

  Definition with_token (e : authz_env) (o : option token) (a : msg) : msg :=
    match o with
    | Some t => let a1 := dset "token_type" (VStr "Bearer") (dset "access_token" (VStr (t_value t)) a) in
                if t_expires_at t =? 0 then a1 else dset "expires_in" (VInt (t_expires_at t - az_later e)) a1
    | None => a
    end.
  Lemma token_part_works g rt code a w : fine (w_db w) -> view (w_db w) [u; c; gid] = Some (EGrant g) -> dget c (w_cdb w) = Some cli ->
    g_authreq g = Some ar ->
    (In "token"%string rt -> g_active (mt_clock (az_access e)) g = true /\ based_ok (mt_clock (az_access e)) code "access_token" /\
       forall p, exists v, mt_value (az_access e) sid p = Ok v) ->
    exists o w', token_part e sid g rt code a w = (Ok (o, with_token e o a), w') /\
      as_asked "token" rt o /\ w_cdb w' = w_cdb w /\ fine (w_db w') /\ only_grant (w_db w) u c gid (with_tokens (single o) g) (w_db w') /\
      forall t, o = Some t -> fresh (az_access e) (g_rules g) "access_token" CAccess code sid t.
  Proof.
    intros Hf V C Ar Hm. unfold token_part. destruct (smem "token" rt) eqn:M.
    - apply smem_In in M. destruct (Hm M) as (Ac & B & Hv).
      destruct (fresh_minted (az_cx e) (az_access e) u c gid cli g ar "access_token" CAccess code w) as (t & w' & E & Cd & F & O & Hf'); auto.
      { cbn; auto. }
      exists (Some t), w'. rewrite (bind_run _ _ _ _ _ E). split; [reflexivity|]. split; [now apply asked_some|]. split; [exact Cd|].
      split; [exact Hf'|]. split; [exact O|]. intros t' X. injection X as <-. exact F.
    - exists None, w. cbn [single]. rewrite with_none. split; [reflexivity|].
      split. { apply asked_none. intros I. apply smem_In in I. congruence. }
      split; [reflexivity|]. split; [exact Hf|]. split; [|discriminate]. split; [exact V|reflexivity].
  Qed.

  Lemma note_works s g v : fine s -> view s [u; c; gid] = Some (EGrant g) ->
    exists s', db_update [u; c] [("id_token"%string, v)] s = (Ok tt, s') /\ fine s' /\ view s' [u; c; gid] = Some (EGrant g).
  Proof.
    intros [Hk Hl] V. destruct (db_update [u; c] [("id_token"%string, v)] s) as [r s'] eqn:E. pose proof E as E0.
    unfold db_update, bind in E. destruct (read_cases [u; c] s) as [(en & Rd & Ev)|(x & Rd & Ev)]; rewrite Rd in E.
    2: { rewrite view3, Ev in V. discriminate. }
    assert (exists ci, en = EInfo ci) as [ci ->].
    { rewrite view3, Ev in V. destruct en as [ci|]; [eauto|discriminate]. }
    unfold ret in E. set (vi := mkSInfo _ _ _ _ _) in E.
    assert (Kn := kinds_store2 s u c vi Hk Hu Hc). assert (Ln := linked_store2 s u c vi Hk Hl Hu Hc).
    rewrite db_store2 in * by auto. cbn [snd] in *. injection E as <- <-.
    destruct (note_step s u c gid g v _ (conj Hk Hl) Hu Hc Hg V E0) as [_ F].
    eexists. split; [reflexivity|]. split; [split; assumption|]. rewrite F; [exact V|auto with gp|discriminate].
  Qed.

  Lemma id_part_works g i rt code access a w : in_uid i = u -> in_cid i = c -> in_sid i = sid ->
    fine (w_db w) -> view (w_db w) [u; c; gid] = Some (EGrant g) -> dget c (w_cdb w) = Some cli ->
    (In "id_token"%string rt -> id_tokens_there e u c gid cli) ->
    exists o w', id_part e i rt code access a w = (Ok (Some (match o with Some x => dset "id_token" (VStr x) a | None => a end)), w') /\
      as_asked "id_token" rt o /\ dget c (w_cdb w') = Some cli /\ fine (w_db w') /\ view (w_db w') [u; c; gid] = Some (EGrant g).
  Proof.
    intros I1 I2 I3 Hf V C Hm. unfold id_part. destruct (smem "id_token" rt) eqn:M.
    - apply smem_In in M. destruct (Hm M (w_db w) g (w_cdb w) (option_map t_value code) (option_map t_value access) V C) as (x & cs & E & Ec).
      rewrite (bind_run (gets w_db) _ w (w_db w) w eq_refl). rewrite I3.
      assert (X : in_cdb (az_idtoken e (w_db w) sid (option_map t_value code) (option_map t_value access)) w = (Ok (Some x), mkW (w_db w) cs)).
      { unfold in_cdb. now rewrite E. }
      rewrite (bind_run _ _ _ _ _ X). cbv beta iota. rewrite I1, I2.
      destruct (note_works (w_db w) g (VStr x) Hf V) as (s' & E' & F' & V').
      assert (Y : in_db (db_update [u; c] [("id_token"%string, VStr x)]) (mkW (w_db w) cs) = (Ok tt, mkW s' cs)).
      { unfold in_db. cbn [w_db]. now rewrite E'. }
      rewrite (bind_run _ _ _ _ _ Y). exists (Some x), (mkW s' cs). split; [reflexivity|]. split; [now apply asked_some|].
      split; [exact Ec|]. split; [exact F'|exact V'].
    - exists None, w. split; [reflexivity|]. split. { apply asked_none. intros I. apply smem_In in I. congruence. } auto.
  Qed.

  Lemma fragment_iff rt : rt <> [] -> negb (set_eqb rt ["code"]%string) = true <-> more_than_code rt.
  Proof.
    intros N. unfold set_eqb, subset, more_than_code. rewrite negb_true_iff. split.
    - intros E. destruct (forallb (fun x => String.eqb x "code") rt) eqn:F.
      + exfalso. rewrite forallb_forall in F. assert (X : forall x, In x rt -> x = "code"%string) by (intros x Hx; apply String.eqb_eq; auto).
        apply andb_false_iff in E. destruct E as [E|E]; apply Bool.not_true_iff_false in E; apply E; apply forallb_forall.
        * intros x Hx. rewrite (X x Hx). reflexivity.
        * intros x [<-|[]]. apply smem_In. destruct rt as [|x l]; [congruence|]. left. apply X. now left.
      + assert (D : exists x, In x rt /\ String.eqb x "code" = false).
        { clear -F. induction rt as [|x l IH]; [discriminate|]. cbn in F. destruct (String.eqb x "code") eqn:X; [|exists x; cbn; auto].
          destruct IH as (y & Y1 & Y2); [exact F|]. exists y. cbn; auto. }
        destruct D as (x & X1 & X2). exists x. split; [exact X1|]. now apply String.eqb_neq.
    - intros (x & X1 & X2). apply andb_false_iff. left. apply Bool.not_true_iff_false. intros F. rewrite forallb_forall in F.
      apply F in X1. apply smem_In in X1. destruct X1 as [X1|[]]. congruence.
  Qed.

  (** The members of the response *)
  Definition shown (rt : list string) (args : msg) (code access : option token) (idt : option string) : Prop :=
    gives rt args code access idt /\ ~ failed args.

  Lemma create_any request rt w g :
    fine (w_db w) -> view (w_db w) [u; c; gid] = Some (EGrant g) -> dget c (w_cdb w) = Some cli -> g_authreq g = Some ar ->
    mget_list "response_type" request = Some rt -> response_type rt ->
    (In "code"%string rt -> g_active (mt_clock (az_code e)) g = true /\ forall p, exists v, mt_value (az_code e) sid p = Ok v) ->
    (In "token"%string rt -> (forall l, Z.of_nat (length l) <= (if smem "code" rt then 1 else 0) ->
       g_active (mt_clock (az_access e)) (with_tokens l g) = true) /\ forall p, exists v, mt_value (az_access e) sid p = Ok v) ->
    (In "token"%string rt -> forall t, In "code"%string rt -> fresh (az_code e) (g_rules g) "authorization_code" CCode None sid t ->
       supports_minting t "access_token" = true /\ t_active (mt_clock (az_access e)) t = true) ->
    (In "id_token"%string rt -> id_tokens_there e u c gid cli) ->
    exists r code access idt w', create_authn_response e request sid w = (Ok r, w') /\
      shown rt (ri_args r) code access idt /\ (exists f, ri_fragment r = Some f /\ (f = true <-> more_than_code rt)) /\
      view (w_db w') [u; c; gid] = Some (EGrant (with_tokens (single code ++ single access) g)) /\ fine (w_db w') /\ dget c (w_cdb w') = Some cli /\
      (forall t, code = Some t -> fresh (az_code e) (g_rules g) "authorization_code" CCode None sid t) /\
      (forall t, access = Some t -> fresh (az_access e) (g_rules g) "access_token" CAccess code sid t).
  Proof.
    intros Hf V C Ar Rt (Ne & Kn) Hcode Htok Hboth Hid. unfold create_authn_response. rewrite Rt.
    assert (Nn : only "none" rt = false).
    { destruct rt as [|x [|y l]]; try reflexivity. cbn. apply String.eqb_neq. intros ->. specialize (Kn "none"%string (or_introl eq_refl)). cbn in Kn. intuition discriminate. }
    rewrite Nn.
    assert (R : in_db (get_session_info sid false false true false false) w =
      (Ok (mkSI sid u c gid None None (Some (EGrant g)) None None), w)).
    { unfold in_db. unfold get_session_info, bind, lift, ret. rewrite unpack3_good by assumption.
      destruct (read_cases [u; c; gid] (w_db w)) as [(x & Hr & Hv')|(x & Hr & Hv')]; rewrite Hr; [|congruence].
      assert (x = EGrant g) by congruence. subst x. now destruct w. }
    rewrite (bind_run _ _ _ _ _ R). cbv beta. cbv zeta.
    set (a0 := match truthy_get "scope" request with Some v => dset "scope" v _ | None => _ end).
    unfold lift at 1. cbn [of_option]. rewrite (bind_run _ _ w rt w eq_refl). cbv beta.
    assert (R2 : in_db (grant_of (mkSI sid u c gid None None (Some (EGrant g)) None None)) w = (Ok g, w)).
    { unfold in_db. cbn. now destruct w. }
    rewrite (bind_run _ _ _ _ _ R2). cbv beta. cbn [in_sid].
    destruct (code_part_works g rt a0 w Hf V C Ar Hcode) as (code & w1 & E1 & As1 & Cd1 & F1 & [V1 _] & Fr1).
    rewrite (bind_run _ _ _ _ _ E1). cbv beta iota.
    set (a1 := match code with Some t => dset "code" (VStr (t_value t)) a0 | None => a0 end).
    assert (C1 : dget c (w_cdb w1) = Some cli) by (rewrite Cd1; exact C).
    destruct (token_part_works (with_tokens (single code) g) rt code a1 w1 F1 V1 C1 Ar) as (access & w2 & E2 & As2 & Cd2 & F2 & [V2 _] & Fr2).
    { intros I. destruct (Htok I) as (T1 & T2). split; [|split; [|exact T2]].
      - apply T1. destruct code as [t|]; cbn [single length]; [|destruct (smem "code" rt); lia].
        assert (X : smem "code" rt = true) by (apply smem_In; apply As1; discriminate). rewrite X. lia.
      - intros b ->. apply (Hboth I b); [apply As1; discriminate|]. now apply Fr1. }
    rewrite (bind_run _ _ _ _ _ E2). cbv beta iota.
    set (g2 := with_tokens (single access) (with_tokens (single code) g)) in *.
    assert (C2 : dget c (w_cdb w2) = Some cli) by (rewrite Cd2; exact C1).
    destruct (id_part_works g2 (mkSI sid u c gid None None (Some (EGrant g)) None None) rt code access (with_token e access a1) w2
      eq_refl eq_refl eq_refl F2 V2 C2 Hid) as (idt & w3 & E3 & As3 & C3 & F3 & V3).
    rewrite (bind_run _ _ _ _ _ E3). cbv beta iota.
    assert (Fb : forallb (fun x => smem x ["code"; "token"; "id_token"]%string) rt = true).
    { apply forallb_forall. intros x Hx. apply smem_In. auto. }
    rewrite Fb. eexists. exists code, access, idt, w3. split; [reflexivity|]. cbn [ri_args ri_fragment].
    assert (G2 : g2 = with_tokens (single code ++ single access) g).
    { unfold g2. destruct access as [t|]; cbn [single]; [|rewrite with_none, app_nil_r; reflexivity].
      pose proof (with_more (single code) t g) as X. pose proof (with_more [] t (with_tokens (single code) g)) as Y. rewrite with_none in Y. cbn [app] in Y. congruence. }
    rewrite <- G2.
    split; [|split; [eexists; split; [reflexivity|now apply fragment_iff]|split; [exact V3|split; [exact F3|split; [exact C3|split; [exact Fr1|exact Fr2]]]]]].
    assert (A0 : forall k, dget k a0 <> None -> k = "scope"%string \/ k = "state"%string).
    { intros k. unfold a0. destruct (truthy_get "scope" request), (truthy_get "state" request); cbn;
        repeat match goal with |- context [String.eqb ?x ?y] => destruct (String.eqb_spec x y) end; subst; auto; congruence. }
    assert (B0 : forall k, k <> "scope"%string -> k <> "state"%string -> dget k a0 = None).
    { intros k N1 N2. destruct (dget k a0) eqn:D; [|reflexivity]. destruct (A0 k); congruence. }
    split; [constructor|]; try assumption.
    - destruct code as [tc|], access as [ta|], idt as [v|]; cbn [with_token single option_map]; unfold a1; try destruct (t_expires_at ta =? 0);
        repeat first [rewrite dget_dset_eq|rewrite dget_dset_neq by discriminate]; try reflexivity; apply B0; discriminate.
    - destruct code as [tc|], access as [ta|], idt as [v|]; cbn [with_token single option_map]; unfold a1; try destruct (t_expires_at ta =? 0);
        repeat first [rewrite dget_dset_eq|rewrite dget_dset_neq by discriminate]; try reflexivity; apply B0; discriminate.
    - destruct code as [tc|], access as [ta|], idt as [v|]; cbn [with_token single option_map]; unfold a1; try destruct (t_expires_at ta =? 0);
        repeat first [rewrite dget_dset_eq|rewrite dget_dset_neq by discriminate]; try reflexivity; apply B0; discriminate.
    - destruct code as [tc|], access as [ta|], idt as [v|]; cbn [with_token single option_map]; unfold a1; try destruct (t_expires_at ta =? 0);
        repeat first [rewrite dget_dset_eq|rewrite dget_dset_neq by discriminate]; try reflexivity; apply B0; discriminate.
    - intros k Hk. assert (D : In k ["code"; "access_token"; "token_type"; "expires_in"; "id_token"]%string \/ dget k a0 <> None).
      { destruct (in_dec string_dec k ["code"; "access_token"; "token_type"; "expires_in"; "id_token"]%string) as [I|N]; [now left|right].
        cbn [In] in N. revert Hk. destruct code as [tc|], access as [ta|], idt as [v|]; cbn [with_token]; unfold a1; try destruct (t_expires_at ta =? 0);
          repeat rewrite dget_dset_neq by (intros X; subst; tauto); auto. }
      destruct D as [D|D]; [cbn in D |- *; tauto|]. destruct (A0 k D) as [-> | ->]; cbn; auto 20.
    - intros [v X]. revert X. destruct code as [tc|], access as [ta|], idt as [v'|]; cbn [with_token]; unfold a1; try destruct (t_expires_at ta =? 0);
        repeat rewrite dget_dset_neq by discriminate; rewrite B0 by discriminate; discriminate.
  Qed.

  (** ** The response *)
  Lemma gives_more rt args code access idt k v : gives rt args code access idt ->
    In k ["iss"; "client_id"; "session_state"]%string -> gives rt (dset k v args) code access idt.
  Proof.
    intros [G1 G2 G3 G4 G5 G6 G7 G8] I.
    assert (N : forall x, In x ["code"; "access_token"; "token_type"; "id_token"]%string -> dget x (dset k v args) = dget x args).
    { intros x Hx. apply dget_dset_neq. intros ->. cbn in I, Hx. intuition congruence. }
    constructor; auto; try (rewrite N by (cbn; auto 10); assumption).
    intros x Hx. destruct (string_dec x k) as [->|D]; [cbn in I |- *; tauto|]. rewrite dget_dset_neq in Hx by auto. auto.
  Qed.
  Lemma shown_more rt args code access idt k v : shown rt args code access idt ->
    In k ["iss"; "client_id"; "session_state"]%string -> shown rt (dset k v args) code access idt.
  Proof.
    intros [G F] I. split; [now apply gives_more|]. intros [x X]. apply F. exists x. rewrite dget_dset_neq in X; [exact X|].
    intros <-. cbn in I. intuition congruence.
  Qed.

  (** What is known when the grant is there and allows what is asked for *)
  Record allows (g : grant) (rt : list string) : Prop := {
    al_code : In "code"%string rt -> g_active (mt_clock (az_code e)) g = true /\ forall p, exists v, mt_value (az_code e) sid p = Ok v;
    al_token : In "token"%string rt -> (forall l, Z.of_nat (length l) <= (if smem "code" rt then 1 else 0) ->
       g_active (mt_clock (az_access e)) (with_tokens l g) = true) /\ forall p, exists v, mt_value (az_access e) sid p = Ok v;
    al_both : In "token"%string rt -> forall t, In "code"%string rt -> fresh (az_code e) (g_rules g) "authorization_code" CCode None sid t ->
       supports_minting t "access_token" = true /\ t_active (mt_clock (az_access e)) t = true;
    al_id : In "id_token"%string rt -> id_tokens_there e u c gid cli }.
  (** What comes of it *)
  Record outcome (rt : list string) (g : grant) (w' : world) (r : rinfo) (code access : option token) (idt : option string) : Prop := {
    oc_shown : shown rt (ri_args r) code access idt;
    oc_fragment : exists f, ri_fragment r = Some f /\ (f = true <-> more_than_code rt);
    oc_grant : view (w_db w') [u; c; gid] = Some (EGrant (with_tokens (single code ++ single access) g));
    oc_fine : fine (w_db w');
    oc_client : dget c (w_cdb w') = Some cli;
    oc_code : forall t, code = Some t -> fresh (az_code e) (g_rules g) "authorization_code" CCode None sid t;
    oc_access : forall t, access = Some t -> fresh (az_access e) (g_rules g) "access_token" CAccess code sid t }.

  Lemma post_any request rt uri w g g1 w1 :
    fine (w_db w) -> view (w_db w) [u; c; gid] = Some (EGrant g) -> 
    authorize e sid request w = (Ok g1, w1) -> dget c (w_cdb w1) = Some cli -> g_authreq g1 = Some ar ->
    mget_list "response_type" request = Some rt -> response_type rt -> allows g1 rt ->
    (forall clients, dget c clients = Some cli -> get_uri (az_u e) clients request "redirect_uri" = Ok uri) ->
    (exists k, az_cookie e sid (dget "state" request) = Ok k) -> mode_for rt request ->
    exists r w' code access idt, post_authentication e request sid w = (Ok r, w') /\ ri_uri r = Some uri /\
      outcome rt g1 w' r code access idt.
  Proof.
    intros Hf V E1 C1 Ar Rt Kn [L1 L2 L3 L4] Gu (k & Hk) Md.
    destruct (authorize_ok _ _ _ _ _ _ _ _ _ Hf Hu Hc Hg V E1) as (Hf1 & (g0 & V1) & Ar1 & _ & _ & _).
    destruct (put_step (w_db w1) u c gid g0 g1 Hf1 Hu Hc Hg V1) as [[P1 P2] P3].
    set (w2 := mkW (snd (db_store [u; c; gid] (EGrant g1) (w_db w1))) (w_cdb w1)).
    destruct (create_any request rt w2 g1 P3 P1 C1 Ar Rt Kn L1 L2 L3 L4) as (r & code & access & idt & w3 & E3 & Sh & (f & Ff & Fr) & V3 & F3 & C3 & Fc & Fa).
    assert (Rd : exists v, dsub "response_type" request = Ok v).
    { unfold dsub. unfold mget_list in Rt. destruct (dget "response_type" request) as [v|]; [eexists; reflexivity|discriminate]. }
    destruct Rd as (rtv & Rd).
    assert (Run : exists r', post_authentication e request sid w = (Ok r', w3) /\ ri_args r' = ri_args r /\ ri_uri r' = Some uri /\ ri_fragment r' = Some f).
    { unfold post_authentication.
      assert (X1 : attempt (authorize e sid request) w = (Ok (Ok g1), w1)) by (unfold attempt; now rewrite E1).
      rewrite (bind_run _ _ _ _ _ X1). cbv beta iota. rewrite unpack3_good by assumption.
      unfold lift at 1. rewrite (bind_run _ _ w1 (u, c, gid) w1 eq_refl). cbv beta iota.
      assert (X2 : attempt (in_db (db_store [u; c; gid] (EGrant g1))) w1 = (Ok (Ok tt), w2)).
      { unfold attempt, in_db, w2. rewrite db_store3 by (auto; apply Hf1). reflexivity. }
      rewrite (bind_run _ _ _ _ _ X2). cbv beta iota. rewrite Rd. unfold lift at 1. rewrite (bind_run _ _ w2 rtv w2 eq_refl). cbv beta.
      rewrite (bind_run _ _ _ _ _ E3). cbv beta zeta. rewrite (bind_run (gets w_cdb) _ w3 (w_cdb w3) w3 eq_refl). cbv beta.
      rewrite (Gu _ C3). cbv beta iota. rewrite Hk. unfold lift at 1. rewrite (bind_run _ _ w3 k w3 eq_refl). cbv beta.
      destruct Md as [->|[->|[(-> & Mc)|(-> & Mc)]]].
      - eexists. split; [reflexivity|]. repeat split; assumption.
      - unfold response_mode. change (val_eqb (VStr "form_post") (VStr "form_post")) with true. cbn [ri_uri of_option rbind].
        eexists. split; [reflexivity|]. repeat split; assumption.
      - unfold response_mode. change (val_eqb (VStr "query") (VStr "form_post")) with false. change (val_eqb (VStr "query") (VStr "fragment")) with false.
        change (val_eqb (VStr "query") (VStr "query")) with true. cbn [ri_fragment]. rewrite Ff.
        assert (f = false) by (destruct f; [destruct Mc; now apply Fr|reflexivity]). subst f.
        eexists. split; [reflexivity|]. repeat split; assumption.
      - unfold response_mode. change (val_eqb (VStr "fragment") (VStr "form_post")) with false. change (val_eqb (VStr "fragment") (VStr "fragment")) with true.
        cbn [ri_fragment]. rewrite Ff. apply Fr in Mc. subst f. eexists. split; [reflexivity|]. repeat split; assumption. }
    destruct Run as (r' & Run & Ra & Ru & Rf). exists r', w3, code, access, idt. split; [exact Run|]. split; [exact Ru|].
    constructor; auto; [now rewrite Ra|]. exists f. auto.
  Qed.

  Lemma part2_any request rt cid uri w g g1 w1 ae :
    fine (w_db w) -> view (w_db w) [u; c; gid] = Some (EGrant g) -> 
    authorize e sid request w = (Ok g1, w1) -> dget c (w_cdb w1) = Some cli -> g_authreq g1 = Some ar -> g_authn g1 = Some ae ->
    mget_list "response_type" request = Some rt -> response_type rt -> allows g1 rt ->
    (forall clients, dget c clients = Some cli -> get_uri (az_u e) clients request "redirect_uri" = Ok uri) ->
    (exists k, az_cookie e sid (dget "state" request) = Ok k) -> mode_for rt request ->
    dget "client_id" request = Some (VStr cid) -> managed e uri (ae_valid_until ae) ->
    exists r w' code access idt, authz_part2 e request sid w = (Ok r, w') /\ ri_uri r = Some uri /\ outcome rt g1 w' r code access idt.
  Proof.
    intros Hf V E1 C1 Ar Ae Rt Kn Al Gu Ck Md Ci Mg.
    destruct (post_any request rt uri w g g1 w1 Hf V E1 C1 Ar Rt Kn Al Gu Ck Md) as (r & w' & code & access & idt & E & Ru & [O1 (f & Of & O2) O3 O4 O5 O6 O7]).
    assert (Fin : exists r', authz_part2 e request sid w = (Ok r', w') /\ shown rt (ri_args r') code access idt /\ ri_uri r' = ri_uri r /\
      ri_fragment r' = ri_fragment r).
    { unfold authz_part2.
      assert (X : attempt (post_authentication e request sid) w = (Ok (Ok r), w')) by (unfold attempt; now rewrite E).
      rewrite (bind_run _ _ _ _ _ X). cbv beta iota zeta. unfold managed in Mg. destruct (az_iframe e).
      - destruct (Mg eq_refl) as (Lt & Op & (o & Or)).
        assert (Y : attempt (in_db (get_authentication_event sid)) w' = (Ok (Ok (Some ae)), w')).
        { unfold attempt, in_db. rewrite (event_read u c gid (w_db w') _ Hu Hc Hg O3).
          assert (Z : g_authn (with_tokens (single code ++ single access) g1) = Some ae) by exact Ae.
          rewrite Z. now destruct w'. }
        rewrite (bind_run _ _ _ _ _ Y). cbv beta iota. apply Z.ltb_lt in Lt. rewrite Lt. cbn [negb].
        destruct (Op (ae_authn_time ae)) as (ob & Eo). rewrite Eo. unfold lift at 1. rewrite (bind_run _ _ w' ob w' eq_refl). cbv beta zeta.
        unfold msub_str at 1. rewrite Ci. unfold lift at 1. rewrite (bind_run _ _ w' cid w' eq_refl). cbv beta.
        rewrite Ru. unfold lift at 1. cbn [of_option]. rewrite (bind_run _ _ w' uri w' eq_refl). cbv beta. rewrite Or.
        unfold lift at 1. rewrite (bind_run _ _ w' o w' eq_refl). cbv beta.
        unfold dsub. rewrite Ci. unfold lift at 1. cbn [of_option]. rewrite (bind_run _ _ w' (VStr cid) w' eq_refl). unfold ret.
        eexists. split; [reflexivity|]. cbn [ri_args with_args ri_uri ri_fragment].
        assert (Q : forall q, let r0 := match ob with Some (v, c0) => if nonempty v then add_cookie c0 q else q | None => q end in
          ri_args r0 = ri_args q /\ ri_uri r0 = ri_uri q /\ ri_fragment r0 = ri_fragment q).
        { intros q. cbv zeta. destruct ob as [[v k]|]; [|auto]. destruct (nonempty v); [|auto]. unfold add_cookie. destruct (ri_cookie q) as [[]|]; auto. }
        destruct (Q r) as (Q1 & Q2 & Q3). rewrite Q1, Q2, Q3. split; [|split; [exact Ru|reflexivity]].
        repeat (apply shown_more; [|cbn; auto]). exact O1.
      - unfold dsub. rewrite Ci. unfold lift at 1. cbn [of_option]. rewrite (bind_run _ _ w' (VStr cid) w' eq_refl). unfold ret.
        eexists. split; [reflexivity|]. cbn [ri_args with_args ri_uri ri_fragment]. split; [|split; reflexivity].
        repeat (apply shown_more; [|cbn; auto]). exact O1. }
    destruct Fin as (r' & E' & Q1 & Q2 & Q3). exists r', w', code, access, idt. split; [exact E'|]. split; [congruence|].
    constructor; auto. exists f. split; [congruence|exact O2].
  Qed.
End Made.

(** ** The authorization endpoint *)
Lemma uri_any az w e request c cli uri scopes rt : good c -> dget "client_id" request = Some (VStr c) -> dget "redirect_uri" request = Some (VStr uri) ->
  (forall q, proper_query (ul_qs (az_u az) q)) -> asks az w request c uri scopes rt -> dget c (w_cdb w) = Some cli ->
  forall clients, dget c clients = Some cli -> get_uri (az_u az) clients (changed e request) "redirect_uri" = Ok uri.
Proof.
  intros Hc C U Q [_ _ _ _ _ (l & R & Pe & Nd & M)] Ec clients Ec'.
  assert (C' : dget "client_id" (changed e request) = Some (VStr c)) by (rewrite changed_get; [exact C|discriminate]).
  assert (U' : dget "redirect_uri" (changed e request) = Some (VStr uri)) by (rewrite changed_get; [exact U|discriminate]).
  assert (R' : registered clients c "redirect_uris" l).
  { destruct R as (info & R1 & R2). exists info. split; [|exact R2]. congruence. }
  unfold get_uri. unfold dmem. rewrite U'.
  assert (V : verify_uri (az_u az) clients (changed e request) "redirect_uri" None = Ok tt).
  { apply (C20_exact (az_u az) clients (changed e request) "redirect_uri" None c uri l); auto.
    split; [|now left]. intros ->. now destruct Hc. }
  rewrite V. cbn [rbind]. unfold msub_str. now rewrite U'.
Qed.

Lemma grant_left e az w c g n now : g_rules g = rules_of e az w c -> g_revoked g = false -> g_not_before g = 0 -> g_expires_at g = end_then az ->
  g_used g < n -> leaves e az w c n now -> g_active now g = true.
Proof.
  intros Rl Zv Zn Ze U [L1 L2]. apply g_active_iff. unfold grant_usable. rewrite Rl, Zv, Zn, Ze.
  split; [reflexivity|]. split. { intros k Hk. specialize (L1 k Hk). lia. } split; [congruence|]. intros N. apply L2. congruence.
Qed.

Lemma fresh_code_usable e az w c ty n now sid t : exchangeable e az w c ty n now ->
  fresh (az_code az) (rules_of e az w c) "authorization_code" CCode None sid t -> token_usable now t /\ may_mint t ty.
Proof.
  intros (Gv & _ & It) (Md & _ & Tr & _). assert (Is : t_issued_at t = mt_clock (az_code az)) by apply Md. split.
  - eapply made_usable; [rewrite Is; exact Md|reflexivity| |].
    + rewrite Is. exact It.
    + rewrite Tr. cbn. intros k Ek. injection Ek as <-. lia.
  - unfold may_mint. rewrite Tr. cbn [set_defaults ur_mints]. unfold code_gives in Gv. destruct (ur_mints (rule (rules_of e az w c) "authorization_code")); eauto.
Qed.

Lemma session_any sid_of is_user e az oidc w request c cli uri u m scopes rt :
  recognised is_user e az oidc w request c cli uri u m -> asks az w request c uri scopes rt ->
  provided sid_of e az w c cli uri u m rt ->
  exists r w' g code access idt, process_request e az oidc (inr request) w = (Ok (AResponse r), w') /\ ri_uri r = Some uri /\
    outcome az u c (au_newid e) cli rt g w' r code access idt /\
    g_sub g = public_id (au_sha e) u (au_salt e) /\ g_authreq g = Some (changed e request) /\ g_issued g = [] /\ g_used g = 0 /\
    g_revoked g = false /\ g_not_before g = 0 /\ g_rules g = rules_of e az w c /\ g_expires_at g = end_then az /\
    (exists ae, g_authn g = Some ae /\ ae_valid_until ae = au_now e + lifetime m) /\
    g_scope g = scope_then az scopes /\
    (match az_handler az with AHandling => fit_claims (az_cx az) (w_cdb w) c request scopes "userinfo" g | AImplicit _ => g_claims g = [] end).
Proof.
  intros R As P. assert (Gu0 : forall clients, dget c clients = Some cli -> get_uri (az_u az) clients (changed e request) "redirect_uri" = Ok uri).
  { destruct (re_entered _ _ _ _ _ _ _ _ _ _ _ R) as (Ci & Cc & _ & Ru & _). apply (uri_any az w e request c cli uri scopes rt); auto; [apply R|apply P]. }
  destruct R as [W (Hu & Hc & Hn & Uu & Uc) En (name & acr & Me) (id & ts & Fi & Ui & Sd)].
  destruct As as [Rt Kn Sc As Mo _]. destruct P as [Cs _ Pc Pt Pb Pi Ck Mg Az].
  assert (Em := En). destruct Em as (Ci & Cc & _ & Ru & _).
  assert (K := changed_get e request).
  rewrite (process_entered e az oidc w request c cli (VStr uri) En).
  destruct (authn_args_ok e request acr cli None (VStr uri) Ru) as (args & Ea).
  assert (Id : identify e m (changed e request) w = (Ok (Some id, ts), w)) by (apply identify_finds; now apply finds_changed).
  destruct (first_session_fine is_user e m acr (changed e request) u c w W Hu Hc Hn Uu Uc) as (s1 & E1 & V1 & W1).
  { rewrite K by discriminate. exact Ci. }
  assert (G : go_on e (changed e request) name args m acr None (VStr uri) (Some id) w =
    (Ok (SDone (session_key [u; c; au_newid e]) id (VStr u)), mkW s1 (w_cdb w))).
  { unfold go_on. rewrite (dsub_get _ _ _ Ui). unfold lift at 1. rewrite (bind_run _ _ w (VStr u) w eq_refl). cbv beta iota. rewrite Sd.
    unfold ret at 1. rewrite (bind_run _ _ w (Some ""%string) w eq_refl). cbv beta iota. change (nonempty "") with false. cbv iota.
    rewrite (bind_run _ _ _ _ _ E1). reflexivity. }
  rewrite <- (setup_run e request (VStr uri) cli None w name acr m (Some id) ts args Me Id Ea) in G.
  rewrite (bind_run _ _ _ _ _ G). cbv beta iota.
  set (w1 := mkW s1 (w_cdb w)) in *. set (g0 := new_grant _ _ _ _ _ _ _) in V1.
  assert (F1 : fine s1) by (split; apply W1).
  assert (As' : claims_asked (changed e request)) by (eapply claims_asked_ext; [|exact As]; apply K; discriminate).
  assert (Hs : mget_list "scope" (changed e request) = Some scopes).
  { unfold mget_list. rewrite K by discriminate. rewrite Sc. cbn. now rewrite strs_of_vstrs. }
  assert (Az' : exists g1 w2, authorize az (session_key [u; c; au_newid e]) (changed e request) w1 = (Ok g1, w2) /\ w_cdb w2 = w_cdb w /\
    g_sub g1 = g_sub g0 /\ g_authreq g1 = g_authreq g0 /\ g_authn g1 = g_authn g0 /\ g_issued g1 = [] /\ g_used g1 = 0 /\ g_revoked g1 = false /\ g_not_before g1 = 0 /\
    g_rules g1 = rules_of e az w c /\ g_expires_at g1 = end_then az /\ g_scope g1 = scope_then az scopes /\
    match az_handler az with AHandling => fit_claims (az_cx az) (w_cdb w) c (changed e request) scopes "userinfo" g1 | AImplicit _ => g_claims g1 = [] end).
  { unfold rules_of, rules_then, end_then, scope_then, authorize. destruct Az as [->| ->].
    - destruct (handling_works az u c (au_newid e) cli (changed e request) (changed e request) scopes w1 g0 F1 Hu Hc Hn V1 Cc Cs As' eq_refl Hs) as (g1 & w2 & E2 & Cd2 & Fc).
      destruct (handling_ok az u c (au_newid e) (changed e request) w1 g0 g1 w2 F1 Hu Hc Hn V1 E2) as (_ & _ & _ & I1 & U1 & Au).
      exists g1, w2. split; [exact E2|]. split; [exact Cd2|]. split; [apply Au|]. split; [apply Au|]. split; [apply Au|]. split; [exact I1|]. split; [exact U1|].
      split; [apply (au_revoked _ _ _ _ _ _ _ Au)|]. split; [apply (au_not_before _ _ _ _ _ _ _ Au)|].
      split; [apply (AuthzEndpointSpec.au_rules _ _ _ _ _ _ _ Au)|]. split; [apply (au_expires _ _ _ _ _ _ _ Au)|].
      split. { destruct (au_scope _ _ _ _ _ _ _ Au) as (sc & Hs' & ->). assert (sc = scopes) by congruence. subst sc. now destruct scopes. }
      apply Fc. cbn. auto.
    - exists g0, w1. split.
      { unfold implicit, bind, in_db, get_grant, bind, lift, ret. rewrite unpack3_good by assumption.
        destruct (read_cases [u; c; au_newid e] (w_db w1)) as [(x & Hr & Hv)|(x & Hr & Hv)]; cbn [w_db w1] in Hr, Hv |- *; rewrite Hr; [|congruence].
        assert (x = EGrant g0) by congruence. subst x. reflexivity. }
      split; [reflexivity|]. do 10 (split; [reflexivity|]). reflexivity. }
  destruct Az' as (g1 & w2 & E3 & Cd3 & Zs & Zr & Za & I1 & U1 & Zv & Zn & Rl & Ze & Zc & Zf).
  assert (Al : allows az u c (au_newid e) cli g1 rt).
  { constructor.
    - intros I. destruct (Pc I) as (L & Ha). split; [eapply grant_left; eauto; lia|]. intros p. destruct (Ha p) as (v & Ev & _). eauto.
    - intros I. destruct (Pt I) as (L & Ha). split.
      + intros l Hl. eapply grant_left; [exact Rl|exact Zv|exact Zn|exact Ze| |exact L]. unfold with_tokens. cbn [g_used g_set_used]. rewrite U1.
        unfold made_there. assert (X : smem "token" rt = true) by now apply smem_In. rewrite X. destruct (smem "code" rt); lia.
      + intros p. destruct (Ha p) as (v & Ev & _). eauto.
    - intros I t Ic Ft. rewrite Rl in Ft. destruct (Pb Ic I) as (X & _). destruct (fresh_code_usable _ _ _ _ _ _ _ _ _ X Ft) as (Ut & Mt).
      split; [now apply supports_minting_iff|now apply t_active_iff].
    - exact Pi. }
  destruct (part2_any az u c (au_newid e) cli (changed e request) Hu Hc Hn Cs As' (changed e request) rt c uri w1 g0 g1 w2 (first_event e m u acr))
    as (r & w' & code & access & idt & E2 & Eu & O); auto.
  { rewrite Cd3. exact Cc. }
  { unfold mget_list in *. rewrite K by discriminate. exact Rt. }
  { unfold mode_for in *. rewrite K by discriminate. exact Mo. }
  { rewrite K by discriminate. exact Ci. }
  rewrite (bind_run _ _ _ _ _ E2). exists r, w', g1, code, access, idt.
  split; [reflexivity|]. split; [exact Eu|]. split; [exact O|].
  split; [exact Zs|]. split; [exact Zr|]. split; [exact I1|]. split; [exact U1|].
  split; [exact Zv|]. split; [exact Zn|]. split; [exact Rl|]. split; [exact Ze|].
  split. { exists (first_event e m u acr). split; [exact Za|reflexivity]. }
  split; [exact Zc|].
  destruct (az_handler az); [|exact Zf]. destruct Zf as (d & D1 & D2 & D3).
  exists d. split; [exact D1|]. split; [exact D2|]. intros k. rewrite wanted_ext; [apply D3|]. apply K. discriminate.
Qed.
