From Verif Require Import Base BaseProofs SessionKey SessionKeyProofs Monad MonadProofs Types Token Grant GrantSpec Database DatabaseSpec DatabaseProofs
  Manager ManagerSpec ManagerProofs Ctx UserInfo UserInfoSpec UserInfoProofs World Minting ClientAuthn ClientAuthnSpec TokenEndpoint WorldSpec WorldProofs
  Uri AuthzRequest AuthzEndpoint Logout SetupAuthSpec System SystemSpec SystemProofs Preserve Fronts FrontsSpec FrontsProofs AuthzFront Door DoorSpec.
From Verif Require UserinfoFront PropsUserinfoFront.
From Verif Require Import PropsClientAuthn SetupAuth.
Local Open Scope Z_scope.

(** ** What arrives at a token endpoint *)
Lemma parse_auth_rq o e cls f aka rq auth s rq' cid s' : parse_auth o e cls f aka rq auth s = (Ok (rq', cid), s') ->
  forall k, k <> "client_id"%string -> dget k rq' = dget k rq.
Proof.
  intros H k N. unfold parse_auth in H. destruct (bind_ok _ _ _ _ _ H) as (r & s1 & _ & H1). clear H. unfold ret in H1.
  destruct r as [[[c|] t m]|]; try (assert (rq' = rq) by congruence; now subst).
  assert (rq' = dset "client_id" c rq) by congruence. subst. now apply dget_dset_neq.
Qed.
(** client authentication registers and removes nobody *)
Lemma parse_auth_clients o e cls f aka rq auth s r s' : parse_auth o e cls f aka rq auth s = (r, s') ->
  forall c, dget c (ca_cdb s) = None -> dget c (ca_cdb s') = None.
Proof.
  unfold parse_auth, client_authentication, bind. intros H c N.
  destruct (verify_client o e cls (Some (f rq)) aka rq auth s) as [r0 s1] eqn:V. destruct (C54_effect _ _ _ _ _ _ _ _ _ _ V) as [_ K].
  assert (X : dget c (ca_cdb s1) = None).
  { destruct r0 as [[ai|]|x]; [|congruence|congruence]. destruct K as [K|(d & _ & K1 & K2)]; [congruence|].
    destruct (string_dec c d) as [<-|Nd]; [|rewrite K1; assumption]. specialize (K2 "x"%string ltac:(discriminate)). rewrite N in K2.
    destruct (dget c (ca_cdb s1)); [contradiction|reflexivity]. }
  assert (s' = s1); [|now subst].
  destruct r0 as [[[[d|] t m]|]|x]; unfold ret, raise in H; cbn in H; try congruence. destruct (is_nil (ep_methods e)); congruence.
Qed.
(** a client that is not registered gets nowhere *)
Lemma process_unregistered e az oidc (m : msg) c w : dget "client_id" m = Some (VStr c) -> dget c (w_cdb w) = None ->
  snd (process_request e az oidc (inr m) w) = w.
Proof. intros E N. unfold process_request, bind, lift, gets, msub_str, dsub. rewrite E. cbn. rewrite N. reflexivity. Qed.
Lemma received_keeps gt rq auth s m s' : keeps (gt_check gt) -> received gt rq auth s = (Ok (Some m), s') ->
  forall k, In k read_members -> dget k m = dget k rq.
Proof.
  intros Hk H k I. unfold received in H. destruct (bind_ok _ _ _ _ _ H) as ([rq' cid] & s1 & P & H1). clear H.
  destruct (gt_check gt cid rq') as [m0| |x] eqn:C; try discriminate. assert (m0 = m) by (unfold ret in H1; congruence). subst m0.
  rewrite (Hk _ _ _ C k I). apply (parse_auth_rq _ _ _ _ _ _ _ _ _ _ _ P). intros ->. cbn in I. intuition discriminate.
Qed.
Lemma presents_same (rq rq' : msg) k v : (forall j, In j read_members -> dget j rq' = dget j rq) -> presents rq' k v -> presents rq k v.
Proof.
  intros E. unfold presents. rewrite !E by (cbn; auto). auto.
Qed.
Section Token.
  Variable y : setup_of.
  Hypothesis Hs : sids_ok (sy_sid_of y).
  Lemma parse_members clock m rq1 db db' : token_parse (sy_sid_of y) (sy_b64hash y) (sy_helpers y) (sy_pkce y) clock m db = (Ok (PReq rq1), db') ->
    forall k, k <> "client_id"%string -> dget k rq1 = dget k m.
  Proof.
    intros E k Nk. destruct (token_parse_cases _ _ Hs _ _ _ _ _ _ _ E) as [_ (gt & _ & _ & [[_ P]|[_ P]])].
    - destruct (code_parse (sy_sid_of y) clock m db) as [r2 s2] eqn:E2. cbn in P. subst r2. apply (code_parse_cases _ Hs) in E2.
      destruct E2 as [_ (v & u & c & g & gr & t & _ & _ & _ & _ & _ & [-> |(x & _ & ->)])]; [reflexivity|]. now apply dget_dset_neq.
    - destruct (refresh_parse (sy_sid_of y) clock m db) as [r2 s2] eqn:E2. cbn in P. subst r2. apply (refresh_parse_cases _ Hs) in E2.
      destruct E2 as [_ (v & u & c & g & gr & t & _ & _ & _ & _ & _ & ->)]. reflexivity.
  Qed.

  (** either no session is touched and there is nothing to tell, or the request goes on to be processed *)
  Lemma token_door gt clock m1 m2 ir rq auth f r f' : keeps (gt_check gt) -> token_at y gt clock m1 m2 ir rq auth f = (r, f') ->
    (w_db (fs_world f') = w_db (fs_world f) /\ forall args c, r <> Ok (AOk args c)) \/
    (exists rq1 w, w_db w = w_db (fs_world f) /\
       token_process (sy_sid_of y) (sy_cx y) (sy_idtoken y) (sy_sharing y) (sy_helpers y) m1 m2 ir (PReq rq1) w = (r, fs_world f') /\
       (forall k v, presents rq1 k v -> presents rq k v) /\
       (asks (gt_ep gt) -> gt_aka gt = [] -> exists c, shows (gt_out gt) (gt_ep gt) (w_cdb (fs_world f)) rq auth c)).
  Proof.
    intros Hk H. unfold token_at, token_request in H. unfold bind at 1 in H.
    destruct (received gt rq auth (auth_of f)) as [r0 ca] eqn:E. rewrite (in_auth_run _ _ _ _ E) in H.
    destruct r0 as [[m|]|x].
    2:{ left. unfold bind, ret, in_world in H. cbn in H. assert (f' = mkFS (mkW (w_db (fs_world f)) (ca_cdb ca)) (ca_jti ca)) by congruence. subst f'.
        split; [reflexivity|]. intros args c. congruence. }
    2:{ left. assert (f' = mkFS (mkW (w_db (fs_world f)) (ca_cdb ca)) (ca_jti ca)) by congruence. subst f'. split; [reflexivity|]. intros args c. congruence. }
    unfold bind, in_world, in_db in H. cbn [fs_world fs_jti w_db w_cdb] in H.
    destruct (token_parse (sy_sid_of y) (sy_b64hash y) (sy_helpers y) (sy_pkce y) clock m (w_db (fs_world f))) as [rp s'] eqn:Ep.
    destruct (token_parse_cases _ _ Hs _ _ _ _ _ _ _ Ep) as [-> _].
    destruct rp as [[rq1|err d]|x].
    - right. cbn [fs_world fs_jti] in H. destruct (token_process _ _ _ _ _ _ _ _ _ _) as [r1 w1] eqn:Et in H. exists rq1, (mkW (w_db (fs_world f)) (ca_cdb ca)).
      split; [reflexivity|]. split. { rewrite Et. injection H as <- <-. reflexivity. }
      split.
      + intros k v P. eapply presents_same; [|exact P]. intros j I. rewrite <- (received_keeps _ _ _ _ _ _ Hk E j I).
        apply (parse_members _ _ _ _ _ Ep). intros ->. cbn in I. intuition discriminate.
      + intros Ha Hz. destruct (received_ok _ _ _ _ _ _ Ha Hz E) as (c & Sh & _). exists c. exact Sh.
    - left. cbn in H. injection H as <- <-. split; [reflexivity|]. discriminate.
    - left. injection H as <- <-. split; [reflexivity|]. discriminate.
  Qed.
End Token.

Lemma val_eq_str (x : val) : (exists c, x = VStr c) \/ (forall c, x <> VStr c).
Proof. destruct x; try (right; discriminate). left. eauto. Qed.

(** ** Histories *)
Section Door.
  Variable y : setup_of.
  Hypothesis Hs : sids_ok (sy_sid_of y).

  Definition accounted (dp : dpast) (k : string) (g : grant) : Prop :=
    exists u c gid, good u /\ good c /\ good gid /\ k = session_key [u; c; gid] /\ dopened dp u c gid (g_sub g) /\
      forall t, In t (g_issued g) -> dtraced y dp u c gid (t_class t) (t_value t).
  Definition in_account (a : astate) (dp : dpast) : Prop := forall k g, dget k (sessions_of a) = Some (EGrant g) -> accounted dp k g.

  Lemma dopened_old h dp u c g b : dopened dp u c g b -> dopened (h :: dp) u c g b.
  Proof. intros (x & e & az & id & I & O). exists x, e, az, id. split; [now right|exact O]. Qed.

  Lemma account_step h dp (P : string -> string -> Prop) (T : string -> tclass -> string -> Prop) a a' :
    (forall k b, P k b -> exists u c g, good u /\ good c /\ good g /\ k = session_key [u; c; g] /\ dopened (h :: dp) u c g b) ->
    (forall u c g cl v, good u -> good c -> good g -> T (session_key [u; c; g]) cl v -> dtraced y (h :: dp) u c g cl v) ->
    SystemProofs.inv (sessions_of a) P T (sessions_of a') -> in_account a dp -> in_account a' (h :: dp).
  Proof.
    intros HP HT I R k g D. destruct (I k g D) as [(g0 & D0 & Sb & O)|[Pk O]].
    - destruct (R k g0 D0) as (u & c & gid & Hu & Hc & Hg & -> & Op & Tr). exists u, c, gid. repeat (split; [assumption|]).
      split; [reflexivity|]. split; [rewrite Sb; now apply dopened_old|]. intros t It. destruct (O t It) as [(t0 & I0 & C0 & V0)|X].
      + rewrite <- C0, <- V0. apply dt_old. auto.
      + now apply HT.
    - destruct (HP _ _ Pk) as (u & c & gid & Hu & Hc & Hg & -> & Op). exists u, c, gid. repeat (split; [assumption|]).
      split; [reflexivity|]. split; [exact Op|]. intros t It. destruct (O t It) as [(t0 & [] & _)|X]. now apply HT.
  Qed.
  Lemma account_same h dp a a' : sessions_of a' = sessions_of a -> in_account a dp -> in_account a' (h :: dp).
  Proof.
    intros E R. eapply account_step with (P := fun _ _ => False) (T := fun _ _ _ => False); [contradiction|contradiction| |exact R].
    rewrite E. apply SystemProofs.inv_start.
  Qed.

  (** the authorization endpoint: no session is touched unless the request is understood *)
  Lemma authorization_door gt re oidc pk e az rq auth a r a' : authorization_request gt re oidc pk e az rq auth a = (r, a') ->
    sessions_of a' = sessions_of a \/
    exists m w, understood gt re oidc pk rq auth a m /\ w_db w = sessions_of a /\ (forall c, dget c (clients_of a) = None -> dget c (w_cdb w) = None) /\
      process_request e az oidc (inr m) w = (r, fs_world (as_front a')).
  Proof.
    intros H. unfold authorization_request in H. unfold bind at 1 in H. unfold in_front at 1, in_auth at 1 in H.
    destruct (parse_auth _ _ _ _ _ _ _ _) as [[[rq' cid]|x] ca] eqn:P in H.
    2:{ left. injection H as _ <-. reflexivity. }
    unfold bind at 1 in H. destruct (gt_check gt cid rq') as [m0| |x] eqn:C.
    - unfold bind at 1, in_front at 1, in_world at 1, gets at 1 in H. cbn [as_front as_pushed fs_world fs_jti w_cdb w_db] in H.
      unfold in_pushed at 1 in H. cbn [as_front as_pushed] in H.
      destruct (authz_hooks _ _ _ _ _ _) as [[[err|m]|x] p] eqn:Hk in H.
      + left. unfold in_front, in_world, process_request, ret in H. cbn in H. injection H as _ <-. reflexivity.
      + right. exists m, (mkW (w_db (fs_world (as_front a))) (ca_cdb ca)). split; [exists rq', cid, ca, m0, p; auto|]. split; [reflexivity|].
        split. { intros c N. exact (parse_auth_clients _ _ _ _ _ _ _ _ _ _ P c N). }
        unfold in_front, in_world in H. cbn [as_front as_pushed fs_world fs_jti] in H.
        destruct (process_request e az oidc (inr m) _) as [r1 w1]. injection H as <- <-. reflexivity.
      + left. injection H as _ <-. reflexivity.
    - left. unfold ret at 1, in_front, in_world, process_request, ret in H. cbn in H. injection H as _ <-. reflexivity.
    - left. unfold raise in H. injection H as _ <-. reflexivity.
  Qed.
  Lemma pushed_door gt re uuid rq auth a : sessions_of (snd (pushed_request gt re uuid rq auth a)) = sessions_of a.
  Proof.
    unfold pushed_request. unfold bind at 1. unfold in_front at 1, in_auth at 1.
    destruct (parse_auth _ _ _ _ _ _ _ _) as [[[rq' cid]|x] ca]; [|reflexivity].
    destruct (gt_check gt cid rq') as [m0| |x]; [|reflexivity|reflexivity].
    unfold bind at 1, in_front at 1, in_world at 1, gets at 1. unfold bind at 1, in_pushed at 1.
    destruct (parse_push _ _ _ _) as [[[err|m]|x] p]; [reflexivity| |reflexivity].
    unfold bind at 1, in_pushed at 1. destruct (push_request uuid m _) as [[u|x] p']; reflexivity.
  Qed.
  Lemma introspection_door gt clock un rq auth f : w_db (fs_world (snd (introspection_request (sy_sid_of y) (sy_cx y) gt clock un rq auth f))) = w_db (fs_world f).
  Proof.
    unfold introspection_request. unfold bind at 1. destruct (received gt rq auth (auth_of f)) as [r0 ca] eqn:E. rewrite (in_auth_run _ _ _ _ E).
    destruct r0 as [[m|]|x]; [|reflexivity|reflexivity]. destruct (dmem "error" m); [reflexivity|].
    unfold bind, in_world, gets, in_db. cbn [fs_world w_db w_cdb fs_jti].
    pose proof (introspection_state (sy_sid_of y) (sy_cx y) (ca_cdb ca) clock un m (w_db (fs_world f))) as St.
    destruct (introspection_process _ _ _ _ _ _ _) as [[an|x] s']; cbn in St; subst s'; reflexivity.
  Qed.
  Lemma userinfo_door gt clock rq auth f : w_db (fs_world (snd (userinfo_at y gt clock rq auth f))) = w_db (fs_world f).
  Proof.
    unfold userinfo_at. pose proof (PropsUserinfoFront.C85_state (sy_sid_of y) (gt_out gt) (gt_ep gt) (gt_cls gt) (gt_aka gt) (sy_cx y) clock rq auth
      (UserinfoFront.mkFr (mkCA (w_cdb (fs_world f)) (fs_jti f)) (w_db (fs_world f)))) as X. cbv zeta in X.
    destruct (UserinfoFront.userinfo_request _ _ _ _ _ _ _ _ _ _) as [r s]. cbn [snd] in *. exact (proj1 X).
  Qed.
  Lemma front_sessions {X} (m : F X) a : sessions_of (snd (in_front m a)) = w_db (fs_world (snd (m (as_front a)))).
  Proof. unfold in_front. destruct (m (as_front a)). reflexivity. Qed.

  Lemma account_knock k a dp : knock_ok k a -> in_account a dp -> in_account (dstep y k a) ((k, a) :: dp).
  Proof.
    intros Hk R. destruct k as [gt re oidc pk e az rq auth|gt re uuid rq auth|gt clock m1 m2 ir rq auth|gt clock rq auth|gt clock un rq auth|e sid alla|op|f]; cbn [dstep].
    - destruct (authorization_request gt re oidc pk e az rq auth a) as [r a'] eqn:E. cbn [snd].
      destruct (authorization_door _ _ _ _ _ _ _ _ _ _ _ E) as [X|(m & w & U & W & Wc & Pr)]; [now apply account_same with (a := a)|].
      assert (Rg : sessions_of a' = sessions_of a \/ forall c, dget "client_id" m = Some (VStr c) -> exists info, dget c (clients_of a) = Some info).
      { destruct (dget "client_id" m) as [x|] eqn:Ec; [|right; discriminate]. destruct (val_eq_str x) as [(c & ->)|N]; [|right; intros c E0; exfalso; apply (N c); congruence].
        destruct (dget c (clients_of a)) as [info|] eqn:Ei; [right; intros c' E0; assert (c' = c) by congruence; subst; eauto|].
        left. pose proof (process_unregistered e az oidc m c w Ec (Wc _ Ei)) as X. rewrite Pr in X. unfold sessions_of. cbn [snd] in X. now rewrite X. }
      destruct Rg as [X|Rg]; [now apply account_same with (a := a)|].
      pose proof (Hk m U) as Ho. destruct Ho as (Gn & Gc & Gi).
      set (P := fun k b => exists id u c, recognises e m id /\ dget "uid" id = Some (VStr u) /\ dget "client_id" m = Some (VStr c) /\
                             k = session_key [u; c; au_newid e] /\ b = public_id (au_sha e) u (au_salt e)).
      set (T := fun k cl v => exists id payload, recognises e m id /\ goes_on e m id k /\
                  (cl = CCode /\ mt_value (az_code az) k payload = Ok v \/ cl = CAccess /\ mt_value (az_access az) k payload = Ok v)).
      eapply account_step with (a := a) (P := P) (T := T); [| | |exact R].
      + intros k b (id & u & c & Rec & Eu & Ec & -> & ->). exists u, c, (au_newid e). destruct (Gi id Rec) as [Gu _].
        repeat (split; [auto|]). eexists. exists e, az, id. split; [now left|]. split; [|auto]. exists gt, re, oidc, pk, rq, auth, m. cbn [fst snd]. auto 10.
      + intros u c g cl v Hu Hc Hg (id & payload & Rec & Go & M). apply dt_visit. exists e, az, id, payload.
        destruct Go as (u' & c' & g' & U' & Ec & W'). rewrite unpack3_good in U' by assumption.
        assert (u' = u /\ c' = c /\ g' = g) as (-> & -> & ->) by (repeat split; congruence). split; [exists gt, re, oidc, pk, rq, auth, m; cbn [fst snd]; auto 10|]. auto.
      + assert (X : tri (SystemProofs.okg (sessions_of a) P T) (process_request e az oidc (inr m)) (fun _ => True)).
        { apply tri_process; [exact (Hk m U)| |].
          - intros id u c Rec Eu Ec. apply okg_opens. exists id, u, c. auto.
          - intros id sid Rec Go. apply okg_mints_here; intros payload v V; exists id, payload; auto. }
        rewrite <- W in *. specialize (X w (SystemProofs.inv_start _ _ _)). rewrite Pr in X. exact (proj1 X).
    - apply account_same with (a := a); [apply pushed_door|exact R].
    - destruct (token_at y gt clock m1 m2 ir rq auth (as_front a)) as [r f'] eqn:E. unfold in_front. rewrite E. cbn [snd].
      destruct (token_door y Hs _ _ _ _ _ _ _ _ _ _ Hk E) as [[X _]|(rq1 & w & W & Et & Ps & Sh)]; [now apply account_same with (a := a)|].
      eapply account_step with (a := a); [| |unfold sessions_of; cbn [as_front]; rewrite <- W; eapply token_inv; [exact Hs|exact Et]|exact R].
      + contradiction.
      + intros u c g cl v Hu Hc Hg [(payload & M) B].
        assert (Ex : dexchanges (KToken gt clock m1 m2 ir rq auth, a) u c g cl v rq).
        { exists gt, clock, m1, m2, ir, auth, payload. split; [reflexivity|]. split; [exact Sh|exact M]. }
        destruct B as [[x ->]|(k0 & v0 & g0 & t0 & Pr & D0 & I0 & V0)].
        { eapply dt_lost; [exact Ex|]. exists gt, clock, m1, m2, ir, rq, auth, x, f'. auto. }
        rewrite W in D0. destruct (R _ _ D0) as (u' & c' & g' & Hu' & Hc' & Hg' & K & _ & Tr).
        destruct (key3_inj _ _ _ _ _ _ Hu Hc Hg Hu' Hc' Hg' K) as (<- & <- & <-).
        eapply dt_exchange; [exact Ex|apply Ps; exact Pr|]. rewrite <- V0. now apply Tr.
    - apply account_same with (a := a); [rewrite front_sessions; apply userinfo_door|exact R].
    - apply account_same with (a := a); [rewrite front_sessions; apply introspection_door|exact R].
    - eapply account_step with (a := a) (P := fun _ _ => False) (T := fun _ _ _ => False); [contradiction|contradiction| |exact R].
      rewrite front_sessions. unfold in_world. cbn [snd fs_world]. apply inv_logout; [apply okg_revoked|apply SystemProofs.inv_start].
    - eapply account_step with (a := a) (P := fun _ _ => False) (T := fun _ _ _ => False); [contradiction|contradiction| |exact R].
      rewrite front_sessions. unfold in_world.
      pose proof (tri_in_db _ _ _ (trid_revocation _ (okg_core (sessions_of a) (fun _ _ => False) (fun _ _ _ => False)) (okg_revoked _ _ _) (sy_sharing y) op Hk)
        (fs_world (as_front a)) (SystemProofs.inv_start _ _ _)) as X.
      destruct (in_db (mstep (sy_sharing y) op) (fs_world (as_front a))) as [r w]. exact (proj1 X).
    - now apply account_same with (a := a).
  Qed.
  Lemma account_all a dp : arrivals y a dp -> in_account a dp.
  Proof. induction 1 as [clients jti pushed|a dp k _ IH Hk]; [intros k g D; discriminate|now apply account_knock]. Qed.
End Door.
