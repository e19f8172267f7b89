(** PropsScopesAsked.v: C109. The scope of a session, and of the tokens that are given for it, is one that was asked for. *)
From Verif Require Import Base BaseProofs SessionKey SessionKeyProofs Monad MonadProofs Types Token Grant GrantSpec GrantProofs AuthzProofs Database DatabaseSpec DatabaseProofs
  Manager ManagerSpec ManagerProofs Ctx UserInfo UserInfoSpec UserInfoProofs World Minting ClientAuthn ClientAuthnSpec TokenEndpoint WorldSpec WorldProofs
  Uri AuthzRequest AuthzEndpoint Logout SetupAuthSpec SetupAuthProofs System SystemSpec SystemProofs Preserve Fronts FrontsSpec FrontsProofs AuthzFront Door DoorSpec DoorProofs
  PropsDoor ScopesAskedSpec.
From Verif Require Import SetupAuth UserInfo.
From Verif Require Claims.
Local Open Scope Z_scope.

Section Scoped.
  Variable Q : string -> list string -> Prop.
  Definition plain (t : token) : Prop := t_scope t = [].
  Definition scoped (k : string) (g : grant) : Prop := Q k (g_scope g) /\ Forall plain (g_issued g).
  Lemma scoped_core k g l : scoped k g -> Forall2 same_core (g_issued g) l -> scoped k (g_set_issued l g).
  Proof.
    intros [H F] S. split; [exact H|]. cbn [g_issued g_set_issued]. revert F. induction S as [|t t' l l' E _ IH]; intros F; [constructor|].
    inversion F as [|x y P F' E1]; subst. constructor; [|now apply IH]. unfold plain in *. destruct E as (_ & _ & _ & _ & _ & _ & _ & _ & _ & E & _). congruence.
  Qed.
  Lemma scoped_revoked k g : scoped k g -> scoped k (g_set_revoked true g).
  Proof. exact (fun H => H). Qed.
  Lemma scoped_takes mt sid ttype : takes scoped mt sid ttype.
  Proof.
    intros g t [H F] C. split; [exact H|]. unfold with_token. cbn [g_issued g_set_issued g_set_used]. apply Forall_app. split; [exact F|].
    constructor; [|constructor]. destruct C as (_ & _ & _ & _ & C & _). exact C.
  Qed.
End Scoped.

Section Door.
  Variable y : setup_of.
  Hypothesis Hs : sids_ok (sy_sid_of y).

  Definition asked_scope (dp : dpast) (k : string) (l : list string) : Prop :=
    l = [] \/ exists u c g m, good u /\ good c /\ good g /\ k = session_key [u; c; g] /\ came_for dp u c g m /\ mget_list "scope" m = Some l.
  Lemma came_for_more h dp u c g m : came_for dp u c g m -> came_for (h :: dp) u c g m.
  Proof. intros (h' & gt & re & oidc & pk & e & az & rq & auth & id & I & R). exists h', gt, re, oidc, pk, e, az, rq, auth, id. split; [now right|exact R]. Qed.
  Lemma scope_more h dp k l : asked_scope dp k l -> asked_scope (h :: dp) k l.
  Proof.
    intros [->|(u & c & g & m & Hu & Hc & Hg & K & C & E)]; [now left|]. right. exists u, c, g, m. do 4 (split; [assumption|]). split; [now apply came_for_more|exact E].
  Qed.
  Definition in_scopes (a : astate) (dp : dpast) : Prop := Preserve.inv (scoped (asked_scope dp)) (sessions_of a).
  Lemma scopes_more h a dp : in_scopes a dp -> in_scopes a (h :: dp).
  Proof. intros R k g D. destruct (R k g D) as [A B]. split; [now apply scope_more|exact B]. Qed.
  Lemma scopes_same a a' dp : sessions_of a' = sessions_of a -> in_scopes a dp -> in_scopes a' dp.
  Proof. unfold in_scopes. now intros ->. Qed.

  Lemma scopes_knock k a dp : knock_ok k a -> in_scopes a dp -> in_scopes (dstep y k a) ((k, a) :: dp).
  Proof.
    intros Hk R0. pose proof (scopes_more (k, a) _ _ R0) as R. clear R0.
    destruct k as [gt re oidc pk e az rq auth|gt re uuid rq auth|gt clock m1 m2 ir rq auth|gt clock rq auth|gt clock un rq auth|e sid alla|op|f]; cbn [dstep].
    - destruct (authorization_request gt re oidc pk e az rq auth a) as [r a'] eqn:E. cbn [snd].
      destruct (authorization_door _ _ _ _ _ _ _ _ _ _ _ E) as [X|(m & w & U & W & Wc & Pr)]; [now apply scopes_same with (a := a)|].
      pose proof (Hk m U) as Ho. destruct Ho as (Gn & Gc & Gi).
      set (ok := scoped (asked_scope ((KAuthorize gt re oidc pk e az rq auth, a) :: dp))).
      assert (X : tri ok (process_request e az oidc (inr m)) (fun _ => True)).
      { apply tri_process; [exact (Hk m U)| |].
        - intros id u c Rec Eu Ec clock authn rules. split; [left; reflexivity|constructor].
        - intros id sid Rec Go. split; [apply scoped_takes|]. split; [apply scoped_takes|]. unfold settles. destruct (az_handler az); [|exact I].
          intros g g' [O F] (_ & _ & _ & _ & Is & _) S. unfold ok, scoped. rewrite Is. split; [|exact F]. clear F Is. destruct S as [S|S]; [rewrite S; exact O|]. right.
          unfold mget_list in S. rewrite changed_get in S by discriminate.
          destruct (Gi id Rec) as [Gu Gs]. destruct Go as (u & c & gid & Up & Cc & [[Eu Eg]|Es]).
          + destruct (unpack3_key _ _ _ _ Up) as [_ K]. exists u, c, gid, m. split; [now apply Gu|]. split; [now apply Gc|].
            split; [rewrite Eg; exact Gn|]. split; [exact K|]. split; [|exact S].
            exists (KAuthorize gt re oidc pk e az rq auth, a), gt, re, oidc, pk, e, az, rq, auth, id. split; [now left|]. cbn [fst snd].
            do 4 (split; [auto|]). left. auto.
          + destruct (Gs _ Es sid eq_refl) as (u' & c' & g0 & Hu & Hc & Hg & K). rewrite K, unpack3_good in Up by assumption.
            assert (u' = u /\ c' = c /\ g0 = gid) as (-> & -> & ->) by (repeat split; congruence).
            exists u, c, gid, m. do 3 (split; [assumption|]). split; [exact K|]. split; [|exact S].
            exists (KAuthorize gt re oidc pk e az rq auth, a), gt, re, oidc, pk, e, az, rq, auth, id. split; [now left|]. cbn [fst snd].
            do 4 (split; [auto|]). right. rewrite <- K. exact Es. }
      unfold in_scopes in R. rewrite <- W in R. specialize (X w R). rewrite Pr in X. exact (proj1 X).
    - apply scopes_same with (a := a); [apply pushed_door|exact R].
    - destruct (token_at y gt clock m1 m2 ir rq auth (as_front a)) as [r f'] eqn:E. unfold in_front. rewrite E. cbn [snd].
      destruct (token_door y Hs _ _ _ _ _ _ _ _ _ _ Hk E) as [[X _]|(rq1 & w & W & Et & Ps & Sh)]; [now apply scopes_same with (a := a)|].
      unfold in_scopes, sessions_of in R. rewrite <- W in R.
      pose proof (inv_token _ (scoped_core _) (sy_sid_of y) Hs (sy_cx y) (sy_idtoken y) (sy_sharing y) (sy_helpers y) m1 m2 ir rq1 w
        (fun sid => conj (scoped_takes _ m1 sid _) (scoped_takes _ m2 sid _)) R) as X. rewrite Et in X. exact X.
    - apply scopes_same with (a := a); [rewrite front_sessions; apply userinfo_door|exact R].
    - apply scopes_same with (a := a); [rewrite front_sessions; apply introspection_door|exact R].
    - unfold in_scopes. rewrite front_sessions. unfold in_world. cbn [snd fs_world]. apply inv_logout; [apply scoped_revoked|exact R].
    - unfold in_scopes. rewrite front_sessions. unfold in_world.
      pose proof (tri_in_db _ _ _ (trid_revocation _ (scoped_core _) (scoped_revoked _) (sy_sharing y) op Hk) (fs_world (as_front a)) R) as X.
      destruct (in_db (mstep (sy_sharing y) op) (fs_world (as_front a))) as [r w]. exact (proj1 X).
    - exact R.
  Qed.
  Lemma scopes_all a dp : arrivals y a dp -> in_scopes a dp.
  Proof. induction 1 as [clients jti pushed|a dp k _ IH Hk]; [intros k g D; discriminate|now apply scopes_knock]. Qed.
End Door.

(** ** What the token endpoint says of the scope *)
Lemma mint_in_scope cx mt sid g ttype base rules w o g' w' : mint_in cx mt sid g ttype base rules w = (Ok (o, g'), w') -> g_scope g' = g_scope g.
Proof.
  unfold mint_in, lift, ret, bind. intros H. destruct (mint_token _ _ _ _ _ _ _ _ (Ok "")) as [[[t0|] g0]|e]; [| |discriminate].
  2:{ assert (g' = g) by congruence. now subst g'. }
  destruct (unpack3 sid) as [[[u c] gid]|e]; [|discriminate].
  destruct (payload_arguments cx u c g ttype None w) as [[p|e] w1]; [|discriminate].
  assert (M : mint_token (mt_clock mt) (mt_id mt) g ttype base rules None no_kw (mt_value mt sid p) = Ok (o, g')) by congruence.
  destruct o as [t|].
  - apply mint_plain in M. destruct M as (_ & _ & ->). reflexivity.
  - assert (C := mint_token_cases (mt_clock mt) (mt_id mt) g ttype base rules None no_kw (mt_value mt sid p)). rewrite M in C. destruct C as [-> _]. reflexivity.
Qed.
Lemma endpoint_mint_scope cx mt sid g ttype base w o g' w' : endpoint_mint cx mt sid g ttype base w = (Ok (o, g'), w') -> g_scope g' = g_scope g.
Proof.
  unfold endpoint_mint. intros H. destruct (bind_ok _ _ _ _ _ H) as ([o1 g1] & w1 & E & H1). apply mint_in_scope in E. destruct o1 as [t1|].
  - cbv zeta in H1. destruct (bind_ok _ _ _ _ _ H1) as (x & w2 & _ & H2). unfold ret in H2.
    assert (X : upd_newest (if Minting.lifetime (dget ttype (gr_types (g_rules g))) =? 0 then fun t => t else t_set_expires_at (mt_clock mt + Minting.lifetime (dget ttype (gr_types (g_rules g))))) g1 = g') by congruence.
    subst g'. exact E.
  - destruct (negb _); [discriminate|]. destruct (bind_ok _ _ _ _ _ H1) as (x & w2 & _ & H2). unfold ret in H2. assert (g' = g1) by congruence. now subst g'.
Qed.

Section Answers.
  Variable sid_of : string -> result string.
  Hypothesis Hsid : sids_ok sid_of.
  Definition says_scope (s : store) (rq args : msg) : Prop :=
    exists key k v g t, presents rq k v /\ sid_of v = Ok key /\ dget key s = Some (EGrant g) /\ In t (g_issued g) /\ t_value t = v /\ dget "scope" args = Some (vstrs (g_scope g)).
  Lemma id_token_scope mk sid resp w args c0 w' : add_id_token mk sid resp w = (Ok (AOk args c0), w') -> dget "scope" args = dget "scope" resp.
  Proof.
    intros H. unfold add_id_token in H. destruct (bind_ok _ _ _ _ _ H) as (ox & w10 & _ & H13). destruct ox as [it|]; [|discriminate].
    unfold ret in H13. assert (A : args = dset "id_token" (VStr it) resp) by congruence. now rewrite A, dget_dset_neq by discriminate.
  Qed.
  Lemma code_scope mk cx m1 m2 ir rq w args c0 w' : code_process sid_of cx mk m1 m2 ir rq w = (Ok (AOk args c0), w') -> says_scope (w_db w) rq args.
  Proof.
    intros H. pose proof (code_based sid_of Hsid _ _ _ _ _ _ _ _ _ _ H) as B. unfold code_process in H.
    destruct (bind_ok _ _ _ _ _ H) as (gt & w1 & Eg & H1). clear H. unfold lift in Eg. assert (w1 = w) by congruence. subst w1.
    assert (Eg' : msub_str "grant_type" rq = Ok gt) by congruence. clear Eg.
    destruct (gt =? "authorization_code")%string eqn:Q; cbn [negb] in H1; [|discriminate].
    apply String.eqb_eq in Q. rewrite Q in Eg'. clear gt Q.
    destruct (dmem "code" rq); cbn [negb] in H1; [|discriminate].
    destruct (bind_ok _ _ _ _ _ H1) as (raw & w1 & Er & H2). clear H1. unfold lift in Er. assert (w1 = w) by congruence. subst w1.
    assert (Er' : msub_str "code" rq = Ok raw) by congruence. clear Er. cbv zeta in H2.
    destruct (bind_ok _ _ _ _ _ H2) as ([i g] & w1 & Es & H3). clear H2. apply (in_session_by sid_of Hsid) in Es. destruct Es as [-> Es].
    destruct Es as (u & c & gid & L & ->). cbn [in_sid] in H3. destruct L as (Hu & Hc & Hg & Sv & V). apply view_key in V.
    destruct (bind_ok _ _ _ _ _ H3) as (ar & w1 & _ & H4). clear H3. destruct (bind_ok _ _ _ _ _ H4) as (b & w2 & _ & H5). clear H4.
    destruct b; [discriminate|].
    destruct (get_token (blank_to_plus raw) g) as [t0|] eqn:G.
    2:{ exfalso. eapply (code_rest_none mk cx m1 m2), H5. }
    destruct (get_token_in _ _ _ G) as [I0 V0]. exists (session_key [u; c; gid]), CCode, (blank_to_plus raw), g, t0.
    apply msub_str_ok in Eg', Er'. split; [left; eauto|]. do 4 (split; [assumption|]). clear B.
    destruct (bind_ok _ _ _ _ _ H5) as ([o g1] & w3 & _ & H6). clear H5.
    destruct (bind_ok _ _ _ _ _ H6) as (t & w4 & _ & H7). clear H6. cbv zeta in H7.
    destruct (bind_ok _ _ _ _ _ H7) as ([g2 resp] & w5 & E8 & H8). clear H7.
    assert (Hr : dget "scope" resp = Some (vstrs (g_scope g))).
    { destruct (match ir with Some b => b | None => smem "offline_access" (g_scope g) end).
      - destruct (bind_ok _ _ _ _ _ E8) as ([o' g3] & w6 & _ & E9). destruct (bind_ok _ _ _ _ _ E9) as (rt & w7 & _ & E10). unfold ret in E10.
        assert (R : resp = dset "refresh_token" (VStr (t_value rt)) (dset "expires_in" (VInt (t_expires_at t - mt_clock m1))
             (dset "access_token" (VStr (t_value t)) [("token_type", VStr "Bearer"); ("scope", vstrs (g_scope g))]%string))) by congruence.
        rewrite R. reflexivity.
      - unfold ret in E8. assert (R : resp = dset "expires_in" (VInt (t_expires_at t - mt_clock m1))
             (dset "access_token" (VStr (t_value t)) [("token_type", VStr "Bearer"); ("scope", vstrs (g_scope g))]%string)) by congruence.
        rewrite R. reflexivity. }
    destruct (bind_ok _ _ _ _ _ H8) as (x1 & w6 & _ & H9). destruct (bind_ok _ _ _ _ _ H9) as (x2 & w7 & _ & H10).
    destruct (bind_ok _ _ _ _ _ H10) as (x3 & w8 & _ & H11). destruct (bind_ok _ _ _ _ _ H11) as (op & w9 & _ & H12).
    destruct op; [apply id_token_scope in H12; congruence|]. unfold ret in H12. assert (A : args = resp) by congruence. now rewrite A.
  Qed.
  Lemma refresh_scope mk cx sh m1 m2 rq w args c0 w' : refresh_process sid_of cx mk sh m1 m2 rq w = (Ok (AOk args c0), w') -> says_scope (w_db w) rq args.
  Proof.
    intros H. unfold refresh_process in H.
    destruct (bind_ok _ _ _ _ _ H) as (gt & w1 & Eg & H1). clear H. unfold lift in Eg. assert (w1 = w) by congruence. subst w1.
    assert (Eg' : msub_str "grant_type" rq = Ok gt) by congruence. clear Eg.
    destruct (gt =? "refresh_token")%string eqn:Q; cbn [negb] in H1; [|discriminate].
    apply String.eqb_eq in Q. rewrite Q in Eg'. clear gt Q.
    destruct (bind_ok _ _ _ _ _ H1) as (raw & w1 & Er & H2). clear H1. unfold lift in Er. assert (w1 = w) by congruence. subst w1.
    assert (Er' : msub_str "refresh_token" rq = Ok raw) by congruence. clear Er.
    destruct (bind_ok _ _ _ _ _ H2) as ([i g] & w1 & Es & H3). clear H2. apply (in_session_by sid_of Hsid) in Es. destruct Es as [-> Es].
    destruct Es as (u & c & gid & L & ->). cbn [in_sid] in H3. destruct L as (Hu & Hc & Hg & Sv & V). apply view_key in V.
    destruct (get_token raw g) as [t0|] eqn:G.
    2:{ exfalso. eapply (refresh_rest_none mk cx sh m1 m2), H3. }
    destruct (get_token_in _ _ _ G) as [I0 V0]. exists (session_key [u; c; gid]), CRefresh, raw, g, t0.
    apply msub_str_ok in Eg', Er'. split; [right; eauto|]. do 4 (split; [assumption|]).
    destruct (bind_ok _ _ _ _ _ H3) as ([o g1] & w3 & Em & H6). clear H3. apply endpoint_mint_scope in Em.
    destruct (bind_ok _ _ _ _ _ H6) as (t & w4 & _ & H7). clear H6. cbv zeta in H7.
    set (r0 := if t_expires_at t =? 0 then _ else _) in H7.
    assert (R0 : dget "scope" r0 = Some (vstrs (g_scope g))) by (rewrite <- Em; unfold r0; destruct (t_expires_at t =? 0); reflexivity).
    clearbody r0. destruct (bind_ok _ _ _ _ _ H7) as (t1 & w5 & _ & H8). clear H7. destruct (bind_ok _ _ _ _ _ H8) as (mints & w6 & _ & H9). clear H8.
    destruct (bind_ok _ _ _ _ _ H9) as (resp & w7 & E9 & H10). clear H9.
    assert (Hr : dget "scope" resp = Some (vstrs (g_scope g))).
    { destruct (smem "refresh_token" mints).
      - destruct (bind_ok _ _ _ _ _ E9) as ([o' g3] & w8 & _ & E10). destruct (bind_ok _ _ _ _ _ E10) as (rt & w9 & _ & E11).
        destruct (bind_ok _ _ _ _ _ E11) as (x & w10 & _ & E12). unfold ret in E12.
        assert (R : resp = dset "refresh_token" (VStr (t_value rt)) r0) by congruence. rewrite R, dget_dset_neq by discriminate. exact R0.
      - unfold ret in E9. assert (R : resp = r0) by congruence. now rewrite R. }
    destruct (smem "id_token" mints); [apply id_token_scope in H10; congruence|]. unfold ret in H10. assert (A : args = resp) by congruence. now rewrite A.
  Qed.
  Lemma token_scope cx mk sh helpers m1 m2 ir rq w args c0 w' :
    token_process sid_of cx mk sh helpers m1 m2 ir (PReq rq) w = (Ok (AOk args c0), w') -> says_scope (w_db w) rq args.
  Proof.
    intros H. unfold token_process in H. destruct (bind_ok _ _ _ _ _ H) as (gt & w1 & Eg & H1). clear H. unfold lift in Eg.
    assert (w1 = w) by congruence. subst w1. destruct (dget gt helpers) as [h|]; [|discriminate].
    destruct h; [| |discriminate]; destruct (bind_ok _ _ _ _ _ H1) as ([e d|args' cl] & w2 & E & H2); try discriminate;
      destruct (bind_ok _ _ _ _ _ H2) as (v & w3 & _ & H3); destruct (bind_ok _ _ _ _ _ H3) as (x & w4 & _ & H4); unfold ret in H4;
      assert (args = args') by congruence; subst args'; [eapply code_scope, E|eapply refresh_scope, E].
  Qed.
End Answers.

(** A session has the scopes of a request that its client came with in a visit of its user (or of someone whose identity names the session), or none. *)
Theorem C109_session : forall y a dp u c g gr,
  sids_ok (sy_sid_of y) -> arrivals y a dp -> good u -> good c -> good g -> keeps_session a u c g gr -> was_asked dp u c g (g_scope gr).
Proof.
  intros y a dp u c g gr Hs H Hu Hc Hg V. apply view_key in V.
  destruct (scopes_all y Hs a dp H _ _ V) as [[E|(u' & c' & g' & m & Hu' & Hc' & Hg' & K & C & E)] _]; [now left|].
  destruct (key3_inj _ _ _ _ _ _ Hu Hc Hg Hu' Hc' Hg' K) as (<- & <- & <-). right. exists m. split; assumption.
Qed.
Print Assumptions C109_session.

(** The token endpoint says of the tokens it gives that they have a scope, and it is one that was asked for in a visit of the session the
    presented value goes back to, or none. *)
Theorem C109_exchange : forall y a dp gt clock m1 m2 ir rq auth args cid f,
  sids_ok (sy_sid_of y) -> arrivals y a dp -> keeps (gt_check gt) ->
  token_at y gt clock m1 m2 ir rq auth (as_front a) = (Ok (AOk args cid), f) ->
  exists u c g k k' v scopes, presents rq k v /\ dtraced y dp u c g k' v /\ dget "scope" args = Some (vstrs scopes) /\ was_asked dp u c g scopes.
Proof.
  intros y a dp gt clock m1 m2 ir rq auth args cid f Hs H Hk E.
  destruct (token_door y Hs _ _ _ _ _ _ _ _ _ _ Hk E) as [[_ X]|(rq1 & w & W & Et & Ps & Sh)]; [now destruct (X args cid)|].
  apply (token_scope _ Hs) in Et. destruct Et as (key & k & v & g0 & t0 & Pr & _ & D & I & V & Sc). rewrite W in D.
  destruct (account_all y Hs a dp H _ _ D) as (u & c & g & Hu & Hc & Hg & K & O & T). exists u, c, g, k, (t_class t0), v, (g_scope g0).
  split; [now apply Ps|]. split; [rewrite <- V; now apply T|]. split; [exact Sc|].
  destruct (scopes_all y Hs a dp H _ _ D) as [[E1|(u' & c' & g' & m & Hu' & Hc' & Hg' & K' & C & E1)] _]; [now left|].
  destruct (key3_inj _ _ _ _ _ _ Hu Hc Hg Hu' Hc' Hg' (eq_trans (eq_sym K) K')) as (<- & <- & <-). right. exists m. split; assumption.
Qed.
Print Assumptions C109_exchange.

(** Introspection says of a token it calls active that it has a scope that was asked for in a visit of the session the token goes back to, or none.
    (A user's attribute called scope, given as a claim, would take its place.) *)
Lemma received_member gt rq auth s m s' k : keeps (gt_check gt) -> received gt rq auth s = (Ok (Some m), s') -> In k read_members -> dget k m = dget k rq.
Proof.
  intros Hk H I. unfold received in H. apply bind_ok in H. destruct H as ([rq' cid] & s1 & P & H).
  destruct (gt_check gt cid rq') as [x| |x] eqn:E; [|discriminate|discriminate]. unfold ret in H. assert (x = m) by congruence. subst x.
  rewrite (Hk _ _ _ E k I). apply (parse_auth_rq _ _ _ _ _ _ _ _ _ _ _ P). intros ->. cbn in I. intuition discriminate.
Qed.
Theorem C109_introspection : forall y a dp gt clock un rq auth args f,
  sids_ok (sy_sid_of y) -> arrivals y a dp -> keeps (gt_check gt) -> (forall u info, dget u (cx_users (sy_cx y)) = Some info -> dget "scope" info = None) ->
  introspection_request (sy_sid_of y) (sy_cx y) gt clock un rq auth (as_front a) = (Ok (IAnswer args), f) -> dget "active" args = Some (VBool true) ->
  exists u c g k v scopes, dget "token" rq = Some (VStr v) /\ dtraced y dp u c g k v /\
    dget "scope" args = Some (VStr (join " " scopes)) /\ was_asked dp u c g scopes.
Proof.
  intros y a dp gt clock un rq auth args f Hs H Hk Hn E Act. unfold introspection_request in E. apply bind_ok in E. destruct E as (r & f1 & R & E).
  destruct (received gt rq auth (auth_of (as_front a))) as [r0 ca] eqn:Er. rewrite (in_auth_run _ _ _ _ Er) in R.
  assert (X : r0 = Ok r /\ f1 = mkFS (mkW (w_db (fs_world (as_front a))) (ca_cdb ca)) (ca_jti ca)) by (split; congruence). destruct X as [-> ->]. clear R.
  destruct r as [m|]; [|discriminate]. destruct (dmem "error" m); [discriminate|].
  unfold bind, in_world, gets, in_db, ret in E. cbn [fs_world w_db w_cdb fs_jti] in E.
  destruct (introspection_process (sy_sid_of y) (sy_cx y) (ca_cdb ca) clock un m (w_db (fs_world (as_front a)))) as [[an|x] s'] eqn:Ei; [|discriminate].
  destruct an as [|args' oc]; [discriminate|]. assert (args' = args) by congruence. subst args'. clear E.
  apply introspection_cases in Ei. destruct Ei as (v & Ev & [(_ & X)|[(sid & _ & _ & X)|(u & c & gr & t & N & X)]]).
  1, 2: assert (args = [("active", VBool false)]%string) by congruence; subst args; discriminate.
  rewrite (received_member _ _ _ _ _ _ "token" Hk Er) in Ev by (cbn; auto 6).
  destruct X as [[_ X]|(info & ui & Ein & Rel & X)]; [assert (args = [("active", VBool false)]%string) by congruence; subst args; discriminate|].
  pose proof N as N0. destruct N0 as (sid & gid & Es & U & V & Vt & l1 & l2 & Eis & _). destruct (Hs _ _ Es) as (u' & c' & g' & Hu & Hc & Hg & ->).
  rewrite unpack3_good in U by assumption. assert (u' = u /\ c' = c /\ g' = gid) as (-> & -> & ->) by (repeat split; congruence).
  pose proof (C109_session y a dp u c gid gr Hs H Hu Hc Hg V) as W.
  destruct (kept_accounted y a dp u c gid gr Hs H Hu Hc Hg V) as [_ T].
  assert (Pl : t_scope t = []).
  { apply view_key in V. destruct (scopes_all y Hs a dp H _ _ V) as [_ F]. rewrite Forall_forall in F. apply F. rewrite Eis. apply in_elt. }
  exists u, c, gid, (t_class t), v, (g_scope gr). split; [exact Ev|]. split; [rewrite <- Vt; apply T; rewrite Eis; apply in_elt|]. split; [|exact W].
  assert (A : args = dset "active" (VBool true) (dupdate (dupdate [("active", VBool false)] (if un then dset "username" (VStr u) info else info)) ui)%string) by congruence.
  rewrite A, dget_dset_neq, dget_dupdate by discriminate.
  assert (Nu : dget "scope" (rev ui) = None).
  { destruct (dget "scope" (rev ui)) as [x|] eqn:Q; [|reflexivity]. exfalso. apply dget_In in Q. apply in_rev in Q.
    destruct (release_sound _ _ _ _ _ Rel Q) as (spec & _ & D & _). unfold Claims.userinfo, dget_or in D.
    destruct (dget u (cx_users (sy_cx y))) as [ui0|] eqn:Qu; [rewrite (Hn _ _ Qu) in D|]; discriminate. }
  rewrite Nu, dget_dupdate. unfold introspect in Ein. destruct (negb _); [discriminate|]. destruct (negb _); [discriminate|].
  rewrite Pl in Ein. cbn [is_nil] in Ein. cbv zeta in Ein. injection Ein as <-. 
  destruct un; destruct (is_nil _); reflexivity.
Qed.
Print Assumptions C109_introspection.

(** ** A case: diana came with a request for openid and email; the code of the session is exchanged. *)
From Verif Require Import PropsTokenEndpoint PropsFlow PropsFrontFlow PropsSystem.
Lemma arrivals_before y a k b dp : arrivals y a ((k, b) :: dp) -> arrivals y b dp.
Proof. intros H. inversion H; subst. assumption. Qed.
Example C109_ex :
  sids_ok (sy_sid_of y97) /\ arrivals y97 a97_3 dp97 /\ arrivals y97 a97_2 [(visit97, a97_1); (push97, a97)] /\
  (exists gr, keeps_session a97_3 "diana" "c1" "g9" gr /\ g_scope gr = ["openid"; "email"]%string) /\
  keeps (gt_check (gate95 [Some MBasic; Some MPost])) /\
  exists args f, token_at y97 (gate95 [Some MBasic; Some MPost]) 2000 (mt2 "at8") (mt2 "rt8") None tr81 basic95 (as_front a97_2) = (Ok (AOk args None), f) /\
    dget "scope" args = Some (vstrs ["openid"; "email"]%string).
Proof.
  split; [exact sid79_ok|]. split; [exact C97_ex_arrivals|]. split; [exact (arrivals_before _ _ _ _ _ C97_ex_arrivals)|].
  split; [eexists; split; vm_compute; reflexivity|]. split; [cbn; intros c m m' E k _; congruence|].
  do 2 eexists. split; vm_compute; reflexivity.
Qed.
Example C109_ex_introspection :
  (forall u info, dget u (cx_users (sy_cx y97)) = Some info -> dget "scope" info = None) /\
  exists args f, introspection_request (sy_sid_of y97) (sy_cx y97) (gate95 [Some MBasic]) 2100 false [("token", VStr "at8")]%string basic95 (as_front a97_3) = (Ok (IAnswer args), f) /\
    dget "active" args = Some (VBool true) /\ dget "scope" args = Some (VStr "openid email").
Proof.
  split.
  - intros u info H. apply dget_In in H. vm_compute in H. repeat destruct H as [H|H]; try contradiction; injection H as <- <-; reflexivity.
  - do 2 eexists. split; [vm_compute; reflexivity|]. split; vm_compute; reflexivity.
Qed.
