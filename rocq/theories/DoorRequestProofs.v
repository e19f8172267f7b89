(** DoorRequestProofs.v: which authorization request a session belongs to, from the received requests on (for C97 and C98). *)
From Verif Require Import Base BaseProofs SessionKey SessionKeyProofs Monad MonadProofs Types Token Grant GrantSpec GrantProofs AuthzProofs Database DatabaseSpec DatabaseProofs
  Manager ManagerSpec ManagerProofs Ctx UserInfo UserInfoSpec UserInfoProofs World Minting ClientAuthn ClientAuthnSpec TokenEndpoint WorldSpec WorldProofs
  Uri AuthzRequest AuthzEndpoint Logout SetupAuthSpec SetupAuthProofs System SystemSpec SystemProofs Preserve Fronts FrontsSpec FrontsProofs AuthzFront Door DoorSpec DoorProofs.
From Verif Require Import SetupAuth.
Local Open Scope Z_scope.

Section Asked.
  Variable Q : string -> msg -> Prop.
  Definition asked (k : string) (g : grant) : Prop := exists ar, g_authreq g = Some ar /\ Q k ar.
  Lemma asked_same k g g' : asked k g -> g_authreq g' = g_authreq g -> asked k g'.
  Proof. intros (ar & E & H) S. exists ar. split; [congruence|exact H]. Qed.
  Lemma asked_core k g l : asked k g -> Forall2 same_core (g_issued g) l -> asked k (g_set_issued l g).
  Proof. intros H _. eapply asked_same; [exact H|reflexivity]. Qed.
  Lemma asked_revoked k g : asked k g -> asked k (g_set_revoked true g).
  Proof. intros H. eapply asked_same; [exact H|reflexivity]. Qed.
  Lemma asked_takes mt sid ttype : takes asked mt sid ttype.
  Proof. intros g t H _. eapply asked_same; [exact H|reflexivity]. Qed.
  Lemma asked_settles az sid request : settles asked az sid request.
  Proof. unfold settles. destruct (az_handler az); [|exact I]. intros g g' O (_ & _ & A & _) _. eapply asked_same; [exact O|exact A]. Qed.
End Asked.

Section Requests.
  Variable y : setup_of.
  Hypothesis Hs : sids_ok (sy_sid_of y).

  Definition asked_for (dp : dpast) (k : string) (ar : msg) : Prop :=
    exists u c g m e, good u /\ good c /\ good g /\ k = session_key [u; c; g] /\ came_with dp u c g m /\ ar = changed e m.
  Lemma came_more h dp u c g m : came_with dp u c g m -> came_with (h :: dp) u c g m.
  Proof. intros (h' & gt & re & oidc & pk & e & az & rq & auth & id & I & R). exists h', gt, re, oidc, pk, e, az, rq, auth, id. split; [now right|exact R]. Qed.
  Lemma asked_more h dp k ar : asked_for dp k ar -> asked_for (h :: dp) k ar.
  Proof. intros (u & c & g & m & e & Hu & Hc & Hg & K & C & E). exists u, c, g, m, e. do 5 (split; [auto using came_more|]). exact E. Qed.

  Definition in_requests (a : astate) (dp : dpast) : Prop := Preserve.inv (asked (asked_for dp)) (sessions_of a).
  Lemma requests_more h a dp : in_requests a dp -> in_requests a (h :: dp).
  Proof. intros R k g D. destruct (R k g D) as (ar & E & H). exists ar. split; [exact E|now apply asked_more]. Qed.
  Lemma requests_same a a' dp : sessions_of a' = sessions_of a -> in_requests a dp -> in_requests a' dp.
  Proof. unfold in_requests. now intros ->. Qed.

  Lemma requests_knock k a dp : knock_ok k a -> in_requests a dp -> in_requests (dstep y k a) ((k, a) :: dp).
  Proof.
    intros Hk R0. pose proof (requests_more (k, a) _ _ R0) as R. clear R0.
    destruct k as [gt re oidc pk e az rq auth|gt re uuid rq auth|gt clock m1 m2 ir rq auth|gt clock rq auth|gt clock un rq auth|e sid alla|op|f]; cbn [dstep].
    - destruct (authorization_request gt re oidc pk e az rq auth a) as [r a'] eqn:E. cbn [snd].
      destruct (authorization_door _ _ _ _ _ _ _ _ _ _ _ E) as [X|(m & w & U & W & Wc & Pr)]; [now apply requests_same with (a := a)|].
      pose proof (Hk m U) as Ho. destruct Ho as (Gn & Gc & Gi).
      set (ok := asked (asked_for ((KAuthorize gt re oidc pk e az rq auth, a) :: dp))).
      assert (X : tri ok (process_request e az oidc (inr m)) (fun _ => True)).
      { apply tri_process; [exact (Hk m U)| |].
        - intros id u c Rec Eu Ec clock authn rules. eexists. split; [reflexivity|]. exists u, c, (au_newid e), m, e. destruct (Gi id Rec) as [Gu _].
          do 4 (split; [auto|]). split; [|reflexivity]. eexists. exists gt, re, oidc, pk, e, az, rq, auth, id. split; [now left|]. cbn [fst snd]. auto 10.
        - intros id sid Rec Go. split; [apply asked_takes|]. split; [apply asked_takes|apply asked_settles]. }
      unfold in_requests in R. rewrite <- W in R. specialize (X w R). rewrite Pr in X. exact (proj1 X).
    - apply requests_same with (a := a); [apply pushed_door|exact R].
    - destruct (token_at y gt clock m1 m2 ir rq auth (as_front a)) as [r f'] eqn:E. unfold in_front. rewrite E. cbn [snd].
      destruct (token_door y Hs _ _ _ _ _ _ _ _ _ _ Hk E) as [[X _]|(rq1 & w & W & Et & Ps & Sh)]; [now apply requests_same with (a := a)|].
      unfold in_requests, sessions_of in R. rewrite <- W in R.
      pose proof (inv_token _ (asked_core _) (sy_sid_of y) Hs (sy_cx y) (sy_idtoken y) (sy_sharing y) (sy_helpers y) m1 m2 ir rq1 w
        (fun sid => conj (asked_takes _ m1 sid _) (asked_takes _ m2 sid _)) R) as X. rewrite Et in X. exact X.
    - apply requests_same with (a := a); [rewrite front_sessions; apply userinfo_door|exact R].
    - apply requests_same with (a := a); [rewrite front_sessions; apply introspection_door|exact R].
    - unfold in_requests. rewrite front_sessions. unfold in_world. cbn [snd fs_world]. apply inv_logout; [apply asked_revoked|exact R].
    - unfold in_requests. rewrite front_sessions. unfold in_world.
      pose proof (tri_in_db _ _ _ (trid_revocation _ (asked_core _) (asked_revoked _) (sy_sharing y) op Hk) (fs_world (as_front a)) R) as X.
      destruct (in_db (mstep (sy_sharing y) op) (fs_world (as_front a))) as [r w]. exact (proj1 X).
    - exact R.
  Qed.
  Lemma requests_all a dp : arrivals y a dp -> in_requests a dp.
  Proof. induction 1 as [clients jti pushed|a dp k _ IH Hk]; [intros k g D; discriminate|now apply requests_knock]. Qed.
End Requests.
