From Verif Require Import Base BaseProofs SessionKey SessionKeyProofs Monad MonadProofs Types Token Grant GrantSpec Database DatabaseSpec DatabaseProofs
  Manager ManagerSpec ManagerProofs Ctx UserInfo UserInfoSpec UserInfoProofs World Minting ClientAuthn ClientAuthnSpec TokenEndpoint WorldSpec WorldProofs
  Uri AuthzRequest AuthzEndpoint Logout SetupAuthSpec System SystemSpec SystemProofs LastingSpec LastingProofs Fronts FrontsSpec FrontsProofs AuthzFront
  Door DoorSpec DoorProofs DoorLastingSpec.
From Verif Require UserinfoFront UserinfoFrontSpec UserinfoFrontProofs PropsUserinfoFront PropsClaims.
From Verif Require Import SetupAuth.
Local Open Scope Z_scope.

Ltac no_success X :=
  destruct X as [X|[X|X]];
  [destruct X as (? & ? & ? & ? & ? & ? & ? & ? & ? & ? & ? & X & _)|destruct X as (? & ? & ? & ? & ? & ? & ? & ? & X & _)|destruct X as (? & ? & ? & ? & ? & ? & ? & X & _)];
  discriminate X.

Lemma at_least_app {X} (P : X -> Prop) l l' n : at_least P n (l ++ l') -> exists n1 n2, n = (n1 + n2)%nat /\ at_least P n1 l /\ at_least P n2 l'.
Proof.
  revert n. induction l as [|x l IH]; intros n H; cbn [app] in H; [exists 0%nat, n; split; [reflexivity|]; split; [constructor|exact H]|].
  inversion H as [|? ? ? Hp Hr|? ? ? Hr]; subst.
  - exists 0%nat, 0%nat. split; [reflexivity|]. split; constructor.
  - destruct (IH _ Hr) as (n1 & n2 & -> & H1 & H2). exists (S n1), n2. split; [reflexivity|]. split; [now constructor|exact H2].
  - destruct (IH _ Hr) as (n1 & n2 & -> & H1 & H2). exists n1, n2. split; [reflexivity|]. split; [now apply al_no|exact H2].
Qed.

Section Sim.
  Variable y : setup_of.
  Hypothesis Hs : sids_ok (sy_sid_of y).

  (** what arrives is what the endpoints are called with *)
  Definition simulates (k : knock) (a : astate) (l : list call) (s : sys) (p : past) : Prop :=
    ss_world (fst (srun y l s p)) = fs_world (as_front (dstep y k a)) /\
    Forall call_ok l /\ (door_values k -> Forall plain_values l) /\ (flat_map new_id l = [] \/ flat_map new_id l = door_id k) /\
    (forall c0, door_after c0 k -> Forall (call_after c0) l) /\
    exists q, snd (srun y l s p) = q ++ p /\
      (forall v, dhonours y v (k, a) -> exists h, In h q /\ honours y v h) /\
      (forall v, dexchanged y v (k, a) -> exists h, In h q /\ exchanged v h) /\
      (forall v, dredeemed y v (k, a) -> exists h, In h q /\ redeemed v h = true).

  (** nothing but the clients changes, and nobody gets anything *)
  Lemma sim_quiet k a s p db : ss_world s = fs_world (as_front a) -> fs_world (as_front (dstep y k a)) = mkW (w_db (fs_world (as_front a))) db ->
    (forall v, ~ dhonours y v (k, a)) -> simulates k a [SClients (fun _ => db)] s p.
  Proof.
    intros Ew E N. unfold simulates. cbn [srun sstep fst snd ss_world]. split; [rewrite E, Ew; reflexivity|]. split; [repeat constructor|].
    split; [repeat constructor|]. split; [left; reflexivity|]. split; [repeat constructor|]. eexists [_]. split; [reflexivity|].
    split; [intros v X; now destruct (N v)|]. split; [intros v X; destruct (N v); now left|].
    intros v (gt & clock & m1 & m2 & ir & rq & auth & args & cid & f & E1 & E2 & E3). destruct (N v). left. exists gt, clock, m1, m2, ir, rq, auth, args, cid, f, CCode. auto.
  Qed.

  Lemma authorization_world gt re oidc pk e az rq auth a r a' : authorization_request gt re oidc pk e az rq auth a = (r, a') ->
    exists db, fs_world (as_front a') = mkW (sessions_of a) db \/
      exists m, understood gt re oidc pk rq auth a m /\ process_request e az oidc (inr m) (mkW (sessions_of a) db) = (r, fs_world (as_front a')).
  Proof.
    intros H. unfold authorization_request in H. unfold bind at 1 in H. unfold in_front at 1, in_auth at 1 in H.
    destruct (parse_auth _ _ _ _ _ _ _ _) as [[[rq' cid]|x] ca] eqn:P in H; exists (ca_cdb ca).
    2:{ left. injection H as _ <-. reflexivity. }
    unfold bind at 1 in H. destruct (gt_check gt cid rq') as [m0| |x] eqn:C.
    - unfold bind at 1, in_front at 1, in_world at 1, gets at 1 in H. cbn [as_front as_pushed fs_world fs_jti w_cdb w_db] in H.
      unfold in_pushed at 1 in H. cbn [as_front as_pushed] in H.
      destruct (authz_hooks _ _ _ _ _ _) as [[[err|m]|x] p] eqn:Hk in H.
      + left. unfold in_front, in_world, process_request, ret in H. cbn in H. injection H as _ <-. reflexivity.
      + right. exists m. split; [exists rq', cid, ca, m0, p; auto|].
        unfold in_front, in_world in H. cbn [as_front as_pushed fs_world fs_jti] in H.
        destruct (process_request e az oidc (inr m) _) as [r1 w1] eqn:E in H. unfold sessions_of. rewrite E. injection H as <- <-. reflexivity.
      + left. injection H as _ <-. reflexivity.
    - left. unfold ret at 1, in_front, in_world, process_request, ret in H. cbn in H. injection H as _ <-. reflexivity.
    - left. unfold raise in H. injection H as _ <-. reflexivity.
  Qed.
  Lemma pushed_world gt re uuid rq auth a : exists db, fs_world (as_front (snd (pushed_request gt re uuid rq auth a))) = mkW (sessions_of a) db.
  Proof.
    unfold pushed_request. unfold bind at 1. unfold in_front at 1, in_auth at 1.
    destruct (parse_auth _ _ _ _ _ _ _ _) as [[[rq' cid]|x] ca]; exists (ca_cdb ca); [|reflexivity].
    destruct (gt_check gt cid rq') as [m0| |x]; [|reflexivity|reflexivity].
    unfold bind at 1, in_front at 1, in_world at 1, gets at 1. unfold bind at 1, in_pushed at 1.
    destruct (parse_push _ _ _ _) as [[[err|m]|x] p]; [reflexivity| |reflexivity].
    unfold bind at 1, in_pushed at 1. destruct (push_request uuid m _) as [[u|x] p']; reflexivity.
  Qed.

  Lemma sim_authorize gt re oidc pk e az rq auth a s p : knock_ok (KAuthorize gt re oidc pk e az rq auth) a -> ss_world s = fs_world (as_front a) ->
    exists l, simulates (KAuthorize gt re oidc pk e az rq auth) a l s p.
  Proof.
    intros Hk Ew. assert (Nh : forall v, ~ dhonours y v (KAuthorize gt re oidc pk e az rq auth, a)).
    { intros v X. no_success X. }
    destruct (authorization_request gt re oidc pk e az rq auth a) as [r a'] eqn:E.
    destruct (authorization_world _ _ _ _ _ _ _ _ _ _ _ E) as (db & [W|(m & U & Pr)]).
    { eexists. apply sim_quiet with (db := db); [exact Ew| |exact Nh]. cbn [dstep]. rewrite E. exact W. }
    exists [SClients (fun _ => db); SAuthorize e az oidc (inr m)]. unfold simulates. cbn [srun sstep fst snd ss_world].
    rewrite Ew. fold (sessions_of a). rewrite Pr. cbn [fst snd ss_world dstep]. rewrite E. cbn [snd]. split; [reflexivity|].
    split. { constructor; [exact I|]. constructor; [exact (Hk m U)|constructor]. }
    split. { intros V. constructor; [exact I|]. constructor; [exact V|constructor]. }
    split; [right; reflexivity|]. split; [repeat constructor|]. eexists [_; _]. split; [reflexivity|].
    split; [intros v X; now destruct (Nh v)|]. split; [intros v X; destruct (Nh v); now left|].
    intros v (gt' & clock & m1 & m2 & ir & rq' & auth' & args & cid & f & E1 & _). discriminate.
  Qed.
  Lemma sim_push gt re uuid rq auth a s p : ss_world s = fs_world (as_front a) -> exists l, simulates (KPush gt re uuid rq auth) a l s p.
  Proof.
    intros Ew. destruct (pushed_world gt re uuid rq auth a) as (db & W). eexists. apply sim_quiet with (db := db); [exact Ew|exact W|].
    intros v X. no_success X.
  Qed.

  (** the token endpoint *)
  Lemma token_calls gt clock m1 m2 ir rq auth f r f' : keeps (gt_check gt) -> token_at y gt clock m1 m2 ir rq auth f = (r, f') ->
    exists db, (fs_world f' = mkW (w_db (fs_world f)) db /\ forall args c, r <> Ok (AOk args c)) \/
    (exists m rq1, token_parse (sy_sid_of y) (sy_b64hash y) (sy_helpers y) (sy_pkce y) clock m (w_db (fs_world f)) = (Ok (PReq rq1), w_db (fs_world f)) /\
       token_process (sy_sid_of y) (sy_cx y) (sy_idtoken y) (sy_sharing y) (sy_helpers y) m1 m2 ir (PReq rq1) (mkW (w_db (fs_world f)) db) = (r, fs_world f') /\
       (forall j, In j read_members -> dget j rq1 = dget j rq)).
  Proof.
    intros Hk H. unfold token_at, token_request in H. unfold bind at 1 in H.
    destruct (received gt rq auth (auth_of f)) as [r0 ca] eqn:E. rewrite (in_auth_run _ _ _ _ E) in H. exists (ca_cdb ca).
    destruct r0 as [[m|]|x].
    2:{ left. unfold bind, ret, in_world in H. cbn in H. assert (f' = mkFS (mkW (w_db (fs_world f)) (ca_cdb ca)) (ca_jti ca)) by congruence. subst f'.
        split; [reflexivity|]. intros args c. congruence. }
    2:{ left. assert (f' = mkFS (mkW (w_db (fs_world f)) (ca_cdb ca)) (ca_jti ca)) by congruence. subst f'. split; [reflexivity|]. intros args c. congruence. }
    unfold bind, in_world, in_db in H. cbn [fs_world fs_jti w_db w_cdb] in H.
    destruct (token_parse (sy_sid_of y) (sy_b64hash y) (sy_helpers y) (sy_pkce y) clock m (w_db (fs_world f))) as [rp s'] eqn:Ep.
    destruct (token_parse_cases _ _ Hs _ _ _ _ _ _ _ Ep) as [-> _].
    destruct rp as [[rq1|err d]|x].
    - right. cbn [fs_world fs_jti] in H. destruct (token_process _ _ _ _ _ _ _ _ _ _) as [r1 w1] eqn:Et in H. exists m, rq1.
      split; [exact Ep|]. split. { rewrite Et. injection H as <- <-. reflexivity. }
      intros j I. rewrite <- (received_keeps _ _ _ _ _ _ Hk E j I).
      apply (parse_members y Hs _ _ _ _ _ Ep). intros ->. cbn in I. intuition discriminate.
    - left. cbn in H. injection H as <- <-. split; [reflexivity|]. discriminate.
    - left. injection H as <- <-. split; [reflexivity|]. discriminate.
  Qed.
  Lemma sim_token gt clock m1 m2 ir rq auth a s p : knock_ok (KToken gt clock m1 m2 ir rq auth) a -> ss_world s = fs_world (as_front a) ->
    exists l, simulates (KToken gt clock m1 m2 ir rq auth) a l s p.
  Proof.
    intros Hk Ew. cbn [knock_ok] in Hk. set (k := KToken gt clock m1 m2 ir rq auth).
    destruct (token_at y gt clock m1 m2 ir rq auth (as_front a)) as [r f'] eqn:E.
    assert (D : fs_world (as_front (dstep y k a)) = fs_world f') by (unfold k; cbn [dstep]; unfold in_front; rewrite E; reflexivity).
    assert (Ok_ : forall v, dexchanged y v (k, a) -> exists args c kind, r = Ok (AOk args c) /\ presents rq kind v).
    { intros v (gt' & clock' & n1 & n2 & ir' & rq' & auth' & args & cid & f & kind & E1 & E2 & E3). unfold k in E1. cbn [fst snd] in *. injection E1 as <- <- <- <- <- <- <-.
      exists args, cid, kind. split; [congruence|exact E3]. }
    assert (Hon : forall v, dhonours y v (k, a) -> dexchanged y v (k, a)).
    { intros v [X|[X|X]]; [exact X|destruct X as (? & ? & ? & ? & ? & ? & ? & ? & X & _)|destruct X as (? & ? & ? & ? & ? & ? & ? & X & _)]; discriminate. }
    destruct (token_calls _ _ _ _ _ _ _ _ _ _ Hk E) as (db & [[W N]|(m & rq1 & Ep & Et & Mb)]).
    { eexists. apply sim_quiet with (db := db); [exact Ew|rewrite D; exact W|]. intros v X. apply Hon, Ok_ in X. destruct X as (args & c & kind & X & _). exact (N _ _ X). }
    exists [SClients (fun _ => db); SParse clock m; SProcess m1 m2 ir (length (ss_accepted s))]. unfold simulates.
    assert (R : srun y [SClients (fun _ => db); SParse clock m; SProcess m1 m2 ir (length (ss_accepted s))] s p =
      (mkSys (fs_world f') (ss_accepted s ++ [rq1]),
       [(SProcess m1 m2 ir (length (ss_accepted s)), OProcess rq1 r); (SParse clock m, OParse (Ok (PReq rq1))); (SClients (fun _ => db), ONothing)] ++ p)).
    { cbn [srun sstep fst snd ss_world ss_accepted]. rewrite Ew. unfold in_db. cbn [w_db w_cdb]. rewrite Ep. cbn [ss_accepted ss_world].
      rewrite nth_error_app2, Nat.sub_diag by lia. cbn [nth_error]. rewrite Et. reflexivity. }
    rewrite R. cbn [fst snd ss_world]. split; [symmetry; exact D|]. split; [repeat constructor|].
    split. { intros V. constructor; [exact I|]. constructor; [exact I|]. constructor; [exact V|constructor]. }
    split; [left; reflexivity|].
    split. { intros c0 (A1 & A2 & A3). constructor; [exact I|]. constructor; [exact A1|]. constructor; [split; assumption|constructor]. }
    eexists. split; [reflexivity|].
    assert (Pr : forall kind v, presents rq kind v -> presents rq1 kind v) by (intros kind v; apply presents_same; intros j I; symmetry; auto).
    split; [|split].
    - intros v X. apply Hon, Ok_ in X. destruct X as (args & c & kind & -> & X). eexists. split; [left; reflexivity|]. cbn. eauto.
    - intros v X. apply Ok_ in X. destruct X as (args & c & kind & -> & X). eexists. split; [left; reflexivity|]. do 8 eexists. split; [reflexivity|]. apply Pr, X.
    - intros v (gt' & clock' & n1 & n2 & ir' & rq' & auth' & args & cid & f & E1 & E2 & E3). unfold k in E1. cbn [fst snd] in *. injection E1 as <- <- <- <- <- <- <-.
      assert (r = Ok (AOk args cid)) by congruence. subst r. eexists. split; [left; reflexivity|]. apply Pr in E3.
      destruct E3 as [(_ & B1 & raw & B2 & B3)|(X & _)]; [|discriminate]. cbn [redeemed]. unfold redeems. cbn [ev_request ev_answer]. rewrite B1, B2.
      rewrite <- B3. now rewrite !String.eqb_refl.
  Qed.

  Lemma sim_userinfo gt clock rq auth a s p : ss_world s = fs_world (as_front a) -> exists l, simulates (KUserinfo gt clock rq auth) a l s p.
  Proof.
    intros Ew. set (k := KUserinfo gt clock rq auth).
    set (s0 := UserinfoFront.mkFr (mkCA (w_cdb (fs_world (as_front a))) (fs_jti (as_front a))) (w_db (fs_world (as_front a)))).
    assert (Nx : forall v, ~ dexchanged y v (k, a)).
    { intros v (? & ? & ? & ? & ? & ? & ? & ? & ? & ? & ? & X & _). discriminate. }
    assert (Hon : forall v, dhonours y v (k, a) -> exists args c how f, brings gt rq auth v /\ userinfo_at y gt clock rq auth (as_front a) = (Ok (UserinfoFront.UClaims args c how), f)).
    { intros v [X|[X|X]]; [now destruct (Nx v)| |destruct X as (? & ? & ? & ? & ? & ? & ? & X & _); discriminate].
      destruct X as (gt' & clock' & rq' & auth' & args & c & how & f & E1 & E2 & E3). unfold k in E1. cbn [fst snd] in *. injection E1 as <- <- <- <-. exists args, c, how, f. auto. }
    assert (D : fs_world (as_front (dstep y k a)) = fs_world (snd (userinfo_at y gt clock rq auth (as_front a)))).
    { unfold k. cbn [dstep]. unfold in_front. destruct (userinfo_at y gt clock rq auth (as_front a)). reflexivity. }
    unfold userinfo_at in D, Hon. fold s0 in D, Hon. unfold UserinfoFront.userinfo_request in D, Hon.
    change (UserinfoFront.fr_db s0) with (sessions_of a) in D, Hon.
    destruct (UserinfoFront.userinfo_parse (sy_sid_of y) (gt_out gt) (gt_ep gt) (gt_cls gt) (gt_aka gt) rq auth (sessions_of a) (UserinfoFront.fr_ca s0)) as [[[err|rq']|x] ca] eqn:P.
    1, 3: eexists; apply sim_quiet with (db := ca_cdb ca); [exact Ew|exact D|]; intros v X; apply Hon in X; destruct X as (args & c & how & f & _ & X); discriminate.
    destruct (userinfo_process (sy_sid_of y) (sy_cx y) (ca_cdb ca) clock rq' (sessions_of a)) as [r db] eqn:Eu.
    assert (db = sessions_of a). { pose proof (userinfo_state (sy_sid_of y) (sy_cx y) (ca_cdb ca) clock rq' (sessions_of a)) as St. rewrite Eu in St. exact St. } subst db.
    exists [SClients (fun _ => ca_cdb ca); SUserinfo clock rq']. unfold simulates. cbn [srun sstep fst snd ss_world ss_accepted]. rewrite Ew. unfold in_db.
    cbn [w_db w_cdb]. fold (sessions_of a). rewrite Eu. cbn [fst snd ss_world]. split; [symmetry; exact D|]. split; [repeat constructor|]. split; [repeat constructor|].
    split; [left; reflexivity|]. split. { intros c0 V. constructor; [exact I|]. constructor; [exact V|constructor]. }
    eexists [_; _]. split; [reflexivity|]. split; [|split].
    - intros v X. apply Hon in X. destruct X as (args & c & how & f & [Br Only] & X). eexists. split; [left; reflexivity|].
      destruct r as [an|x]; [|discriminate]. destruct an as [e d|args' cid]; [cbn in X; discriminate|]. cbn [honours].
      destruct (PropsClaims.C17_userinfo _ _ _ _ _ _ _ _ _ Eu) as (_ & v' & _ & _ & _ & _ & _ & Ev & _). rewrite Ev. do 2 f_equal.
      destruct (UserinfoFrontProofs.parsed _ _ _ _ _ _ _ _ _ _ _ P) as (c' & t' & -> & Hp & _). rewrite dget_dset_eq in Ev. apply Only, Hp. congruence.
    - intros v X. now destruct (Nx v).
    - intros v (? & ? & ? & ? & ? & ? & ? & ? & ? & ? & X & _). discriminate.
  Qed.
  Lemma sim_introspect gt clock un rq auth a s p : keeps (gt_check gt) -> ss_world s = fs_world (as_front a) -> exists l, simulates (KIntrospect gt clock un rq auth) a l s p.
  Proof.
    intros Hk Ew. set (k := KIntrospect gt clock un rq auth).
    assert (Nx : forall v, ~ dexchanged y v (k, a)).
    { intros v (? & ? & ? & ? & ? & ? & ? & ? & ? & ? & ? & X & _). discriminate. }
    assert (Hon : forall v, dhonours y v (k, a) -> exists args f, dget "token" rq = Some (VStr v) /\
      introspection_request (sy_sid_of y) (sy_cx y) gt clock un rq auth (as_front a) = (Ok (IAnswer args), f) /\ dget "active" args = Some (VBool true)).
    { intros v [X|[X|X]]; [now destruct (Nx v)|destruct X as (? & ? & ? & ? & ? & ? & ? & ? & X & _); discriminate|].
      destruct X as (gt' & clock' & un' & rq' & auth' & args & f & E1 & E2 & E3). unfold k in E1. cbn [fst snd] in *. injection E1 as <- <- <- <- <-. exists args, f. auto. }
    assert (D : fs_world (as_front (dstep y k a)) = fs_world (snd (introspection_request (sy_sid_of y) (sy_cx y) gt clock un rq auth (as_front a)))).
    { unfold k. cbn [dstep]. unfold in_front. destruct (introspection_request _ _ _ _ _ _ _ _). reflexivity. }
    unfold introspection_request in D, Hon. unfold bind at 1 in D. unfold bind at 1 in Hon.
    destruct (received gt rq auth (auth_of (as_front a))) as [r0 ca] eqn:E. rewrite (in_auth_run _ _ _ _ E) in D, Hon.
    destruct r0 as [[m|]|x]; [destruct (dmem "error" m) eqn:Em| |].
    1, 3, 4: eexists; apply sim_quiet with (db := ca_cdb ca); [exact Ew|exact D|]; intros v X; apply Hon in X; destruct X as (args & f & _ & X & _); discriminate.
    unfold bind, in_world, gets, in_db in D, Hon. cbn [fs_world w_db w_cdb fs_jti] in D, Hon. fold (sessions_of a) in D, Hon.
    destruct (introspection_process (sy_sid_of y) (sy_cx y) (ca_cdb ca) clock un m (sessions_of a)) as [r db] eqn:Eu.
    assert (db = sessions_of a). { pose proof (introspection_state (sy_sid_of y) (sy_cx y) (ca_cdb ca) clock un m (sessions_of a)) as St. rewrite Eu in St. exact St. } subst db.
    exists [SClients (fun _ => ca_cdb ca); SIntrospect clock un m]. unfold simulates. cbn [srun sstep fst snd ss_world ss_accepted]. rewrite Ew. unfold in_db.
    cbn [w_db w_cdb]. fold (sessions_of a). rewrite Eu. cbn [fst snd ss_world]. split; [destruct r; symmetry; exact D|]. split; [repeat constructor|]. split; [repeat constructor|].
    split; [left; reflexivity|]. split. { intros c0 V. constructor; [exact I|]. constructor; [exact V|constructor]. }
    eexists [_; _]. split; [reflexivity|]. split; [|split].
    - intros v X. apply Hon in X. destruct X as (args & f & Ev & X & Act). eexists. split; [left; reflexivity|].
      destruct r as [an|x]; [|discriminate]. destruct an as [e d|args' cid]; [discriminate|]. assert (args' = args) by (unfold ret in X; congruence). subst args'. cbn [honours].
      split; [|exact Act]. rewrite (received_keeps _ _ _ _ _ _ Hk E) by (cbn; auto). exact Ev.
    - intros v X. now destruct (Nx v).
    - intros v (? & ? & ? & ? & ? & ? & ? & ? & ? & ? & X & _). discriminate.
  Qed.
  Lemma sim_other k a s p o : ss_world s = fs_world (as_front a) -> (forall v, ~ dhonours y v (k, a)) ->
    ss_world (fst (sstep y o s)) = fs_world (as_front (dstep y k a)) -> call_ok o -> plain_values o -> new_id o = [] -> (forall c0, call_after c0 o) ->
    simulates k a [o] s p.
  Proof.
    intros Ew N W Ho Hp Hn Ha. unfold simulates. cbn [srun]. destruct (sstep y o s) as [s' r]. cbn [fst snd] in *. split; [exact W|].
    split; [repeat constructor; exact Ho|]. split; [intros _; repeat constructor; exact Hp|]. split; [left; cbn; now rewrite Hn|].
    split; [intros c0 _; repeat constructor; apply Ha|]. exists [(o, r)]. split; [reflexivity|].
    split; [intros v X; now destruct (N v)|]. split; [intros v X; destruct (N v); now left|].
    intros v (gt & clock & m1 & m2 & ir & rq & auth & args & cid & f & E1 & E2 & E3). destruct (N v). left. exists gt, clock, m1, m2, ir, rq, auth, args, cid, f, CCode. auto.
  Qed.
  Lemma sim_knock k a s p : knock_ok k a -> door_checks k -> ss_world s = fs_world (as_front a) -> exists l, simulates k a l s p.
  Proof.
    intros Hk Hc Ew.
    assert (N : match k with KToken _ _ _ _ _ _ _ | KUserinfo _ _ _ _ | KIntrospect _ _ _ _ _ => True | _ => forall v, ~ dhonours y v (k, a) end).
    { destruct k; try exact I; intros v X; no_success X. }
    destruct k as [gt re oidc pk e az rq auth|gt re uuid rq auth|gt clock m1 m2 ir rq auth|gt clock rq auth|gt clock un rq auth|e sid alla|op|f].
    - now apply sim_authorize.
    - now apply sim_push.
    - now apply sim_token.
    - now apply sim_userinfo.
    - now apply sim_introspect.
    - exists [SLogout e sid alla]. apply sim_other; [exact Ew|exact N| |exact I|exact I|reflexivity|intros c0; exact I].
      cbn [sstep dstep fst ss_world]. rewrite Ew. reflexivity.
    - exists [SRevoke op]. apply sim_other; [exact Ew|exact N| |exact Hk|exact I|reflexivity|intros c0; exact I].
      cbn [sstep dstep fst ss_world]. rewrite Ew. unfold in_front, in_world. destruct (in_db _ _). reflexivity.
    - exists [SClients f]. apply sim_other; [exact Ew|exact N| |exact I|exact I|reflexivity|intros c0; exact I].
      cbn [sstep dstep fst ss_world]. rewrite Ew. reflexivity.
  Qed.

  Lemma srun_app l l' s p : srun y (l ++ l') s p = srun y l' (fst (srun y l s p)) (snd (srun y l s p)).
  Proof. revert s p. induction l as [|o l IH]; intros s p; [reflexivity|]. cbn [app srun]. destruct (sstep y o s). apply IH. Qed.

  (** what arrives one after the other *)
  Lemma sim_run l : forall a s p dp, ss_world s = fs_world (as_front a) -> knocks_ok y l a ->
    exists l', ss_world (fst (srun y l' s p)) = fs_world (as_front (fst (drun y l a dp))) /\
      Forall call_ok l' /\ Forall plain_values l' /\ (NoDup (flat_map door_id l) -> NoDup (flat_map new_id l')) /\ incl (flat_map new_id l') (flat_map door_id l) /\
      (forall c0, Forall (door_after c0) l -> Forall (call_after c0) l') /\
      exists q dq, snd (srun y l' s p) = q ++ p /\ snd (drun y l a dp) = dq ++ dp /\
        (forall v h, In h dq -> dhonours y v h -> exists h', In h' q /\ honours y v h') /\
        (forall v h, In h dq -> dexchanged y v h -> exists h', In h' q /\ exchanged v h') /\
        (forall v n, at_least (dredeemed y v) n dq -> (n <= length (filter (redeemed v) q))%nat).
  Proof.
    induction l as [|k l IH]; intros a s p dp Ew Hk.
    - exists []. cbn. split; [exact Ew|]. split; [constructor|]. split; [constructor|]. split; [auto|]. split; [apply incl_refl|]. split; [constructor|].
      exists [], []. split; [reflexivity|]. split; [reflexivity|]. split; [intros v h []|]. split; [intros v h []|].
      intros v n H. inversion H; subst. cbn. lia.
    - destruct Hk as (K1 & K2 & K3 & K4). destruct (sim_knock k a s p K1 K2 Ew) as (l1 & W1 & C1 & V1 & N1 & A1 & q1 & Q1 & H1 & X1 & R1).
      destruct (IH (dstep y k a) (fst (srun y l1 s p)) (snd (srun y l1 s p)) ((k, a) :: dp) W1 K4) as (l2 & W2 & C2 & V2 & N2 & I2 & A2 & q2 & dq2 & Q2 & D2 & H2 & X2 & R2).
      exists (l1 ++ l2). rewrite srun_app. cbn [drun]. split; [exact W2|]. split; [now apply Forall_app|]. split; [apply Forall_app; auto|].
      rewrite flat_map_app. cbn [flat_map]. split.
      { intros Nd. destruct N1 as [N1|N1]; rewrite N1; cbn [app].
        - apply N2. clear -Nd. induction (door_id k) as [|x r IHr]; [exact Nd|]. cbn [app] in Nd. inversion Nd; subst. auto.
        - destruct k; cbn [door_id app] in *; try (apply N2; exact Nd). inversion Nd as [|? ? Ni Nd']; subst. constructor; [|now apply N2]. intros Hi. apply Ni, I2, Hi. }
      split. { intros x Hx. apply in_app_or in Hx. apply in_or_app. destruct Hx as [Hx|Hx]; [left|right; now apply I2]. destruct N1 as [N1|N1]; rewrite N1 in Hx; [destruct Hx|exact Hx]. }
      split. { intros c0 F. inversion F; subst. apply Forall_app. auto. }
      exists (q2 ++ q1), (dq2 ++ [(k, a)]). split; [rewrite Q2, Q1; now rewrite app_assoc|]. split; [rewrite D2, <- app_assoc; reflexivity|].
      split; [|split].
      + intros v h Hi Hh. apply in_app_or in Hi. destruct Hi as [Hi|[<-|[]]].
        * destruct (H2 v h Hi Hh) as (h' & I' & Hh'). exists h'. split; [apply in_or_app; now left|exact Hh'].
        * destruct (H1 v Hh) as (h' & I' & Hh'). exists h'. split; [apply in_or_app; now right|exact Hh'].
      + intros v h Hi Hh. apply in_app_or in Hi. destruct Hi as [Hi|[<-|[]]].
        * destruct (X2 v h Hi Hh) as (h' & I' & Hh'). exists h'. split; [apply in_or_app; now left|exact Hh'].
        * destruct (X1 v Hh) as (h' & I' & Hh'). exists h'. split; [apply in_or_app; now right|exact Hh'].
      + intros v n Hn. apply at_least_app in Hn. destruct Hn as (n1 & n2 & -> & Hn1 & Hn2). rewrite filter_app, app_length.
        pose proof (R2 v n1 Hn1). assert (n2 <= length (filter (redeemed v) q1))%nat; [|lia].
        inversion Hn2 as [?|? ? ? Hp Hr|? ? ? Hr]; subst; try lia.
        * inversion Hr; subst. destruct (R1 v Hp) as (h' & I' & Hh'). assert (X : In h' (filter (redeemed v) q1)) by (apply filter_In; auto).
          destruct (filter (redeemed v) q1); [destruct X|cbn; lia].
        * inversion Hr; subst. lia.
  Qed.
End Sim.
