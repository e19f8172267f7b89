(** PropsPushed.v: what is kept at the endpoint for pushed requests (C29), what requests that do not verify get (C86), and the client of a session (C03). *)
From Verif Require Import Base BaseProofs Monad MonadProofs Types SessionKey Token Grant Database DatabaseSpec DatabaseProofs Manager ManagerSpec Ctx World ClientAuthn ClientAuthnSpec TokenEndpoint Uri UriSpec
  AuthzRequest AuthzRequestSpec AuthzRequestProofs ParsedSpec PropsParsed Fronts FrontsSpec FrontsProofs AuthzFront Door DoorSpec DoorProofs.
From Verif Require Import UserInfo.
Local Open Scope Z_scope.

Lemma stage_only e c p db r db' : stage e c p db = (r, db') -> forall k m, dget k db' = Some m -> dget k db = Some m.
Proof.
  unfold stage. destruct p as [x|rq]; [unfold ret; intros E; injection E as <- <-; auto|].
  unfold bind, lift. destruct (do_request_uri e c rq db) as [[rq'|] db1] eqn:D; intros E k m H; (assert (db' = db1) as -> by congruence); clear E;
    unfold do_request_uri in D; destruct (truthy_get "request_uri" rq) as [[| | |uri| |]|]; try (unfold raise, ret in D; congruence);
    (destruct (re_par e && starts_with "urn:uuid:" uri)%bool; [|unfold lift in D; congruence]);
    unfold bind, gets, modify, ret, raise in D; destruct (dget uri db) as [[|y l]|]; try congruence.
  assert (db1 = ddel uri db) by congruence. subst db1. rewrite dget_ddel in H. destruct (String.eqb k uri); [discriminate|exact H].
Qed.
Lemma push_only e c rq db r db' : parse_push e c rq db = (r, db') -> (forall k m, dget k db' = Some m -> dget k db = Some m) /\
  forall m, r = Ok (Parsed m) -> (goes_to_registered (re_u e) (re_cdb e) m \/ goes_nowhere (re_cdb e) m) /\ exists uri, dget "redirect_uri" m = Some (VStr uri).
Proof.
  unfold parse_push, bind. destruct (stage e c (Parsed rq) db) as [[[x|q]|x] db1] eqn:S; intros H; (split; [intros k m; assert (db' = db1) as -> by (unfold ret, lift in H; congruence); eapply stage_only; exact S|]);
    intros m R; subst r; [discriminate| |discriminate].
  unfold lift in H. injection H as H _. destruct (post_parse_inv _ _ _ _ H) as (cid & info & uri & _ & _ & _ & _ & G & ->).
  split; [now apply get_uri_goes|]. exists uri. apply dget_dset_eq.
Qed.

(** A request is kept only when it is answered with its new name; then credentials were shown, if the endpoint asks for them, and the redirect_uri of what is
    kept is registered for the client it names (or it names no client of the provider: see C20_parsed). In no other case is anything kept, and nothing that
    was kept before changes, but that a request which refers to a pushed one uses it up. *)
Theorem C29_pushed : forall gt re uuid rq auth a r a',
  pushed_request gt re uuid rq auth a = (r, a') ->
  sessions_of a' = sessions_of a /\
  (forall k m, dget k (as_pushed a') = Some m -> dget k (as_pushed a) = Some m \/
     r = Ok (inr k) /\ credentials gt rq auth a /\ (goes_to_registered (re_u re) (clients_of a') m \/ goes_nowhere (clients_of a') m)) /\
  (forall k, r = Ok (inr k) -> k = ("urn:uuid:" ++ uuid)%string /\ exists m, dget k (as_pushed a') = Some m).
Proof.
  intros gt re uuid rq auth a r a' H. split; [pose proof (pushed_door gt re uuid rq auth a) as X; rewrite H in X; exact X|].
  unfold pushed_request in H. unfold bind at 1 in H. unfold in_front at 1, in_auth at 1 in H.
  destruct (parse_auth _ _ _ _ _ _ _ _) as [[[rq' cid]|x] ca] eqn:P in H.
  2:{ injection H as <- <-. cbn [as_pushed]. split; [auto|discriminate]. }
  assert (Cr : credentials gt rq auth a).
  { intros [H1 H2] Ha. rewrite Ha in P. destruct (PropsClientAuthn.C55_client_of_request _ _ _ _ _ _ _ _ _ _ H2 H1 P) as (c & -> & Nc & St & E1 & E2 & D).
    exists c. split; [exact Nc|split; [exact St|exact D]]. }
  destruct (gt_check gt cid rq') as [m0| |x].
  2:{ unfold ret in H. injection H as <- <-. cbn [as_pushed]. split; [auto|discriminate]. }
  2:{ unfold raise in H. injection H as <- <-. cbn [as_pushed]. split; [auto|discriminate]. }
  unfold bind at 1, in_front at 1, in_world at 1, gets at 1 in H. cbn [as_front as_pushed fs_world] in H.
  unfold bind at 1, in_pushed at 1 in H. cbn [as_pushed] in H.
  destruct (parse_push _ _ _ _) as [rp p] eqn:Q in H. apply push_only in Q. destruct Q as [Qo Qp].
  destruct rp as [[err|m]|x].
  - unfold ret in H. injection H as <- <-. cbn [as_pushed]. split; [auto|discriminate].
  - destruct (Qp m eq_refl) as [G [uri Du]]. unfold push_request in H. unfold bind, in_pushed, modify, lift, ret, dsub in H. cbn [as_pushed as_front] in H.
    rewrite Du in H. cbn [of_option] in H. injection H as <- <-. cbn [as_pushed]. split.
    + intros k m' Hk. rewrite dget_dset in Hk. destruct (String.eqb_spec k (urn uuid)) as [->|N]; [|auto]. right. assert (m' = m) by congruence. subst m'.
      split; [reflexivity|]. split; [exact Cr|]. exact G.
    + intros k E. assert (k = urn uuid) by congruence. subst k. split; [reflexivity|]. exists m. apply dget_dset_eq.
  - injection H as <- <-. cbn [as_pushed]. split; [auto|discriminate].
Qed.
Print Assumptions C29_pushed.

Lemma stage_keeps e c q db r db' k m : stage e c (Parsed q) db = (r, db') -> dget "request_uri" q <> Some (VStr k) -> dget k db = Some m -> dget k db' = Some m.
Proof.
  unfold stage, bind, lift. destruct (do_request_uri e c q db) as [[rq'|] db1] eqn:D; intros E Nu H; (assert (db' = db1) as -> by congruence); clear E;
    unfold do_request_uri, truthy_get in D; (destruct (dget "request_uri" q) as [v|] eqn:Du; [destruct (truthy v); [destruct v as [| | |uri| |]|]|]);
    try (unfold raise, ret in D; congruence);
    (destruct (re_par e && starts_with "urn:uuid:" uri)%bool; [|unfold lift in D; congruence]);
    unfold bind, gets, modify, ret, raise in D; destruct (dget uri db) as [[|y l]|]; try congruence.
  assert (db1 = ddel uri db) by congruence. subst db1. rewrite dget_ddel_neq; [exact H|]. congruence.
Qed.
(** The requests that other clients have pushed are kept, unless a request names them. *)
Theorem C29_pushed_kept : forall gt re uuid rq auth a r a' k m,
  pushed_request gt re uuid rq auth a = (r, a') -> dget k (as_pushed a) = Some m -> k <> ("urn:uuid:" ++ uuid)%string ->
  (forall c q q', gt_check gt c q = CkOk q' -> dget "request_uri" q' = dget "request_uri" q) -> dget "request_uri" rq <> Some (VStr k) ->
  dget k (as_pushed a') = Some m.
Proof.
  intros gt re uuid rq auth a r a' k m H Hk Nk Ck Nu.
  unfold pushed_request in H. unfold bind at 1 in H. unfold in_front at 1, in_auth at 1 in H.
  destruct (parse_auth _ _ _ _ _ _ _ _) as [[[rq' cid]|x] ca] eqn:P in H.
  2:{ injection H as _ <-. exact Hk. }
  assert (Eq : dget "request_uri" rq' = dget "request_uri" rq).
  { unfold parse_auth, bind in P. destruct (client_authentication _ _ _ _ _ _ _ _) as [[[[[c'|] t mm]|]|x] s2]; unfold ret in P; try discriminate P;
      [assert (X : rq' = dset "client_id" c' rq) by congruence; subst rq'; now rewrite dget_dset_neq by discriminate| |]; assert (X : rq' = rq) by congruence; now subst rq'. }
  destruct (gt_check gt cid rq') as [m0| |x] eqn:Em.
  2:{ unfold ret in H. injection H as _ <-. exact Hk. }
  2:{ unfold raise in H. injection H as _ <-. exact Hk. }
  unfold bind at 1, in_front at 1, in_world at 1, gets at 1 in H. cbn [as_front as_pushed fs_world] in H.
  unfold bind at 1, in_pushed at 1 in H. cbn [as_pushed] in H.
  destruct (parse_push _ _ _ _) as [rp p] eqn:Q in H.
  assert (Kp : dget k p = Some m).
  { unfold parse_push, bind in Q. destruct (stage _ _ (Parsed m0) _) as [[[x|q]|x] db1] eqn:S in Q; (assert (p = db1) as -> by (unfold ret, lift in Q; congruence));
      refine (stage_keeps _ _ _ _ _ _ _ _ S _ Hk); rewrite (Ck _ _ _ Em), Eq; exact Nu. }
  destruct rp as [[err|mm]|x].
  - unfold ret in H. injection H as _ <-. exact Kp.
  - unfold push_request in H. unfold bind, in_pushed, modify, lift, ret, dsub in H. cbn [as_pushed as_front] in H.
    destruct (dget "redirect_uri" mm); cbn [of_option] in H; injection H as _ <-; cbn [as_pushed]; (rewrite dget_dset_neq; [exact Kp|exact Nk]).
  - injection H as _ <-. exact Kp.
Qed.
Print Assumptions C29_pushed_kept.

(** ** C86 *)
(** A request that does not verify, from whoever is not turned away before, gets an error answer from the token and from the introspection endpoint, and no exception. *)
Theorem C86_malformed_answered : forall sid_of b64hash cx idt gt sharing helpers pkce clock m1 m2 ir username rq auth f p ca,
  malformed gt rq ->
  parse_auth (gt_out gt) (gt_ep gt) (gt_cls gt) (fun _ _ => Ok (VStr "")) (gt_aka gt) rq auth (auth_of f) = (Ok p, ca) ->
  exists f', w_db (fs_world f') = w_db (fs_world f) /\
    token_request sid_of b64hash cx idt gt sharing helpers pkce clock m1 m2 ir rq auth f = (Ok (AError "invalid_request" ""), f') /\
    introspection_request sid_of cx gt clock username rq auth f = (Ok (IRefused "invalid_request"), f').
Proof.
  intros sid_of b64hash cx idt gt sharing helpers pkce clock m1 m2 ir username rq auth f [rq' c] ca [B1 B2] P.
  assert (X : gt_check gt c rq' = CkBad).
  { unfold parse_auth, bind in P. destruct (client_authentication _ _ _ _ _ _ _ _) as [[[[[c'|] t m]|]|x] s2]; unfold ret in P; try discriminate P.
    - assert (X : rq' = dset "client_id" c' rq /\ c = c') by (split; congruence). destruct X as [-> ->]. apply B2.
    - assert (X : rq' = rq) by congruence. subst rq'. apply B1.
    - assert (X : rq' = rq) by congruence. subst rq'. apply B1. }
  assert (E : received gt rq auth (auth_of f) = (Ok None, ca)) by (unfold received, bind; rewrite P, X; reflexivity).
  exists (mkFS (mkW (w_db (fs_world f)) (ca_cdb ca)) (ca_jti ca)). split; [reflexivity|]. split.
  - unfold token_request, bind. rewrite (in_auth_run _ _ _ _ E). reflexivity.
  - unfold introspection_request, bind. rewrite (in_auth_run _ _ _ _ E). reflexivity.
Qed.
Print Assumptions C86_malformed_answered.

(** ** C03 *)
(** A session that is made without a client's name is made as for the client that the request names. *)
Theorem C03_client : forall clock newid authn m u c sub rules scopes s,
  good c -> dget "client_id" m = Some (VStr c) ->
  create_session clock newid authn (Some m) u "" sub rules scopes s = create_session clock newid authn (Some m) u c sub rules scopes s.
Proof.
  intros clock newid authn m u c sub rules scopes s [Hc _] E. unfold create_session.
  assert (N : nonempty c = true) by (destruct c; [now destruct Hc|reflexivity]). rewrite N. cbn [nonempty]. unfold msub_str. rewrite E. reflexivity.
Qed.
Print Assumptions C03_client.

(** ** Cases: c1's request is kept when it comes with the secret; with another's address it is refused, without the secret there is an exception, and nothing is kept. *)
From Verif Require PropsFronts PropsDoor PropsFlow PropsFrontFlow PropsClaims PropsClientAuthn.
Example C29_ex_pushed :
  let push := fun rq auth => pushed_request (PropsFrontFlow.gate95 [Some MBasic]) PropsFrontFlow.re95 "u1" rq auth PropsDoor.a97 in
  (exists m, fst (push PropsFlow.rq81 PropsFrontFlow.basic95) = Ok (inr "urn:uuid:u1"%string) /\ as_pushed (snd (push PropsFlow.rq81 PropsFrontFlow.basic95)) = [("urn:uuid:u1"%string, m)]) /\
  (exists err a', push (dset "redirect_uri" (VStr "https://evil.example/cb") PropsFlow.rq81) PropsFrontFlow.basic95 = (Ok (inl err), a') /\ as_pushed a' = []) /\
  (exists x, push PropsFlow.rq81 NoAuthz = (Raise x, PropsDoor.a97)).
Proof. split; [eexists; split; vm_compute; reflexivity|]. split; [do 2 eexists; split; [vm_compute; reflexivity|reflexivity]|eexists; vm_compute; reflexivity]. Qed.
Example C86_ex_answered :
  malformed (PropsFronts.gate86_strict [Some MBasic]) [("token_type_hint", VStr "x")]%string /\
  exists p ca, let gt := PropsFronts.gate86_strict [Some MBasic] in
    parse_auth (gt_out gt) (gt_ep gt) (gt_cls gt) (fun _ _ => Ok (VStr "")) (gt_aka gt) [("token_type_hint", VStr "x")]%string (PropsFronts.basic86 "s3cret") (auth_of PropsFronts.f86) = (Ok p, ca).
Proof. split; [split; intros c; reflexivity|]. do 2 eexists. vm_compute. reflexivity. Qed.
Example C03_ex_client : exists sid s, create_session 1000 "g1" None (Some [("client_id", VStr "c1")]%string) "diana" "" (Ok "sub"%string) None None [] = (Ok sid, s) /\
  sid = session_key ["diana"; "c1"; "g1"]%string.
Proof. do 2 eexists. split; vm_compute; reflexivity. Qed.
Example C29_ex_kept :
  let push := fun uuid a => pushed_request (PropsFrontFlow.gate95 [Some MBasic]) PropsFrontFlow.re95 uuid PropsFlow.rq81 PropsFrontFlow.basic95 a in
  dkeys (as_pushed (snd (push "u2" (snd (push "u1" PropsDoor.a97)))))%string = ["urn:uuid:u1"; "urn:uuid:u2"]%string.
Proof. vm_compute. reflexivity. Qed.
