(** PropsDoorIsolation.v: sessions are isolated from each other, from the received requests on (C103): C82 with parsing and client authentication
    before it. *)
From Verif Require Import Base BaseProofs SessionKey SessionKeyProofs Monad MonadProofs Types Token Grant GrantSpec Database DatabaseSpec DatabaseProofs
  Manager ManagerSpec ManagerProofs Ctx UserInfo UserInfoSpec UserInfoProofs World Minting ClientAuthn ClientAuthnSpec TokenEndpoint WorldSpec WorldProofs
  Uri AuthzRequest AuthzEndpoint Logout SetupAuthSpec System SystemSpec SystemProofs IsolationSpec IsolationProofs Fronts FrontsSpec FrontsProofs AuthzFront
  Door DoorSpec DoorProofs DoorLastingSpec DoorLastingProofs DoorIsolationSpec.
From Verif Require UserinfoFront UserinfoFrontSpec UserinfoFrontProofs PropsUserinfoFront.
From Verif Require Import SetupAuth.
Local Open Scope Z_scope.

(** what arrives is what the endpoints are called with *)
Lemma door_calls is_user y k a : sids_ok (sy_sid_of y) -> dproper is_user k a ->
  exists l, let s := mkSys (fs_world (as_front a)) [] in
    w_db (ss_world (fst (srun y l s []))) = sessions_of (dstep y k a) /\ Forall (proper_names is_user) l /\
    forall u c, ~ dabout y a k u c -> elsewhere is_user y u c l s.
Proof.
  intros Hs P.
  assert (Quiet : sessions_of (dstep y k a) = sessions_of a -> exists l, let s := mkSys (fs_world (as_front a)) [] in
    w_db (ss_world (fst (srun y l s []))) = sessions_of (dstep y k a) /\ Forall (proper_names is_user) l /\
    forall u c, ~ dabout y a k u c -> elsewhere is_user y u c l s).
  { intros ->. exists []. cbv zeta. split; [reflexivity|]. split; [constructor|]. intros u c _. exact I. }
  destruct k as [gt re oidc pk e az rq auth|gt re uuid rq auth|gt clock m1 m2 ir rq auth|gt clock rq auth|gt clock un rq auth|e sid alla|op|f].
  - assert (X : exists r a', authorization_request gt re oidc pk e az rq auth a = (r, a')) by (destruct (authorization_request _ _ _ _ _ _ _ _ _); eauto).
    destruct X as (r & a' & E).
    destruct (authorization_world _ _ _ _ _ _ _ _ _ _ _ E) as (db & [W|(m & U & Pr)]).
    { apply Quiet. cbn [dstep]. rewrite E. unfold sessions_of at 1. cbn [snd]. rewrite W. reflexivity. }
    exists [SClients (fun _ => db); SAuthorize e az oidc (inr m)]. cbv zeta. cbn [srun sstep fst snd ss_world ss_accepted].
    cbn [dstep]. rewrite E. fold (sessions_of a). rewrite Pr. cbn [fst snd ss_world]. split; [reflexivity|]. split; [constructor; [exact I|]; constructor; [exact (P m U)|constructor]|].
    intros u c N. cbn [elsewhere]. split; [exact I|]. split; [intros []|]. split; [exact (P m U)|]. split; [|exact I].
    intros (id & Rec & H). apply N. exists m, id. auto.
  - apply Quiet. cbn [dstep]. apply pushed_door.
  - assert (X : exists r f', token_at y gt clock m1 m2 ir rq auth (as_front a) = (r, f')) by (destruct (token_at _ _ _ _ _ _ _ _ _); eauto).
    destruct X as (r & f' & E).
    destruct (token_calls y Hs _ _ _ _ _ _ _ _ _ _ P E) as (db & [[W _]|(m & rq1 & Ep & Et & Mb)]).
    { apply Quiet. cbn [dstep]. rewrite front_sessions, E. cbn [snd]. rewrite W. reflexivity. }
    exists [SClients (fun _ => db); SParse clock m; SProcess m1 m2 ir 0]. cbv zeta. cbn [dstep]. rewrite front_sessions, E.
    set (s1 := mkSys (mkW (w_db (fs_world (as_front a))) db) []).
    assert (S1 : sstep y (SClients (fun _ => db)) (mkSys (fs_world (as_front a)) []) = (s1, ONothing)) by reflexivity.
    assert (S2 : sstep y (SParse clock m) s1 = (mkSys (mkW (w_db (fs_world (as_front a))) db) [rq1], OParse (Ok (PReq rq1)))).
    { unfold s1. cbn [sstep ss_world ss_accepted]. unfold in_db. cbn [w_db w_cdb]. rewrite Ep. reflexivity. }
    split; [|split].
    + cbn [srun]. rewrite S1, S2. cbn [sstep ss_accepted nth_error ss_world]. rewrite Et. reflexivity.
    + repeat constructor.
    + intros u c N. cbn [elsewhere]. split; [exact I|]. split; [intros []|]. split; [exact I|]. split; [intros []|]. split; [exact I|]. split; [|exact I].
      rewrite S1. cbn [fst]. rewrite S2. cbn [fst]. intros (request & k & p & g & En & Pp & Sp). cbn in En. injection En as <-. apply N. exists k, p, g. split; [|exact Sp].
      eapply presents_same; [|exact Pp]. exact Mb.
  - apply Quiet. cbn [dstep]. rewrite front_sessions. apply userinfo_door.
  - apply Quiet. cbn [dstep]. rewrite front_sessions. apply introspection_door.
  - exists [SLogout e sid alla]. cbv zeta. split; [reflexivity|]. split; [constructor; [exact P|constructor]|].
    intros u c N. split; [exact P|]. split; [exact N|exact I].
  - exists [SRevoke op]. cbv zeta. split.
    { cbn [srun sstep dstep fst ss_world]. rewrite front_sessions. unfold in_world. destruct (in_db _ _). reflexivity. }
    split; [constructor; [exact P|constructor]|]. intros u c N. split; [exact P|]. split; [exact N|exact I].
  - apply Quiet. reflexivity.
Qed.
Lemma after_app y l l' a : after y (l ++ l') a = after y l' (after y l a).
Proof. revert a. induction l as [|k l IH]; intros a; [reflexivity|]. apply IH. Qed.
Lemma door_order is_user y k a : sids_ok (sy_sid_of y) -> dproper is_user k a -> dorderly is_user a -> dorderly is_user (dstep y k a).
Proof.
  intros Hs P O. destruct (door_calls is_user y k a Hs P) as (l & D & F & _). cbv zeta in D. unfold dorderly. rewrite <- D.
  exact (orderly_run is_user y l Hs F (mkSys (fs_world (as_front a)) []) [] O).
Qed.

(** ** C103 *)
(** The states that requests with proper names lead to are in order. *)
Theorem C103_orderly : forall is_user y clients jti pushed l, let a0 := mkAS (mkFS (mkW [] clients) jti) pushed in
  sids_ok (sy_sid_of y) -> all_proper is_user y l a0 -> dorderly is_user (after y l a0).
Proof.
  intros is_user y clients jti pushed l a0 Hs.
  assert (O : dorderly is_user a0).
  { split.
    - split; [|split].
      + intros q e Hq E. discriminate.
      + intros u c Hu Hc E. exfalso. apply E. reflexivity.
      + intros u c Hu Hc E. exfalso. apply E. reflexivity.
    - intros q i Hq E. discriminate. }
  revert O. generalize a0. clear a0. induction l as [|k l IH]; intros a O P; [exact O|]. destruct P as [P1 P2]. cbn [after]. apply IH; [|exact P2]. now apply door_order.
Qed.
Print Assumptions C103_orderly.

(** Whatever arrives at any endpoint, if none of it is about sessions of [u] at [c], all these sessions stay exactly as they are: none appears,
    disappears or changes. *)
Theorem C103_isolated : forall is_user y u c l a,
  sids_ok (sy_sid_of y) -> dorderly is_user a -> good u -> good c -> delsewhere is_user y u c l a ->
  dorderly is_user (after y l a) /\ forall g, good g -> view (sessions_of (after y l a)) [u; c; g] = view (sessions_of a) [u; c; g].
Proof.
  intros is_user y u c l a Hs O Hu Hc E. revert a O E. induction l as [|k l IH]; intros a O E; [auto|]. destruct E as (P & N & E). cbn [after].
  pose proof (door_order is_user y k a Hs P O) as O1. destruct (IH _ O1 E) as [O2 V2]. split; [exact O2|]. intros g Hg. rewrite (V2 g Hg).
  destruct (door_calls is_user y k a Hs P) as (l1 & D & _ & X). cbv zeta in D, X. specialize (X u c N). rewrite <- D.
  exact (proj2 (elsewhere_run is_user y u c l1 Hs Hu Hc (mkSys (fs_world (as_front a)) []) [] O X) g Hg).
Qed.
Print Assumptions C103_isolated.

(** ** What the endpoints say of a token *)
From Verif Require Import Claims PropsClientAuthn.
Import UserinfoFront UserinfoFrontSpec UserinfoFrontProofs.
Lemma same_claims c db db' usage : same_record c db db' -> resolve db' (CClient c usage) = resolve db (CClient c usage).
Proof.
  unfold same_record, resolve. intros S. destruct (dget c db) as [cli|]; [|contradiction]. destruct (dget c db') as [cli'|]; [|contradiction].
  rewrite S; [reflexivity|]. unfold claims_key. clear. intros H.
  repeat (destruct usage as [|? usage]; cbn in H; try discriminate H; injection H as _ H).
Qed.
Lemma same_packing c db db' : same_record c db db' -> userinfo_packing db' c = userinfo_packing db c.
Proof.
  unfold same_record, userinfo_packing, dsub. intros S. destruct (negb (nonempty c)); [reflexivity|].
  destruct (dget c db) as [cli|]; [|contradiction]. destruct (dget c db') as [cli'|]; [|contradiction]. cbn [of_option rbind]. now rewrite !S by discriminate.
Qed.
(** the claims of the grant *)
Definition kept_claims (gr : grant) (db db' : cdb) : Prop :=
  forall usage c usage', dget usage (g_claims gr) = Some (CClient c usage') -> same_record c db db'.
Lemma kept_same gr db db' usage : kept_claims gr db db' -> grant_claims db' usage gr = grant_claims db usage gr.
Proof.
  intros K. unfold grant_claims. destruct (dget usage (g_claims gr)) as [[d|c us]|] eqn:E; [reflexivity| |reflexivity]. apply same_claims. exact (K _ _ _ E).
Qed.
Lemma userinfo_same sid_of cx u c g gr value clock (rq : msg) s s' db db' : good u -> good c -> good g ->
  view s [u; c; g] = Some (EGrant gr) -> view s' [u; c; g] = Some (EGrant gr) -> sid_of value = Ok (session_key [u; c; g]) -> kept_claims gr db db' ->
  dget "access_token" rq = Some (VStr value) ->
  fst (userinfo_process sid_of cx db' clock rq s') = fst (userinfo_process sid_of cx db clock rq s) /\
  forall args cid, fst (userinfo_process sid_of cx db clock rq s) = Ok (AOk args cid) -> cid = Some c.
Proof.
  intros Hu Hc Hg V V' Sv K R. destruct (info_same u c g _ _ _ Hu Hc Hg V V') as [I1 I2].
  unfold userinfo_process, get_session_info_by_token, msub_str, bind, lift, ret. rewrite R.
  rewrite !Sv, I1, I2. unfold grant_of, as_grant, ret. cbn [in_grant in_uid in_cid]. rewrite (kept_same gr db db' "userinfo" K).
  destruct (get_token value gr) as [t|]; [|split; [reflexivity|discriminate]]. destruct (negb _); [split; [reflexivity|discriminate]|]. destruct (negb _); [split; [reflexivity|discriminate]|].
  destruct (g_authn gr) as [ae|]; [|split; [reflexivity|discriminate]].
  destruct (clock <? ae_valid_until ae); [|cbn; split; [reflexivity|congruence]].
  destruct (get_user_claims _ _ _); cbn; (split; [reflexivity|congruence]).
Qed.

(** The userinfo endpoint says about a token of such a session what it would have said before. *)
Theorem C103_userinfo : forall is_user y u c l a g gr value gt clock rq auth,
  let a' := after y l a in
  sids_ok (sy_sid_of y) -> dorderly is_user a -> good u -> good c -> good g -> delsewhere is_user y u c l a ->
  sy_sid_of y value = Ok (session_key [u; c; g]) -> view (sessions_of a) [u; c; g] = Some (EGrant gr) ->
  same_record c (clients_of a) (clients_of a') -> kept_claims gr (clients_of a) (clients_of a') ->
  by_default (gt_ep gt) -> gt_aka gt = [] -> authz_str auth = Some ("Bearer " ++ value)%string ->
  fst (userinfo_at y gt clock rq auth (as_front a')) = fst (userinfo_at y gt clock rq auth (as_front a)).
Proof.
  intros is_user y u c l a g gr value gt clock rq auth a' Hs O Hu Hc Hg E Sv V Sm K De Ha Hd.
  destruct (C103_isolated is_user y u c l a Hs O Hu Hc E) as [_ V']. specialize (V' g Hg). fold a' in V'. rewrite V in V'. clearbody a'.
  unfold userinfo_at, userinfo_request. rewrite Ha. rewrite !(header_parse (sy_sid_of y) (gt_out gt) (gt_ep gt) (gt_cls gt) rq auth value De Hd).
  cbn [fr_db fr_ca]. destruct (nonempty value); [|reflexivity].
  rewrite !(client_of_eq (sy_sid_of y) value _ u c g _ Sv (unpack3_good u c g Hu Hc Hg)). cbn [ca_cdb].
  set (m := dset "access_token" (VStr value) _).
  destruct (userinfo_same (sy_sid_of y) (sy_cx y) u c g gr value clock m (sessions_of a) (sessions_of a') (clients_of a) (clients_of a') Hu Hc Hg V V' Sv K) as [X Y].
  { unfold m. apply dget_dset_eq. }
  unfold sessions_of, clients_of in X, Y, Sm.
  destruct (userinfo_process (sy_sid_of y) (sy_cx y) (w_cdb (fs_world (as_front a'))) clock m (w_db (fs_world (as_front a')))) as [r1 s1].
  destruct (userinfo_process (sy_sid_of y) (sy_cx y) (w_cdb (fs_world (as_front a))) clock m (w_db (fs_world (as_front a)))) as [r2 s2].
  cbn [fst snd] in *. subst r1. destruct r2 as [[err d|args cid]|x]; [reflexivity| |reflexivity]. rewrite (Y _ _ eq_refl). cbn [userinfo_answer].
  now rewrite (same_packing c _ _ Sm).
Qed.
Print Assumptions C103_userinfo.

(** So does the introspection endpoint, to whoever is let in with the same request before and after. *)
Lemma received_noted gt rq auth s r s' : received gt rq auth s = (r, s') -> forall c, dget c (ca_cdb s) <> None -> same_record c (ca_cdb s) (ca_cdb s').
Proof.
  intros H c Nn.
  assert (Same : same_record c (ca_cdb s) (ca_cdb s)).
  { unfold same_record. destruct (dget c (ca_cdb s)); [auto|congruence]. }
  unfold received in H. unfold bind at 1 in H.
  destruct (parse_auth (gt_out gt) (gt_ep gt) (gt_cls gt) (fun _ _ => Ok (VStr "")) (gt_aka gt) rq auth s) as [r0 s0] eqn:P.
  assert (s' = s0).
  { destruct r0 as [[rq' cid]|x]; [|congruence]. destruct (gt_check gt cid rq'); unfold ret, raise in H; congruence. } subst s'. clear H.
  unfold parse_auth, client_authentication, bind in P.
  destruct (verify_client _ _ _ _ _ _ _ _) as [r1 s1] eqn:Ve in P. destruct (C54_effect _ _ _ _ _ _ _ _ _ _ Ve) as [_ K].
  assert (s0 = s1).
  { destruct r1 as [[[[d|] t m]|]|x]; unfold ret, raise in P; cbn in P; try congruence. destruct (is_nil (ep_methods (gt_ep gt))); congruence. } subst s0.
  destruct r1 as [[ai|]|x]; [|now rewrite K|now rewrite K]. destruct K as [K|(d & _ & K1 & K2)]; [now rewrite K|].
  destruct (string_dec c d) as [->|Nd]; [|unfold same_record in *; now rewrite K1].
  unfold same_record. specialize (K2 "x"%string ltac:(discriminate)) as K3. destruct (dget d (ca_cdb s)) as [i|] eqn:E1; [|congruence].
  destruct (dget d (ca_cdb s1)) as [i'|] eqn:E2; [|contradiction]. intros k Nk. specialize (K2 k Nk). first [exact K2 | now rewrite E1, E2 in K2].
Qed.
Lemma same_record_trans c db1 db2 db3 : same_record c db1 db2 -> same_record c db2 db3 -> same_record c db1 db3.
Proof.
  unfold same_record. destruct (dget c db1), (dget c db2), (dget c db3); try contradiction. intros A B k N. rewrite B, A by assumption. reflexivity.
Qed.
Lemma same_record_sym c db1 db2 : same_record c db1 db2 -> same_record c db2 db1.
Proof. unfold same_record. destruct (dget c db1), (dget c db2); try contradiction. intros A k N. symmetry. auto. Qed.
Theorem C103_introspection : forall is_user y u c l a g gr value gt clock username rq auth m,
  let a' := after y l a in
  sids_ok (sy_sid_of y) -> dorderly is_user a -> good u -> good c -> good g -> delsewhere is_user y u c l a ->
  sy_sid_of y value = Ok (session_key [u; c; g]) -> view (sessions_of a) [u; c; g] = Some (EGrant gr) -> kept_claims gr (clients_of a) (clients_of a') ->
  fst (received gt rq auth (mkCA (clients_of a) (fs_jti (as_front a)))) = Ok (Some m) ->
  fst (received gt rq auth (mkCA (clients_of a') (fs_jti (as_front a')))) = Ok (Some m) -> dget "token" m = Some (VStr value) ->
  fst (introspection_request (sy_sid_of y) (sy_cx y) gt clock username rq auth (as_front a')) =
  fst (introspection_request (sy_sid_of y) (sy_cx y) gt clock username rq auth (as_front a)).
Proof.
  intros is_user y u c l a g gr value gt clock un rq auth m a' Hs O Hu Hc Hg E Sv V K R1 R2 Et.
  destruct (C103_isolated is_user y u c l a Hs O Hu Hc E) as [_ V']. specialize (V' g Hg). fold a' in V'. rewrite V in V'. clearbody a'.
  destruct (received gt rq auth (mkCA (clients_of a) (fs_jti (as_front a)))) as [r1 ca1] eqn:E1. destruct (received gt rq auth (mkCA (clients_of a') (fs_jti (as_front a')))) as [r2 ca2] eqn:E2.
  cbn [fst] in R1, R2. subst r1 r2. unfold introspection_request.
  change (mkCA (clients_of a) (fs_jti (as_front a))) with (auth_of (as_front a)) in E1. change (mkCA (clients_of a') (fs_jti (as_front a'))) with (auth_of (as_front a')) in E2.
  rewrite (bind_run _ _ _ _ _ (in_auth_run _ _ _ _ E1)), (bind_run _ _ _ _ _ (in_auth_run _ _ _ _ E2)). destruct (dmem "error" m); [reflexivity|].
  unfold bind, in_world, gets, in_db. cbn [fs_world w_db w_cdb fs_jti]. fold (sessions_of a) (sessions_of a').
  assert (K' : kept_claims gr (ca_cdb ca1) (ca_cdb ca2)).
  { intros usage c' us Ec. specialize (K usage c' us Ec). eapply same_record_trans; [|eapply same_record_trans; [exact K|]].
    - apply same_record_sym. apply (received_noted _ _ _ _ _ _ E1 c'). unfold same_record, clients_of in K. cbn. intros X. rewrite X in K. contradiction.
    - apply (received_noted _ _ _ _ _ _ E2 c'). unfold same_record, clients_of in K. cbn. intros X. rewrite X in K.
      destruct (dget c' (w_cdb (fs_world (as_front a)))); contradiction. }
  destruct (info_same u c g _ _ _ Hu Hc Hg V V') as [I1 I2].
  unfold introspection_process, get_session_info_by_token, msub_str, bind, lift, ret, gets, id. rewrite Et.
  rewrite !Sv, I1, I2. cbn [fst]. unfold grant_of, as_grant, ret. cbn [in_grant in_uid in_cid]. rewrite (kept_same gr _ _ "introspection" K').
  destruct (get_token value gr) as [t|]; [|reflexivity]. destruct (introspect _ _ _ _ _) as [info|]; [|reflexivity].
  destruct (if is_nil _ then _ else _); reflexivity.
Qed.
Print Assumptions C103_introspection.
