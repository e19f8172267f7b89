From Verif Require Import Base BaseProofs Monad MonadProofs Types SessionKey Token Grant GrantSpec GrantProofs Database DatabaseSpec DatabaseProofs Manager ManagerProofs
  Ctx World Minting TokenEndpoint WorldSpec WorldProofs ClientAuthn ClientAuthnSpec ClientAuthnProofs UserInfo UserInfoSpec UserInfoProofs SystemSpec
  PropsClientAuthn Fronts FrontsSpec.
Local Open Scope Z_scope.

Definition auth_of (f : fstate) : castate := mkCA (w_cdb (fs_world f)) (fs_jti f).

Lemma in_auth_run {A} (m : ST castate A) f r ca : m (auth_of f) = (r, ca) ->
  in_auth m f = (r, mkFS (mkW (w_db (fs_world f)) (ca_cdb ca)) (ca_jti ca)).
Proof. intros E. unfold in_auth. unfold auth_of in E. now rewrite E. Qed.

(** a request that is received *)
Lemma received_ok gt rq auth s m s' : asks (gt_ep gt) -> gt_aka gt = [] -> received gt rq auth s = (Ok m, s') ->
  exists c, shows (gt_out gt) (gt_ep gt) (ca_cdb s) rq auth c /\
    forall m', m = Some m' -> exists rq', gt_check gt (VStr c) rq' = CkOk m' /\ dget "client_id" rq' = Some (VStr c) /\ (forall k, k <> "client_id" -> dget k rq' = dget k rq).
Proof.
  intros [H1 H2] Ha H. unfold received in H. rewrite Ha in H. apply bind_ok in H. destruct H as ([rq' cid] & s1 & P & H).
  destruct (C55_client_of_request _ _ _ _ _ _ _ _ _ _ H2 H1 P) as (c & -> & Nc & St & E1 & E2 & D). exists c. split; [split; [exact Nc|split; [exact St|exact D]]|].
  intros m' ->. destruct (gt_check gt (VStr c) rq') as [x| |x] eqn:E; [|discriminate H|discriminate H]. exists rq'.
  split; [|auto]. unfold ret in H. congruence.
Qed.

(** receiving changes no more than client authentication does *)
Lemma received_state gt rq auth s r s' : received gt rq auth s = (r, s') ->
  ClientAuthnSpec.grows (ca_jti s) (ca_jti s') /\ (ca_cdb s' = ca_cdb s \/ exists c, only_noted c (ca_cdb s) (ca_cdb s')).
Proof.
  unfold received, parse_auth, client_authentication, bind.
  destruct (verify_client (gt_out gt) (gt_ep gt) (gt_cls gt) (Some (fun _ : val => Ok (VStr ""))) (gt_aka gt) rq auth s) as [r0 s1] eqn:V.
  destruct (C54_effect _ _ _ _ _ _ _ _ _ _ V) as [G K]. intros H.
  assert (E : s' = s1).
  { destruct r0 as [[[[c|] t m]|]|x]; unfold ret, raise in H; cbn in H.
    - destruct (gt_check gt c (dset "client_id" c rq)); unfold ret, raise in H; congruence.
    - destruct (gt_check gt _ rq); unfold ret, raise in H; congruence.
    - destruct (is_nil (ep_methods (gt_ep gt))); unfold ret, raise in H; [destruct (gt_check gt _ rq); unfold ret, raise in H|]; congruence.
    - congruence. }
  subst s'. split; [exact G|]. destruct r0 as [[ai|]|]; auto. destruct K as [K|(c & _ & K)]; eauto.
Qed.

(** without methods everything passes *)
Lemma received_open gt rq auth s : asks_nothing (gt_ep gt) -> 
  received gt rq auth s = (match gt_check gt (match dget "client_id" rq with Some v => v | None => VNone end) rq with
                           | CkOk m => Ok (Some m) | CkBad => Ok None | CkRaise x => Raise x end, s).
Proof.
  intros E. unfold asks_nothing in E. unfold received, parse_auth, client_authentication, bind. rewrite verify_client_eq, E.
  assert (X : (if ep_named (gt_ep gt) then [] else []) = ([] : list (option cmethod))) by (destruct (ep_named (gt_ep gt)); reflexivity). rewrite X.
  unfold bind. cbn. destruct (gt_check gt _ rq); reflexivity.
Qed.

(** no credentials: an exception, and the clients are as before *)
Lemma received_not gt rq auth s : asks (gt_ep gt) -> gt_aka gt = [] -> (forall c, ~ shows (gt_out gt) (gt_ep gt) (ca_cdb s) rq auth c) ->
  exists x s', received gt rq auth s = (Raise x, s') /\ ca_cdb s' = ca_cdb s /\ ClientAuthnSpec.grows (ca_jti s) (ca_jti s').
Proof.
  intros Ha Hk N. destruct (received gt rq auth s) as [[m|x] s'] eqn:E.
  { exfalso. destruct (received_ok _ _ _ _ _ _ Ha Hk E) as (c & X & _). exact (N c X). }
  exists x, s'. split; [reflexivity|]. destruct Ha as [H1 H2]. unfold received in E. rewrite Hk in E.
  destruct (parse_auth (gt_out gt) (gt_ep gt) (gt_cls gt) (fun _ _ => Ok (VStr "")) [] rq auth s) as [[[rq' cid]|y] s1] eqn:P.
  { exfalso. destruct (C55_client_of_request _ _ _ _ _ _ _ _ _ _ H2 H1 P) as (c & -> & Nc & St & E1 & E2 & D). apply (N c). split; [exact Nc|split; [exact St|exact D]]. }
  assert (s1 = s') by (unfold bind in E; rewrite P in E; congruence). subst s1.
  unfold parse_auth, client_authentication, bind in P.
  destruct (verify_client (gt_out gt) (gt_ep gt) (gt_cls gt) (Some (fun _ : val => Ok (VStr ""))) [] rq auth s) as [r0 s1] eqn:V.
  assert (X : s' = s1 /\ forall ai, r0 <> Ok (Some ai)).
  { destruct r0 as [[[[c|] t m]|]|z]; unfold ret, raise in P; cbn in P; try discriminate P.
    - destruct (is_nil (ep_methods (gt_ep gt))); unfold ret, raise in P; [discriminate P|]. split; [congruence|discriminate].
    - split; [congruence|discriminate]. }
  destruct X as [-> X]. exact (verify_client_not _ _ _ _ _ _ _ _ _ _ V X).
Qed.

(** a request that is received where an assertion is asked for: the assertion was not known before and is now *)
Lemma received_jwt gt rq auth s m s' a j k : asks_jwt (gt_ep gt) -> received gt rq auth s = (Ok m, s') ->
  dget "client_assertion" rq = Some (VStr a) -> o_unpack (gt_out gt) a = Ok j -> jw_jti j = Some k -> k <> "" ->
  exists key, jkey j = Some key /\ dget key (ca_jti s) = None /\ exists v, dget key (ca_jti s') = Some v.
Proof.
  intros [H1 H2] H Ha Hu Hj Nk. unfold received, parse_auth, client_authentication, bind in H.
  destruct (verify_client (gt_out gt) (gt_ep gt) (gt_cls gt) (Some (fun _ : val => Ok (VStr ""))) (gt_aka gt) rq auth s) as [r0 s1] eqn:V.
  assert (X : exists ai, r0 = Ok (Some ai) /\ s' = s1).
  { destruct r0 as [[ai|]|x]; [exists ai; split; [reflexivity|]| |discriminate H].
    - destruct ai as [[c|] t tg]; unfold ret, raise in H; cbn in H; destruct (gt_check gt _ _); unfold ret, raise in H; congruence.
    - destruct (ep_methods (gt_ep gt)); [now destruct H1|]. discriminate H. }
  destruct X as (ai & -> & ->).
  pose (c := mkCall (gt_out gt) (gt_ep gt) (gt_cls gt) (Some (fun _ : val => Ok (VStr ""))) (gt_aka gt) rq auth).
  assert (A : accepted_jwt (c, Ok (Some ai)) = Some a).
  { pose proof (verify_client_ok _ _ _ _ _ _ _ _ _ _ V) as (_ & ai0 & s2 & K & D). destruct K as (cid & _ & Em & _).
    unfold accepted_jwt, c. cbn [fst snd cl_rq]. destruct D as [(l1 & mt & l2 & El & _ & Vm & _)|(N & _)].
    - rewrite Em, (verify_tag _ _ _ _ _ _ _ _ Vm). assert (I : In (Some mt) (ep_methods (gt_ep gt))) by (rewrite El; apply in_or_app; right; now left).
      specialize (H2 _ I). destruct H2 as [E|[E|[]]]; injection E as <-; cbn; unfold mget_str; now rewrite Ha.
    - specialize (H2 _ N). destruct H2 as [E|[E|[]]]; discriminate E. }
  destruct (accepted_key c s (Ok (Some ai)) s1 a V A) as (j' & iss & U & Is & F).
  assert (j' = j) by (unfold c in U; cbn [cl_out] in U; congruence). subst j'.
  assert (K : exists key, jkey j = Some key).
  { unfold jkey. rewrite Is, Hj. destruct k; [now destruct Nk|]. eauto. }
  destruct K as (key & K). exists key. destruct (F key K). auto.
Qed.

(** the ids that were seen stay *)
Lemma in_world_jti {A} (m : W A) f r f' : in_world m f = (r, f') -> fs_jti f' = fs_jti f.
Proof. unfold in_world. destruct (m (fs_world f)). intros H. injection H as _ <-. reflexivity. Qed.

Lemma in_auth_jti gt rq auth f r f' : in_auth (received gt rq auth) f = (r, f') -> ClientAuthnSpec.grows (fs_jti f) (fs_jti f').
Proof.
  destruct (received gt rq auth (auth_of f)) as [r0 ca] eqn:E. rewrite (in_auth_run _ _ _ _ E). intros H.
  assert (f' = mkFS (mkW (w_db (fs_world f)) (ca_cdb ca)) (ca_jti ca)) by congruence. subst f'. exact (proj1 (received_state _ _ _ _ _ _ E)).
Qed.

Section Later.
  Variable sid_of : string -> result string.
  Variable b64hash : string -> string -> string.
  Variable cx : ctx.
  Variable idt : store -> string -> ST cdb string.

  (** what was received, and what the rest of the endpoint leaves of the ids *)
  Lemma token_after gt sharing helpers pkce clock m1 m2 ir rq auth f r f' :
    token_request sid_of b64hash cx idt gt sharing helpers pkce clock m1 m2 ir rq auth f = (r, f') ->
    exists r0 f1, in_auth (received gt rq auth) f = (r0, f1) /\ fs_jti f' = fs_jti f1 /\ match r0 with Raise x => r = Raise x /\ f' = f1 | Ok _ => True end.
  Proof.
    unfold token_request. unfold bind at 1. destruct (in_auth (received gt rq auth) f) as [[r0|x] f1] eqn:E; intros H.
    - exists (Ok r0), f1. split; [reflexivity|]. split; [|exact I]. unfold bind in H. destruct r0 as [m|].
      + destruct (in_world (in_db (token_parse sid_of b64hash helpers pkce clock m)) f1) as [[p|y] f2] eqn:P.
        * rewrite (in_world_jti _ _ _ _ H). exact (in_world_jti _ _ _ _ P).
        * assert (f' = f2) by congruence. subst f'. exact (in_world_jti _ _ _ _ P).
      + unfold ret at 1 in H. exact (in_world_jti _ _ _ _ H).
    - exists (Raise x), f1. assert (f' = f1) by congruence. subst f'. split; [reflexivity|]. split; [reflexivity|]. split; [congruence|reflexivity].
  Qed.

  Lemma introspection_after gt clock username rq auth f r f' :
    introspection_request sid_of cx gt clock username rq auth f = (r, f') ->
    exists r0 f1, in_auth (received gt rq auth) f = (r0, f1) /\ fs_jti f' = fs_jti f1 /\ match r0 with Raise x => r = Raise x /\ f' = f1 | Ok _ => True end.
  Proof.
    unfold introspection_request. unfold bind at 1. destruct (in_auth (received gt rq auth) f) as [[r0|x] f1] eqn:E; intros H.
    - exists (Ok r0), f1. split; [reflexivity|]. split; [|exact I]. destruct r0 as [m|]; [destruct (dmem "error" m)|]; [unfold ret in H; congruence| |unfold ret in H; congruence].
      unfold bind in H. destruct (in_world (gets w_cdb) f1) as [[cl|y] f2] eqn:P.
      2:{ assert (f' = f2) by congruence. subst f'. exact (in_world_jti _ _ _ _ P). }
      destruct (in_world (in_db (introspection_process sid_of cx cl clock username m)) f2) as [[an|y] f3] eqn:Q.
      2:{ assert (f' = f3) by congruence. subst f'. rewrite (in_world_jti _ _ _ _ Q). exact (in_world_jti _ _ _ _ P). }
      unfold ret in H. assert (f' = f3) by congruence. subst f'. rewrite (in_world_jti _ _ _ _ Q). exact (in_world_jti _ _ _ _ P).
    - exists (Raise x), f1. assert (f' = f1) by congruence. subst f'. split; [reflexivity|]. split; [reflexivity|]. split; [congruence|reflexivity].
  Qed.

  Lemma later_grows f f' : later sid_of b64hash cx idt f f' -> ClientAuthnSpec.grows (fs_jti f) (fs_jti f').
  Proof.
    induction 1 as [f|f w f2 _ IH|f gt sharing helpers pkce clock m1 m2 ir rq auth r f1 f2 E _ IH|f gt clock username rq auth r f1 f2 E _ IH].
    - intros k v X. exact X.
    - exact IH.
    - destruct (token_after _ _ _ _ _ _ _ _ _ _ _ _ _ E) as (r0 & f3 & R & J & _). intros k v X. apply IH. rewrite J. exact (in_auth_jti _ _ _ _ _ _ R k v X).
    - destruct (introspection_after _ _ _ _ _ _ _ _ E) as (r0 & f3 & R & J & _). intros k v X. apply IH. rewrite J. exact (in_auth_jti _ _ _ _ _ _ R k v X).
  Qed.
End Later.
