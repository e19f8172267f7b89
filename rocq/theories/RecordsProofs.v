(** RecordsProofs.v: what the endpoints write into the records of the clients. *)
From Verif Require Import Base BaseProofs Monad MonadProofs Types SessionKey Token Grant Database Manager Ctx Scopes Claims ClaimsSpec ClaimsProofs Authz World Minting
  ClientAuthn ClientAuthnSpec ClientAuthnProofs PropsClientAuthn UserInfo TokenEndpoint Uri AuthzRequest AuthzEndpoint SetupAuth Logout Fronts AuthzFront Door DoorSpec System RecordsSpec.
From Verif Require UserinfoFront.
Local Open Scope Z_scope.

Definition rel (cx : ctx) (a b : cdb) : Prop := lasting cx a b /\ none_new a b.

Lemma kept_refl cx i : kept cx i i.
Proof. constructor; [reflexivity|]. intros u d _ H. exists d. auto. Qed.
Lemma kept_trans cx a b c : kept cx a b -> kept cx b c -> kept cx a c.
Proof.
  intros H1 H2. constructor.
  - intros k Nk Nc. assert (E := ke_same _ _ _ H1 k Nk Nc). rewrite <- E. apply (ke_same _ _ _ H2 k Nk).
    intros u d P Ek. rewrite E. exact (Nc u d P Ek).
  - intros u d P E. destruct (ke_claims _ _ _ H1 u d P E) as (d1 & E1 & N1). destruct (ke_claims _ _ _ H2 u d1 P E1) as (d2 & E2 & N2).
    exists d2. split; [exact E2|]. auto.
Qed.
Lemma lasting_refl cx a : lasting cx a a.
Proof. intros c i H. exists i. split; [exact H|apply kept_refl]. Qed.
Lemma lasting_trans cx a b c : lasting cx a b -> lasting cx b c -> lasting cx a c.
Proof.
  intros H1 H2 x i E. destruct (H1 x i E) as (i1 & E1 & K1). destruct (H2 x i1 E1) as (i2 & E2 & K2).
  exists i2. split; [exact E2|]. exact (kept_trans _ _ _ _ K1 K2).
Qed.
Lemma rel_refl cx a : rel cx a a.
Proof. split; [apply lasting_refl|]. intros c H. exact H. Qed.
Lemma rel_trans cx a b c : rel cx a b -> rel cx b c -> rel cx a c.
Proof. intros [A1 A2] [B1 B2]. split; [exact (lasting_trans _ _ _ _ A1 B1)|]. intros x H. auto. Qed.

(** ** The two writers *)
Lemma on_per_client cx usage : on cx usage "enable_claims_per_client" = true -> per_client cx usage.
Proof.
  unfold on, kwarg_of. destruct (smem usage usages) eqn:S_; [|discriminate]. apply smem_In in S_.
  destruct (dget usage (cx_modules cx)) as [kw|] eqn:E; [|discriminate].
  destruct (dget "enable_claims_per_client" kw) as [v|] eqn:Ev; [|discriminate]. intros T. split; [exact S_|]. eauto.
Qed.
Lemma rel_frame cx c usage s s' : per_client cx usage -> claims_frame c usage s s' -> rel cx s s'.
Proof.
  intros P [F1 F2]. split.
  - intros x i E. destruct (string_dec x c) as [->|N]; [|exists i; rewrite F1 by exact N; split; [exact E|apply kept_refl]].
    rewrite E in F2. destruct F2 as (i' & E' & Fs & Fd). exists i'. split; [exact E'|].
    constructor.
    + intros k Nk Nc. destruct (string_dec k (claims_key usage)) as [->|N]; [|now apply Fs].
      destruct Fd as [Fd|(d & d' & Ed & _)]; [exact Fd|]. exfalso. exact (Nc usage d P eq_refl Ed).
    + intros u d Pu Ed. change (u ++ "_claims")%string with (claims_key u) in *. destruct (string_dec (claims_key u) (claims_key usage)) as [Eu|N].
      * rewrite Eu in *. destruct Fd as [Fd|(d1 & d2 & E1 & E2 & K)]; [exists d; rewrite Fd; auto|].
        exists d2. split; [exact E2|]. assert (d1 = d) by congruence. subst d1. exact K.
      * exists d. rewrite Fs by exact N. auto.
  - intros x E. destruct (string_dec x c) as [->|N]; [now rewrite E in F2|now rewrite F1].
Qed.
Lemma rel_claims cx c ar scopes usage s : rel cx s (snd (get_claims cx c ar scopes usage s)).
Proof.
  destruct (get_claims_main cx c ar scopes usage s) as (F & _ & _ & Sv & _).
  destruct (on cx usage "enable_claims_per_client") eqn:O.
  - exact (rel_frame _ _ _ _ _ (on_per_client _ _ O) F).
  - rewrite (Sv []) by (unfold start_ref; now rewrite O). apply rel_refl.
Qed.

Lemma claims_not_note cx usage : per_client cx usage -> (usage ++ "_claims")%string <> "auth_method"%string.
Proof. intros [H _]. repeat destruct H as [<-|H]; try discriminate. contradiction. Qed.
Lemma rel_noted cx c s s' : only_noted c s s' -> rel cx s s'.
Proof.
  intros [N1 N2]. assert (K := N2 ""%string ltac:(discriminate)). split.
  - intros x i E. destruct (string_dec x c) as [->|N]; [|exists i; rewrite N1 by exact N; split; [exact E|apply kept_refl]].
    rewrite E in K, N2. destruct (dget c s') as [i'|]; [|contradiction]. exists i'. split; [reflexivity|].
    constructor; [intros k Nk _; now apply N2|]. intros u d P Ed. exists d. rewrite N2; auto. exact (claims_not_note _ _ P).
  - intros x E. destruct (string_dec x c) as [->|N]; [|now rewrite N1]. rewrite E in K. now destruct (dget c s').
Qed.
Lemma rel_verify cx o e cls f aka rq auth s : rel cx (ca_cdb s) (ca_cdb (snd (verify_client o e cls f aka rq auth s))).
Proof.
  destruct (verify_client o e cls f aka rq auth s) as [r s'] eqn:E. destruct (C54_effect _ _ _ _ _ _ _ _ _ _ E) as [_ H]. cbn.
  destruct r as [[ai|]|x]; [|rewrite H; apply rel_refl|rewrite H; apply rel_refl].
  destruct H as [->|(c & _ & N)]; [apply rel_refl|exact (rel_noted _ _ _ _ N)].
Qed.

(** ** Through the code *)
Definition ok_s {S X} (cx : ctx) (p : S -> cdb) (m : ST S X) : Prop := forall s, rel cx (p s) (p (snd (m s))).
Section OkS.
  Context {S : Type} (cx : ctx) (p : S -> cdb).
  Lemma ok_ret {X} (x : X) : ok_s cx p (ret x).
  Proof. intros s. apply rel_refl. Qed.
  Lemma ok_raise {X} e : ok_s cx p (raise e : ST S X).
  Proof. intros s. apply rel_refl. Qed.
  Lemma ok_lift {X} (r : result X) : ok_s cx p (lift r).
  Proof. intros s. apply rel_refl. Qed.
  Lemma ok_gets {X} (f : S -> X) : ok_s cx p (gets f).
  Proof. intros s. apply rel_refl. Qed.
  Lemma ok_bind {X Y} (m : ST S X) (k : X -> ST S Y) : ok_s cx p m -> (forall x, ok_s cx p (k x)) -> ok_s cx p (bind m k).
  Proof.
    intros Hm Hk s. unfold bind. specialize (Hm s). destruct (m s) as [[x|e] s']; [|exact Hm]. exact (rel_trans _ _ _ _ Hm (Hk x s')).
  Qed.
  Lemma ok_catch {X} (m : ST S X) c h : ok_s cx p m -> ok_s cx p h -> ok_s cx p (catch m c h).
  Proof.
    intros Hm Hh s. unfold catch. specialize (Hm s). destruct (m s) as [[x|e] s']; [exact Hm|]. destruct (c e); [|exact Hm].
    exact (rel_trans _ _ _ _ Hm (Hh s')).
  Qed.
End OkS.
Notation ok_w cx := (ok_s cx w_cdb).
Notation ok_f cx := (ok_s cx (fun f => w_cdb (fs_world f))).
Notation ok_a cx := (ok_s cx clients_of).
Lemma ok_in_db {X} cx (m : DB X) : ok_w cx (in_db m).
Proof. intros w. unfold in_db. destruct (m (w_db w)). apply rel_refl. Qed.
Lemma ok_in_cdb {X} cx (m : ST cdb X) : (forall s, rel cx s (snd (m s))) -> ok_w cx (in_cdb m).
Proof. intros H w. unfold in_cdb. specialize (H (w_cdb w)). destruct (m (w_cdb w)). exact H. Qed.
Lemma ok_in_claims cx c ar scopes usage : ok_w cx (in_cdb (get_claims cx c ar scopes usage)).
Proof. apply ok_in_cdb. intros s. apply rel_claims. Qed.
Lemma ok_attempt {X} cx (m : W X) : ok_w cx m -> ok_w cx (attempt m).
Proof. intros H w. unfold attempt. specialize (H w). destruct (m w). exact H. Qed.
Lemma ok_in_world {X} cx (m : W X) : ok_w cx m -> ok_f cx (in_world m).
Proof. intros H f. unfold in_world. specialize (H (fs_world f)). destruct (m (fs_world f)). exact H. Qed.
Lemma ok_in_auth {X} cx (m : ST castate X) : ok_s cx ca_cdb m -> ok_f cx (in_auth m).
Proof. intros H f. unfold in_auth. specialize (H (mkCA (w_cdb (fs_world f)) (fs_jti f))). destruct (m _). exact H. Qed.
Lemma ok_in_front {X} cx (m : F X) : ok_f cx m -> ok_a cx (in_front m).
Proof. intros H a. unfold in_front. specialize (H (as_front a)). destruct (m (as_front a)). exact H. Qed.
Lemma ok_in_pushed {X} cx (m : P X) : ok_a cx (in_pushed m).
Proof. intros a. unfold in_pushed. destruct (m (as_pushed a)). apply rel_refl. Qed.

Ltac ok_step :=
  first
    [ apply ok_ret | apply ok_raise | apply ok_lift | apply ok_gets | apply ok_in_db | apply ok_in_claims | apply ok_in_pushed
    | assumption
    | apply ok_bind; [|intros ?]
    | apply ok_attempt | apply ok_in_front | apply ok_in_world | apply ok_in_auth
    | match goal with |- ok_s _ _ (match ?x with _ => _ end) => destruct x end ].
Ltac ok := repeat ok_step.

Lemma ok_payload cx u c g t sc : ok_w cx (payload_arguments cx u c g t sc).
Proof. unfold payload_arguments. ok. Qed.
Lemma ok_mint_in cx mt sid g t b r : ok_w cx (mint_in cx mt sid g t b r).
Proof. unfold mint_in. cbv zeta. ok; apply ok_payload. Qed.
Lemma ok_mint cx mt sid g t b : ok_w cx (endpoint_mint cx mt sid g t b).
Proof. unfold endpoint_mint. cbv zeta. apply ok_bind; [apply ok_mint_in|intros [o g1]]. ok. Qed.

Section Token.
  Variables (sid_of : string -> result string) (cx : ctx) (idt : store -> string -> ST cdb string).
  Hypothesis idt_ok : forall s sid clients, snd (idt s sid clients) = clients.
  Lemma ok_id_token sid resp : ok_w cx (add_id_token idt sid resp).
  Proof.
    assert (I : forall w : world, ok_w cx (in_cdb (idt (w_db w) sid))) by (intros w; apply ok_in_cdb; intros s; rewrite idt_ok; apply rel_refl).
    unfold add_id_token, id_token_for. intros w.
    match goal with |- rel _ _ (w_cdb (snd (?m w))) => assert (ok_w cx m) as X; [|exact (X w)] end.
    repeat first [apply I | ok_step | apply ok_catch ].
  Qed.
  Lemma ok_code m1 m2 ir req : ok_w cx (code_process sid_of cx idt m1 m2 ir req).
  Proof.
    unfold code_process. cbv zeta. repeat first [apply ok_mint | apply ok_id_token | unfold the_token, the_request; ok_step].
  Qed.
  Lemma ok_refresh sh m1 m2 req : ok_w cx (refresh_process sid_of cx idt sh m1 m2 req).
  Proof.
    unfold refresh_process. cbv zeta. repeat first [apply ok_mint | apply ok_id_token | unfold the_token, the_request; ok_step].
  Qed.
  Lemma ok_token sh hs m1 m2 ir p : ok_w cx (token_process sid_of cx idt sh hs m1 m2 ir p).
  Proof. unfold token_process. repeat first [apply ok_code | apply ok_refresh | ok_step]. Qed.
End Token.

(** The authorization endpoint *)
Lemma ok_authz_call cx clock c request resources (s : cdb * grant) : rel cx (fst s) (fst (snd (authz_call cx clock c request resources s))).
Proof.
  revert s. change (ok_s cx fst (authz_call cx clock c request resources)). unfold authz_call. cbv zeta.
  assert (G : forall f, ok_s cx fst (on_grant f)) by (intros f s; apply rel_refl).
  assert (C : forall ar sc u, ok_s cx fst (on_cdb (get_claims cx c ar sc u) : AZ cref)).
  { intros ar sc u s. unfold on_cdb. pose proof (rel_claims cx c ar sc u (fst s)) as H. destruct (get_claims cx c ar sc u (fst s)). exact H. }
  cbn [iterM]. repeat first [apply G | apply C | ok_step].
Qed.
Section Authz.
  Variable az : authz_env.
  Hypothesis idt_ok : forall s sid code access clients, snd (az_idtoken az s sid code access clients) = clients.
  Let cx := az_cx az.
  Lemma ok_handling sid request : ok_w cx (handling az sid request).
  Proof.
    unfold handling. ok. intros w. pose proof (ok_authz_call cx (az_clock az) (in_cid x) request None (w_cdb w, x0)) as H. fold cx.
    destruct (authz_call cx (az_clock az) (in_cid x) request None (w_cdb w, x0)) as [r [cs g']]. cbn [fst snd] in H.
    pose proof (ok_in_db cx (poke (az_sharing az) (session_key [in_uid x; in_cid x; in_gid x]) (EGrant g')) (mkW (w_db w) cs)) as D.
    cbn [w_cdb] in D. pose proof (rel_trans _ _ _ _ H D) as E. destruct r; exact E.
  Qed.
  Lemma ok_authorize sid request : ok_w cx (authorize az sid request).
  Proof. unfold authorize. destruct (az_handler az); [apply ok_handling|]. unfold implicit. ok. Qed.
  Lemma ok_create request sid : ok_w cx (create_authn_response az request sid).
  Proof.
    assert (M : forall mt sid g t b, ok_w cx (endpoint_mint (az_cx az) mt sid g t b)) by (intros; apply ok_mint).
    assert (I : forall s sid c a, ok_w cx (in_cdb (az_idtoken az s sid c a))) by (intros; apply ok_in_cdb; intros x; rewrite idt_ok; apply rel_refl).
    unfold create_authn_response, code_part, token_part, id_part. cbv zeta.
    repeat first [apply M | apply I | ok_step].
  Qed.
  Lemma ok_post request sid : ok_w cx (post_authentication az request sid).
  Proof. unfold post_authentication. cbv zeta. repeat first [apply ok_authorize | apply ok_create | ok_step]. Qed.
  Lemma ok_part2 request sid : ok_w cx (authz_part2 az request sid).
  Proof. unfold authz_part2. cbv zeta. repeat first [apply ok_post | ok_step]. Qed.
  Lemma ok_setup e request uri cinfo u : ok_w cx (setup_auth e request uri cinfo u).
  Proof. unfold setup_auth, identify, known_session, first_session, valid_event. cbv zeta. ok. Qed.
  Lemma ok_process e oidc request : ok_w cx (process_request e az oidc request).
  Proof. unfold process_request. cbv zeta. repeat first [apply ok_part2 | apply ok_setup | ok_step]. Qed.
End Authz.

(** Client authentication *)
Lemma ok_client_auth cx o e cls f aka rq auth : ok_s cx ca_cdb (client_authentication o e cls f aka rq auth).
Proof. unfold client_authentication. apply ok_bind; [intros s; apply rel_verify|intros r]. ok. Qed.
Lemma ok_parse_auth cx o e cls f aka rq auth : ok_s cx ca_cdb (parse_auth o e cls f aka rq auth).
Proof. unfold parse_auth. apply ok_bind; [apply ok_client_auth|intros r]. ok. Qed.
Lemma ok_received cx gt rq auth : ok_s cx ca_cdb (received gt rq auth).
Proof. unfold received. apply ok_bind; [apply ok_parse_auth|intros r]. ok. Qed.

(** The endpoints *)
Lemma ok_authorization gt re oidc pk e az rq auth :
  (forall s sid code access clients, snd (az_idtoken az s sid code access clients) = clients) ->
  ok_a (az_cx az) (authorization_request gt re oidc pk e az rq auth).
Proof. intros I. unfold authorization_request. repeat first [apply (ok_process az I) | apply ok_parse_auth | ok_step]. Qed.
Lemma ok_pushed cx gt re uuid rq auth : ok_a cx (pushed_request gt re uuid rq auth).
Proof. unfold pushed_request. repeat first [apply ok_parse_auth | ok_step]. Qed.
Lemma ok_token_at y gt clock m1 m2 ir rq auth : idtokens_only_read y -> ok_f (sy_cx y) (token_at y gt clock m1 m2 ir rq auth).
Proof. intros I. unfold token_at, token_request. repeat first [apply (ok_token _ _ _ I) | apply ok_received | ok_step]. Qed.
Lemma ok_introspection cx sid_of gt clock un rq auth : ok_f cx (introspection_request sid_of cx gt clock un rq auth).
Proof. unfold introspection_request. repeat first [apply ok_received | ok_step]. Qed.
Lemma ok_userinfo cx y gt clock rq auth : ok_f cx (userinfo_at y gt clock rq auth).
Proof.
  intros f. unfold userinfo_at, UserinfoFront.userinfo_request. cbn [UserinfoFront.fr_ca UserinfoFront.fr_db].
  assert (U : ok_s cx ca_cdb (UserinfoFront.userinfo_parse (sy_sid_of y) (gt_out gt) (gt_ep gt) (gt_cls gt) (gt_aka gt) rq auth (w_db (fs_world f)))).
  { unfold UserinfoFront.userinfo_parse. apply ok_catch; [|apply ok_ret]. apply ok_bind; [apply ok_client_auth|intros r]. ok. }
  specialize (U (mkCA (w_cdb (fs_world f)) (fs_jti f))).
  destruct (UserinfoFront.userinfo_parse _ _ _ _ _ _ _ _ _) as [[[p|]|x] ca]; cbn [snd] in U; cbn [ca_cdb] in U; try exact U.
  match goal with |- context [UserInfo.userinfo_process ?a ?b ?c ?d ?e ?f] => destruct (UserInfo.userinfo_process a b c d e f) as [r db] end. exact U.
Qed.
Lemma ok_logout cx e sid alla w : rel cx (w_cdb w) (w_cdb (snd (do_verified_logout e sid alla w))).
Proof.
  assert (C : forall l, ok_w cx (clean_sessions l)) by (induction l as [|x l IH]; cbn [clean_sessions]; ok).
  unfold do_verified_logout.
  assert (L : ok_w cx (if alla then logout_all_clients e sid else logout_from_client e sid)).
  { destruct alla; unfold logout_all_clients, logout_from_client; repeat first [apply C | ok_step]. }
  specialize (L w). destruct alla; (match goal with |- context [match ?m w with _ => _ end] => destruct (m w) as [[n|x] w'] end; [|exact L]);
    destruct (post_all e (no_back n)); exact L.
Qed.

Lemma step_rel y k a : idtokens_only_read y -> of_provider (sy_cx y) k -> ~ from_outside k -> rel (sy_cx y) (clients_of a) (clients_of (dstep y k a)).
Proof.
  intros I O N. destruct k; cbn [dstep].
  - destruct O as [<- O]. exact (ok_authorization gt re oidc pk e az rq auth O a).
  - apply ok_pushed.
  - apply (ok_in_front _ _ (ok_token_at y gt clock m1 m2 issue_refresh rq auth I)).
  - apply (ok_in_front _ _ (ok_userinfo _ y gt clock rq auth)).
  - apply (ok_in_front _ _ (ok_introspection _ _ gt clock username rq auth)).
  - cbn. apply ok_logout.
  - apply ok_in_front, ok_in_world, ok_in_db.
  - exfalso. now apply N.
Qed.
