(** PropsClientAuthn.v: client authentication. Secrets (C23), credentials that fail (C24), replay of
    assertions (C25), assertions (C53), what authentication changes (C54), the client an endpoint
    works for (C55). *)
From Verif Require Import Base BaseProofs Types Monad MonadProofs Ctx ClientAuthn ClientAuthnSpec ClientAuthnProofs Threads.
Local Open Scope Z_scope.

(** ** Data for the examples: two clients, Basic credentials in clear *)
Definition out1 : outside :=
  mkOut (fun b => Ok b) (fun p => p)
        (fun a => if String.eqb a "jws1" then Ok (mkJwt (Some "HS256") None (Some "c1") (Some ["https://op.example.org/token"]) (Some "id1"))
                  else if String.eqb a "jws2" then Ok (mkJwt (Some "ES256") None (Some "c2") (Some ["https://op.example.org/token"]) None)
                  else if String.eqb a "jws3" then Ok (mkJwt (Some "ES256") None (Some "c2") (Some ["https://other.example.com"]) (Some "id1"))
                  else if String.eqb a "jws4" then Ok (mkJwt (Some "ES256") None (Some "c2") (Some ["https://op.example.org/token"]) (Some "id1"))
                  else Raise EOther)
        (fun i _ => if String.eqb i "c1" then ["secret1"] else []) 1000.
Definition ep1 (l : list (option cmethod)) : ep := mkEp l true ["https://op.example.org/token"] "https://op.example.org".
Definition cdb1 : cdb :=
  [("c1", [("client_secret", VStr "secret1"); ("client_secret_expires_at", VInt 2000)]);
   ("c2", [("client_secret", VStr "secret2"); ("client_secret_expires_at", VInt 0); ("auth_method", VDict [("X", VStr "y")])]);
   ("old", [("client_secret", VStr "secret3"); ("client_secret_expires_at", VInt 999)])].
Definition s1 : castate := mkCA cdb1 [].
Definition all_methods : list (option cmethod) :=
  [Some MBasic; Some MPost; Some MBearerHeader; Some MBearerBody; Some MSecretJwt; Some MPrivateJwt; Some MRequestParam].
Definition no_token (_ : val) : result val := Ok (VStr "").

(** ** C23 *)
(** A client reported for HTTP Basic credentials: the header holds the client id and the secret on record
    for it, the client is known and its registration has not expired. Where client ids are translated
    (also_known_as), it is the translated id that is reported and whose registration is looked at. *)
Theorem C23_basic :
  forall o e cls of_token aka rq auth s ai s',
  verify_client o e cls (Some of_token) aka rq auth s = (Ok (Some ai), s') ->
  ai_method ai = "client_secret_basic" ->
  exists header c secret d,
    authz_str auth = Some header /\ basic_credentials o header c secret /\
    secret_on_record (ca_cdb s) c (VStr secret) /\
    named aka c d /\ ai_client ai = Some (VStr d) /\ d <> "" /\ standing (o_now o) (ca_cdb s) d.
Proof.
  intros o e cls f aka rq auth s ai s' H M. apply verify_client_ok in H.
  destruct H as (_ & ai0 & s2 & (cid & Al & Em & K) & D).
  destruct D as [(l1 & m & l2 & _ & _ & V & _)|(_ & -> & -> & _)]; [|rewrite M in Em; discriminate Em].
  pose proof (verify_tag _ _ _ _ _ _ _ _ V) as T.
  assert (m = MBasic) by (apply tag_inj; cbn [tag]; congruence). subst m.
  cbn [verify] in V. apply basic_ok in V. destruct V as (-> & header & c & secret & A & B & C & ->).
  cbn in Al. apply alias_str in Al. destruct Al as (d & -> & N).
  destruct K as [(x & E & X & Ec & _ & St & _)|(F & _ & t & c' & E & _)]; [|discriminate E].
  injection E as <-. exists header, c, secret, d. auto 10.
Qed.
Print Assumptions C23_basic.

(** The same for client_secret_post: the body holds the client id and a value equal to the secret on
    record; if the value is a str, it is that secret. *)
Theorem C23_post :
  forall o e cls of_token aka rq auth s ai s',
  verify_client o e cls (Some of_token) aka rq auth s = (Ok (Some ai), s') ->
  ai_method ai = "client_secret_post" ->
  exists c sent secret d,
    dget "client_id" rq = Some (VStr c) /\ dget "client_secret" rq = Some sent /\
    secret_on_record (ca_cdb s) c secret /\ val_eqb secret sent = true /\ (forall x, sent = VStr x -> secret = VStr x) /\
    named aka c d /\ ai_client ai = Some (VStr d) /\ d <> "" /\ standing (o_now o) (ca_cdb s) d.
Proof.
  intros o e cls f aka rq auth s ai s' H M. apply verify_client_ok in H.
  destruct H as (_ & ai0 & s2 & (cid & Al & Em & K) & D).
  destruct D as [(l1 & m & l2 & _ & _ & V & _)|(_ & -> & -> & _)]; [|rewrite M in Em; discriminate Em].
  pose proof (verify_tag _ _ _ _ _ _ _ _ V) as T.
  assert (m = MPost) by (apply tag_inj; cbn [tag]; congruence). subst m.
  cbn [verify] in V. apply post_ok in V. destruct V as (-> & c & sent & r & A & B & C & Q & ->).
  cbn in Al. apply alias_str in Al. destruct Al as (d & -> & N).
  destruct K as [(x & E & X & Ec & _ & St & _)|(F & _ & t & c' & E & _)]; [|discriminate E].
  injection E as <-. exists c, sent, r, d. split; [exact A|]. split; [exact B|]. split; [exact C|]. split; [exact Q|].
  split; [intros y ->; now apply val_eqb_str|]. auto 10.
Qed.
Print Assumptions C23_post.

(** Conversely, a client that proves itself with a method of the endpoint is accepted, where the methods before it are passed over. *)
Theorem C23_accepts :
  forall o e cls of_token rq auth s l1 m l2 c info,
  ep_named e = true -> ep_methods e = l1 ++ Some m :: l2 -> (forall m', In (Some m') l1 -> passed_over o rq (authz_str auth) m') -> c <> "" ->
  dget c (ca_cdb s) = Some info -> not_expired (o_now o) info ->
  (dget "auth_method" info = None \/ exists d, dget "auth_method" info = Some (VDict d)) ->
  proves o e (ca_jti s) rq (authz_str auth) m c info ->
  exists s', verify_client o e cls of_token [] rq auth s = (Ok (Some (mkAI (Some (VStr c)) None (tag m))), s').
Proof.
  intros o e cls f rq auth s l1 m l2 c info Hn Hm Hp Hc Hi Hx Ha Hcred.
  assert (V : carries rq (authz_str auth) m /\ exists s2, ca_cdb s2 = ca_cdb s /\ verify o e m rq (authz_str auth) s = (Ok (mkAI (Some (VStr c)) None (tag m)), s2)).
  { assert (SI : forall secret, dget "client_secret" info = Some (VStr secret) -> secret_is (ca_cdb s) c (VStr secret) = Ok true).
    { intros secret Hs. rewrite (secret_on_record_is _ _ (VStr secret)) by (exists info; auto). cbn. now rewrite String.eqb_refl. }
    assert (JW : forall private a j, dget "client_assertion" rq = Some (VStr a) -> o_unpack o a = Ok j -> jw_iss j = Some c -> for_us e j -> first_use (ca_jti s) c j ->
      key_fits o private j (ca_cdb s) -> exists s2, ca_cdb s2 = ca_cdb s /\ jws_verify o e private rq s = (Ok (mkAI (Some (VStr c)) None (tag (if private then MPrivateJwt else MSecretJwt))), s2)).
    { intros private a j E1 E2 E3 E4 E5 E6. apply key_ok in E6. apply aud_ok in E4.
      assert (Ej : exists s2, ca_cdb s2 = ca_cdb s /\ jti_once o j s = (Ok tt, s2)).
      { unfold jti_once. unfold first_use in E5. destruct (jw_jti j) as [[|x t]|]; try (exists s; split; reflexivity).
        rewrite E3. cbn [of_option]. unfold bind, lift, gets, dmem. cbv beta iota. rewrite (E5 _ eq_refl) by discriminate. eexists. split; [|reflexivity]. reflexivity. }
      destruct Ej as (s2 & Ec & Ej). exists s2. split; [exact Ec|]. unfold jws_verify, msub_str. rewrite E1. unfold bind, lift, gets. cbv beta iota.
      rewrite E2, E6, E4, Ej, E3. reflexivity. }
    destruct m; cbn [proves] in Hcred; try contradiction.
    - destruct Hcred as (secret & header & Hs & Eh & B). split; [rewrite Eh; destruct B as (b & p & q & -> & _); cbn; eauto|]. exists s. split; [reflexivity|].
      cbn [verify]. unfold basic_verify. rewrite Eh. apply basic_authn_iff in B. cbn. unfold bind, lift, gets. rewrite B. now rewrite (SI _ Hs).
    - destruct Hcred as (secret & Hs & E1 & E2). split; [cbn; eauto|]. exists s. split; [reflexivity|]. cbn [verify]. unfold post_verify, msub_str, dsub. rewrite E1, E2. cbn.
      unfold bind, lift, gets. now rewrite (SI _ Hs).
    - destruct Hcred as (a & j & k & ks & E1 & E2 & E3 & E4 & E5 & E6 & E7 & E8). split; [cbn; eauto|]. apply (JW false a j); auto.
      split; [exact E6|]. exists c, info. split; [exact E3|]. split; [exact Hi|]. intros sec Es _. exists k, ks. split; [exact E7|congruence].
    - destruct Hcred as (a & j & E1 & E2 & E3 & E4 & E5 & E6). split; [cbn; eauto|]. apply (JW true a j); auto. }
  destruct V as (C & s2 & Ec & V). rewrite verify_client_eq, Hn, Hm. unfold bind.
  assert (Pf : forall m', In (Some m') l1 -> carries rq (authz_str auth) m' -> fails o e rq (authz_str auth) s m').
  { intros m' I' C'. destruct (Hp m' I') as [X|(a & j & E1 & E2 & X)]; [contradiction|].
    assert (F : forall private, ~ key_fits o private j (ca_cdb s) -> is_ok (fst (jws_verify o e private rq s)) = false).
    { intros private Nk. destruct (jws_verify o e private rq s) as [[ai|x] s3] eqn:E; [|reflexivity]. exfalso. apply Nk. apply jws_ok in E.
      destruct E as (a' & j' & iss & s4 & A & U & _ & K & _). assert (a' = a) by congruence. subst a'. congruence. }
    destruct X as [[-> X]|[-> X]]; unfold fails; cbn [verify]; apply F; cbn; tauto. }
  pose proof (try_first o e l1 m l2 rq (authz_str auth) s _ _ Pf C V) as TF. rewrite TF.
  unfold settle. cbn [ai_client alias is_nil]. unfold bind, lift. cbn [ai_client ai_method].
  replace (truthy (VStr c)) with true by (cbn; symmetry; now apply nonempty_true).
  unfold known_client, bind, gets, lift. rewrite Ec, Hi. apply valid_iff in Hx. rewrite Hx. cbn [ai_token].
  unfold note_method, truthy_get. destruct Ha as [-> | (d & ->)]; [eexists; reflexivity|].
  destruct (truthy (VDict d)); eexists; reflexivity.
Qed.
Print Assumptions C23_accepts.

Example C23_ex :
  exists s', verify_client out1 (ep1 all_methods) "X" (Some no_token) [] [] (AuthzStr "Basic c1:secret1") s1
    = (Ok (Some (mkAI (Some (VStr "c1")) None "client_secret_basic")), s') /\
  standing 1000 cdb1 "c1" /\ ~ standing 1000 cdb1 "old" /\
  verify_client out1 (ep1 all_methods) "X" (Some no_token) [] [] (AuthzStr "Basic c1:secret2") s1 = (Ok None, s1) /\
  verify_client out1 (ep1 all_methods) "X" (Some no_token) [] [] (AuthzStr "Basic old:secret3") s1 = (Raise EInvalidClient, s1).
Proof.
  eexists. split; [vm_compute; reflexivity|]. split; [|split; [|split; vm_compute; reflexivity]].
  - eexists. split; [reflexivity|]. apply valid_iff. reflexivity.
  - intros (i & E & N). cbn in E. injection E as <-. apply valid_iff in N. discriminate N.
Qed.

(** An assertion with a key of c2, at an endpoint with all methods: there is nothing for the methods before client_secret_jwt, and that wants another key. *)
Example C23_accepts_ex :
  proves out1 (ep1 all_methods) (ca_jti s1) [("client_assertion", VStr "jws4")] None MPrivateJwt "c2" [("client_secret", VStr "secret2")] /\
  forall m', In (Some m') [Some MBasic; Some MPost; Some MBearerHeader; Some MBearerBody; Some MSecretJwt] -> passed_over out1 [("client_assertion", VStr "jws4")] None m'.
Proof.
  split.
  - exists "jws4", (mkJwt (Some "ES256") None (Some "c2") (Some ["https://op.example.org/token"]) (Some "id1")). do 3 (split; [reflexivity|]).
    split; [eexists; split; [reflexivity|]; eexists; split; [now left|now left]|]. split; [intros t _ _; reflexivity|]. intros (a & E). discriminate E.
  - intros m' I. cbn in I. destruct I as [I|[I|[I|[I|[I|[]]]]]]; injection I as <-;
      try (left; cbn; intros X; repeat (destruct X as [X ?] || destruct X as [? X]); discriminate).
    right. eexists. eexists. split; [reflexivity|]. split; [reflexivity|]. left. split; [reflexivity|]. intros (a & E). discriminate E.
Qed.

(** ** C24 *)
(** Where "none" is not among the methods, a request none of whose credentials verify is refused, and nothing
    changes. *)
Theorem C24_rejected :
  forall o e cls of_token aka rq auth s,
  ep_named e = true -> ep_methods e <> [] -> ~ In None (ep_methods e) ->
  (forall m, In (Some m) (ep_methods e) -> carries rq (authz_str auth) m -> fails o e rq (authz_str auth) s m) ->
  client_authentication o e cls of_token aka rq auth s = (Raise EUnAuthorizedClient, s).
Proof.
  intros o e cls f aka rq auth s Hn Hm Hx F. unfold client_authentication, bind. rewrite verify_client_eq, Hn.
  unfold bind. rewrite (try_none _ _ _ _ _ _ F). pose proof (none_in (ep_methods e)) as NI.
  destruct (existsb _ (ep_methods e)); [destruct Hx; now apply NI|]. cbn.
  destruct (ep_methods e); [congruence|reflexivity].
Qed.
Print Assumptions C24_rejected.

(** What an accepted request had: credentials for a method of the endpoint that verify, all credentials
    for methods listed earlier failing; or "none" is among the methods and all credentials failed. *)
Theorem C24_accepted :
  forall o e cls of_token aka rq auth s ai s',
  client_authentication o e cls of_token aka rq auth s = (Ok (Some ai), s') ->
  (exists l1 m l2, ep_methods e = l1 ++ Some m :: l2 /\ ai_method ai = tag m /\ carries rq (authz_str auth) m /\
     ~ fails o e rq (authz_str auth) s m /\
     (forall m', In (Some m') l1 -> carries rq (authz_str auth) m' -> fails o e rq (authz_str auth) s m')) \/
  (In None (ep_methods e) /\ ai_method ai = "none" /\
     forall m, In (Some m) (ep_methods e) -> carries rq (authz_str auth) m -> fails o e rq (authz_str auth) s m).
Proof.
  intros o e cls f aka rq auth s ai s' H. unfold client_authentication in H. apply bind_ok in H.
  destruct H as ([ai1|] & s2 & V & H); [|destruct (is_nil _); discriminate]. injection H as <- <-.
  apply verify_client_ok in V. destruct V as (_ & ai0 & s3 & (cid & _ & Em & _) & D).
  destruct D as [(l1 & m & l2 & El & C & V & F)|(I & -> & -> & F)].
  - left. exists l1, m, l2. split; [exact El|]. split; [rewrite Em; exact (verify_tag _ _ _ _ _ _ _ _ V)|].
    split; [exact C|]. split; [unfold fails; rewrite V; discriminate|exact F].
  - right. split; [exact I|]. split; [exact Em|exact F].
Qed.
Print Assumptions C24_accepted.

(** Refuted where "none" is allowed: whatever credentials fail, the request is accepted for the client it
    names. *)
Theorem C24_none_refuted :
  forall o e cls of_token rq auth s c info,
  ep_named e = true -> In None (ep_methods e) ->
  (forall m, In (Some m) (ep_methods e) -> carries rq (authz_str auth) m -> fails o e rq (authz_str auth) s m) ->
  dget "client_id" rq = Some (VStr c) -> c <> "" ->
  dget c (ca_cdb s) = Some info -> not_expired (o_now o) info ->
  (dget "auth_method" info = None \/ exists d, dget "auth_method" info = Some (VDict d)) ->
  exists s', client_authentication o e cls of_token [] rq auth s = (Ok (Some (mkAI (Some (VStr c)) None "none")), s').
Proof.
  intros o e cls f rq auth s c info Hn Hm F Ec Hc Hi Hx Ha. unfold client_authentication, bind.
  rewrite verify_client_eq, Hn. unfold bind. rewrite (try_none _ _ _ _ _ _ F).
  rewrite (proj2 (none_in (ep_methods e)) Hm).
  unfold settle, none_info. rewrite Ec. cbn [ai_client alias is_nil]. unfold bind, lift. cbn [ai_client ai_method].
  replace (truthy (VStr c)) with true by (cbn; symmetry; now apply nonempty_true).
  unfold known_client, bind, gets, lift. rewrite Hi. apply valid_iff in Hx. rewrite Hx. cbn [ai_token].
  unfold note_method, truthy_get. destruct Ha as [-> | (d & ->)]; [eexists; reflexivity|].
  destruct (truthy (VDict d)); eexists; reflexivity.
Qed.
Print Assumptions C24_none_refuted.
Example C24_none_ex :
  exists s', client_authentication out1 (ep1 [Some MBasic; None]) "X" no_token [] [("client_id", VStr "c1")]
    (AuthzStr "Basic c1:wrong") s1 = (Ok (Some (mkAI (Some (VStr "c1")) None "none")), s').
Proof. eexists. vm_compute. reflexivity. Qed.

(** Refuted where another method is allowed: a header with a wrong secret and a body with the right one. *)
Theorem C24_other_refuted :
  exists o e cls f rq auth s s', ~ In None (ep_methods e) /\ In (Some MBasic) (ep_methods e) /\
  carries rq (authz_str auth) MBasic /\ fails o e rq (authz_str auth) s MBasic /\
  client_authentication o e cls f [] rq auth s = (Ok (Some (mkAI (Some (VStr "c2")) None "client_secret_post")), s').
Proof.
  exists out1, (ep1 all_methods), "X", no_token, [("client_id", VStr "c2"); ("client_secret", VStr "secret2")],
    (AuthzStr "Basic c1:wrong"), s1. eexists. split; [cbn; intuition congruence|]. split; [now left|].
  split; [cbn; eauto|]. split; [reflexivity|]. vm_compute. reflexivity.
Qed.
Print Assumptions C24_other_refuted.

(** Refuted for bearer_body: every access token, valid or not, makes the request one of the client it names. *)
Theorem C24_bearer_body_refuted :
  forall o e cls of_token rq s c info t,
  ep_named e = true -> ep_methods e = [Some MBearerBody] ->
  dget "access_token" rq = Some t -> t <> VNone -> dget "client_id" rq = Some (VStr c) -> c <> "" ->
  dget c (ca_cdb s) = Some info -> not_expired (o_now o) info ->
  (dget "auth_method" info = None \/ exists d, dget "auth_method" info = Some (VDict d)) ->
  exists s', client_authentication o e cls of_token [] rq NoAuthz s = (Ok (Some (mkAI (Some (VStr c)) (Some t) "bearer_body")), s').
Proof.
  intros o e cls f rq s c info t Hn Hm Et Hnn Ec Hc Hi Hx Ha. unfold client_authentication, bind.
  rewrite verify_client_eq, Hn, Hm. unfold bind. cbn [try_methods is_usable]. unfold dmem. rewrite Et.
  cbn [verify]. unfold catch, bind, bearer_body_verify. rewrite Et, Ec.
  assert (Tc : truthy (VStr c) = true) by (cbn; now apply nonempty_true). rewrite Tc.
  assert (exists s', settle o cls (Some f) [] (mkAI (Some (VStr c)) (Some t) "bearer_body") s =
    (Ok (Some (mkAI (Some (VStr c)) (Some t) "bearer_body")), s')) as (s' & E).
  { unfold settle. cbn [ai_client alias is_nil]. unfold bind, lift. cbn [ai_client ai_method ai_token]. rewrite Tc.
    unfold known_client, bind, gets, lift. rewrite Hi. apply valid_iff in Hx. rewrite Hx. cbn [ai_token].
    unfold note_method, truthy_get. destruct Ha as [-> | (d & ->)]; [eexists; reflexivity|].
    destruct (truthy (VDict d)); eexists; reflexivity. }
  exists s'. destruct t; try congruence; cbn [tag ret]; rewrite E; reflexivity.
Qed.
Print Assumptions C24_bearer_body_refuted.

(** Refuted for bearer_header at an endpoint that does not look tokens up (all but userinfo and
    registration_read): every non-empty token is accepted, for the client "". *)
Theorem C24_bearer_header_refuted :
  forall o e cls rq s t,
  ep_named e = true -> ep_methods e = [Some MBearerHeader] -> t <> "" ->
  parse_auth o e cls (fun _ _ => Ok (VStr "")) [] rq (AuthzStr ("Bearer " ++ t)) s =
  (Ok (dset "client_id" (VStr "") rq, VStr ""), s).
Proof.
  intros o e cls rq s t Hn Hm Ht. unfold parse_auth, client_authentication, bind. rewrite verify_client_eq, Hn, Hm.
  unfold bind. cbn [try_methods is_usable authz_str]. unfold starts_with. rewrite (prefix_app "Bearer " t).
  cbn [verify]. unfold catch, bind, bearer_header_verify, of_option, lift.
  change (drop 7 ("Bearer " ++ t)) with t. unfold bind, ret. cbn beta iota.
  unfold settle. cbn [ai_client alias is_nil]. unfold bind, lift. cbn [ai_client ai_method ai_token].
  assert (Tt : truthy (VStr t) = true) by (cbn; now apply nonempty_true). change (drop 7 ("Bearer " ++ t)) with t.
  rewrite Tt. reflexivity.
Qed.
Print Assumptions C24_bearer_header_refuted.

(** ** C25 *)
(** Over every history of calls, with any other calls and any changes to keys, clock and clients in
    between: of the JWTs of one issuer with one (non-empty) id, at most one is accepted, once, as client
    assertion or request object. *)
Theorem C25_once :
  forall claims h s l s', stable claims h -> run h s = (l, s') ->
  forall n1 n2 x1 x2 a1 a2 t, nth_error l n1 = Some x1 -> nth_error l n2 = Some x2 ->
  accepted_jwt x1 = Some a1 -> accepted_jwt x2 = Some a2 ->
  jw_iss (claims a1) = jw_iss (claims a2) -> jw_jti (claims a1) = Some t -> jw_jti (claims a2) = Some t -> t <> "" ->
  n1 = n2.
Proof. exact once. Qed.
Print Assumptions C25_once.

Definition call1 (a : string) : call :=
  mkCall out1 (ep1 all_methods) "X" (Some no_token) [] [("client_assertion", VStr a)] NoAuthz.
Example C25_ex :
  let '(l, _) := run [Auth (call1 "jws1"); Cdb cdb1; Auth (call1 "jws1"); Auth (call1 "jws4")] s1 in
  map accepted_jwt l = [Some "jws1"; None; Some "jws4"].
Proof. vm_compute. reflexivity. Qed.

(** Refuted for assertions without an id: they are accepted again and again. *)
Theorem C25_no_id_refuted :
  exists c s l s' x1 x2, run [Auth c; Auth c] s = (l, s') /\ l = [x1; x2] /\
  accepted_jwt x1 = Some "jws2" /\ accepted_jwt x2 = Some "jws2".
Proof.
  exists (call1 "jws2"), s1. do 4 eexists. split; [vm_compute; reflexivity|]. split; [reflexivity|].
  split; reflexivity.
Qed.
Print Assumptions C25_no_id_refuted.

(** Refuted for two threads: both test before either notes the id. *)
Theorem C25_cut :
  forall o e private rq s, jws_verify o e private rq s = (j <-- jws_begin o e private rq ;; jws_finish o private j) s.
Proof.
  intros o e private rq s. unfold jws_verify, jws_begin, jws_finish, jti_once, bind, lift, gets.
  destruct (msub_str "client_assertion" rq); [|reflexivity]. destruct (o_unpack o a) as [j|]; [|reflexivity].
  destruct (key_check o private j (ca_cdb s)); [|reflexivity]. destruct (aud_check e j); [|reflexivity].
  destruct (jw_jti j) as [[|x t]|] eqn:E; cbn [ret]; rewrite ?E; try reflexivity.
  destruct (jw_iss j) as [iss|] eqn:Ei; [|reflexivity]. cbn [of_option].
  destruct (dmem _ _); [reflexivity|]. cbn [ret]. rewrite E, Ei. reflexivity.
Qed.
Print Assumptions C25_cut.
Theorem C25_threads_refuted :
  exists o e rq s ja jb sa sb sc sd ai bi,
    jws_begin o e false rq s = (Ok ja, sa) /\ jws_begin o e false rq sa = (Ok jb, sb) /\
    jws_finish o false ja sb = (Ok ai, sc) /\ jws_finish o false jb sc = (Ok bi, sd) /\
    jw_jti ja = Some "id1" /\ ai_client ai = Some (VStr "c1") /\ ai_client bi = Some (VStr "c1").
Proof.
  exists out1, (ep1 all_methods), [("client_assertion", VStr "jws1")], s1. do 8 eexists.
  split; [vm_compute; reflexivity|]. split; [vm_compute; reflexivity|]. split; [vm_compute; reflexivity|].
  split; [vm_compute; reflexivity|]. repeat split.
Qed.
Print Assumptions C25_threads_refuted.

(** A call is blocked by nothing but an earlier request with a JWT of the same issuer and id: otherwise its
    outcome is what it would be had no JWT been seen. For issuers without ":". *)
Theorem C25_not_blocked :
  forall h db l s' c, run h (mkCA db []) = (l, s') ->
  (forall c' a j i, In (Auth c') (Auth c :: h) -> o_unpack (cl_out c') a = Ok j -> jw_iss j = Some i -> no_colon i) ->
  (forall c0 a0 j0 a j, In (Auth c0) h -> bears (cl_rq c0) a0 -> o_unpack (cl_out c0) a0 = Ok j0 ->
     bears (cl_rq c) a -> o_unpack (cl_out c) a = Ok j ->
     jw_iss j0 = jw_iss j -> jw_jti j0 = jw_jti j -> jw_jti j = None \/ jw_jti j = Some "") ->
  fst (run_call c s') = fst (run_call c (mkCA (ca_cdb s') [])).
Proof. exact not_blocked. Qed.
Print Assumptions C25_not_blocked.
Example C25_not_blocked_ex :
  let '(l, s') := run [Auth (call1 "jws1"); Auth (call1 "jws3")] s1 in
  (exists v, dget "c1:id1" (ca_jti s') = Some v) /\
  fst (run_call (call1 "jws4") s') = Ok (Some (mkAI (Some (VStr "c2")) None "private_key_jwt")).
Proof. vm_compute. split; [eexists; reflexivity|reflexivity]. Qed.

(** Refuted otherwise: an accepted assertion of client "a" with id "b:c" blocks the first assertion of client
    "a:b" with id "c". *)
Definition out2 : outside :=
  mkOut (fun b => Ok b) (fun p => p)
        (fun a => if String.eqb a "ja" then Ok (mkJwt (Some "ES256") None (Some "a") (Some ["https://op.example.org/token"]) (Some "b:c"))
                  else Ok (mkJwt (Some "ES256") None (Some "a:b") (Some ["https://op.example.org/token"]) (Some "c")))
        (fun _ _ => []) 1000.
Definition call2 (a : string) : call :=
  mkCall out2 (ep1 [Some MPrivateJwt]) "X" (Some no_token) [] [("client_assertion", VStr a)] NoAuthz.
Definition s2 : castate := mkCA [("a", []); ("a:b", [])] [].
Theorem C25_blocked_refuted :
  exists ca cb s x sa, run [Auth ca] s = ([x], sa) /\ accepted_jwt x = Some "ja" /\
    (forall j, o_unpack (cl_out ca) "ja" = Ok j -> jw_iss j = Some "a") /\
    cl_rq cb = [("client_assertion", VStr "jb")] /\ (forall j, o_unpack (cl_out cb) "jb" = Ok j -> jw_iss j = Some "a:b") /\
    fst (run_call cb s) = Ok (Some (mkAI (Some (VStr "a:b")) None "private_key_jwt")) /\
    fst (run_call cb sa) = Ok None.
Proof.
  exists (call2 "ja"), (call2 "jb"), s2. do 2 eexists. split; [vm_compute; reflexivity|]. split; [reflexivity|].
  split; [intros j [= <-]; reflexivity|]. split; [reflexivity|]. split; [intros j [= <-]; reflexivity|].
  split; vm_compute; reflexivity.
Qed.
Print Assumptions C25_blocked_refuted.

(** ** C53 *)
(** A client reported for a signed assertion issued it: the assertion verifies, is for this endpoint, is
    signed with the kind of key the method asks for and, if the key is shared, the issuer's secret
    is the first key held for the issuer; the client is known and its registration has not expired. *)
Theorem C53_assertion :
  forall o e cls of_token aka rq auth s ai s' private,
  verify_client o e cls (Some of_token) aka rq auth s = (Ok (Some ai), s') ->
  ai_method ai = (if private : bool then "private_key_jwt" else "client_secret_jwt") ->
  exists a j c d,
    dget "client_assertion" rq = Some (VStr a) /\ o_unpack o a = Ok j /\ jw_iss j = Some c /\
    for_us e j /\ key_fits o private j (ca_cdb s) /\
    named aka c d /\ ai_client ai = Some (VStr d) /\ d <> "" /\ standing (o_now o) (ca_cdb s) d.
Proof.
  intros o e cls f aka rq auth s ai s' private H M. apply verify_client_ok in H.
  destruct H as (_ & ai0 & s2 & (cid & Al & Em & K) & D).
  destruct D as [(l1 & m & l2 & _ & _ & V & _)|(_ & -> & -> & _)]; [|rewrite M in Em; destruct private; discriminate Em].
  pose proof (verify_tag _ _ _ _ _ _ _ _ V) as T.
  pose proof (verify_moves o e m rq (authz_str auth) s) as Mv. rewrite V in Mv. destruct Mv as (Mv & _). cbn in Mv.
  assert (m = if private then MPrivateJwt else MSecretJwt) by (apply tag_inj; destruct private; cbn [tag]; congruence). subst m.
  assert (V' : jws_verify o e private rq s = (Ok ai0, s2)) by (destruct private; exact V). clear V.
  apply jws_ok in V'. destruct V' as (a & j & c & s3 & A & U & I & KF & FU & _ & _ & ->).
  cbn [ai_client] in Al. apply alias_str in Al. destruct Al as (d & -> & N).
  destruct K as [(x & E & X & Ec & _ & St & _)|(F & _ & t & c' & E & _)]; [|discriminate E].
  injection E as <-. rewrite Mv in St. exists a, j, c, d. auto 12.
Qed.
Print Assumptions C53_assertion.
Example C53_ex :
  exists s', verify_client out1 (ep1 all_methods) "X" (Some no_token) [] [("client_assertion", VStr "jws1")] NoAuthz s1
    = (Ok (Some (mkAI (Some (VStr "c1")) None "client_secret_jwt")), s') /\
  verify_client out1 (ep1 all_methods) "X" (Some no_token) [] [("client_assertion", VStr "jws3")] NoAuthz s1 = (Ok None, s1).
Proof. eexists. split; vm_compute; reflexivity. Qed.

(** Refuted for request objects (request_param): neither the audience nor the kind of key is looked at. Every JWT
    that verifies makes the request one of the JWT's issuer. *)
Theorem C53_request_param_refuted :
  forall o e cls of_token rq s a j c info,
  ep_named e = true -> ep_methods e = [Some MRequestParam] ->
  dget "request" rq = Some (VStr a) -> o_unpack o a = Ok j -> jw_iss j = Some c -> c <> "" ->
  (jw_jti j = None \/ jw_jti j = Some "") ->
  dget c (ca_cdb s) = Some info -> not_expired (o_now o) info ->
  (dget "auth_method" info = None \/ exists d, dget "auth_method" info = Some (VDict d)) ->
  exists s', client_authentication o e cls of_token [] rq NoAuthz s = (Ok (Some (mkAI (Some (VStr c)) None "request_param")), s').
Proof.
  intros o e cls f rq s a j c info Hn Hm Ea Hu Ic Hc Hj Hi Hx Ha. unfold client_authentication, bind.
  rewrite verify_client_eq, Hn, Hm. unfold bind. cbn [try_methods is_usable]. unfold dmem. rewrite Ea.
  cbn [verify]. unfold catch, bind, request_param_verify, msub_str, lift. rewrite Ea. unfold bind. cbn beta iota. rewrite Hu.
  rewrite (jti_none o j s Hj), Ic. cbn [of_option ret tag].
  unfold settle. cbn [ai_client alias is_nil]. unfold bind, lift. cbn [ai_client ai_method ai_token].
  assert (Tc : truthy (VStr c) = true) by (cbn; now apply nonempty_true). rewrite Tc.
  unfold known_client, bind, gets, lift. rewrite Hi. apply valid_iff in Hx. rewrite Hx. cbn [ai_token].
  unfold note_method, truthy_get. destruct Ha as [-> | (d & ->)]; [eexists; reflexivity|].
  destruct (truthy (VDict d)); eexists; reflexivity.
Qed.
Print Assumptions C53_request_param_refuted.
Example C53_request_param_ex :
  exists s', verify_client out1 (ep1 [Some MRequestParam]) "X" (Some no_token) [] [("request", VStr "jws3")] NoAuthz s1
    = (Ok (Some (mkAI (Some (VStr "c2")) None "request_param")), s').
Proof. eexists. vm_compute. reflexivity. Qed.

(** ** C54 *)
(** A call that accepts nobody leaves the client database as it is; one that accepts a client changes at
    most the member auth_method of that client's entry. JWT ids are only added. *)
Theorem C54_effect :
  forall o e cls of_token aka rq auth s r s',
  verify_client o e cls of_token aka rq auth s = (r, s') ->
  grows (ca_jti s) (ca_jti s') /\
  match r with
  | Ok (Some ai) =>
      ca_cdb s' = ca_cdb s \/ exists c, ai_client ai = Some (VStr c) /\ only_noted c (ca_cdb s) (ca_cdb s')
  | _ => ca_cdb s' = ca_cdb s
  end.
Proof.
  intros o e cls f aka rq auth s r s' H. split; [exact (verify_client_jti _ _ _ _ _ _ _ _ _ _ H)|].
  assert (D : forall ai, r <> Ok (Some ai) \/ r = Ok (Some ai) \/ True) by auto. clear D.
  destruct r as [[ai|]|x].
  - apply verify_client_ok in H. destruct H as (_ & ai0 & s2 & (cid & Al & Em & K) & D).
    assert (E : ca_cdb s2 = ca_cdb s).
    { destruct D as [(l1 & m & l2 & _ & _ & V & _)|(_ & -> & _)]; [|reflexivity].
      pose proof (verify_moves o e m rq (authz_str auth) s) as M. rewrite V in M. apply M. }
    destruct K as [(c & -> & _ & Ec & _ & _ & N & _)|(_ & -> & _)]; [|now left].
    right. exists c. rewrite E in N. auto.
  - now destruct (verify_client_not _ _ _ _ _ _ _ _ _ _ H ltac:(discriminate)).
  - now destruct (verify_client_not _ _ _ _ _ _ _ _ _ _ H ltac:(discriminate)).
Qed.
Print Assumptions C54_effect.

(** ** C55 *)
(** At an endpoint that asks for one of the secret or assertion methods, the client_id of the request that is
    worked on is that of a client whose credentials verified, is known and has not expired; what
    the request said before does not matter, and the rest of the request is as it was. *)
Theorem C55_client_of_request :
  forall o e cls of_token rq auth s rq' cid s',
  (forall x, In x (ep_methods e) -> In x [Some MBasic; Some MPost; Some MSecretJwt; Some MPrivateJwt]) ->
  ep_methods e <> [] ->
  parse_auth o e cls of_token [] rq auth s = (Ok (rq', cid), s') ->
  exists c, cid = VStr c /\ c <> "" /\ standing (o_now o) (ca_cdb s) c /\
    dget "client_id" rq' = Some (VStr c) /\ (forall k, k <> "client_id" -> dget k rq' = dget k rq) /\
    ((exists header secret, authz_str auth = Some header /\ basic_credentials o header c secret /\
        secret_on_record (ca_cdb s) c (VStr secret)) \/
     (exists sent secret, dget "client_id" rq = Some (VStr c) /\ dget "client_secret" rq = Some sent /\
        secret_on_record (ca_cdb s) c secret /\ val_eqb secret sent = true) \/
     (exists a j private, dget "client_assertion" rq = Some (VStr a) /\ o_unpack o a = Ok j /\ jw_iss j = Some c /\
        for_us e j /\ key_fits o private j (ca_cdb s))).
Proof.
  intros o e cls f rq auth s rq' cid s' Hm Hne H. unfold parse_auth in H. apply bind_ok in H.
  destruct H as (r & s2 & A & H). unfold client_authentication in A. apply bind_ok in A.
  destruct A as (r1 & s3 & V & A).
  destruct r1 as [ai|].
  2:{ destruct (ep_methods e); [congruence|discriminate]. }
  injection A as <- <-.
  pose proof V as V0. apply verify_client_ok in V0. destruct V0 as (_ & ai0 & s4 & (x & _ & Em & _) & D).
  assert (T : exists m, In (Some m) (ep_methods e) /\ ai_method ai = tag m).
  { destruct D as [(l1 & m & l2 & El & _ & Vm & _)|(I & _)].
    - exists m. split; [rewrite El; apply in_or_app; right; now left|]. rewrite Em. exact (verify_tag _ _ _ _ _ _ _ _ Vm).
    - specialize (Hm _ I). cbn in Hm. intuition discriminate. }
  destruct T as (m & I & T). specialize (Hm _ I). clear D Em x s4 ai0 I.
  assert (Fin : forall c, ai_client ai = Some (VStr c) -> cid = VStr c /\ dget "client_id" rq' = Some (VStr c) /\
                (forall k, k <> "client_id" -> dget k rq' = dget k rq)).
  { intros c Ec. destruct ai as [ac at_ am]. cbn in Ec. subst ac. injection H as <- <- <-.
    split; [reflexivity|]. split; [apply dget_dset_eq|]. intros k Hk. now apply dget_dset_neq. }
  clear H.
  destruct Hm as [E|[E|[E|[E|[]]]]]; injection E as <-; cbn [tag] in T.
  - destruct (C23_basic _ _ _ _ _ _ _ _ _ _ V T) as (h & c & sec & d & A & B & C & N & Ec & Hd & St).
    cbn in N. subst d. destruct (Fin c Ec) as (F1 & F2 & F3). exists c. repeat (split; [assumption|]). left. eauto.
  - destruct (C23_post _ _ _ _ _ _ _ _ _ _ V T) as (c & sent & sec & d & A & B & C & Q & _ & N & Ec & Hd & St).
    cbn in N. subst d. destruct (Fin c Ec) as (F1 & F2 & F3). exists c. repeat (split; [assumption|]). right. left. eauto 6.
  - destruct (C53_assertion _ _ _ _ _ _ _ _ _ _ false V T) as (a & j & c & d & A & B & C & Q & Kf & N & Ec & Hd & St).
    cbn in N. subst d. destruct (Fin c Ec) as (F1 & F2 & F3). exists c. repeat (split; [assumption|]). right. right. eauto 10.
  - destruct (C53_assertion _ _ _ _ _ _ _ _ _ _ true V T) as (a & j & c & d & A & B & C & Q & Kf & N & Ec & Hd & St).
    cbn in N. subst d. destruct (Fin c Ec) as (F1 & F2 & F3). exists c. repeat (split; [assumption|]). right. right. eauto 10.
Qed.
Print Assumptions C55_client_of_request.
Example C55_ex :
  exists s', parse_auth out1 (ep1 [Some MBasic; Some MPost]) "X" (fun _ => no_token) [] [("client_id", VStr "c2"); ("state", VStr "x")]
    (AuthzStr "Basic c1:secret1") s1 = (Ok ([("client_id", VStr "c1"); ("state", VStr "x")], VStr "c1"), s').
Proof. eexists. vm_compute. reflexivity. Qed.

(** An endpoint for which client_authn_method is not configured (and no default applies) believes the
    client_id of every request. *)
Theorem C55_unconfigured_refuted :
  forall o cls of_token rq auth s targets iss,
  endpoint_methods None None = Ok [] /\
  parse_auth o (mkEp [] true targets iss) cls of_token [] rq auth s =
  (Ok (rq, match dget "client_id" rq with Some v => v | None => VNone end), s).
Proof. intros. split; reflexivity. Qed.
Print Assumptions C55_unconfigured_refuted.
