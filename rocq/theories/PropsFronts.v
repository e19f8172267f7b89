(** PropsFronts.v: who is served by the token and the introspection endpoint. *)
From Verif Require Import Base BaseProofs Monad MonadProofs Types SessionKey Token Grant GrantSpec GrantProofs Database DatabaseSpec DatabaseProofs Manager ManagerProofs
  Ctx Claims ClaimsSpec World Minting TokenEndpoint WorldSpec WorldProofs ClientAuthn ClientAuthnSpec ClientAuthnProofs UserInfo UserInfoSpec UserInfoProofs SystemSpec
  PropsClientAuthn PropsClaims PropsIntrospection PropsTokenEndpoint Fronts FrontsSpec FrontsProofs.
Local Open Scope Z_scope.

(** ** C86 *)
(** Tokens are given only to a request that shows the credentials of a registered client and presents a code or a refresh token that is
    usable, of a session with a usable grant. *)
Theorem C86_tokens :
  forall sid_of b64hash cx idt gt sharing helpers pkce clock m1 m2 ir rq auth f args cid f',
  asks (gt_ep gt) -> gt_aka gt = [] -> keeps (gt_check gt) ->
  sids_ok sid_of -> mint_ok m1 -> mint_ok m2 -> sound_store (w_db (fs_world f)) ->
  token_request sid_of b64hash cx idt gt sharing helpers pkce clock m1 m2 ir rq auth f = (Ok (AOk args cid), f') ->
  (exists c, shows (gt_out gt) (gt_ep gt) (w_cdb (fs_world f)) rq auth c) /\
  exists k v u c g t, presents rq k v /\ names sid_of (w_db (fs_world f)) v u c g t /\ t_class t = k /\
    token_usable clock t /\ token_usable (mt_clock m1) t /\ grant_usable (mt_clock m1) g.
Proof.
  intros sid_of b64hash cx idt gt sharing helpers pkce clock m1 m2 ir rq auth f args cid f' Ha Hk Hc Hs M1 M2 Sd H.
  unfold token_request in H. apply bind_ok in H. destruct H as (r & f1 & R & H).
  destruct (received gt rq auth (auth_of f)) as [r0 ca] eqn:E. rewrite (in_auth_run _ _ _ _ E) in R.
  assert (X : r0 = Ok r /\ f1 = mkFS (mkW (w_db (fs_world f)) (ca_cdb ca)) (ca_jti ca)) by (split; congruence). destruct X as [-> ->]. clear R.
  destruct (received_ok _ _ _ _ _ _ Ha Hk E) as (c & Sh & Hm). split; [exists c; exact Sh|].
  apply bind_ok in H. destruct H as (p & f2 & P & H). destruct r as [m|].
  2:{ unfold ret in P. assert (p = PErr "invalid_request" "") by congruence. subst p. unfold in_world in H. cbn in H. discriminate. }
  destruct (Hm m eq_refl) as (rq' & C1 & C2 & C3).
  assert (K : forall k, In k read_members -> dget k m = dget k rq).
  { intros k I. rewrite (Hc _ _ _ C1 k I). apply C3. intros ->. cbn in I. intuition discriminate. }
  unfold in_world, in_db in P. cbn [fs_world w_db w_cdb] in P.
  destruct (token_parse sid_of b64hash helpers pkce clock m (w_db (fs_world f))) as [rp s'] eqn:Ep.
  assert (X : rp = Ok p /\ f2 = mkFS (mkW s' (ca_cdb ca)) (ca_jti ca)) by (cbn [fs_jti] in P; split; congruence). destruct X as [-> ->]. clear P.
  destruct (token_parse_cases sid_of b64hash Hs _ _ _ _ _ _ _ Ep) as [-> Pc].
  destruct p as [rq1|err d]; [|unfold in_world in H; cbn in H; discriminate].
  destruct Pc as (g0 & Eg & _ & Pc).
  unfold in_world in H. cbn [fs_world] in H.
  destruct (token_process sid_of cx idt sharing helpers m1 m2 ir (PReq rq1) (mkW (w_db (fs_world f)) (ca_cdb ca))) as [r w'] eqn:Et.
  assert (r = Ok (AOk args cid)) by congruence. subst r. clear H.
  assert (Sx : success (Ok (AOk args cid))) by (do 2 eexists; reflexivity).
  assert (Same : forall v u1 c1 gid1 g1 u2 c2 gid2 g2, leads sid_of (w_db (fs_world f)) v u1 c1 gid1 g1 -> leads sid_of (w_db (fs_world f)) v u2 c2 gid2 g2 -> g2 = g1).
  { intros v u1 c1 gid1 g1 u2 c2 gid2 g2 (A1 & A2 & A3 & A4 & A5) (B1 & B2 & B3 & B4 & B5). rewrite A4 in B4. injection B4 as B4.
    apply key_eq in B4; [|auto with gp|auto with gp]. injection B4 as <- <- <-. congruence. }
  assert (Nm : forall v u1 c1 gid1 g1 t, leads sid_of (w_db (fs_world f)) v u1 c1 gid1 g1 -> get_token v g1 = Some t -> names sid_of (w_db (fs_world f)) v u1 c1 g1 t).
  { intros v u1 c1 gid1 g1 t (A1 & A2 & A3 & A4 & A5) T. apply (get_names sid_of _ v (session_key [u1; c1; gid1]) u1 c1 gid1 g1 t A4); [now apply unpack3_good|exact A5|exact T]. }
  destruct (process_cases sid_of b64hash cx idt Hs _ _ _ _ _ _ _ _ _ M1 M2 Et) as [[_ P]|[(P1 & P2 & r1 & w1 & P & _ & P3 & raw & P4)|(P1 & P2 & r1 & w1 & P & _ & P3 & v & P4)]]; [contradiction| |].
  - (* a code *)
    destruct (code_process_cases sid_of b64hash cx idt Hs _ _ _ _ _ _ _ M1 M2 P) as [[_ X]|(raw' & u & c2 & gid & g & g' & _ & Q2 & L & _ & _ & S)]; [now destruct X; apply P3|].
    cbn [w_db] in L. destruct (S (P3 Sx)) as (ar & t & t' & _ & _ & S1 & S2 & S3 & _).
    assert (raw' = raw) by congruence. subst raw'.
    destruct Pc as [[Q Pc]|[Q Pc]].
    + destruct (code_parse sid_of clock m (w_db (fs_world f))) as [r2 s2] eqn:E2. cbn in Pc. subst r2. apply (code_parse_cases sid_of Hs) in E2.
      destruct E2 as [_ (v & u3 & c3 & gid3 & g3 & t3 & D1 & D2 & D3 & D4 & D5 & D6)].
      assert (Eq : forall k, k <> "client_id" -> dget k rq1 = dget k m).
      { intros k Nk. destruct D6 as [-> |(x & _ & ->)]; [reflexivity|]. now apply dget_dset_neq. }
      rewrite Eq in Q2, P1 by discriminate. assert (v = raw) by congruence. subst v.
      assert (Bl : blank_to_plus raw = raw).
      { destruct (get_token_value _ _ _ D3) as [T1 T2]. destruct D2 as (_ & _ & _ & _ & V). apply view_key in V. specialize (Sd _ _ V). rewrite Forall_forall in Sd.
        destruct (Sd _ T2) as (_ & B & _). now rewrite T1 in B. }
      rewrite Bl in L, S1. assert (g = g3) by exact (Same _ _ _ _ _ _ _ _ _ D2 L). subst g3. assert (t3 = t) by congruence. subst t3.
      exists CCode, raw, u, c2, g, t. split; [|split; [now apply (Nm _ _ _ gid)|auto]].
      left. split; [reflexivity|]. rewrite <- !K by (cbn; auto). split; [exact P1|]. exists raw. split; [exact Q2|congruence].
    + exfalso. destruct (refresh_parse sid_of clock m (w_db (fs_world f))) as [r2 s2] eqn:E2. cbn in Pc. subst r2. apply (refresh_parse_cases sid_of Hs) in E2.
      destruct E2 as [_ (v & u3 & c3 & gid3 & g3 & t3 & D1 & D2 & D3 & D4 & D5 & ->)]. rewrite P1 in Eg. injection Eg as <-. congruence.
  - (* a refresh token *)
    destruct (refresh_process_cases sid_of cx idt Hs _ _ _ _ _ _ _ M1 M2 P) as [[_ X]|(raw' & u & c2 & gid & g & g' & _ & Q2 & L & _ & _ & S)]; [now destruct X; apply P3|].
    cbn [w_db] in L. destruct (S (P3 Sx)) as (t & S1 & S2 & S3 & _). assert (raw' = v) by congruence. subst raw'.
    destruct Pc as [[Q Pc]|[Q Pc]].
    + exfalso. destruct (code_parse sid_of clock m (w_db (fs_world f))) as [r2 s2] eqn:E2. cbn in Pc. subst r2. apply (code_parse_cases sid_of Hs) in E2.
      destruct E2 as [_ (v3 & u3 & c3 & gid3 & g3 & t3 & D1 & D2 & D3 & D4 & D5 & D6)].
      assert (Eq : forall k, k <> "client_id" -> dget k rq1 = dget k m).
      { intros k Nk. destruct D6 as [-> |(x & _ & ->)]; [reflexivity|]. now apply dget_dset_neq. }
      rewrite Eq in P1 by discriminate. rewrite P1 in Eg. injection Eg as <-. congruence.
    + destruct (refresh_parse sid_of clock m (w_db (fs_world f))) as [r2 s2] eqn:E2. cbn in Pc. subst r2. apply (refresh_parse_cases sid_of Hs) in E2.
      destruct E2 as [_ (v3 & u3 & c3 & gid3 & g3 & t3 & D1 & D2 & D3 & D4 & D5 & ->)]. assert (v3 = v) by congruence. subst v3.
      assert (g = g3) by exact (Same _ _ _ _ _ _ _ _ _ D2 L). subst g3. assert (t3 = t) by congruence. subst t3.
      exists CRefresh, v, u, c2, g, t. split; [|split; [now apply (Nm _ _ _ gid)|auto]].
      right. split; [reflexivity|]. rewrite <- !K by (cbn; auto). auto.
Qed.
Print Assumptions C86_tokens.

(** The introspection endpoint answers only such requests, and changes no session. *)
Theorem C86_introspection :
  forall sid_of cx gt clock username rq auth f a f',
  asks (gt_ep gt) -> gt_aka gt = [] -> keeps (gt_check gt) ->
  introspection_request sid_of cx gt clock username rq auth f = (Ok a, f') ->
  w_db (fs_world f') = w_db (fs_world f) /\
  exists c, shows (gt_out gt) (gt_ep gt) (w_cdb (fs_world f)) rq auth c /\
    forall args, a = IAnswer args -> dget "active" args = Some (VBool true) ->
      exists v u c' g t, dget "token" rq = Some (VStr v) /\ names sid_of (w_db (fs_world f)) v u c' g t /\
        (t_type t = "access_token" \/ t_type t = "refresh_token") /\ token_usable clock t.
Proof.
  intros sid_of cx gt clock username rq auth f a f' Ha Hk Hc H.
  unfold introspection_request in H. apply bind_ok in H. destruct H as (r & f1 & R & H).
  destruct (received gt rq auth (auth_of f)) as [r0 ca] eqn:E. rewrite (in_auth_run _ _ _ _ E) in R.
  assert (X : r0 = Ok r /\ f1 = mkFS (mkW (w_db (fs_world f)) (ca_cdb ca)) (ca_jti ca)) by (split; congruence). destruct X as [-> ->]. clear R.
  destruct (received_ok _ _ _ _ _ _ Ha Hk E) as (c & Sh & Hm).
  destruct r as [m|]; [|unfold ret in H; assert (X : a = IRefused "invalid_request" /\ f' = mkFS (mkW (w_db (fs_world f)) (ca_cdb ca)) (ca_jti ca)) by (split; congruence);
    destruct X as [-> ->]; split; [reflexivity|]; exists c; split; [exact Sh|]; discriminate].
  destruct (dmem "error" m).
  { unfold ret in H. assert (X : a = IBack m /\ f' = mkFS (mkW (w_db (fs_world f)) (ca_cdb ca)) (ca_jti ca)) by (split; congruence).
    destruct X as [-> ->]. split; [reflexivity|]. exists c. split; [exact Sh|]. discriminate. }
  destruct (Hm m eq_refl) as (rq' & C1 & C2 & C3).
  unfold bind, in_world, gets, in_db, ret in H. cbn [fs_world w_db w_cdb fs_jti] in H.
  destruct (introspection_process sid_of cx (ca_cdb ca) clock username m (w_db (fs_world f))) as [[an|x] s'] eqn:Ei; [|discriminate H].
  assert (X : a = match an with AOk args _ => IAnswer args | AError e _ => IRefused e end /\ f' = mkFS (mkW s' (ca_cdb ca)) (ca_jti ca)) by (split; congruence). destruct X as [-> ->].
  pose proof (introspection_state sid_of cx (ca_cdb ca) clock username m (w_db (fs_world f))) as St. rewrite Ei in St. cbn in St. subst s'.
  split; [reflexivity|]. exists c. split; [exact Sh|]. intros args X Act. destruct an as [|args' oc]; [discriminate|]. injection X as ->.
  destruct (C43_members_partial _ _ _ _ _ _ _ _ _ _ Ei) as (_ & _ & [-> |(v & u & c' & g & t & Hv & Hn & T1 & T2 & _)]); [discriminate Act|].
  exists v, u, c', g, t. split; [|auto]. rewrite <- Hv. symmetry. rewrite (Hc _ _ _ C1) by (cbn; auto). apply C3. discriminate.
Qed.
Print Assumptions C86_introspection.

(** Without credentials of a registered client there is no answer at all: an exception, not an error message. Sessions and clients
    are as before. *)
Theorem C86_unauthenticated_refuted :
  forall sid_of b64hash cx idt gt sharing helpers pkce clock m1 m2 ir username rq auth f,
  asks (gt_ep gt) -> gt_aka gt = [] -> (forall c, ~ shows (gt_out gt) (gt_ep gt) (w_cdb (fs_world f)) rq auth c) ->
  exists x f', fs_world f' = fs_world f /\ ClientAuthnSpec.grows (fs_jti f) (fs_jti f') /\
    token_request sid_of b64hash cx idt gt sharing helpers pkce clock m1 m2 ir rq auth f = (Raise x, f') /\
    introspection_request sid_of cx gt clock username rq auth f = (Raise x, f').
Proof.
  intros sid_of b64hash cx idt gt sharing helpers pkce clock m1 m2 ir username rq auth f Ha Hk N.
  destruct (received_not gt rq auth (auth_of f) Ha Hk N) as (x & ca & E & E1 & E2). exists x, (mkFS (mkW (w_db (fs_world f)) (ca_cdb ca)) (ca_jti ca)).
  split; [cbn; rewrite E1; destruct f as [[? ?] ?]; reflexivity|]. split; [exact E2|].
  unfold token_request, introspection_request, bind. rewrite (in_auth_run _ _ _ _ E). auto.
Qed.
Print Assumptions C86_unauthenticated_refuted.

(** Where no method is configured, which is how both endpoints are set up if nothing is said, everyone is served: the credentials, right, wrong or
    missing, make no difference, and the request is worked on as it is. *)
Theorem C86_open_refuted :
  forall sid_of b64hash cx idt gt sharing helpers pkce clock m1 m2 ir username rq auth f m,
  asks_nothing (gt_ep gt) -> gt_check gt (match dget "client_id" rq with Some v => v | None => VNone end) rq = CkOk m ->
  endpoint_methods None None = Ok [] /\
  token_request sid_of b64hash cx idt gt sharing helpers pkce clock m1 m2 ir rq auth f =
    in_world (exchange sid_of b64hash cx idt sharing helpers pkce clock m1 m2 ir m) f /\
  (dget "error" m = None ->
   introspection_request sid_of cx gt clock username rq auth f =
     (let (r, s) := introspection_process sid_of cx (w_cdb (fs_world f)) clock username m (w_db (fs_world f)) in
      (match r with Ok (AOk args _) => Ok (IAnswer args) | Ok (AError e _) => Ok (IRefused e) | Raise x => Raise x end, mkFS (mkW s (w_cdb (fs_world f))) (fs_jti f)))) /\
  (dget "error" m <> None -> introspection_request sid_of cx gt clock username rq auth f = (Ok (IBack m), f)).
Proof.
  intros sid_of b64hash cx idt gt sharing helpers pkce clock m1 m2 ir username rq auth f m Ha Hc. split; [reflexivity|].
  assert (E : in_auth (received gt rq auth) f = (Ok (Some m), f)).
  { rewrite (in_auth_run _ _ (Ok (Some m)) (auth_of f)); [destruct f as [[? ?] ?]; reflexivity|]. rewrite received_open by exact Ha. now rewrite Hc. }
  split; [|split].
  - unfold token_request, bind. rewrite E. unfold in_world, exchange, bind, in_db.
    destruct (token_parse sid_of b64hash helpers pkce clock m (w_db (fs_world f))) as [[p|x] s]; reflexivity.
  - intros N. unfold introspection_request, bind. rewrite E. unfold dmem. rewrite N. unfold in_world, gets, in_db. cbn [fs_world w_db w_cdb fs_jti].
    destruct f as [[db cdb] jti]. cbn [fs_world w_db w_cdb fs_jti].
    destruct (introspection_process sid_of cx cdb clock username m db) as [[[e d|args o]|x] s]; reflexivity.
  - intros N. unfold introspection_request, bind. rewrite E. unfold dmem. destruct (dget "error" m) as [v|]; [reflexivity|now destruct N].
Qed.
Print Assumptions C86_open_refuted.

(** A request the check refuses is answered with the error invalid_request, or there is an exception; no session is changed. *)
Theorem C86_malformed :
  forall sid_of b64hash cx idt gt sharing helpers pkce clock m1 m2 ir username rq auth f,
  malformed gt rq ->
  (exists r f', token_request sid_of b64hash cx idt gt sharing helpers pkce clock m1 m2 ir rq auth f = (r, f') /\
     w_db (fs_world f') = w_db (fs_world f) /\ (r = Ok (AError "invalid_request" "") \/ exists x, r = Raise x)) /\
  (exists r f', introspection_request sid_of cx gt clock username rq auth f = (r, f') /\
     w_db (fs_world f') = w_db (fs_world f) /\ (r = Ok (IRefused "invalid_request") \/ exists x, r = Raise x)).
Proof.
  intros sid_of b64hash cx idt gt sharing helpers pkce clock m1 m2 ir username rq auth f [B1 B2].
  assert (R : exists r f1, in_auth (received gt rq auth) f = (r, f1) /\ w_db (fs_world f1) = w_db (fs_world f) /\ (r = Ok None \/ exists x, r = Raise x)).
  { destruct (received gt rq auth (auth_of f)) as [r ca] eqn:E. rewrite (in_auth_run _ _ _ _ E). do 2 eexists. split; [reflexivity|]. split; [reflexivity|].
    unfold received, bind in E. destruct (parse_auth _ _ _ _ _ _ _ _) as [[[rq' c]|x] s1] eqn:P; [|right; exists x; congruence].
    assert (X : gt_check gt c rq' = CkBad).
    { unfold parse_auth, bind in P. destruct (client_authentication _ _ _ _ _ _ _ _) as [[[[[c'|] t m]|]|x] s2]; unfold ret in P; try discriminate P.
      - assert (X : rq' = dset "client_id" c' rq /\ c = c') by (split; congruence). destruct X as [-> ->]. apply B2.
      - assert (X : rq' = rq) by congruence. subst rq'. apply B1.
      - assert (X : rq' = rq) by congruence. subst rq'. apply B1. }
    rewrite X in E. unfold ret in E. left. congruence. }
  destruct R as (r & f1 & R & Hd & D). split.
  - unfold token_request, bind. rewrite R. destruct D as [-> |(x & ->)].
    + unfold ret. unfold in_world. cbn. unfold ret. destruct f1 as [[? ?] ?]. eauto 10.
    + eauto 10.
  - unfold introspection_request, bind. rewrite R. destruct D as [-> |(x & ->)]; unfold ret; eauto 10.
Qed.
Print Assumptions C86_malformed.

(** Where an assertion is asked for, one assertion is good for one request: if a token or an introspection request with it got through, then
    whatever happened since, a request with it, or with another of the same issuer and id, is not, at no endpoint that asks for an assertion: there is an
    exception, and nothing is changed in the sessions. *)
Theorem C86_assertion_once :
  forall sid_of b64hash cx idt,
  let token := token_request sid_of b64hash cx idt in
  let introspect := introspection_request sid_of cx in
  forall gt1 gt2 rq1 rq2 auth1 auth2 a1 a2 j1 j2 f f1 f2,
  asks_jwt (gt_ep gt1) -> asks_jwt (gt_ep gt2) ->
  dget "client_assertion" rq1 = Some (VStr a1) -> dget "client_assertion" rq2 = Some (VStr a2) ->
  o_unpack (gt_out gt1) a1 = Ok j1 -> o_unpack (gt_out gt2) a2 = Ok j2 -> same_id j1 j2 ->
  ((exists sharing helpers pkce clock m1 m2 ir answer, token gt1 sharing helpers pkce clock m1 m2 ir rq1 auth1 f = (Ok answer, f1)) \/
   (exists clock username answer, introspect gt1 clock username rq1 auth1 f = (Ok answer, f1))) ->
  later sid_of b64hash cx idt f1 f2 ->
  (forall sharing helpers pkce clock m1 m2 ir, exists x f3,
     token gt2 sharing helpers pkce clock m1 m2 ir rq2 auth2 f2 = (Raise x, f3) /\ w_db (fs_world f3) = w_db (fs_world f2)) /\
  (forall clock username, exists x f3,
     introspect gt2 clock username rq2 auth2 f2 = (Raise x, f3) /\ w_db (fs_world f3) = w_db (fs_world f2)).
Proof.
  intros sid_of b64hash cx idt token introspect gt1 gt2 rq1 rq2 auth1 auth2 a1 a2 j1 j2 f f1 f2 J1 J2 A1 A2 U1 U2 (I1 & I2 & t & T & Nt) H L.
  assert (R1 : exists r f0, in_auth (received gt1 rq1 auth1) f = (Ok r, f0) /\ fs_jti f1 = fs_jti f0).
  { destruct H as [(sharing & helpers & pkce & clock & m1 & m2 & ir & an & H)|(clock & username & an & H)].
    - destruct (token_after _ _ _ _ _ _ _ _ _ _ _ _ _ _ _ _ _ H) as ([r|x] & f0 & E & J & D); [eauto|]. destruct D. discriminate.
    - destruct (introspection_after _ _ _ _ _ _ _ _ _ _ H) as ([r|x] & f0 & E & J & D); [eauto|]. destruct D. discriminate. }
  destruct R1 as (r & f0 & R1 & E1).
  assert (K : exists key v, jkey j1 = Some key /\ dget key (fs_jti f1) = Some v).
  { destruct (received gt1 rq1 auth1 (auth_of f)) as [r1 ca] eqn:E. rewrite (in_auth_run _ _ _ _ E) in R1.
    assert (X : r1 = Ok r /\ f0 = mkFS (mkW (w_db (fs_world f)) (ca_cdb ca)) (ca_jti ca)) by (split; congruence). destruct X as [-> ->].
    destruct (received_jwt _ _ _ _ _ _ _ _ _ J1 E A1 U1 T Nt) as (key & Kk & _ & v & Kv). exists key, v. split; [exact Kk|]. rewrite E1. exact Kv. }
  destruct K as (key & v & K & G). apply (later_grows _ _ _ _ _ _ L) in G.
  assert (R2 : exists x f3, in_auth (received gt2 rq2 auth2) f2 = (Raise x, f3) /\ w_db (fs_world f3) = w_db (fs_world f2)).
  { destruct (received gt2 rq2 auth2 (auth_of f2)) as [[r2|x] ca] eqn:E.
    - exfalso. destruct (received_jwt _ _ _ _ _ _ _ _ t J2 E A2 U2 ltac:(congruence) Nt) as (key2 & K2 & N2 & _).
      assert (key2 = key) by (rewrite (jkey_ext _ _ I1 I2) in K; congruence). subst key2. unfold auth_of in N2. cbn [ca_jti] in N2. congruence.
    - rewrite (in_auth_run _ _ _ _ E). do 2 eexists. split; reflexivity. }
  destruct R2 as (x & f3 & R2 & Hd). split.
  - intros. exists x, f3. split; [|exact Hd]. unfold token, token_request, bind. now rewrite R2.
  - intros. exists x, f3. split; [|exact Hd]. unfold introspect, introspection_request, bind. now rewrite R2.
Qed.
Print Assumptions C86_assertion_once.

(** Any client can introspect any client's tokens: with the secret of one client all is told about a token that was issued to another. *)
Theorem C86_any_client_refuted :
  forall sid_of cx gt clock username rq auth f header me secret info v u c g t l,
  ep_named (gt_ep gt) = true -> ep_methods (gt_ep gt) = Some MBasic :: l -> gt_aka gt = [] -> keeps (gt_check gt) ->
  (forall rq', gt_check gt (VStr me) rq' = CkOk rq') ->
  me <> "" -> dget me (w_cdb (fs_world f)) = Some info -> not_expired (o_now (gt_out gt)) info -> dget "client_secret" info = Some (VStr secret) ->
  dget "auth_method" info = None ->
  authz_str auth = Some header -> basic_credentials (gt_out gt) header me secret ->
  dget "token" rq = Some (VStr v) -> dget "error" rq = None ->
  names sid_of (w_db (fs_world f)) v u c g t -> (t_type t = "access_token" \/ t_type t = "refresh_token") -> token_usable clock t ->
  dget "introspection" (g_claims g) = None ->
  exists args f', introspection_request sid_of cx gt clock username rq auth f = (Ok (IAnswer args), f') /\
    dget "active" args = Some (VBool true) /\ dget "client_id" args = Some (VStr c) /\ dget "sub" args = Some (VStr (g_sub g)).
Proof.
  intros sid_of cx gt clock username rq auth f header me secret info v u c g t l Hn Hm Ha Hk Hc Nme Hi Hx Hs Hau Hh Hb Hv He Nm Ty Us Nc.
  destruct (C23_accepts (gt_out gt) (gt_ep gt) (gt_cls gt) (Some (fun _ => Ok (VStr ""))) rq auth (auth_of f) [] MBasic l me info Hn Hm ltac:(intros m' []) Nme Hi Hx (or_introl Hau)
    ltac:(exists secret, header; auto)) as (ca & V).
  assert (E : in_auth (received gt rq auth) f = (Ok (Some (dset "client_id" (VStr me) rq)), mkFS (mkW (w_db (fs_world f)) (ca_cdb ca)) (ca_jti ca))).
  { apply in_auth_run. unfold received, parse_auth, client_authentication, bind. rewrite Ha, V. unfold ret. rewrite Hc. reflexivity. }
  assert (Hok : claims_ok (ca_cdb ca) g "introspection") by (intros r X; congruence).
  assert (Hv' : dget "token" (dset "client_id" (VStr me) rq) = Some (VStr v)) by (rewrite dget_dset_neq by discriminate; exact Hv).
  destruct (C43_active_iff sid_of cx (ca_cdb ca) clock username _ (w_db (fs_world f)) v u c g t Hv' Nm Hok) as (args & Ei & Act & _).
  assert (A : dget "active" args = Some (VBool true)) by (apply Act; auto).
  exists args. eexists. split; [|split; [exact A|]].
  - unfold introspection_request, bind. rewrite E. unfold dmem. rewrite dget_dset_neq by discriminate. rewrite He. unfold in_world, gets, in_db. cbn [fs_world w_db w_cdb fs_jti].
    rewrite Ei. unfold ret. reflexivity.
  - destruct (C43_members_partial _ _ _ _ _ _ _ _ _ _ Ei) as (_ & _ & [-> |(v' & u' & c' & g' & t' & Hw & Hn' & _ & _ & _ & X1 & X2 & _)]); [discriminate A|].
    assert (v' = v) by congruence. subst v'. destruct (names_fun _ _ _ _ _ _ _ _ _ _ _ Nm Hn') as (-> & -> & -> & ->).
    assert (Nl : forall k spec, ~ listed (ca_cdb ca) g "introspection" k spec) by (intros k spec (r & X & _); congruence).
    split; [apply X1|apply X2]; intros spec; apply Nl.
Qed.
Print Assumptions C86_any_client_refuted.

(** ** Data for the examples: a session of c1, and another client with a secret *)
Definition clients86 : cdb := clients1 ++ [("other", [("client_id", VStr "other"); ("client_secret", VStr "s3cret")])].
Definition gate86 (l : list (option cmethod)) : gate := mkGate out1 (ep1 l) "TokenRequest" [] (fun _ m => CkOk m).
Definition f86 : fstate := mkFS (mkW (st1 (gr2 ar3) false) clients86) [].
Definition basic86 (s : string) : authz_data := AuthzStr ("Basic other:" ++ s).

Lemma keeps86 l : keeps (gt_check (gate86 l)).
Proof. intros c m m' E k _. cbn in E. congruence. Qed.
Lemma asks86 : asks (gt_ep (gate86 [Some MBasic; Some MPost])).
Proof. split; [discriminate|]. intros x [<-|[<-|[]]]; cbn; auto. Qed.

(** The other client redeems the code of c1, with its own credentials. With a wrong secret there is an exception. *)
Example C86_tokens_ex :
  (exists args f', token_request sid2 hash2 cx1 idt2 (gate86 [Some MBasic; Some MPost]) false both true 2000 (mt2 "at9") (mt2 "rt9") None
      (code_request "c1") (basic86 "s3cret") f86 = (Ok (AOk args None), f') /\
    dget "access_token" args = Some (VStr "at9") /\ fs_world f' <> fs_world f86) /\
  token_request sid2 hash2 cx1 idt2 (gate86 [Some MBasic; Some MPost]) false both true 2000 (mt2 "at9") (mt2 "rt9") None
      (code_request "c1") (basic86 "guess") f86 = (Raise EUnAuthorizedClient, f86).
Proof.
  split; [|vm_compute; reflexivity].
  eexists. eexists. split; [vm_compute; reflexivity|]. split; [vm_compute; reflexivity|]. intros E. vm_compute in E. discriminate E.
Qed.

Example C86_introspection_ex :
  (exists args f', introspection_request sid2 cx1 (gate86 [Some MBasic; Some MPost]) 2000 true (irq "rt1") (basic86 "s3cret") f86 = (Ok (IAnswer args), f') /\
    dget "active" args = Some (VBool true) /\ dget "client_id" args = Some (VStr "c1")) /\
  introspection_request sid2 cx1 (gate86 [Some MBasic; Some MPost]) 2000 true (irq "rt1") (basic86 "guess") f86 = (Raise EUnAuthorizedClient, f86).
Proof. split; [|vm_compute; reflexivity]. eexists. eexists. split; [vm_compute; reflexivity|]. split; reflexivity. Qed.

(** With a wrong secret, no client is shown. *)
Example C86_unauthenticated_ex : forall c, ~ shows out1 (ep1 [Some MBasic; Some MPost]) clients86 (code_request "c1") (basic86 "guess") c.
Proof.
  intros c (N & _ & [(h & s & E & B & R)|[(sent & s & _ & E & _)|(a & j & p & E & _)]]); try discriminate E.
  assert (h = "Basic other:guess") by (cbn in E; congruence). subst h. apply basic_authn_iff in B. vm_compute in B. injection B as <- <-.
  destruct R as (info & R1 & R2). vm_compute in R1. injection R1 as <-. vm_compute in R2. discriminate R2.
Qed.

(** Nothing configured: wrong credentials do, and so do none. *)
Example C86_open_ex :
  (exists args f', token_request sid2 hash2 cx1 idt2 (gate86 []) false both true 2000 (mt2 "at9") (mt2 "rt9") None
      (code_request "c1") (basic86 "guess") f86 = (Ok (AOk args None), f') /\ dget "access_token" args = Some (VStr "at9")) /\
  (exists args f', introspection_request sid2 cx1 (gate86 []) 2000 true (irq "rt1") NoAuthz f86 = (Ok (IAnswer args), f') /\
    dget "active" args = Some (VBool true)).
Proof. split; eexists; eexists; (split; [vm_compute; reflexivity|]); reflexivity. Qed.

(** The conditions of [C86_any_client_refuted] are met. *)
Example C86_any_client_ex :
  exists args f', introspection_request sid2 cx1 (gate86 [Some MBasic]) 2000 true (irq "rt1") (basic86 "s3cret") f86 = (Ok (IAnswer args), f') /\
    dget "active" args = Some (VBool true) /\ dget "client_id" args = Some (VStr "c1") /\ dget "sub" args = Some (VStr "sub-of-diana").
Proof.
  refine (C86_any_client_refuted sid2 cx1 (gate86 [Some MBasic]) 2000 true (irq "rt1") (basic86 "s3cret") f86 "Basic other:s3cret" "other" "s3cret"
    [("client_id", VStr "other"); ("client_secret", VStr "s3cret")] "rt1" "diana" "c1" (gr2 ar3) (tk CRefresh "refresh_token" "rt1" refresh_rules) []
    eq_refl eq_refl eq_refl (keeps86 _) (fun _ => eq_refl) _ eq_refl _ eq_refl eq_refl eq_refl _ eq_refl eq_refl _ _ _ eq_refl).
  - discriminate.
  - intros v E. discriminate E.
  - apply basic_authn_iff. vm_compute. reflexivity.
  - apply (get_names sid2 _ "rt1" sid1 "diana" "c1" "g1"); reflexivity.
  - right. reflexivity.
  - apply t_active_iff. reflexivity.
Qed.

(** A request without a token is refused, and nothing is said about it. *)
Definition gate86_strict (l : list (option cmethod)) : gate :=
  mkGate out1 (ep1 l) "TokenIntrospectionRequest" [] (fun _ m => if dmem "token" m then CkOk m else CkBad).
Example C86_malformed_ex :
  malformed (gate86_strict [Some MBasic]) [("token_type_hint", VStr "x")] /\
  fst (introspection_request sid2 cx1 (gate86_strict [Some MBasic]) 2000 true [("token_type_hint", VStr "x")] (basic86 "s3cret") f86) = Ok (IRefused "invalid_request") /\
  fst (token_request sid2 hash2 cx1 idt2 (gate86_strict [Some MBasic]) false both true 2000 (mt2 "at9") (mt2 "rt9") None
      (code_request "c1") (basic86 "s3cret") f86) = Ok (AError "invalid_request" "").
Proof. split; [split; intros c; reflexivity|]. split; vm_compute; reflexivity. Qed.

(** A request with an "error" is handed back. *)
Example C86_back_ex :
  introspection_request sid2 cx1 (gate86 []) 2000 true [("error", VStr "x"); ("token", VStr "rt1")] NoAuthz f86
    = (Ok (IBack [("error", VStr "x"); ("token", VStr "rt1")]), f86).
Proof. vm_compute. reflexivity. Qed.

(** The client introspects a token with an assertion; then the assertion gets neither tokens nor an answer. *)
Definition f86_jwt : fstate := mkFS (mkW (st1 (gr2 ar3) false) cdb1) [].
Definition gate86_jwt : gate := gate86 [Some MSecretJwt; Some MPrivateJwt].
Definition with_jwt (m : msg) : msg := m ++ [("client_assertion", VStr "jws1")].
Example C86_assertion_ex :
  asks_jwt (gt_ep gate86_jwt) /\
  exists args f1, introspection_request sid2 cx1 gate86_jwt 2000 true (with_jwt (irq "rt1")) NoAuthz f86_jwt = (Ok (IAnswer args), f1) /\
    dget "active" args = Some (VBool true) /\
    (exists x, fst (token_request sid2 hash2 cx1 idt2 gate86_jwt false both true 2000 (mt2 "at9") (mt2 "rt9") None (with_jwt (code_request "c1")) NoAuthz f1) = Raise x) /\
    exists args' f2, token_request sid2 hash2 cx1 idt2 gate86_jwt false both true 2000 (mt2 "at9") (mt2 "rt9") None (with_jwt (code_request "c1")) NoAuthz f86_jwt = (Ok (AOk args' None), f2).
Proof.
  split; [split; [discriminate|]; intros x [<-|[<-|[]]]; cbn; auto|].
  eexists. eexists. split; [vm_compute; reflexivity|]. split; [reflexivity|]. split; [eexists; vm_compute; reflexivity|].
  eexists. eexists. vm_compute. reflexivity.
Qed.
