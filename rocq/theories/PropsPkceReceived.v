(** PropsPkceReceived.v: C14 from the received requests on. Who has got hold of a code but does not know the verifier gets no tokens. *)
From Verif Require Import Base BaseProofs SessionKey SessionKeyProofs Monad MonadProofs Types Token Grant GrantSpec GrantProofs Database DatabaseSpec DatabaseProofs
  Manager ManagerSpec ManagerProofs Ctx World Minting ClientAuthn ClientAuthnSpec TokenEndpoint WorldSpec WorldProofs
  Uri AuthzRequest AuthzEndpoint SetupAuthSpec System SystemSpec SystemProofs Preserve Fronts FrontsSpec FrontsProofs AuthzFront Door DoorSpec DoorProofs DoorRequestProofs.
From Verif Require Import PropsDoor SetupAuth UserInfo.
Local Open Scope Z_scope.

(** The codes made so far have no blanks in them. *)
Definition codes_without_blanks (dp : dpast) : Prop :=
  forall h gt re oidc pk e az rq auth, In h dp -> fst h = KAuthorize gt re oidc pk e az rq auth -> mint_ok (az_code az).

(** The verifier answers the challenge (RFC 7636, 4.6). *)
Definition answers_challenge (b64hash : string -> string -> string) (how challenge verifier : string) : Prop :=
  how = "plain"%string /\ verifier = challenge \/ In how ["S256"; "S384"; "S512"]%string /\ b64hash how verifier = challenge.

Lemma mint_in_value cx mt sid g ttype base rules w t g' w' : mint_in cx mt sid g ttype base rules w = (Ok (Some t, g'), w') ->
  exists p, mt_value mt sid p = Ok (t_value t).
Proof.
  unfold mint_in, lift, ret, bind. intros H. destruct (mint_token _ _ _ _ _ _ _ _ (Ok "")) as [[[t0|] g0]|e]; [|discriminate|discriminate].
  destruct (unpack3 sid) as [[[u c] gid]|e]; [|discriminate].
  destruct (payload_arguments cx u c g ttype None w) as [[p|e] w1]; [|discriminate].
  assert (C := mint_token_cases (mt_clock mt) (mt_id mt) g ttype base rules None no_kw (mt_value mt sid p)).
  destruct (mint_token _ _ _ _ _ _ _ _ (mt_value mt sid p)) as [[[t1|] g1]|e]; [|discriminate|discriminate].
  assert (t1 = t) by congruence. subst t1. exists p. apply C.
Qed.
Lemma endpoint_mint_value cx mt sid g ttype base w t g' w' : endpoint_mint cx mt sid g ttype base w = (Ok (Some t, g'), w') ->
  exists p, mt_value mt sid p = Ok (t_value t).
Proof.
  unfold endpoint_mint. intros H. destruct (bind_ok _ _ _ _ _ H) as ([o g1] & w1 & E & H1). destruct o as [t1|].
  - apply mint_in_value in E. cbv zeta in H1. destruct (bind_ok _ _ _ _ _ H1) as (x & w2 & _ & H2). unfold ret in H2.
    destruct (Minting.lifetime _ =? 0); [assert (t1 = t) by congruence; now subst t1|]. assert (X : t_set_expires_at (mt_clock mt + Minting.lifetime (dget ttype (gr_types (g_rules g)))) t1 = t) by congruence.
    subst t. exact E.
  - destruct (negb _); [discriminate|]. destruct (bind_ok _ _ _ _ _ H1) as (x & w2 & _ & H2). discriminate.
Qed.
Lemma code_made y m1 m2 ir rq w args oc w' raw u c g gr : sids_ok (sy_sid_of y) ->
  code_process (sy_sid_of y) (sy_cx y) (sy_idtoken y) m1 m2 ir rq w = (Ok (AOk args oc), w') ->
  dget "code" rq = Some (VStr raw) -> blank_to_plus raw = raw -> leads (sy_sid_of y) (w_db w) raw u c g gr ->
  exists v p, dget "access_token" args = Some (VStr v) /\ mt_value m1 (session_key [u; c; g]) p = Ok v.
Proof.
  intros Hs H Dc Bl L. unfold code_process in H.
  destruct (bind_ok _ _ _ _ _ H) as (gt & w1 & Eg & H1). clear H. unfold lift in Eg. assert (w1 = w) by congruence. subst w1. clear Eg.
  destruct (gt =? "authorization_code")%string eqn:Q; cbn [negb] in H1; [|discriminate]. clear Q.
  destruct (dmem "code" rq); cbn [negb] in H1; [|discriminate].
  destruct (bind_ok _ _ _ _ _ H1) as (raw' & w1 & Er & H2). clear H1. unfold lift in Er. assert (w1 = w) by congruence. subst w1.
  assert (Er' : msub_str "code" rq = Ok raw') by congruence. clear Er. apply msub_str_ok in Er'. assert (raw' = raw) by congruence. subst raw'.
  cbv zeta in H2. rewrite Bl in H2.
  destruct (bind_ok _ _ _ _ _ H2) as ([i g0] & w1 & Es & H3). clear H2. apply (in_session_by (sy_sid_of y) Hs) in Es. destruct Es as [-> Es].
  destruct Es as (u' & c' & gid & L' & ->). cbn [in_sid] in H3.
  assert (K : session_key [u'; c'; gid] = session_key [u; c; g]).
  { destruct L as (_ & _ & _ & E1 & _), L' as (_ & _ & _ & E2 & _). congruence. }
  rewrite K in H3.
  destruct (bind_ok _ _ _ _ _ H3) as (ar & w1 & _ & H4). clear H3. destruct (bind_ok _ _ _ _ _ H4) as (b & w2 & _ & H5). clear H4.
  destruct b; [discriminate|].
  destruct (bind_ok _ _ _ _ _ H5) as ([o g1] & w3 & Em & H6). clear H5.
  destruct (bind_ok _ _ _ _ _ H6) as (t & w4 & Et & H7). clear H6.
  assert (o = Some t). { unfold the_token, lift, of_option in Et. destruct o; [|discriminate]. injection Et as ->. reflexivity. } subst o.
  apply endpoint_mint_value in Em. destruct Em as [p Em]. exists (t_value t), p. split; [|exact Em]. cbv zeta in H7.
  destruct (bind_ok _ _ _ _ _ H7) as ([g2 resp] & w5 & E8 & H8). clear H7.
  assert (Hr : dget "access_token" resp = Some (VStr (t_value t))).
  { destruct (match ir with Some b => b | None => smem "offline_access" (g_scope g0) end).
    - destruct (bind_ok _ _ _ _ _ E8) as ([o g3] & w6 & _ & E9). destruct (bind_ok _ _ _ _ _ E9) as (rt & w7 & _ & E10). unfold ret in E10.
      assert (R : resp = dset "refresh_token" (VStr (t_value rt)) (dset "expires_in" (VInt (t_expires_at t - mt_clock m1))
           (dset "access_token" (VStr (t_value t)) [("token_type", VStr "Bearer"); ("scope", vstrs (g_scope g0))]%string))) by congruence.
      rewrite R. reflexivity.
    - unfold ret in E8. assert (R : resp = dset "expires_in" (VInt (t_expires_at t - mt_clock m1))
           (dset "access_token" (VStr (t_value t)) [("token_type", VStr "Bearer"); ("scope", vstrs (g_scope g0))]%string)) by congruence.
      rewrite R. reflexivity. }
  destruct (bind_ok _ _ _ _ _ H8) as (x1 & w6 & _ & H9). destruct (bind_ok _ _ _ _ _ H9) as (x2 & w7 & _ & H10).
  destruct (bind_ok _ _ _ _ _ H10) as (x3 & w8 & _ & H11). destruct (bind_ok _ _ _ _ _ H11) as (op & w9 & _ & H12).
  destruct op.
  - unfold add_id_token in H12. destruct (bind_ok _ _ _ _ _ H12) as (ox & w10 & _ & H13). destruct ox as [it|]; [|discriminate].
    unfold ret in H13. assert (A : args = dset "id_token" (VStr it) resp) by congruence. rewrite A, dget_dset_neq by discriminate. exact Hr.
  - unfold ret in H12. assert (A : args = resp) by congruence. now rewrite A.
Qed.
Lemma code_plain y dp u c g k v : dtraced y dp u c g k v -> k = CCode -> codes_without_blanks dp -> blank_to_plus v = v.
Proof.
  induction 1 as [h dp u c g k v H IH|h dp u c g k v H|h dp u c g k v rq k0 k1 v0 H|h dp u c g k v rq H]; intros Ek Hb.
  - apply IH; [exact Ek|]. intros h' gt re oidc pk e az rq auth I. apply (Hb h' gt re oidc pk e az rq auth). now right.
  - destruct H as (e & az & id & p & (gt & re & oidc & pk & rq & auth & m & Eh & _) & _ & [[_ V]|[Ek' _]]); [|congruence].
    exact (Hb h gt re oidc pk e az rq auth (or_introl eq_refl) Eh _ _ _ V).
  - destruct H as (? & ? & ? & ? & ? & ? & ? & _ & _ & [[E _]|[E _]]); congruence.
  - destruct H as (? & ? & ? & ? & ? & ? & ? & _ & _ & [[E _]|[E _]]); congruence.
Qed.

(** A request with a code is answered with tokens only if the code was handed out in a visit with the client's request [m], and, with PKCE, if [m] has
    a challenge, only if the request brings a verifier that answers it. The access token is one of that session. *)
Theorem C14_received : forall y a dp gt clock m1 m2 ir rq auth args cid f,
  sids_ok (sy_sid_of y) -> arrivals y a dp -> codes_without_blanks dp -> keeps (gt_check gt) ->
  sy_pkce y = true -> dget "authorization_code" (sy_helpers y) = Some HCode ->
  token_at y gt clock m1 m2 ir rq auth (as_front a) = (Ok (AOk args cid), f) ->
  dget "grant_type" rq = Some (VStr "authorization_code") ->
  exists code u c g m access_token payload,
    dget "code" rq = Some (VStr code) /\ dtraced y dp u c g CCode code /\ came_with dp u c g m /\
    dget "access_token" args = Some (VStr access_token) /\ mt_value m1 (session_key [u; c; g]) payload = Ok access_token /\
    (dget "code_challenge" m <> None ->
     exists verifier challenge how, dget "code_verifier" rq = Some (VStr verifier) /\ dget "code_challenge" m = Some (VStr challenge) /\
       dget "code_challenge_method" m = Some (VStr how) /\ answers_challenge (sy_b64hash y) how challenge verifier).
Proof.
  intros y a dp gt clock m1 m2 ir rq auth args cid f Hs Ha Hb Hk Hp Hh H Gt. unfold token_at, token_request in H. unfold bind at 1 in H.
  destruct (received gt rq auth (auth_of (as_front a))) as [r0 ca] eqn:E. rewrite (in_auth_run _ _ _ _ E) in H.
  destruct r0 as [[m0|]|x]; [|unfold bind, ret, in_world in H; cbn in H; congruence|congruence].
  unfold bind, in_world, in_db in H. cbn [fs_world fs_jti w_db w_cdb] in H.
  destruct (token_parse (sy_sid_of y) (sy_b64hash y) (sy_helpers y) (sy_pkce y) clock m0 (w_db (fs_world (as_front a)))) as [rp s'] eqn:Ep.
  assert (Pm := fun rq1 (X : rp = Ok (PReq rq1)) => parse_members y Hs clock m0 rq1 (w_db (fs_world (as_front a))) s' (eq_trans Ep (f_equal (fun r => (r, s')) X))).
  destruct (token_parse_cases _ _ Hs _ _ _ _ _ _ _ Ep) as [-> Pc].
  destruct rp as [[rq1|err d]|x]; [|cbn in H; congruence|congruence].
  specialize (Pm rq1 eq_refl). cbn [fs_world fs_jti] in H. destruct Pc as (t & Et & Pk & Pc).
  assert (Rk : forall k, In k read_members -> dget k m0 = dget k rq) by (intros k I; exact (received_keeps _ _ _ _ _ _ Hk E k I)).
  rewrite Rk, Gt in Et by (cbn; auto). assert (t = "authorization_code"%string) by congruence. subst t.
  destruct Pc as [[_ Pc]|[X _]]; [|congruence].
  destruct (code_parse (sy_sid_of y) clock m0 (w_db (fs_world (as_front a)))) as [r2 s2] eqn:E2. cbn in Pc. subst r2. apply (code_parse_cases _ Hs) in E2.
  destruct E2 as [_ (v & u & c & g & gr & tk & Dc & L & Gk & Ck & _ & _)].
  specialize (Pk Hp). destruct (post_token_parse (sy_sid_of y) (sy_b64hash y) rq1 (w_db (fs_world (as_front a)))) as [r3 s3] eqn:E3. cbn in Pk. subst r3.
  apply (post_token_cases _ _ Hs) in E3. destruct E3 as [_ (_ & v' & u' & c' & g' & gr' & ar & Dc' & L' & Ar & Ch)].
  rewrite Pm in Dc' by discriminate. assert (v' = v) by congruence. subst v'.
  destruct L as (Hu & Hc & Hg & Es & V), L' as (Hu' & Hc' & Hg' & Es' & V').
  assert (K : session_key [u'; c'; g'] = session_key [u; c; g]) by congruence.
  destruct (key3_inj _ _ _ _ _ _ Hu' Hc' Hg' Hu Hc Hg K) as (-> & -> & ->). assert (gr' = gr) by congruence. subst gr'.
  destruct (get_token_value _ _ _ Gk) as [Vt It].
  assert (Tr : dtraced y dp u c g CCode v). { rewrite <- Ck, <- Vt. exact (C97_token y a dp u c g gr tk Hs Ha Hu Hc Hg V It). }
  destruct (C97_request y a dp u c g gr Hs Ha Hu Hc Hg V) as (m & ar' & Cm & Ar' & Sm). assert (ar' = ar) by congruence. subst ar'.
  assert (Bl : blank_to_plus v = v) by (eapply code_plain; [exact Tr|reflexivity|exact Hb]).
  assert (M : exists at_ p, dget "access_token" args = Some (VStr at_) /\ mt_value m1 (session_key [u; c; g]) p = Ok at_).
  { destruct (token_process _ _ _ _ _ _ _ _ _ _) as [r1 w1] eqn:Tp in H. assert (r1 = Ok (AOk args cid)) by congruence. subst r1. clear H.
    unfold token_process in Tp. destruct (bind_ok _ _ _ _ _ Tp) as (gt' & w2 & Eg & H1). unfold lift in Eg.
    assert (Eg' : msub_str "grant_type" rq1 = Ok gt') by congruence. apply msub_str_ok in Eg'. rewrite Pm, Rk, Gt in Eg' by (cbn; auto; discriminate).
    assert (gt' = "authorization_code"%string) by congruence. subst gt'. rewrite Hh in H1.
    destruct (bind_ok _ _ _ _ _ H1) as (an & w3 & Ec & H2). destruct an as [e d|args' oc]; [discriminate|].
    destruct (bind_ok _ _ _ _ _ H2) as (v2 & w4 & _ & H3). destruct (bind_ok _ _ _ _ _ H3) as (x & w5 & _ & H4). unfold ret in H4.
    assert (args' = args) by congruence. subst args'. assert (W2 : w_db w2 = w_db (fs_world (as_front a))).
    { assert (w2 = mkW (w_db (fs_world (as_front a))) (ca_cdb ca)) by congruence. now subst w2. }
    eapply (code_made y m1 m2 ir rq1 w2 args oc w3 v u c g gr Hs Ec); [rewrite Pm by discriminate; exact Dc|exact Bl|].
    rewrite W2. exact (conj Hu (conj Hc (conj Hg (conj Es V)))). }
  destruct M as (at_ & p & M1 & M2). exists v, u, c, g, m, at_, p.
  split; [rewrite <- Rk by (cbn; auto); exact Dc|]. split; [exact Tr|]. split; [exact Cm|]. split; [exact M1|]. split; [exact M2|].
  intros Cc. rewrite <- (Sm "code_challenge"%string) in Cc by discriminate.
  destruct Ch as (ve & ch & how & V1 & V2 & V3 & V4). { unfold dmem. destruct (dget "code_challenge" ar); [reflexivity|congruence]. }
  exists ve, ch, how. rewrite <- !Sm by discriminate. split; [rewrite <- Rk by (cbn; auto 6); rewrite <- Pm by discriminate; exact V1|].
  split; [exact V2|]. split; [exact V3|]. unfold cc_method in V4.
  destruct (String.eqb_spec how "plain") as [->|Nm]; [left; split; congruence|]. right.
  destruct (smem how ["S256"; "S384"; "S512"]) eqn:Em; [|discriminate]. apply smem_In in Em.
  destruct (is_ascii ve); [|discriminate]. split; [exact Em|congruence].
Qed.
Print Assumptions C14_received.

(** ** A case: the request diana came with has a challenge; the code is exchanged with the verifier, by c1 or by another client, and not without it. *)
From Verif Require Import PropsTokenEndpoint PropsFlow PropsFrontFlow PropsSystem.
Example C14_ex_received :
  sids_ok (sy_sid_of y97) /\ arrivals y97 a97_2 [(visit97, a97_1); (push97, a97)] /\ codes_without_blanks [(visit97, a97_1); (push97, a97)] /\
  sy_pkce y97 = true /\ dget "authorization_code" (sy_helpers y97) = Some HCode /\
  (exists args f, token_at y97 (gate95 [Some MBasic; Some MPost]) 2000 (mt2 "at8") (mt2 "rt8") None tr81 basic95 (as_front a97_2) = (Ok (AOk args None), f)) /\
  dget "grant_type" tr81 = Some (VStr "authorization_code") /\
  (exists m, understood (gate95 []) re95 true pk95 short97 NoAuthz a97_1 m /\ dget "code_challenge" m <> None) /\
  exists e d f, token_at y97 (gate95 [Some MBasic; Some MPost]) 2000 (mt2 "at8") (mt2 "rt8") None (ddel "code_verifier" tr81) basic95 (as_front a97_2) = (Ok (AError e d), f).
Proof.
  split; [exact sid79_ok|]. split; [|split].
  { apply ar_step; [apply ar_step; [apply ar_start|exact I]|].
    cbn [knock_ok visit97]. intros m U. destruct C97_ex_understood as (m' & U' & E1 & _). pose proof (understood_det _ _ _ _ _ _ _ _ _ U' U). subst m.
    split; [apply good_by; reflexivity|]. split.
    - intros c E. assert (c = "c1"%string) by congruence. subst c. apply good_by; reflexivity.
    - intros id R. rewrite (cookie_recognises _ _ R). split.
      + intros u E. assert (u = "diana"%string) by (cbn in E; congruence). subst u. apply good_by; reflexivity.
      + intros v E. discriminate. }
  - intros h gt re oidc pk e az rq auth [<-|[<-|[]]] E; [|discriminate]. unfold visit97 in E. cbn [fst] in E. injection E as _ _ _ _ _ <- _ _.
    intros sid p v X. assert (v = "code7"%string) by (cbn in X; congruence). subst v. reflexivity.
  - split; [reflexivity|]. split; [reflexivity|]. split; [do 2 eexists; vm_compute; reflexivity|]. split; [reflexivity|]. split.
    + destruct C97_ex_understood as (m & U & _). exists m. split; [exact U|]. destruct U as (r1 & c1 & ca1 & n1 & p1 & A1 & A2 & A3).
      vm_compute in A1. injection A1 as <- <- <-. vm_compute in A2. injection A2 as <-. vm_compute in A3. injection A3 as <- _. discriminate.
    + do 3 eexists. vm_compute. reflexivity.
Qed.
