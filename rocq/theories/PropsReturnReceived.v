(** PropsReturnReceived.v: C13 from the received requests on. A code is exchanged only for who knows the address it was sent to (see C20_received for
    that address). *)
From Verif Require Import Base BaseProofs SessionKey SessionKeyProofs Monad MonadProofs Types Token Grant GrantSpec GrantProofs Database DatabaseSpec DatabaseProofs
  Manager ManagerSpec ManagerProofs Ctx World Minting ClientAuthn ClientAuthnSpec TokenEndpoint WorldSpec WorldProofs
  Uri UriSpec AuthzRequest AuthzEndpoint SetupAuthSpec System SystemSpec SystemProofs Preserve Fronts FrontsSpec FrontsProofs AuthzFront Door DoorSpec DoorProofs DoorRequestProofs.
From Verif Require Import PropsDoor SetupAuth UserInfo ParsedSpec PropsRedirected PropsPkceReceived.
From Verif Require PropsTokenEndpoint UserInfoSpec PropsLasting.
Local Open Scope Z_scope.

(** The check of a token request keeps its redirect_uri. *)
Definition keeps_address (check : val -> msg -> checked) : Prop :=
  forall c m m', check c m = CkOk m' -> dget "redirect_uri" m' = dget "redirect_uri" m.

Lemma received_address gt rq auth s m s' : keeps_address (gt_check gt) -> received gt rq auth s = (Ok (Some m), s') -> dget "redirect_uri" m = dget "redirect_uri" rq.
Proof.
  intros Hk H. unfold received in H. destruct (bind_ok _ _ _ _ _ H) as ([rq' cid] & s1 & P & H1). clear H.
  destruct (gt_check gt cid rq') as [m0| |x] eqn:C; try discriminate. assert (m0 = m) by (unfold ret in H1; congruence). subst m0.
  rewrite (Hk _ _ _ C). apply (parse_auth_rq _ _ _ _ _ _ _ _ _ _ _ P). discriminate.
Qed.
Lemma understood_goes gt re oidc pk rq auth a m : understood gt re oidc pk rq auth a m ->
  exists clients, goes_to_registered (re_u re) clients m \/ goes_nowhere clients m.
Proof. intros (rq' & cid & ca & m0 & p & _ & _ & H). exists (ca_cdb ca). apply hooks_go in H. exact H. Qed.

(** A request with a code is answered with tokens only if the code was handed out in a visit with the client's request [m], and if the redirect_uri is the one of [m]. *)
Theorem C13_received : forall y a dp gt clock m1 m2 ir rq auth args cid f,
  sids_ok (sy_sid_of y) -> mint_ok m1 -> mint_ok m2 -> arrivals y a dp -> codes_without_blanks dp -> keeps (gt_check gt) -> keeps_address (gt_check gt) ->
  dget "authorization_code" (sy_helpers y) = Some HCode ->
  token_at y gt clock m1 m2 ir rq auth (as_front a) = (Ok (AOk args cid), f) ->
  dget "grant_type" rq = Some (VStr "authorization_code") ->
  exists code u c g m uri,
    dget "code" rq = Some (VStr code) /\ dtraced y dp u c g CCode code /\ came_with dp u c g m /\
    dget "redirect_uri" m = Some (VStr uri) /\ dget "redirect_uri" rq = Some (VStr uri).
Proof.
  intros y a dp gt clock m1 m2 ir rq auth args cid f Hs M1 M2 Ha Hb Hk Hka Hh H Gt. unfold token_at, token_request in H. unfold bind at 1 in H.
  destruct (received gt rq auth (auth_of (as_front a))) as [r0 ca] eqn:E. rewrite (in_auth_run _ _ _ _ E) in H.
  destruct r0 as [[m0|]|x]; [|unfold bind, ret, in_world in H; cbn in H; congruence|congruence].
  unfold bind, in_world, in_db in H. cbn [fs_world fs_jti w_db w_cdb] in H.
  destruct (token_parse (sy_sid_of y) (sy_b64hash y) (sy_helpers y) (sy_pkce y) clock m0 (w_db (fs_world (as_front a)))) as [rp s'] eqn:Ep.
  assert (Pm := fun rq1 (X : rp = Ok (PReq rq1)) => parse_members y Hs clock m0 rq1 (w_db (fs_world (as_front a))) s' (eq_trans Ep (f_equal (fun r => (r, s')) X))).
  destruct (token_parse_cases _ _ Hs _ _ _ _ _ _ _ Ep) as [-> Pc].
  destruct rp as [[rq1|err d]|x]; [|cbn in H; congruence|congruence].
  specialize (Pm rq1 eq_refl). cbn [fs_world fs_jti] in H. destruct Pc as (t & Et & _ & Pc).
  assert (Rk : forall k, In k read_members -> dget k m0 = dget k rq) by (intros k I; exact (received_keeps _ _ _ _ _ _ Hk E k I)).
  rewrite Rk, Gt in Et by (cbn; auto). assert (t = "authorization_code"%string) by congruence. subst t.
  destruct Pc as [[_ Pc]|[X _]]; [|congruence].
  destruct (code_parse (sy_sid_of y) clock m0 (w_db (fs_world (as_front a)))) as [r2 s2] eqn:E2. cbn in Pc. subst r2. apply (code_parse_cases _ Hs) in E2.
  destruct E2 as [_ (v & u & c & g & gr & tk & Dc & L & Gk & Ck & _ & _)].
  destruct L as (Hu & Hc & Hg & Es & V). destruct (get_token_value _ _ _ Gk) as [Vt It].
  assert (Tr : dtraced y dp u c g CCode v). { rewrite <- Ck, <- Vt. exact (C97_token y a dp u c g gr tk Hs Ha Hu Hc Hg V It). }
  destruct (C97_request y a dp u c g gr Hs Ha Hu Hc Hg V) as (m & ar & Cm & Ar & Sm).
  assert (Bl : blank_to_plus v = v) by (eapply code_plain; [exact Tr|reflexivity|exact Hb]).
  assert (Ua : exists uri, dget "redirect_uri" m = Some (VStr uri)).
  { destruct Cm as (h & gt' & re & oidc & pk & e & az & rq' & auth' & id & _ & _ & U & _). destruct (understood_goes _ _ _ _ _ _ _ _ U) as (cl & [G|G]).
    - destruct G as (? & uri & ? & _ & D & _). eauto.
    - destruct G as [D _]. eauto. }
  destruct Ua as [uri Du]. exists v, u, c, g, m, uri.
  split; [rewrite <- Rk by (cbn; auto); exact Dc|]. split; [exact Tr|]. split; [exact Cm|]. split; [exact Du|].
  destruct (token_process _ _ _ _ _ _ _ _ _ _) as [r1 w1] eqn:Tp in H. assert (r1 = Ok (AOk args cid)) by congruence. subst r1. clear H.
  rewrite <- (received_address _ _ _ _ _ _ Hka E), <- Pm by discriminate.
  eapply PropsTokenEndpoint.C13_redirect_uri with (raw := v) (u := u) (c := c) (g := gr) (t := tk) (ar := ar); try exact Tp; auto.
  - rewrite Pm, Rk by (cbn; auto; discriminate). exact Gt.
  - rewrite Pm by discriminate. exact Dc.
  - rewrite Bl. exists (session_key [u; c; g]), g. cbn [w_db]. split; [exact Es|]. split; [now apply unpack3_good|]. split; [exact V|]. split; [exact Vt|]. apply PropsLasting.find_first. exact Gk.
  - rewrite Sm by discriminate. exact Du.
Qed.
Print Assumptions C13_received.

(** ** A case: the code diana's visit gave is exchanged with the address of the request, and with no other; the request that was pushed has it. *)
From Verif Require Import PropsTokenEndpoint PropsFlow PropsFrontFlow PropsSystem.
Example C13_ex_received :
  sids_ok (sy_sid_of y97) /\ mint_ok (mt2 "at8") /\ mint_ok (mt2 "rt8") /\
  arrivals y97 a97_2 [(visit97, a97_1); (push97, a97)] /\ codes_without_blanks [(visit97, a97_1); (push97, a97)] /\
  keeps (gt_check (gate95 [Some MBasic; Some MPost])) /\ keeps_address (gt_check (gate95 [Some MBasic; Some MPost])) /\
  dget "authorization_code" (sy_helpers y97) = Some HCode /\
  (exists args f, token_at y97 (gate95 [Some MBasic; Some MPost]) 2000 (mt2 "at8") (mt2 "rt8") None tr81 basic95 (as_front a97_2) = (Ok (AOk args None), f)) /\
  dget "grant_type" tr81 = Some (VStr "authorization_code") /\
  exists e d f, token_at y97 (gate95 [Some MBasic; Some MPost]) 2000 (mt2 "at8") (mt2 "rt8") None (dset "redirect_uri" (VStr "https://evil.example/cb") tr81) basic95 (as_front a97_2)
    = (Ok (AError e d), f).
Proof.
  destruct C14_ex_received as (A & B & C & _ & D & E & F & _).
  split; [exact A|]. split; [intros sid p v X; assert (v = "at8"%string) by (cbn in X; congruence); subst v; reflexivity|].
  split; [intros sid p v X; assert (v = "rt8"%string) by (cbn in X; congruence); subst v; reflexivity|].
  split; [exact B|]. split; [exact C|].
  split; [intros c m m' X k _; assert (m' = m) by (cbn in X; congruence); now subst m'|].
  split; [intros c m m' X; assert (m' = m) by (cbn in X; congruence); now subst m'|].
  split; [exact D|]. split; [exact E|]. split; [exact F|]. do 3 eexists. vm_compute. reflexivity.
Qed.
