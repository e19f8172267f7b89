(** PropsSso.v: C105, single sign-on: a user comes back with the cookie that was set with the last authorization response. *)
From Verif Require Import Base BaseProofs Monad MonadProofs Types PyInt PyIntProofs SessionKey Token Grant Database DatabaseSpec DatabaseProofs
  Manager ManagerProofs World Cookie CookieSpec CookieProofs AuthzEndpoint AuthzEndpointSpec AuthzEndpointProofs
  SetupAuth SetupAuthSpec SetupAuthProofs Toy Sso SsoSpec PropsClaims PropsCookie PropsAuthzEndpoint PropsSetupAuth.
Local Open Scope Z_scope.

(** The response of a session has its cookie first, which, sent back, gives the session and the state. *)
Lemma response_cookie k d at_ name show hv az request sid w r w' :
  sound k -> sends k d at_ name show az -> d_sign d <> None ->
  authz_part2 az request sid w = (Ok r, w') -> ~ failed (ri_args r) ->
  exists c rest, ri_cookie r = Some (VList (show (Some c) :: rest)) /\
    forall text, sent_back hv name text c ->
      get_cookie_value (co_verify k) (co_dec k) (co_unb64 k) hv d name text =
        Ok (Some (co_pack k [("sid", VStr sid); ("state", match dget "state" request with Some v => v | None => VNone end)]%string, py_str at_, "sso"%string)).
Proof.
  intros K (iv & ttl & S_) Sg H N.
  assert (exists cookie rest, az_cookie az sid (dget "state" request) = Ok cookie /\ ri_cookie r = Some (VList (cookie :: rest))) as (cookie & rest & E & Ck).
  { destruct (C58_cookies _ _ _ _ _ _ H N) as (cookie & E & C). exists cookie. destruct (az_iframe az).
    - destruct C as (ae & o & _ & _ & C). eexists. split; [exact E|exact C].
    - exists []. auto. }
  rewrite S_ in E. unfold session_cookie, new_cookie in E.
  match type of E with (let* _ := (let* _ := ?x in _) in _) = _ => destruct x as [c|x0] eqn:X end; cbn [rbind] in E; [|discriminate].
  assert (cookie = show (Some c)) by congruence. subst cookie.
  exists c, rest. split; [exact Ck|]. intros text (Ne & m & G & Hv).
  destruct (so_pack k K [("sid", VStr sid); ("state", match dget "state" request with Some v => v | None => VNone end)]%string) as [P1 P2].
  refine (C33_made_accepted _ _ _ _ _ _ hv (so_mac k K) (so_gcm k K) (so_b64 k K) (so_bar k K) (so_space k K)
    _ _ _ _ _ _ _ _ _ _ _ _ _ P1 _ Sg _ X G Ne Hv).
  - reflexivity.
  - intros _. split; [exact P2|reflexivity].
Qed.

(** ** C105: the next request *)

(** Refuted with every method that goes by the cookie: as long as the session is active, each further authorization request
    that comes with the cookie, from whatever client, ends in an exception. The user cannot even log in again. *)
Theorem C105_recognised_refuted : forall k d at_ name show hv az request u c g w r w',
  sound k -> sends k d at_ name show az -> d_sign d <> None -> good u -> good c -> good g ->
  authz_part2 az request (session_key [u; c; g]) w = (Ok r, w') -> ~ failed (ri_args r) ->
  exists cookie rest, ri_cookie r = Some (VList (show (Some cookie) :: rest)) /\
    forall e2 az2 oidc rq2 c2 cli2 uri2 w2 text now m acr gr,
      sent_back hv name text cookie -> entered e2 az2 oidc w2 rq2 c2 cli2 uri2 ->
      (exists n, method_for e2 rq2 n acr m) -> by_cookie k d hv name text now m ->
      opens k e2 (session_key [u; c; g]) (dget "state" request) -> young_enough rq2 now at_ ->
      view (w_db w2) [u; c; g] = Some (EGrant gr) -> g_active (au_now e2) gr = true ->
      process_request e2 az2 oidc (inr rq2) w2 = (Raise EKey, w2).
Proof.
  intros k d at_ name show hv az request u c g w r w' K Sn Sg Hu Hc Hg H N.
  destruct (response_cookie k d at_ name show hv _ _ _ _ _ _ K Sn Sg H N) as (cookie & rest & Ck & Get).
  exists cookie, rest. split; [exact Ck|].
  intros e2 az2 oidc rq2 c2 cli2 uri2 w2 text now m acr gr Sb En [n Mf] By Op (limit & L & Y) V Ga.
  rewrite (process_entered _ _ _ _ _ _ _ _ En). apply bind_raise.
  refine (C63_recognised_refuted e2 rq2 uri2 cli2 None w2 n acr m limit _ _ u c g gr _ Mf L _ Op Hu Hc Hg V Ga _).
  2: { destruct En as (_ & _ & _ & Ru & _). rewrite Ru. discriminate. }
  red in By. rewrite By, (Get text Sb). unfold authenticated_as. cbn [read_cookie rbind]. change (String.eqb "sso" "uam") with false. cbv iota.
  destruct Y as [->|(x & -> & Le)]; [reflexivity|].
  destruct (truthy (VInt x)); [|reflexivity]. rewrite py_int_str. cbn [of_option rbind int_of].
  assert (X : at_ + x <? now = false) by lia. rewrite X. reflexivity.
Qed.
Print Assumptions C105_recognised_refuted.

(** Once the session is over, or the authentication older than the client wants, the user is asked to log in. *)
Theorem C105_asked_again : forall k d at_ name show hv az request u c g w r w',
  sound k -> sends k d at_ name show az -> d_sign d <> None -> good u -> good c -> good g ->
  authz_part2 az request (session_key [u; c; g]) w = (Ok r, w') -> ~ failed (ri_args r) ->
  exists cookie rest, ri_cookie r = Some (VList (show (Some cookie) :: rest)) /\
    forall e2 az2 oidc rq2 c2 cli2 uri2 w2 text now n m acr,
      sent_back hv name text cookie -> entered e2 az2 oidc w2 rq2 c2 cli2 uri2 ->
      method_for e2 rq2 n acr m -> by_cookie k d hv name text now m ->
      opens k e2 (session_key [u; c; g]) (dget "state" request) -> may_ask rq2 ->
      too_old rq2 now at_ \/
        (young_enough rq2 now at_ /\ exists gr, view (w_db w2) [u; c; g] = Some (EGrant gr) /\ g_active (au_now e2) gr = false) ->
      exists args, process_request e2 az2 oidc (inr rq2) w2 = (Ok (AInteraction n args uri2), w2).
Proof.
  intros k d at_ name show hv az request u c g w r w' K Sn Sg Hu Hc Hg H N.
  destruct (response_cookie k d at_ name show hv _ _ _ _ _ _ K Sn Sg H N) as (cookie & rest & Ck & Get).
  exists cookie, rest. split; [exact Ck|].
  intros e2 az2 oidc rq2 c2 cli2 uri2 w2 text now n m acr Sb En Mf By Op Ask Cs.
  rewrite (process_entered _ _ _ _ _ _ _ _ En).
  destruct En as (_ & _ & _ & Ru & _).
  assert (exists args, setup_auth e2 rq2 uri2 cli2 None w2 = (Ok (SLogin n args), w2)) as [args E].
  { destruct Cs as [(x & L & Nz & Lt)|((limit & L & Y) & gr & V & Ga)].
    - destruct (authn_args_ok e2 rq2 acr cli2 None uri2 Ru) as [args Aa]. exists args.
      assert (I : identify e2 m (changed e2 rq2) w2 = (Ok (None, VInt 0), w2)).
      { unfold identify. rewrite age_limit_changed, L. unfold lift at 1. rewrite (bind_run _ _ w2 (VInt x) w2 eq_refl). cbv beta.
        red in By. rewrite By, (Get text Sb). unfold authenticated_as. cbn [read_cookie rbind]. change (String.eqb "sso" "uam") with false. cbv iota.
        assert (T : truthy (VInt x) = true) by (cbn; apply negb_true_iff; now apply Z.eqb_neq).
        rewrite T, py_int_str. cbn [of_option rbind int_of]. assert (X : at_ + x <? now = true) by lia. rewrite X. reflexivity. }
      rewrite (setup_run _ _ _ _ _ _ _ _ _ _ _ _ Mf I Aa). unfold go_on. rewrite asks_none_changed. red in Ask. rewrite Ask. reflexivity.
    - refine (C63_over e2 rq2 uri2 cli2 None w2 n acr m limit _ _ (session_key [u; c; g]) _ gr Mf L _ Op eq_refl _ Ga Ask _).
      + red in By. rewrite By, (Get text Sb). unfold authenticated_as. cbn [read_cookie rbind]. change (String.eqb "sso" "uam") with false. cbv iota.
        destruct Y as [->|(x & -> & Le)]; [reflexivity|].
        destruct (truthy (VInt x)); [|reflexivity]. rewrite py_int_str. cbn [of_option rbind int_of].
        assert (X : at_ + x <? now = false) by lia. rewrite X. reflexivity.
      + exact (mget_read u c g _ _ Hu Hc Hg V).
      + rewrite Ru. discriminate. }
  exists args. rewrite (bind_run _ _ _ _ _ E). reflexivity.
Qed.
Print Assumptions C105_asked_again.

(** With the method for tests, the client that had the response gets another one for the same session without a login, if it
    sends the same request, as long as the session is active and the authentication valid. *)
Theorem C105_same_request_partial : forall k d at_ name show hv az request u c g w r w',
  sound k -> sends k d at_ name show az -> d_sign d <> None -> good u -> good c -> good g ->
  authz_part2 az request (session_key [u; c; g]) w = (Ok r, w') -> ~ failed (ri_args r) ->
  exists cookie rest, ri_cookie r = Some (VList (show (Some cookie) :: rest)) /\
    forall e2 az2 oidc rq2 cli2 uri2 w2 text now user info m acr gr ae rq0,
      sent_back hv name text cookie -> entered e2 az2 oidc w2 rq2 c cli2 uri2 ->
      (exists n, method_for e2 rq2 n acr m) -> for_tests k d hv name text now user info m -> au_decode e2 (VStr user) = Ok None ->
      (let content := [("sid", VStr (session_key [u; c; g])); ("state", match dget "state" request with Some v => v | None => VNone end)]%string in
       info (co_pack k content) = VDict content) ->
      (exists limit, age_limit rq2 = Ok limit) ->
      view (w_db w2) [u; c; g] = Some (EGrant gr) -> g_active (au_now e2) gr = true ->
      g_authn gr = Some ae -> au_now e2 < ae_valid_until ae -> g_authreq gr = Some rq0 -> au_same e2 (changed e2 rq2) rq0 = true ->
      forall r2 w3, authz_part2 az2 (changed e2 rq2) (session_key [u; c; g]) w2 = (Ok r2, w3) ->
      process_request e2 az2 oidc (inr rq2) w2 = (Ok (AResponse r2), w3).
Proof.
  intros k d at_ name show hv az request u c g w r w' K Sn Sg Hu Hc Hg H N.
  destruct (response_cookie k d at_ name show hv _ _ _ _ _ _ K Sn Sg H N) as (cookie & rest & Ck & Get).
  exists cookie, rest. split; [exact Ck|].
  intros e2 az2 oidc rq2 cli2 uri2 w2 text now user info m acr gr ae rq0 Sb En [n Mf] Ft De In_ L V Ga Ae Av Rq Sm r2 w3 P.
  rewrite (process_entered _ _ _ _ _ _ _ _ En). destruct En as (Ci & _ & _ & Ru & _).
  red in Ft. rewrite (Get text Sb) in Ft.
  pose proof (C63_no_authn e2 rq2 uri2 cli2 w2 uri2 n acr m now user _ _ _ info u c g gr ae rq0 _ Mf L Ft In_ De Hu Hc Hg Ci Ru V Ga Ae Av Rq Sm) as E.
  rewrite (bind_run _ _ _ _ _ E). cbv beta iota. rewrite (bind_run _ _ _ _ _ P). reflexivity.
Qed.
Print Assumptions C105_same_request_partial.

(** Refuted for other clients: whatever session the cookie is of, the user has to log in again. *)
Theorem C105_other_client_refuted : forall k d at_ name show hv az request u c g w r w',
  sound k -> sends k d at_ name show az -> d_sign d <> None -> good u -> good c -> good g ->
  authz_part2 az request (session_key [u; c; g]) w = (Ok r, w') -> ~ failed (ri_args r) ->
  exists cookie rest, ri_cookie r = Some (VList (show (Some cookie) :: rest)) /\
    forall e2 az2 oidc rq2 c2 cli2 uri2 w2 text now user info m n acr,
      sent_back hv name text cookie -> entered e2 az2 oidc w2 rq2 c2 cli2 uri2 -> c2 <> c ->
      method_for e2 rq2 n acr m -> for_tests k d hv name text now user info m -> au_decode e2 (VStr user) = Ok None ->
      (let content := [("sid", VStr (session_key [u; c; g])); ("state", match dget "state" request with Some v => v | None => VNone end)]%string in
       info (co_pack k content) = VDict content) ->
      (exists limit, age_limit rq2 = Ok limit) ->
      exists args, process_request e2 az2 oidc (inr rq2) w2 = (Ok (AInteraction n args uri2), w2).
Proof.
  intros k d at_ name show hv az request u c g w r w' K Sn Sg Hu Hc Hg H N.
  destruct (response_cookie k d at_ name show hv _ _ _ _ _ _ K Sn Sg H N) as (cookie & rest & Ck & Get).
  exists cookie, rest. split; [exact Ck|].
  intros e2 az2 oidc rq2 c2 cli2 uri2 w2 text now user info m n acr Sb En Nc Mf Ft De In_ [limit L].
  rewrite (process_entered _ _ _ _ _ _ _ _ En). destruct En as (Ci & _ & _ & Ru & _).
  red in Ft. rewrite (Get text Sb) in Ft.
  set (id := [("uid", VStr user); ("sid", VStr (session_key [u; c; g])); ("state", match dget "state" request with Some v => v | None => VNone end)]%string).
  assert (F : finds e2 m rq2 id (VInt now)).
  { exists limit, (VStr user). split; [exact L|]. split; [|split; [reflexivity|exact De]].
    rewrite Ft. unfold no_authn. cbn [read_cookie rbind]. cbv zeta in In_. rewrite In_. reflexivity. }
  pose proof (identify_finds e2 m (changed e2 rq2) id (VInt now) w2 (proj2 (finds_changed _ _ _ _ _) F)) as I.
  destruct (authn_args_ok e2 rq2 acr cli2 None uri2 Ru) as [args A].
  assert (C' : dget "client_id" (changed e2 rq2) = Some (VStr c2)) by (rewrite changed_get; [exact Ci|discriminate]).
  exists args. rewrite (bind_run (setup_auth e2 rq2 uri2 cli2 None) _ w2 (SLogin n args) w2); [reflexivity|].
  rewrite (setup_run _ _ _ _ _ _ _ _ _ _ _ _ Mf I A). unfold go_on.
  change (dsub "uid" id) with (Ok (VStr user) : result val). change (dget "sid" id) with (Some (VStr (session_key [u; c; g]))).
  unfold lift at 1. rewrite (bind_run _ _ w2 (VStr user) w2 eq_refl). cbv beta iota.
  assert (Kn : known_session e2 (changed e2 rq2) (VStr user) (VStr (session_key [u; c; g])) w2 = (Ok None, w2)).
  { unfold known_session. unfold lift at 1. rewrite (bind_run _ _ w2 (session_key [u; c; g]) w2 eq_refl). cbv beta.
    rewrite unpack3_good by auto. unfold lift at 1. rewrite (bind_run _ _ w2 (u, c, g) w2 eq_refl). cbv beta iota.
    rewrite (dsub_get _ _ _ C'). unfold lift at 1. rewrite (bind_run _ _ w2 (VStr c2) w2 eq_refl). cbv beta.
    assert (X : val_eqb (VStr c2) (VStr c) = false). { cbn. now apply String.eqb_neq. }
    rewrite X. reflexivity. }
  rewrite (bind_run _ _ _ _ _ Kn). reflexivity.
Qed.
Print Assumptions C105_other_client_refuted.

(** ** The hypotheses are met *)
Definition k105 : coding := mkCoding toy_mac toy_mac_ok toy_gcm toy_ungcm hex unhex (fun m => hex (toy_sign "json" m)).
Lemma plain_hex x : plain_value (hex x).
Proof.
  assert (H : sforall (fun d => negb (Ascii.eqb ":" d)) (hex x) = true) by (apply hex_chars; intros [] [] [] []; reflexivity).
  revert H. generalize (hex x). clear. intros s H. split.
  - destruct (contains "::" s) eqn:C; [|reflexivity]. exfalso. induction s as [|a s IH]; [discriminate|].
    cbn in H. apply andb_true_iff in H as [H1 H2]. cbn [contains] in C. apply orb_true_iff in C as [C|C]; [|auto].
    cbn [String.prefix] in C. destruct (ascii_dec ":" a) as [<-|]; [discriminate H1|congruence].
  - intros p ->. rewrite sforall_app in H. cbn in H. now rewrite andb_false_r in H.
Qed.
Lemma sound105 : sound k105.
Proof.
  destruct C33_ex_b64 as (B1 & B2 & B3). destruct C33_ex_toy as (T1 & T2).
  constructor; auto. intros m. split; [apply plain_hex|apply B3].
Qed.
Definition show105 (c : option simple_cookie) : val :=
  match c with Some c => VList (map (fun x => VStr (fst x ++ "=" ++ mo_value (snd x))) c) | None => VNone end.
(** The provider sends the cookie at 1950. *)
Definition az105 : authz_env :=
  let a := az7 false in
  mkAZ (az_cx a) (az_u a) (az_sharing a) (az_clock a) (az_later a) (az_salt a) (az_code a) (az_access a) (az_idtoken a)
    (fun sid state => let* c := session_cookie toy_mac toy_gcm hex (co_pack k105) 1950 "iv" (Some dle) 7200 "oidc_op" sid state in Ok (show105 c))
    (az_opbs a) (az_sha a) (az_origin a) (az_show a) (az_text a) (az_iframe a) (az_handler a).
Definition decode105 (v : val) : result (option val) :=
  match v with
  | VStr s => match unhex s with Some t => match toy_verify "json" t with Ok m => Ok (Some (VDict m)) | Raise _ => Ok None end | None => Ok None end
  | _ => Raise EType
  end.
Definition e105 (now : Z) (auth : val -> whoami) : auth_env :=
  let e := e9 auth in
  mkAU now (au_broker e) (au_hint2acrs e) (au_method_id e) (au_acr e) (au_methods e) decode105 (au_same e) (au_query e) (au_rules e)
    (au_lookup e) (au_sha e) (au_salt e) (au_uuid4 e) (au_newid e).
Lemma opens105 now auth sid state : opens k105 (e105 now auth) sid state.
Proof.
  unfold opens. cbv zeta. cbn [e105 au_decode decode105 co_pack k105]. destruct C33_ex_b64 as (_ & -> & _).
  now rewrite toy_verify_sign.
Qed.
Lemma sends105 : sends k105 dle 1950 "oidc_op" show105 az105.
Proof. exists "iv"%string, 7200. reflexivity. Qed.

(** The first response, its cookie and the header it makes *)
Definition first105 := authz_part2 az105 (rq9 []) sid1 w7.
Definition w105 : world := snd first105.
Definition header105 : string :=
  match fst first105 with
  | Ok r => match ri_cookie r with Some (VList (VList [VStr s] :: _)) => s | _ => "" end
  | Raise _ => ""
  end.
Definition again105 (now : Z) : val -> whoami := authenticated_as now (get_cookie_value toy_mac_ok toy_ungcm unhex hv dle "oidc_op" header105).

(** The user comes back at 2000: an exception, for this client and for another one. At 9000 the session is over: the login page.
    With max_age 20 it is shown at 2000, too. *)
Example C105_ex :
  (exists r, fst first105 = Ok r /\ ~ failed (ri_args r)) /\
  fst (process_request (e105 2000 (again105 2000)) az105 true (inr (rq9 [])) w105) = Raise EKey /\
  fst (process_request (e105 2000 (again105 2000)) az105 true (inr (dset "client_id" (VStr "c2") (rq9 []))) (mkW (w_db w105) (dset "c2" [] (w_cdb w105)))) = Raise EKey /\
  (exists args, fst (process_request (e105 9000 (again105 9000)) az105 true (inr (rq9 [])) w105) = Ok (AInteraction "user" args (VStr cb))) /\
  (exists args, fst (process_request (e105 2000 (again105 2000)) az105 true (inr (rq9 [("max_age", VInt 20)]%string)) w105) = Ok (AInteraction "user" args (VStr cb))).
Proof.
  split; [eexists; split; [vm_compute; reflexivity|intros [v X]; discriminate]|].
  split; [vm_compute; reflexivity|]. split; [vm_compute; reflexivity|]. split; eexists; vm_compute; reflexivity.
Qed.
Example C105_hyps : exists c gr cli,
  session_cookie toy_mac toy_gcm hex (co_pack k105) 1950 "iv" (Some dle) 7200 "oidc_op" sid1 (Some (VStr "xyz")) = Ok (Some c) /\
  sent_back hv "oidc_op" header105 c /\
  entered (e105 2000 (again105 2000)) az105 true w105 (rq9 []) "c1" cli (VStr cb) /\
  method_for (e105 2000 (again105 2000)) (rq9 []) "user" "pw" (mkMethod (again105 2000) 600) /\
  by_cookie k105 dle hv "oidc_op" header105 2000 (mkMethod (again105 2000) 600) /\
  young_enough (rq9 []) 2000 1950 /\ too_old (rq9 [("max_age", VInt 20)]%string) 2000 1950 /\ may_ask (rq9 []) /\
  view (w_db w105) ["diana"; "c1"; "g1"]%string = Some (EGrant gr) /\ g_active 2000 gr = true /\ g_active 9000 gr = false.
Proof.
  eexists. eexists. eexists. split; [vm_compute; reflexivity|].
  split; [split; [vm_compute; discriminate|eexists; split; vm_compute; reflexivity]|].
  split. { split; [reflexivity|]. split; [vm_compute; reflexivity|]. split; [|split; reflexivity]. right. eexists. split; [reflexivity|]. vm_compute. reflexivity. }
  split; [split; reflexivity|]. split; [reflexivity|].
  split; [exists (VInt 0); split; [reflexivity|left; reflexivity]|].
  split; [exists 20; split; [reflexivity|lia]|]. split; [reflexivity|].
  split; [vm_compute; reflexivity|]. split; vm_compute; reflexivity.
Qed.

(** With the method for tests: the same client goes on, another one sends the user to the login page. *)
Definition info105 (s : string) : val := match decode105 (VStr s) with Ok (Some v) => v | _ => VStr s end.
Definition test105 (now : Z) : val -> whoami :=
  fun _ => no_authn now "diana" true (get_cookie_value toy_mac_ok toy_ungcm unhex hv dle "oidc_op" header105) info105.
Example C105_ex_tests :
  (exists r, fst (process_request (e105 2000 (test105 2000)) az105 true (inr (rq9 [])) w105) = Ok (AResponse r)) /\
  (exists args, fst (process_request (e105 2000 (test105 2000)) az105 true (inr (dset "client_id" (VStr "c2") (rq9 []))) (mkW (w_db w105) (dset "c2" [] (w_cdb w105)))) =
     Ok (AInteraction "user" args (VStr cb))).
Proof. split; eexists; vm_compute; reflexivity. Qed.
