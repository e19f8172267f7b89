(** PropsTokenEndpoint.v: the token endpoint. Codes are redeemed once (C06), dead tokens stay dead (C08),
    revoked grants (C09), the client (C12) and the redirect_uri (C13) of a code, PKCE (C14, C15),
    token types (C16), configured grant types (C51). *)
From Verif Require Import Base BaseProofs Monad Types SessionKey SplitProofs SessionKeyProofs Token Grant GrantSpec Database DatabaseSpec DatabaseProofs
  Manager ManagerSpec ManagerProofs Ctx ScopesProofs UserInfo UserInfoSpec UserInfoProofs World Minting TokenEndpoint Threads WorldSpec
  WorldProofs ResponseSpec ResponseProofs PropsClaims PropsIntrospection.
Local Open Scope Z_scope.

(** ** Data for the examples *)
Definition tk (cls : tclass) (ty v : string) (rules : urules) : token :=
  mkToken cls ty v None rules 1000 5000 0 false 0 "id" [] [] [].
Definition code_rules : urules := mkURules (Some 1) (Some ["access_token"; "refresh_token"]) None.
Definition refresh_rules : urules := mkURules None (Some ["access_token"; "refresh_token"; "id_token"]) None.
Definition ar2 : msg :=
  [("client_id", VStr "c1"); ("redirect_uri", VStr "https://rp.example.org/cb"); ("scope", vstrs ["openid"; "offline_access"])].
Definition ar3 : msg := ar2 ++ [("code_challenge", VStr "S256:secret"); ("code_challenge_method", VStr "S256")].
Definition gr2 (ar : msg) : grant :=
  mkGrant "g1" "sub-of-diana" ["openid"; "offline_access"] [] ["c1"] (Some ar) (Some ae1)
    [tk CCode "authorization_code" "code1" code_rules; tk CRefresh "refresh_token" "rt1" refresh_rules]
    no_grules 1000 0 0 false 2.
Definition w2 (ar : msg) : world := mkW (st1 (gr2 ar) false) clients1.
Definition sid2 (v : string) : result string :=
  if smem v ["code1"; "rt1"; "at8"; "rt8"; "at9"; "rt9"] then Ok sid1 else Raise EUnknownToken.
Definition hash2 (m v : string) : string := (m ++ ":" ++ v)%string.
Definition idt2 : store -> string -> ST cdb string := fun _ sid => ret ("idt:" ++ sid)%string.
Definition mt2 (v : string) : minting := mkMinting 2000 "tid" (fun _ _ => Ok v).
Definition code_request (client : string) : msg :=
  [("grant_type", VStr "authorization_code"); ("code", VStr "code1"); ("redirect_uri", VStr "https://rp.example.org/cb");
   ("client_id", VStr client); ("code_verifier", VStr "secret")].
Definition refresh_request (client : string) : msg :=
  [("grant_type", VStr "refresh_token"); ("refresh_token", VStr "rt1"); ("client_id", VStr client)].
Definition both : dict helper := HELPER_BY_GRANT_TYPE.

Lemma good_by x : contains ";;" x = false -> ends_c ";" x = false -> nonempty x = true -> good x.
Proof.
  intros A B C. split; [now apply nonempty_true|]. apply id_ok_spec. auto.
Qed.
Ltac good_tac := apply good_by; reflexivity.
Example sid2_ok : sids_ok sid2.
Proof.
  intros v sid H. unfold sid2 in H. destruct (smem v _); [|discriminate]. injection H as <-.
  exists "diana", "c1", "g1". repeat split; try (apply (good_by "diana"); reflexivity);
  try (apply (good_by "c1"); reflexivity); try (apply (good_by "g1"); reflexivity); try discriminate.
Qed.
Example mt2_ok v : blank_to_plus v = v -> mint_ok (mt2 v).
Proof. intros H sid p x E. cbn in E. injection E as <-. exact H. Qed.
Example w2_sound ar : sound_store (w_db (w2 ar)).
Proof.
  intros k g H. cbn -[String.eqb] in H.
  destruct (String.eqb k "diana"); [discriminate|]. destruct (String.eqb k "diana;;c1"); [discriminate|].
  destruct (String.eqb k sid1); [|discriminate]. injection H as <-.
  repeat constructor; cbn; try discriminate; lia.
Qed.

(** A request as it is parsed and, if it is accepted, processed *)
Definition exchange sid_of b64hash cx idt sharing helpers with_pkce clock m1 m2 issue_refresh (request : msg) : W answer :=
  p <-- in_db (token_parse sid_of b64hash helpers with_pkce clock request) ;;
  token_process sid_of cx idt sharing helpers m1 m2 issue_refresh p.

(** ** C06 *)
(** In every history of session manager calls, minting by the authorization endpoint, and requests parsed
    and processed by the token endpoint in any order, at any times, for any clients, there is at most one
    successful response for a code. *)
Theorem C06_code_once :
  forall sid_of b64hash cx idt sharing helpers with_pkce code u c gid ops w,
  sids_ok sid_of -> good u -> good c -> good gid -> sid_of code = Ok (session_key [u; c; gid]) ->
  Forall (wop_ok gid) ops -> sound_store (w_db w) ->
  (length (filter (redeems code) (snd (hrun sid_of b64hash cx idt sharing helpers with_pkce ops (mkH w [])))) <= 1)%nat.
Proof.
  intros sid_of b64hash cx idt sharing helpers with_pkce code u c gid ops w Hs Hu Hc Hg Hv Hops Hso.
  apply (run_once sid_of b64hash cx idt Hs sharing helpers with_pkce code u c gid Hu Hc Hg Hv ops (mkH w []) Hops Hso).
  intros rq raw [].
Qed.
Print Assumptions C06_code_once.

(** Two requests with the same code are accepted, then both are processed; and a third one later. One
    succeeds. *)
Definition ops6 : list wop :=
  [WParse 1500 (code_request "c1"); WParse 1600 (code_request "c2"); WProcess (mt2 "at9") (mt2 "rt9") None 0;
   WManager (OCreateGrant 1700 "g7" None (Some ar2) "diana" "c1" (Ok "sub") None None);
   WProcess (mt2 "at8") (mt2 "rt8") None 1; WParse 2500 (code_request "c1"); WProcess (mt2 "at8") (mt2 "rt8") None 0].
Example C06_ex :
  Forall (wop_ok "g1") ops6 /\
  map (redeems "code1") (snd (hrun sid2 hash2 cx1 idt2 false both false ops6 (mkH (w2 ar2) []))) = [true; false; false].
Proof.
  split; [|vm_compute; reflexivity].
  assert (G : good "diana" /\ good "c1" /\ good "g7") by (repeat split; discriminate || (apply good_by; reflexivity)).
  assert (M : forall v, In v ["at8"; "at9"; "rt8"; "rt9"] -> mint_ok (mt2 v)).
  { intros v Hv. apply mt2_ok. cbn in Hv. decompose [or] Hv; subst; try reflexivity. contradiction. }
  unfold ops6. repeat (apply Forall_cons || apply Forall_nil); cbn [wop_ok]; try exact I;
    try (split; apply M; cbn; tauto).
  unfold mop_ok. cbn [op_user op_client op_grant makes]. destruct G as (G1 & G2 & G3).
  repeat (split; [assumption|]). split; [discriminate|exact I].
Qed.

(** The calls above are not interrupted. When another thread runs between the minting and the counting of
    the use (oidc/token.py:148), two requests with the same code both succeed. First: the two halves make up
    the whole. *)
Theorem C06_cut :
  forall sid_of cx idt m1 m2 ir rq w,
  code_process sid_of cx idt m1 m2 ir rq w =
  (x <-- code_begin sid_of cx m1 m2 ir rq ;; match x with inl a => ret a | inr x => code_finish idt x end) w.
Proof.
  intros sid_of cx idt m1 m2 ir rq w. unfold code_process, code_begin, the_request, the_token. unfold bind, lift, ret, raise.
  destruct (msub_str "grant_type" rq) as [gt|]; [|reflexivity]. destruct (negb _); [reflexivity|]. destruct (negb _); [reflexivity|].
  destruct (msub_str "code" rq) as [raw|]; [|reflexivity].
  destruct (in_db _ w) as [[[i g]|] w1]; [|reflexivity].
  destruct (of_option EType (g_authreq g)) as [ar|]; [|reflexivity].
  destruct (dget "redirect_uri" ar) as [x|].
  1: destruct (dsub "redirect_uri" rq) as [y|]; [|reflexivity]; destruct (negb (val_eqb y x)); [reflexivity|].
  all: destruct (endpoint_mint cx m1 _ _ _ _ w1) as [[[o g1]|] w3]; [|reflexivity].
  all: destruct (of_option EAttr o) as [t|]; [|reflexivity].
  all: destruct (match ir with Some b => b | None => smem "offline_access" (g_scope g) end).
  1,3: destruct (endpoint_mint cx m2 _ _ _ _ w3) as [[[o2 g2]|] w4]; [|reflexivity].
  1,2: destruct (of_option EAttr o2) as [t2|]; [|reflexivity].
  all: destruct (get_token (blank_to_plus raw) g); reflexivity.
Qed.
Print Assumptions C06_cut.
Theorem C06_threads_refuted :
  exists sid_of cx idt ma ma' mb mb' rq w a b w1 w2 w3 w4 args1 args2,
    sids_ok sid_of /\ sound_store (w_db w) /\
    code_begin sid_of cx ma ma' None rq w = (Ok (inr a), w1) /\
    code_begin sid_of cx mb mb' None rq w1 = (Ok (inr b), w2) /\
    code_finish idt a w2 = (Ok (AOk args1 None), w3) /\
    code_finish idt b w3 = (Ok (AOk args2 None), w4) /\
    dget "access_token" args1 = Some (VStr "at8") /\ dget "access_token" args2 = Some (VStr "at9").
Proof.
  exists sid2, cx1, idt2, (mt2 "at8"), (mt2 "rt8"), (mt2 "at9"), (mt2 "rt9"), (code_request "c1"), (w2 ar2). do 8 eexists.
  split; [exact sid2_ok|]. split; [apply w2_sound|]. split; [vm_compute; reflexivity|]. split; [vm_compute; reflexivity|].
  split; [vm_compute; reflexivity|]. split; [vm_compute; reflexivity|]. split; reflexivity.
Qed.
Print Assumptions C06_threads_refuted.

(** ** C16 *)
(** A successful answer to a code request is about an authorization code, one to a refresh request is
    about a refresh token: after every history, for every accepted request. *)
Theorem C16_token_endpoint :
  forall sid_of b64hash cx idt sharing helpers with_pkce u c gid ops w0 h rq m1 m2 ir args oc w' value g t,
  sids_ok sid_of -> good u -> good c -> good gid -> sid_of value = Ok (session_key [u; c; gid]) ->
  Forall (wop_ok gid) ops -> sound_store (w_db w0) ->
  h = fst (hrun sid_of b64hash cx idt sharing helpers with_pkce ops (mkH w0 [])) ->
  In rq (h_accepted h) -> mint_ok m1 -> mint_ok m2 ->
  token_process sid_of cx idt sharing helpers m1 m2 ir (PReq rq) (h_world h) = (Ok (AOk args oc), w') ->
  names sid_of (w_db (h_world h)) value u c g t ->
  (dget "grant_type" rq = Some (VStr "authorization_code") /\
   (exists raw, dget "code" rq = Some (VStr raw) /\ blank_to_plus raw = value) -> t_class t = CCode) /\
  (dget "grant_type" rq = Some (VStr "refresh_token") /\ dget "refresh_token" rq = Some (VStr value) -> t_class t = CRefresh) /\
  (dget "grant_type" rq = Some (VStr "authorization_code") \/ dget "grant_type" rq = Some (VStr "refresh_token")).
Proof.
  intros sid_of b64hash cx idt sharing helpers with_pkce u c gid ops w0 h rq m1 m2 ir args oc w' value g t
    Hs Hu Hc Hg Hv Hops Hso -> Hin M1 M2 Hp Hn.
  destruct (run_checked sid_of b64hash cx idt Hs sharing helpers with_pkce value u c gid Hu Hc Hg Hv ops (mkH w0 []) Hops Hso)
    as (_ & A & B); [intros rq' raw []|intros rq' []|].
  set (h := fst (hrun _ _ _ _ _ _ _ _ _)) in *.
  destruct Hn as (sid & gid' & N1 & N2 & N3 & N4 & l1 & l2 & N5 & N6).
  rewrite Hv in N1. injection N1 as <-. rewrite unpack3_good in N2 by assumption. injection N2 as <-.
  apply view_key in N3.
  assert (Nt : get_token value g = Some t). { unfold get_token. rewrite N5. now apply find_app. }
  assert (P := process_cases sid_of (fun _ _ => "") cx idt Hs _ _ _ _ _ _ _ _ _ M1 M2 Hp).
  assert (Sx : success (Ok (AOk args oc))) by (do 2 eexists; reflexivity).
  destruct P as [[_ P]|[(P1 & P2 & P)|(P1 & P2 & P)]]; [contradiction| |].
  - split; [|split; [|auto]].
    + intros [E1 (raw & E2 & E3)]. destruct (A rq raw Hin E1 E2 E3 P2 g N3) as (t' & T1 & T2). congruence.
    + intros [E1 _]. congruence.
  - split; [|split; [|auto]].
    + intros [E1 _]. congruence.
    + intros [E1 E2]. destruct (B rq Hin g N3) as [B1 _]. destruct (B1 E1 E2 P2) as (t' & T1 & T2). congruence.
Qed.
Print Assumptions C16_token_endpoint.

(** A refresh token or access token presented as a code is refused, and the other way round. *)
Example C16_ex_refused :
  let ask kind v := [("grant_type", VStr (if String.eqb kind "code" then "authorization_code" else "refresh_token")); (kind, VStr v)] in
  fst (token_parse sid2 hash2 both false 2000 (ask "code" "rt1") (w_db (w2 ar2))) = Ok (PErr "invalid_request" "Wrong token type") /\
  fst (token_parse sid2 hash2 both false 2000 (ask "refresh_token" "code1") (w_db (w2 ar2))) = Ok (PErr "invalid_request" "Wrong token type") /\
  fst (token_parse sid2 hash2 both false 2000 (ask "code" "code1") (w_db (w2 ar2))) =
    Ok (PReq [("grant_type", VStr "authorization_code"); ("code", VStr "code1"); ("client_id", VStr "c1")]).
Proof. vm_compute. auto. Qed.
Example C16_ex_accepted :
  let h := fst (hrun sid2 hash2 cx1 idt2 true both false [WParse 1500 (refresh_request "c1")] (mkH (w2 ar2) [])) in
  In (refresh_request "c1") (h_accepted h) /\
  fst (token_process sid2 cx1 idt2 true both (mt2 "at9") (mt2 "rt9") None (PReq (refresh_request "c1")) (h_world h)) =
   Ok (AOk [("access_token", VStr "at9"); ("token_type", VStr "Bearer"); ("scope", vstrs ["openid"; "offline_access"]);
            ("refresh_token", VStr "rt9"); ("id_token", VStr "idt:diana;;c1;;g1")] None).
Proof. split; [left; reflexivity|]. vm_compute. reflexivity. Qed.

(** ** C08 *)
(** A token that is dead at [clock0] is refused from then on, whatever happens in the meantime: the token
    endpoint gives no successful answer for it and accepts no request with it, userinfo refuses it,
    introspection says it is not active. (An exception is no successful answer.) *)
Theorem C08_dead_stays_dead :
  forall sid_of b64hash cx idt sharing helpers with_pkce u c gid ops w value g t clock0 h events,
  sids_ok sid_of -> good u -> good c -> good gid -> sid_of value = Ok (session_key [u; c; gid]) ->
  Forall (wop_ok gid) ops -> Forall (wop_after clock0) ops ->
  names sid_of (w_db w) value u c g t -> dead clock0 t ->
  forall accepted, hrun sid_of b64hash cx idt sharing helpers with_pkce ops (mkH w accepted) = (h, events) ->
  (forall e, In e events -> redeems value e = false /\ refreshes value e = false) /\
  forall clock, clock0 <= clock ->
  (forall request rq, fst (token_parse sid_of b64hash helpers with_pkce clock request (w_db (h_world h))) = Ok (PReq rq) ->
    (dget "grant_type" request = Some (VStr "authorization_code") -> dget "authorization_code" helpers = Some HCode ->
       dget "code" request <> Some (VStr value)) /\
    (dget "grant_type" request = Some (VStr "refresh_token") -> dget "refresh_token" helpers = Some HRefresh ->
       dget "refresh_token" request <> Some (VStr value))) /\
  (forall cx' clients request a s', dget "access_token" request = Some (VStr value) ->
    userinfo_process sid_of cx' clients clock request (w_db (h_world h)) = (Ok a, s') -> exists d, a = AError "invalid_token" d) /\
  (forall cx' clients un request a s', dget "token" request = Some (VStr value) ->
    introspection_process sid_of cx' clients clock un request (w_db (h_world h)) = (Ok a, s') -> a = AOk [("active", VBool false)] None).
Proof.
  intros sid_of b64hash cx idt sharing helpers with_pkce u c gid ops w value g t clock0 h events
    Hs Hu Hc Hg Hv Hops Haft Hn Hd accepted Hrun.
  assert (D : dead_in value u c gid clock0 (w_db (h_world (mkH w accepted)))).
  { destruct Hn as (sid & gid' & N1 & N2 & N3 & N4 & l1 & l2 & N5 & N6).
    rewrite Hv in N1. injection N1 as <-. rewrite unpack3_good in N2 by assumption. injection N2 as <-.
    apply view_key in N3. intros g' E. cbn [h_world] in E. assert (g' = g) by congruence. subst.
    exists t. split; [|exact Hd]. unfold get_token. rewrite N5. now apply find_app. }
  assert (Ev := run_dead_events sid_of b64hash cx idt Hs sharing helpers with_pkce value u c gid Hu Hc Hg Hv ops clock0 _ Hops Haft D).
  assert (D' := run_dead sid_of b64hash cx idt Hs sharing helpers with_pkce value u c gid Hu Hc Hg ops clock0 _ Hops D).
  rewrite Hrun in Ev, D'. cbn [fst snd] in *. split; [exact Ev|]. intros clock Hl.
  assert (K : forall u1 c1 g1 t1, names sid_of (w_db (h_world h)) value u1 c1 g1 t1 -> ~ token_usable clock t1).
  { intros u1 c1 g1 t1 (sid & gid' & N1 & N2 & N3 & N4 & l1 & l2 & N5 & N6).
    rewrite Hv in N1. injection N1 as <-. rewrite unpack3_good in N2 by assumption. injection N2 as <- <- <-.
    apply view_key in N3. destruct (D' g1 N3) as (t2 & T1 & T2).
    assert (t2 = t1). { unfold get_token in T1. rewrite N5, find_app in T1 by assumption. congruence. }
    subst. eapply dead_unusable; eauto. }
  split; [|split].
  - intros request rq Hp. exact (parse_dead sid_of b64hash Hs helpers with_pkce value u c gid Hu Hc Hg Hv clock0 clock _ request rq D' Hl Hp).
  - intros cx' clients request a s' Hr H. destruct (userinfo_cases _ _ _ _ _ _ _ _ H) as (v & sid & u1 & c1 & gid1 & g1 & E & _ & _ & _ & Q).
    assert (v = value) by congruence. subst v.
    destruct Q as [[_ ->]|(t1 & N & [[_ ->]|[(_ & _ & ->)|(_ & U & _)]])]; eauto. exfalso. eapply K; eauto.
  - intros cx' clients un request a s' Hr H. destruct (introspection_cases _ _ _ _ _ _ _ _ _ H) as (v & E & Q).
    assert (v = value) by congruence. subst v.
    destruct Q as [[_ ->]|[(sid & _ & _ & ->)|(u1 & c1 & g1 & t1 & N & [[_ ->]|(info & ui & I1 & _)])]]; auto.
    exfalso. assert (X : introspect cx' clock t1 c1 g1 <> None) by congruence. apply introspect_iff in X. eapply K; [exact N|tauto].
Qed.
Print Assumptions C08_dead_stays_dead.

(** The code of the example is used up after the history above (and expired at 5001). *)
Example C08_ex :
  let '(h, _) := hrun sid2 hash2 cx1 idt2 false both false ops6 (mkH (w2 ar2) []) in
  exists g t, names sid2 (w_db (h_world h)) "code1" "diana" "c1" g t /\ dead 0 t.
Proof.
  destruct (hrun _ _ _ _ _ _ _ _ _) as [h ev] eqn:E. vm_compute in E. injection E as <- <-.
  do 2 eexists. split.
  - exists sid1, "g1". split; [reflexivity|]. split; [vm_compute; reflexivity|]. split; [vm_compute; reflexivity|].
    split; [|exists []; eexists; split; [reflexivity|intros []]]. reflexivity.
  - right. right. exists 1. split; [reflexivity|]. cbn. lia.
Qed.

(** ** C09 *)
(** Once the grant is revoked the token endpoint gives no successful answer for its codes and
    refresh tokens, in any later history. *)
Theorem C09_token_endpoint :
  forall sid_of b64hash cx idt sharing helpers with_pkce u c gid s clients s' ops value h events accepted,
  sids_ok sid_of -> good u -> good c -> good gid -> sid_of value = Ok (session_key [u; c; gid]) ->
  kinds_ok s -> readable s u c gid -> revoke_grant (session_key [u; c; gid]) s = (Ok tt, s') ->
  Forall (wop_ok gid) ops ->
  hrun sid_of b64hash cx idt sharing helpers with_pkce ops (mkH (mkW s' clients) accepted) = (h, events) ->
  forall e, In e events -> redeems value e = false /\ refreshes value e = false.
Proof.
  intros sid_of b64hash cx idt sharing helpers with_pkce u c gid s clients s' ops value h events accepted
    Hs Hu Hc Hg Hv Hk Hr Hrev Hops Hrun e He.
  assert (D : revoked_in u c gid s').
  { intros g E. unfold revoke_grant in Hrev. rewrite unpack_good in Hrev by auto with gp. cbv zeta in Hrev. unfold bind in Hrev.
    destruct (read_cases [u; c; gid] s) as [(e0 & R & V)|(x & R & V)]; rewrite R in Hrev; [|discriminate].
    assert (X := view_kind s _ _ Hk (gp3 _ _ _ Hu Hc Hg) V). destruct e0 as [i|g0]; [cbn in X; lia|].
    cbn [revoke_entry] in Hrev. assert (Y := store_regrants u c gid (g_set_revoked true g0) s (good_tr _ Hg)).
    rewrite Hrev in Y. cbn [snd] in Y. destruct (Y _ _ E) as [[_ ->]|[N _]]; [reflexivity|congruence]. }
  assert (Q := run_revoked_events sid_of b64hash cx idt Hs sharing helpers with_pkce value u c gid Hu Hc Hg Hv ops
     (mkH (mkW s' clients) accepted) Hops D e). rewrite Hrun in Q. auto.
Qed.
Print Assumptions C09_token_endpoint.

(** The answer is an exception (AttributeError), not an error message, also for requests accepted before. *)
Example C09_ex_grant :
  let s' := snd (revoke_grant sid1 (w_db (w2 ar2))) in
  fst (revoke_grant sid1 (w_db (w2 ar2))) = Ok tt /\
  fst (exchange sid2 hash2 cx1 idt2 false both false 2000 (mt2 "at9") (mt2 "rt9") None (code_request "c1") (mkW s' clients1)) = Raise EAttr /\
  fst (exchange sid2 hash2 cx1 idt2 false both false 2000 (mt2 "at9") (mt2 "rt9") None (refresh_request "c1") (mkW s' clients1)) = Raise EAttr.
Proof. vm_compute. auto. Qed.

(** Revoking the client session (what logout does) does not stop the token endpoint. *)
Theorem C09_client_session_refuted :
  exists sid_of b64hash cx idt helpers clock m1 m2 s clients s' sid args1 args2,
    sids_ok sid_of /\ revoke_client_session sid s = (Ok tt, s') /\ sid_of "code1" = Ok sid /\ sid_of "rt1" = Ok sid /\
    fst (exchange sid_of b64hash cx idt false helpers false clock m1 m2 None (code_request "c1") (mkW s' clients)) = Ok (AOk args1 None) /\
    dget "access_token" args1 = Some (VStr "at9") /\
    fst (exchange sid_of b64hash cx idt false helpers false clock m1 m2 None (refresh_request "c1") (mkW s' clients)) = Ok (AOk args2 None) /\
    dget "refresh_token" args2 = Some (VStr "rt9").
Proof.
  exists sid2, hash2, cx1, idt2, both, 2000, (mt2 "at9"), (mt2 "rt9"), (w_db (w2 ar2)), clients1,
    (snd (revoke_client_session sid1 (w_db (w2 ar2)))), sid1. do 2 eexists.
  split; [exact sid2_ok|]. split; [vm_compute; reflexivity|]. split; [reflexivity|]. split; [reflexivity|].
  split; [vm_compute; reflexivity|]. split; [reflexivity|]. split; [vm_compute; reflexivity|]. reflexivity.
Qed.
Print Assumptions C09_client_session_refuted.

(** ** C12 *)
Section Ignored.
  Variable x : val.
  Lemma client_msub k (rq : msg) : k <> "client_id" -> msub_str k (dset "client_id" x rq) = msub_str k rq.
  Proof. intros H. unfold msub_str. now rewrite dget_dset_neq. Qed.
  Lemma client_dmem k (rq : msg) : k <> "client_id" -> dmem k (dset "client_id" x rq) = dmem k rq.
  Proof. intros H. unfold dmem. now rewrite dget_dset_neq. Qed.
  Lemma client_dsub k (rq : msg) : k <> "client_id" -> dsub k (dset "client_id" x rq) = dsub k rq.
  Proof. intros H. unfold dsub. now rewrite dget_dset_neq. Qed.
  Lemma client_dmem_id (rq : msg) : dmem "client_id" (dset "client_id" x rq) = true.
  Proof. unfold dmem. now rewrite dget_dset_eq. Qed.
End Ignored.

Lemma process_client sid_of cx idt sharing helpers m1 m2 ir x rq w :
  token_process sid_of cx idt sharing helpers m1 m2 ir (PReq (dset "client_id" x rq)) w =
  token_process sid_of cx idt sharing helpers m1 m2 ir (PReq rq) w.
Proof.
  unfold token_process, code_process, refresh_process.
  rewrite (client_msub x "grant_type" rq), (client_msub x "code" rq), (client_msub x "refresh_token" rq),
    (client_dmem x "code" rq), (client_dsub x "redirect_uri" rq) by (intros X; discriminate X). reflexivity.
Qed.

Definition on_req {A} (f : msg -> msg) (r : result parsed * A) : result parsed * A :=
  match r with (Ok (PReq rq), s) => (Ok (PReq (f rq)), s) | _ => r end.

Lemma parse_client sid_of b64hash helpers pk clock x rq s : dmem "client_id" rq = true ->
  token_parse sid_of b64hash helpers pk clock (dset "client_id" x rq) s =
  on_req (dset "client_id" x) (token_parse sid_of b64hash helpers pk clock rq s).
Proof.
  intros Hm. unfold token_parse, token_post_parse, code_parse, refresh_parse, post_token_parse, look.
  unfold catch, bind, lift, ret, raise.
  repeat match goal with
         | |- context [msub_str ?k (dset "client_id" x rq)] => rewrite (client_msub x k rq) by (intros X; discriminate X)
         end.
  rewrite client_dmem_id, Hm. rewrite ?(client_dmem x "code_verifier" rq), ?(client_dmem x "refresh_token" rq) by (intros X; discriminate X).
  destruct (msub_str "grant_type" rq) as [gt|]; [|reflexivity].
  destruct (dget gt helpers) as [[| |]|]; [| |reflexivity|reflexivity].
  - destruct (msub_str "code" rq) as [v|e] eqn:Ev; [|destruct (is_key_or_unknown e); reflexivity].
    destruct (get_session_info_by_token sid_of v false false true false false s) as [[i|e] s1]; [|destruct (is_key_or_unknown e); reflexivity].
    destruct (grant_of i s1) as [[g|e] s2]; [|reflexivity].
    destruct (get_token v g) as [t|]; [|reflexivity]. destruct (negb _); [reflexivity|]. destruct (negb _); [reflexivity|].
    destruct pk; [|reflexivity]. rewrite ?(client_msub x "code" rq), ?(client_msub x "code_verifier" rq), ?(client_dmem x "code_verifier" rq) by (intros X; discriminate X). rewrite ?Ev.
    destruct (get_session_info_by_token sid_of v false false true false false s2) as [[i2|e] s3]; [|destruct (is_key_error e); reflexivity].
    destruct (grant_of i2 s3) as [[g2|e] s4]; [|reflexivity]. destruct (g_authreq g2) as [ar|]; [|reflexivity].
    destruct (dmem "code_challenge" ar); [|reflexivity]. destruct (negb _); [reflexivity|].
    destruct (msub_str "code_challenge_method" ar); [|reflexivity]. destruct (msub_str "code_verifier" rq); [|reflexivity].
    destruct (msub_str "code_challenge" ar); [|reflexivity]. destruct (verify_code_challenge _ _ _ _) as [[|]|]; reflexivity.
  - destruct (negb _); [reflexivity|].
    destruct (msub_str "refresh_token" rq) as [v|e] eqn:Ev; [|destruct (is_key_error e); reflexivity].
    destruct (get_session_info_by_token sid_of v false false true false false s) as [[i|e] s1]; [|destruct (is_key_error e); reflexivity].
    destruct (grant_of i s1) as [[g|e] s2]; [|reflexivity].
    destruct (get_token v g) as [t|]; [|reflexivity]. destruct (negb _); [reflexivity|]. destruct (negb _); [reflexivity|].
    destruct pk; [|reflexivity]. rewrite ?(client_msub x "code" rq), ?(client_msub x "code_verifier" rq), ?(client_dmem x "code_verifier" rq) by (intros X; discriminate X).
    destruct (msub_str "code" rq) as [v2|e]; [|destruct (is_key_error e); reflexivity].
    destruct (get_session_info_by_token sid_of v2 false false true false false s2) as [[i2|e] s3]; [|destruct (is_key_error e); reflexivity].
    destruct (grant_of i2 s3) as [[g2|e] s4]; [|reflexivity]. destruct (g_authreq g2) as [ar|]; [|reflexivity].
    destruct (dmem "code_challenge" ar); [|reflexivity]. destruct (negb _); [reflexivity|].
    destruct (msub_str "code_challenge_method" ar); [|reflexivity]. destruct (msub_str "code_verifier" rq); [|reflexivity].
    destruct (msub_str "code_challenge" ar); [|reflexivity]. destruct (verify_code_challenge _ _ _ _) as [[|]|]; reflexivity.
Qed.

(** The client makes no difference at all: for every request that names a client (after client
    authentication all do), the outcome is the same for every other client. *)
Theorem C12_client_ignored_refuted :
  forall sid_of b64hash cx idt sharing helpers with_pkce clock m1 m2 issue_refresh request w x,
  dmem "client_id" request = true ->
  exchange sid_of b64hash cx idt sharing helpers with_pkce clock m1 m2 issue_refresh (dset "client_id" x request) w =
  exchange sid_of b64hash cx idt sharing helpers with_pkce clock m1 m2 issue_refresh request w.
Proof.
  intros sid_of b64hash cx idt sharing helpers with_pkce clock m1 m2 issue_refresh request w x Hm.
  unfold exchange, bind, in_db. rewrite parse_client by exact Hm.
  destruct (token_parse sid_of b64hash helpers with_pkce clock request (w_db w)) as [[[rq|e d]|e] s]; cbn [on_req]; try reflexivity.
  apply process_client.
Qed.
Print Assumptions C12_client_ignored_refuted.

(** Client c2 redeems the code and the refresh token of client c1, PKCE or not. *)
Theorem C12_refuted :
  exists sid_of b64hash cx idt helpers clock m1 m2 w g t1 t2 args1 args2 args3,
    names sid_of (w_db w) "code1" "diana" "c1" g t1 /\ names sid_of (w_db w) "rt1" "diana" "c1" g t2 /\
    fst (exchange sid_of b64hash cx idt false helpers false clock m1 m2 None (code_request "c2") w) = Ok (AOk args1 None) /\
    fst (exchange sid_of b64hash cx idt false helpers true clock m1 m2 None (code_request "c2") w) = Ok (AOk args2 None) /\
    fst (exchange sid_of b64hash cx idt false helpers false clock m1 m2 None (refresh_request "c2") w) = Ok (AOk args3 None) /\
    Forall (fun args : msg => dget "access_token" args = Some (VStr "at9") /\ dget "refresh_token" args = Some (VStr "rt9")) [args1; args2; args3].
Proof.
  exists sid2, hash2, cx1, idt2, both, 2000, (mt2 "at9"), (mt2 "rt9"), (w2 ar3), (gr2 ar3). do 5 eexists.
  split. { exists sid1, "g1". split; [reflexivity|]. split; [vm_compute; reflexivity|]. split; [vm_compute; reflexivity|].
    split; [|exists []; eexists; split; [reflexivity|intros []]]. reflexivity. }
  split. { exists sid1, "g1". split; [reflexivity|]. split; [vm_compute; reflexivity|]. split; [vm_compute; reflexivity|].
    split; [|eexists [_]; eexists; split; [reflexivity|]]. reflexivity. cbn. intros [X|[]]. discriminate. }
  split; [vm_compute; reflexivity|]. split; [vm_compute; reflexivity|]. split; [vm_compute; reflexivity|].
  repeat constructor.
Qed.
Print Assumptions C12_refuted.

(** ** C13 *)
(** When the code of a successful response belongs to an authorization request with a redirect_uri, the
    token request has the same. *)
Theorem C13_redirect_uri :
  forall sid_of cx idt sharing helpers m1 m2 ir rq w args oc w' raw u c g t ar uri,
  sids_ok sid_of -> mint_ok m1 -> mint_ok m2 ->
  token_process sid_of cx idt sharing helpers m1 m2 ir (PReq rq) w = (Ok (AOk args oc), w') ->
  dget "grant_type" rq = Some (VStr "authorization_code") -> dget "code" rq = Some (VStr raw) ->
  names sid_of (w_db w) (blank_to_plus raw) u c g t ->
  g_authreq g = Some ar -> dget "redirect_uri" ar = Some (VStr uri) ->
  dget "redirect_uri" rq = Some (VStr uri).
Proof.
  intros sid_of cx idt sharing helpers m1 m2 ir rq w args oc w' raw u c g t ar uri Hs M1 M2 H Eg Ec Hn Ear Eu.
  assert (Sx : success (Ok (AOk args oc))) by (do 2 eexists; reflexivity).
  destruct (process_cases sid_of (fun _ _ => "") cx idt Hs _ _ _ _ _ _ _ _ _ M1 M2 H) as [[_ P]|[(P1 & P2 & r1 & w1 & P & _ & P3 & _)|(P1 & P2 & P)]]; [contradiction| |congruence].
  destruct (code_process_cases sid_of (fun _ _ => "") cx idt Hs _ _ _ _ _ _ _ M1 M2 P) as [[_ X]|(raw' & u1 & c1 & gid1 & g1 & g' & _ & C2 & L & _ & _ & S)]; [tauto|].
  assert (raw' = raw) by congruence. subst raw'. destruct (S (P3 Sx)) as (ar' & t1 & t' & S1 & S2 & _).
  destruct Hn as (sid & gid' & N1 & N2 & N3 & N4 & _). destruct L as (L1 & L2 & L3 & L4 & L5).
  rewrite L4 in N1. injection N1 as <-. rewrite unpack3_good in N2 by assumption. injection N2 as <- <- <-.
  assert (g1 = g) by congruence. subst g1. assert (ar' = ar) by congruence. subst ar'.
  destruct (S2 _ Eu) as (y & Y1 & Y2). rewrite Y1. f_equal. destruct y; try discriminate. cbn in Y2. apply String.eqb_eq in Y2. congruence.
Qed.
Print Assumptions C13_redirect_uri.
Example C13_ex :
  let go rq := fst (exchange sid2 hash2 cx1 idt2 false both false 2000 (mt2 "at9") (mt2 "rt9") None rq (w2 ar2)) in
  (exists args, go (code_request "c1") = Ok (AOk args None)) /\
  go (dset "redirect_uri" (VStr "https://evil.example.org/") (code_request "c1")) = Ok (AError "invalid_request" "redirect_uri mismatch") /\
  go (ddel "redirect_uri" (code_request "c1")) = Raise EKey.
Proof. split; [eexists; vm_compute; reflexivity|]. vm_compute. auto. Qed.

(** ** C14 *)
(** With PKCE on, after every history: a successful answer to an accepted code request, when the authorization
    request had a code_challenge, means that the code_verifier matches it under the method recorded. *)
Theorem C14_verifier :
  forall sid_of b64hash cx idt sharing helpers code u c gid ops w0 h rq m1 m2 ir args oc w' raw g t ar,
  sids_ok sid_of -> good u -> good c -> good gid -> sid_of code = Ok (session_key [u; c; gid]) ->
  Forall (wop_ok gid) ops -> sound_store (w_db w0) ->
  h = fst (hrun sid_of b64hash cx idt sharing helpers true ops (mkH w0 [])) ->
  In rq (h_accepted h) -> mint_ok m1 -> mint_ok m2 ->
  token_process sid_of cx idt sharing helpers m1 m2 ir (PReq rq) (h_world h) = (Ok (AOk args oc), w') ->
  dget "grant_type" rq = Some (VStr "authorization_code") -> dget "code" rq = Some (VStr raw) -> blank_to_plus raw = code ->
  names sid_of (w_db (h_world h)) code u c g t -> g_authreq g = Some ar -> dmem "code_challenge" ar = true ->
  exists verifier challenge m,
    dget "code_verifier" rq = Some (VStr verifier) /\ dget "code_challenge" ar = Some (VStr challenge) /\
    dget "code_challenge_method" ar = Some (VStr m) /\
    ((m = "plain" /\ verifier = challenge) \/ (In m ["S256"; "S384"; "S512"] /\ b64hash m verifier = challenge)).
Proof.
  intros sid_of b64hash cx idt sharing helpers code u c gid ops w0 h rq m1 m2 ir args oc w' raw g t ar
    Hs Hu Hc Hg Hv Hops Hso -> Hin M1 M2 Hp Eg Ec Er Hn Ear Ech.
  destruct (run_checked sid_of b64hash cx idt Hs sharing helpers true code u c gid Hu Hc Hg Hv ops (mkH w0 []) Hops Hso)
    as (_ & _ & B); [intros rq' raw' []|intros rq' []|].
  set (h := fst (hrun _ _ _ _ _ _ _ _ _)) in *.
  destruct Hn as (sid & gid' & N1 & N2 & N3 & N4 & l1 & l2 & N5 & N6).
  rewrite Hv in N1. injection N1 as <-. rewrite unpack3_good in N2 by assumption. injection N2 as <-.
  apply view_key in N3. destruct (B rq Hin g N3) as [_ B2].
  assert (Sx : success (Ok (AOk args oc))) by (do 2 eexists; reflexivity).
  destruct (process_cases sid_of (fun _ _ => "") cx idt Hs _ _ _ _ _ _ _ _ _ M1 M2 Hp) as [[_ P]|[(P1 & P2 & P)|(P1 & P2 & P)]]; [contradiction| |congruence].
  destruct (B2 eq_refl raw Ec Er Eg P2 ar Ear Ech) as (ve & ch & m & V1 & V2 & V3 & V4).
  exists ve, ch, m. repeat (split; [assumption|]). unfold cc_method in V4.
  destruct (String.eqb_spec m "plain") as [->|Nm]; [left; split; congruence|]. right.
  destruct (smem m ["S256"; "S384"; "S512"]) eqn:Em; [|discriminate]. apply smem_In in Em.
  destruct (is_ascii ve); [|discriminate]. split; [exact Em|congruence].
Qed.
Print Assumptions C14_verifier.

(** The hook of the authorization endpoint: what it lets through has a challenge if PKCE is essential; a
    request with a challenge has an allowed method, the one that was asked for or plain; nothing else is
    changed. Requests that satisfy this are let through. *)
Theorem C14_authorization :
  forall p request,
  (forall rq, post_authn_parse p request = PReq rq ->
     (pk_essential p = true -> dmem "code_challenge" request = true) /\
     (forall k, k <> "code_challenge_method" -> dget k rq = dget k request) /\
     dget "code_challenge_method" rq =
       Some (match dget "code_challenge_method" request with Some m => m | None => VStr "plain" end) /\
     (dmem "code_challenge" request = true -> exists m, dget "code_challenge_method" rq = Some (VStr m) /\ In m (pk_methods p))) /\
  ((pk_essential p = true -> dmem "code_challenge" request = true) ->
   (dmem "code_challenge" request = true ->
      exists m, In m (pk_methods p) /\
        (dget "code_challenge_method" request = Some (VStr m) \/ (dmem "code_challenge_method" request = false /\ m = "plain"))) ->
   exists rq, post_authn_parse p request = PReq rq).
Proof.
  intros p request. unfold post_authn_parse. 
  set (rq1 := if dmem "code_challenge_method" request then request else dset "code_challenge_method" (VStr "plain") request).
  assert (A : forall k, k <> "code_challenge_method" -> dget k rq1 = dget k request).
  { intros k Hk. unfold rq1. destruct (dmem _ request); [reflexivity|]. now apply dget_dset_neq. }
  assert (B : dget "code_challenge_method" rq1 =
       Some (match dget "code_challenge_method" request with Some m => m | None => VStr "plain" end)).
  { unfold rq1, dmem. destruct (dget "code_challenge_method" request) eqn:E; [exact E|]. apply dget_dset_eq. }
  assert (C : dmem "code_challenge" rq1 = dmem "code_challenge" request).
  { unfold dmem. now rewrite A by discriminate. }
  split.
  - intros rq H. destruct (pk_essential p && negb (dmem "code_challenge" request)) eqn:E1; [discriminate|].
    destruct (dmem "code_challenge" rq1 && _) eqn:E2; [discriminate|]. injection H as <-.
    split. { intros X. rewrite X in E1. destruct (dmem "code_challenge" request); [reflexivity|discriminate]. }
    split; [exact A|]. split; [exact B|]. intros X. rewrite C, X in E2. cbn [andb] in E2.
    destruct (dget "code_challenge_method" rq1) as [[| | |m| |]|]; try discriminate. exists m. split; [reflexivity|].
    apply smem_In. now destruct (smem m (pk_methods p)).
  - intros H1 H2. destruct (pk_essential p && negb (dmem "code_challenge" request)) eqn:E1.
    { apply andb_prop in E1. destruct E1 as [E1 E3]. rewrite H1 in E3 by exact E1. discriminate. }
    destruct (dmem "code_challenge" rq1 && _) eqn:E2; [|eauto]. exfalso. rewrite C in E2. apply andb_prop in E2. destruct E2 as [E2 E3].
    destruct (H2 E2) as (m & M1 & M2). apply smem_In in M1.
    assert (D : dget "code_challenge_method" rq1 = Some (VStr m)).
    { rewrite B. unfold dmem in M2. destruct M2 as [->|[M2 ->]]; [reflexivity|].
      destruct (dget "code_challenge_method" request); [discriminate|reflexivity]. }
    rewrite D, M1 in E3. discriminate.
Qed.
Print Assumptions C14_authorization.

(** The methods that can be configured are those that can be verified. *)
Theorem C14_methods :
  forall b64hash essential methods p m verifier,
  add_pkce_support essential methods = Ok p -> In m (pk_methods p) -> is_ascii verifier = true ->
  exists challenge, cc_method b64hash m verifier = Ok challenge.
Proof.
  intros b64hash essential methods p m verifier H Hm Ha. unfold add_pkce_support in H.
  destruct (forallb _ _) eqn:E; [|discriminate]. injection H as <-. cbn [pk_methods] in Hm.
  rewrite forallb_forall in E. specialize (E m Hm). apply smem_In in E. unfold cc_method. rewrite Ha.
  cbn in E. destruct E as [<-|[<-|[<-|[<-|[]]]]]; eexists; reflexivity.
Qed.
Print Assumptions C14_methods.

(** What comes of the configuration of PKCE: the methods that are named, or all there are; a challenge is required only where that is configured; a method
    that does not exist stops the set-up. *)
Theorem C14_configured :
  forall essential methods,
  let exists_ m := In m ["plain"; "S256"; "S384"; "S512"] in
  ((forall l, methods = Some l -> Forall exists_ l) ->
   exists p, add_pkce_support essential methods = Ok p /\
     (forall m, In m (pk_methods p) <-> match methods with Some l => In m l | None => exists_ m end) /\
     (pk_essential p = true <-> essential = Some true)) /\
  (forall l m, methods = Some l -> In m l -> ~ exists_ m -> exists e, add_pkce_support essential methods = Raise e).
Proof.
  intros essential methods exists_. unfold add_pkce_support. split.
  - intros F. assert (E : forallb (fun m => smem m CC_METHODS) (match methods with Some l => l | None => CC_METHODS end) = true).
    { destruct methods as [l|]; [|reflexivity]. specialize (F l eq_refl). rewrite Forall_forall in F. apply forallb_forall. intros m I. apply smem_In. exact (F m I). }
    rewrite E. eexists. split; [reflexivity|]. cbn [pk_methods pk_essential]. split; [destruct methods; intros m; reflexivity|].
    destruct essential as [[]|]; split; congruence.
  - intros l m -> I N. destruct (forallb (fun m => smem m CC_METHODS) l) eqn:E; [|eauto]. rewrite forallb_forall in E. specialize (E m I). apply smem_In in E. contradiction.
Qed.
Print Assumptions C14_configured.
Example C14_ex_configured : exists p, add_pkce_support None (Some ["S256"; "S512"]) = Ok p /\ pk_essential p = false /\ pk_methods p = ["S256"; "S512"].
Proof. eexists. vm_compute. auto. Qed.

Example C14_ex :
  let go rq := fst (exchange sid2 hash2 cx1 idt2 false both true 2000 (mt2 "at9") (mt2 "rt9") None rq (w2 ar3)) in
  (exists args, go (code_request "c1") = Ok (AOk args None)) /\
  go (dset "code_verifier" (VStr "guess") (code_request "c1")) = Ok (AError "invalid_grant" "PKCE check failed") /\
  go (ddel "code_verifier" (code_request "c1")) = Ok (AError "invalid_grant" "Missing code_verifier").
Proof. split; [eexists; vm_compute; reflexivity|]. vm_compute. auto. Qed.
Example C14_ex_authorization :
  post_authn_parse (mkPkce true ["S256"]) ar2 = PErr "invalid_request" "Missing required code_challenge" /\
  post_authn_parse (mkPkce true ["S256"]) (dset "code_challenge" (VStr "x") ar2) = PErr "invalid_request" "Unsupported code_challenge_method" /\
  post_authn_parse (mkPkce true ["S256"]) ar3 = PReq ar3.
Proof. vm_compute. auto. Qed.

(** ** C15 *)
(** With PKCE on no refresh request (without a code in it) is ever accepted. *)
Theorem C15_refresh_refuted :
  forall sid_of b64hash helpers clock request s,
  dget "grant_type" request = Some (VStr "refresh_token") -> dget "refresh_token" helpers = Some HRefresh ->
  dmem "code" request = false ->
  forall rq s', token_parse sid_of b64hash helpers true clock request s <> (Ok (PReq rq), s').
Proof.
  intros sid_of b64hash helpers clock request s Hg Hh Hc rq s' H.
  unfold token_parse, token_post_parse, bind, lift, ret in H. unfold msub_str in H. rewrite Hg, Hh in H.
  destruct (refresh_parse sid_of clock request s) as [[[rq1|]|] s1] eqn:E; try discriminate.
  assert (rq1 = request).
  { unfold refresh_parse, bind, ret, raise in E. destruct (negb _); [discriminate|]. destruct (look _ _ _ _ s) as [[[[v i]|]|] s2]; try discriminate.
    destruct (grant_of i s2) as [[g|] s3]; [|discriminate]. destruct (get_token v g); [|discriminate].
    destruct (negb _); [discriminate|]. destruct (negb _); [discriminate|]. congruence. }
  subst rq1. unfold post_token_parse, look, catch, bind, lift, ret in H. unfold msub_str, dmem in *.
  destruct (dget "code" request); [discriminate|]. cbn in H. discriminate.
Qed.
Print Assumptions C15_refresh_refuted.
(** ... while the same requests are served without PKCE. *)
Theorem C15_differs_refuted :
  exists sid_of b64hash cx idt helpers clock m1 m2 w args,
    fst (exchange sid_of b64hash cx idt false helpers false clock m1 m2 None (refresh_request "c1") w) = Ok (AOk args None) /\
    fst (exchange sid_of b64hash cx idt false helpers true clock m1 m2 None (refresh_request "c1") w) =
      Ok (AError "invalid_grant" "Unknown access grant").
Proof.
  exists sid2, hash2, cx1, idt2, both, 2000, (mt2 "at9"), (mt2 "rt9"), (w2 ar2). eexists.
  split; vm_compute; reflexivity.
Qed.
Print Assumptions C15_differs_refuted.

(** ** C51 *)
(** A grant type that is switched off or not listed is never served. *)
Theorem C51_disabled :
  forall conf helpers gt, configure_grant_types (Some conf) = Ok helpers ->
  (forall o, In (gt, o) conf -> o = GOff) ->
  dget gt helpers = None /\
  forall sid_of b64hash with_pkce clock request s, dget "grant_type" request = Some (VStr gt) ->
    exists d, token_parse sid_of b64hash helpers with_pkce clock request s = (Ok (PErr "invalid_request" d), s).
Proof.
  intros conf helpers gt H Hoff.
  assert (K : forall l acc h, configure_go l acc = Ok h -> (forall o, In (gt, o) l -> o = GOff) -> dget gt h = dget gt acc).
  { induction l as [|[k o] l IH]; intros acc h E Ho; cbn in E; [congruence|].
    assert (Ho' : forall o', In (gt, o') l -> o' = GOff) by (intros; apply Ho; now right).
    destruct (configure_one k o acc) as [acc1|] eqn:E1; cbn in E; [|discriminate]. rewrite (IH _ _ E Ho').
    unfold configure_one in E1. destruct (string_dec gt k) as [->|N].
    - rewrite (Ho o) in E1 by now left. congruence.
    - destruct o; try discriminate; [destruct (dmem k _); [|discriminate]| |]; injection E1 as <-; try reflexivity; now apply dget_dset_neq. }
  assert (D : dget gt helpers = None) by (rewrite (K _ _ _ H Hoff); reflexivity).
  split; [exact D|]. intros sid_of b64hash with_pkce clock request s Hg. eexists.
  unfold token_parse, token_post_parse, bind, lift, ret. unfold msub_str. rewrite Hg, D. reflexivity.
Qed.
Print Assumptions C51_disabled.

(** Without a configuration codes and refresh tokens are accepted, nothing else; with one, the helpers that were made for the grant types it names. *)
Theorem C51_given :
  (exists helpers, configure_grant_types None = Ok helpers /\
    forall gt h, dget gt helpers = Some h <-> gt = "authorization_code" /\ h = HCode \/ gt = "refresh_token" /\ h = HRefresh) /\
  (forall conf, NoDup (map fst conf) -> forall gt h helpers, In (gt, GBuilt h) conf -> configure_grant_types (Some conf) = Ok helpers -> dget gt helpers = Some h) /\
  (forall conf, (exists helpers, configure_grant_types (Some conf) = Ok helpers) <->
     forall gt o, In (gt, o) conf -> o <> GBad /\ (o = GDefault -> In gt ["authorization_code"; "refresh_token"])).
Proof.
  split; [|split].
  - eexists. split; [reflexivity|]. intros gt h. cbn -[String.eqb]. destruct (String.eqb_spec gt "authorization_code") as [->|N1].
    { split; [intros [= <-]; auto|]. intros [[_ ->]|[X _]]; [reflexivity|discriminate X]. }
    destruct (String.eqb_spec gt "refresh_token") as [->|N2]; [split; [intros [= <-]; auto|]; intros [[X _]|[_ ->]]; [discriminate X|reflexivity]|].
    split; [discriminate|]. intros [[X _]|[X _]]; contradiction.
  - assert (K : forall l acc h gt, configure_go l acc = Ok h -> ~ In gt (map fst l) -> dget gt h = dget gt acc).
    { induction l as [|[k o] l IH]; intros acc h gt E Ho; cbn in E; [congruence|].
      destruct (configure_one k o acc) as [acc1|] eqn:E1; cbn in E; [|discriminate]. rewrite (IH _ _ _ E) by (intros X; apply Ho; now right).
      assert (N : gt <> k) by (intros ->; apply Ho; now left). unfold configure_one in E1.
      destruct o; try discriminate; [destruct (dmem k _); [|discriminate]| |]; injection E1 as <-; try reflexivity; now apply dget_dset_neq. }
    intros conf Nd gt h helpers I. unfold configure_grant_types. generalize (@nil (string * helper)). induction conf as [|[k o] l IH]; intros acc E; [destruct I|].
    cbn [configure_go] in E. destruct (configure_one k o acc) as [acc1|] eqn:E1; cbn in E; [|discriminate]. cbn in Nd. inversion Nd; subst.
    destruct I as [I|I]; [|eapply IH; eauto]. injection I as -> ->. rewrite (K _ _ _ _ E) by assumption. cbn in E1. injection E1 as <-. apply dget_dset_eq.
  - intros conf. unfold configure_grant_types. generalize (@nil (string * helper)).
    assert (Kn : forall k, dmem k HELPER_BY_GRANT_TYPE = true <-> In k ["authorization_code"; "refresh_token"]).
    { intros k. unfold dmem. cbn -[String.eqb]. destruct (String.eqb_spec k "authorization_code"); [subst; cbn; tauto|]. destruct (String.eqb_spec k "refresh_token"); [subst; cbn; tauto|].
      split; [discriminate|]. intros [X|[X|[]]]; congruence. }
    induction conf as [|[k o] l IH]; intros acc; cbn [configure_go].
    { split; [intros _ gt o []|eauto]. }
    assert (One : (exists a, configure_one k o acc = Ok a) <-> o <> GBad /\ (o = GDefault -> In k ["authorization_code"; "refresh_token"])).
    { unfold configure_one. destruct o.
      - destruct (dmem k HELPER_BY_GRANT_TYPE) eqn:D; [apply Kn in D|]. { split; [split; [discriminate|auto]|eauto]. }
        split; [intros (a & X); discriminate X|]. intros [_ X]. specialize (X eq_refl). apply Kn in X. congruence.
      - split; [intros _; split; discriminate|eauto].
      - split; [intros _; split; discriminate|eauto].
      - split; [intros (a & X); discriminate X|intros [X _]; congruence]. }
    split.
    + intros (h & E). destruct (configure_one k o acc) as [acc1|] eqn:E1; cbn in E; [|discriminate].
      intros gt o' [X|X]; [injection X as <- <-; apply One; eauto|]. apply (proj1 (IH acc1)); eauto.
    + intros F. destruct (proj2 One (F k o (or_introl eq_refl))) as (acc1 & E1). rewrite E1. cbn. apply (proj2 (IH acc1)). intros gt o' X. apply F. now right.
Qed.
Print Assumptions C51_given.


(** A grant type that is switched on with True (or None) is not usable: every request for it ends in an
    exception. *)
Theorem C51_enabled_refuted :
  forall conf1 conf2 helpers gt, configure_grant_types (Some (conf1 ++ (gt, GDefault) :: conf2)) = Ok helpers ->
  ~ In gt (map fst conf2) ->
  dget gt helpers = Some HClass /\
  forall sid_of b64hash with_pkce clock request s, dget "grant_type" request = Some (VStr gt) ->
    exists e, token_parse sid_of b64hash helpers with_pkce clock request s = (Raise e, s).
Proof.
  intros conf1 conf2 helpers gt H Hn.
  assert (K : forall l acc h, configure_go l acc = Ok h -> ~ In gt (map fst l) -> dget gt h = dget gt acc).
  { induction l as [|[k o] l IH]; intros acc h E Ho; cbn in E; [congruence|].
    destruct (configure_one k o acc) as [acc1|] eqn:E1; cbn in E; [|discriminate]. rewrite (IH _ _ E) by (intros X; apply Ho; now right).
    assert (N : gt <> k) by (intros ->; apply Ho; now left). unfold configure_one in E1.
    destruct o; try discriminate; [destruct (dmem k _); [|discriminate]| |]; injection E1 as <-; try reflexivity; now apply dget_dset_neq. }
  assert (D : dget gt helpers = Some HClass).
  { unfold configure_grant_types in H. revert H. generalize (@nil (string * helper)) as acc. 
    induction conf1 as [|[k o] l IH]; intros acc H; cbn in H.
    - destruct (dmem gt HELPER_BY_GRANT_TYPE); cbn in H; [|discriminate]. rewrite (K _ _ _ H Hn). apply dget_dset_eq.
    - destruct (configure_one k o acc) as [acc1|]; cbn in H; [|discriminate]. eauto. }
  split; [exact D|]. intros sid_of b64hash with_pkce clock request s Hg. eexists.
  unfold token_parse, token_post_parse, bind, lift, ret. unfold msub_str. rewrite Hg, D. reflexivity.
Qed.
Print Assumptions C51_enabled_refuted.
(** Without configuration, or with the class given, both grant types are served. *)
Example C51_ex :
  configure_grant_types None = Ok both /\
  configure_grant_types (Some [("authorization_code", GBuilt HCode); ("refresh_token", GOff)]) = Ok [("authorization_code", HCode)] /\
  configure_grant_types (Some [("authorization_code", GDefault); ("refresh_token", GDefault)]) =
    Ok [("authorization_code", HClass); ("refresh_token", HClass)].
Proof. vm_compute. auto. Qed.

(** ** C52 *)
(** A successful answer to a code request: exactly the grant of the code has changed; the use of the code is
    counted and the tokens in the answer are in the grant, fresh, made from the code; the answer has the
    members it should and no others; the ID Token is made from the state that is left. *)
Theorem C52_code_response :
  forall sid_of cx idt sharing helpers m1 m2 ir rq w args oc w',
  sids_ok sid_of -> kinds_ok (w_db w) -> linked (w_db w) ->
  dget "grant_type" rq = Some (VStr "authorization_code") ->
  token_process sid_of cx idt sharing helpers m1 m2 ir (PReq rq) w = (Ok (AOk args oc), w') ->
  exists raw u c gid g t access rest issued g' ar id_tokens,
    dget "code" rq = Some (VStr raw) /\ good u /\ good c /\ good gid /\
    sid_of (blank_to_plus raw) = Ok (session_key [u; c; gid]) /\ view (w_db w) [u; c; gid] = Some (EGrant g) /\
    g_authreq g = Some ar /\
    only_grant (w_db w) u c gid g' (w_db w') /\
    counted (blank_to_plus raw) (g_issued g) issued /\ same_but_issued g g' (issued ++ access :: rest) /\
    In t (g_issued g) /\ t_value t = blank_to_plus raw /\
    fresh_token (mt_clock m1) g "access_token" t access /\
    args = [("token_type", VStr "Bearer"); ("scope", vstrs (g_scope g)); ("access_token", VStr (t_value access));
            ("expires_in", VInt (t_expires_at access - mt_clock m1))]
           ++ map (fun rt => ("refresh_token", VStr (t_value rt))) rest ++ map (fun x => ("id_token", VStr x)) id_tokens /\
    (exists scope b, dget "scope" ar = Some scope /\ val_in (VStr "openid") scope = Ok b /\
       length id_tokens = if b : bool then 1%nat else 0%nat) /\
    (forall x, In x id_tokens -> exists cs cs', idt (w_db w') (session_key [u; c; gid]) cs = (Ok x, cs')) /\
    if match ir with Some b => b | None => smem "offline_access" (g_scope g) end
    then exists rt, rest = [rt] /\ fresh_token (mt_clock m2) g "refresh_token" t rt
    else rest = [].
Proof.
  intros sid_of cx idt sharing helpers m1 m2 ir rq w args oc w' Hs Hk Hl Eg H.
  destruct (process_success sid_of cx idt Hs _ _ _ _ _ _ _ _ _ _ H) as (oc1 & w1 & Ew & [[_ E]|[E _]]); [|congruence].
  destruct (code_success sid_of cx idt Hs _ _ _ _ _ _ _ _ (conj Hk Hl) E)
    as (raw & u & c & gid & g & t & at_ & rest & issued & g' & ar & A1 & (L1 & L2 & L3 & L4 & L5) & A3 & A4 & A5 & A6 & A7 & A8 & idts & A9 & A10 & A11 & A12). rewrite Ew in *.
  exists raw, u, c, gid, g, t, at_, rest, issued, g', ar, idts. apply get_token_value in A3. destruct A3 as [A3 A3'].
  repeat (split; [assumption|]). assumption.
Qed.
Print Assumptions C52_code_response.
Theorem C52_refresh_response :
  forall sid_of cx idt sharing helpers m1 m2 ir rq w args oc w',
  sids_ok sid_of -> kinds_ok (w_db w) -> linked (w_db w) ->
  dget "grant_type" rq = Some (VStr "refresh_token") ->
  token_process sid_of cx idt sharing helpers m1 m2 ir (PReq rq) w = (Ok (AOk args oc), w') ->
  exists value u c gid g t access rest g' mints id_tokens,
    dget "refresh_token" rq = Some (VStr value) /\ good u /\ good c /\ good gid /\
    sid_of value = Ok (session_key [u; c; gid]) /\ view (w_db w) [u; c; gid] = Some (EGrant g) /\
    In t (g_issued g) /\ t_value t = value /\ ur_mints (t_rules t) = Some mints /\
    only_grant (w_db w) u c gid g' (w_db w') /\ same_but_issued g g' (g_issued g ++ access :: rest) /\
    fresh_token (mt_clock m1) g "access_token" t access /\
    args = [("access_token", VStr (t_value access)); ("token_type", VStr "Bearer"); ("scope", vstrs (g_scope g))]
           ++ (if t_expires_at access =? 0 then [] else [("expires_in", VInt (t_expires_at access - mt_clock m1))])
           ++ map (fun rt => ("refresh_token", VStr (t_value rt))) rest ++ map (fun x => ("id_token", VStr x)) id_tokens /\
    (length id_tokens = if smem "id_token" mints then 1%nat else 0%nat) /\
    (forall x, In x id_tokens -> exists cs cs', idt (w_db w') (session_key [u; c; gid]) cs = (Ok x, cs')) /\
    if smem "refresh_token" mints
    then exists rt, rest = [rt] /\ fresh_token (mt_clock m2) g "refresh_token" t rt /\ (sharing = true -> t_rules rt = t_rules t)
    else rest = [].
Proof.
  intros sid_of cx idt sharing helpers m1 m2 ir rq w args oc w' Hs Hk Hl Eg H.
  destruct (process_success sid_of cx idt Hs _ _ _ _ _ _ _ _ _ _ H) as (oc1 & w1 & Ew & [[E _]|[_ E]]); [congruence|].
  destruct (refresh_success sid_of cx idt Hs _ _ _ _ _ _ _ _ (conj Hk Hl) E)
    as (value & u & c & gid & g & t & at_ & rest & g' & mints & A1 & (L1 & L2 & L3 & L4 & L5) & A3 & A4 & A5 & A6 & A7 & idts & A8 & A9 & A10 & A11). rewrite Ew in *.
  exists value, u, c, gid, g, t, at_, rest, g', mints, idts. apply get_token_value in A3. destruct A3 as [A3 A3'].
  repeat (split; [assumption|]). assumption.
Qed.
Print Assumptions C52_refresh_response.

(** The refresh token is not replaced by the new one: the old one stays usable (it is neither revoked nor
    counted), so each of the two can be used again. *)
Theorem C52_rotation_refuted :
  exists sid_of b64hash cx idt helpers clock w w1 args1 args2,
    kinds_ok (w_db w) /\ linked (w_db w) /\
    exchange sid_of b64hash cx idt true helpers false clock (mt2 "at8") (mt2 "rt8") None (refresh_request "c1") w = (Ok (AOk args1 None), w1) /\
    dget "refresh_token" args1 = Some (VStr "rt8") /\
    fst (exchange sid_of b64hash cx idt true helpers false clock (mt2 "at9") (mt2 "rt9") None (refresh_request "c1") w1) = Ok (AOk args2 None) /\
    dget "refresh_token" args2 = Some (VStr "rt9").
Proof.
  exists sid2, hash2, cx1, idt2, both, 2000, (w2 ar2). do 3 eexists.
  split; [|split; [|split; [vm_compute; reflexivity|split; [reflexivity|split; [vm_compute; reflexivity|reflexivity]]]]].
  - intros q e Hq E. unfold stored in E. cbn -[String.eqb session_key] in E.
    destruct (String.eqb_spec (session_key q) "diana") as [X|_].
    { change "diana"%string with (session_key ["diana"]) in X. apply key_eq in X; [|assumption|apply gp1, good_by; reflexivity].
      injection E as <-. subst q. cbn. lia. }
    destruct (String.eqb_spec (session_key q) "diana;;c1") as [X|_].
    { change "diana;;c1"%string with (session_key ["diana"; "c1"]) in X.
      apply key_eq in X; [|assumption|apply gp2; apply good_by; reflexivity]. injection E as <-. subst q. cbn. lia. }
    destruct (String.eqb_spec (session_key q) sid1) as [X|_]; [|discriminate].
    change sid1 with (session_key ["diana"; "c1"; "g1"]) in X.
    apply key_eq in X; [|assumption|apply gp3; apply good_by; reflexivity]. injection E as <-. subst q. reflexivity.
  - intros u c Hu Hc E. unfold stored in *. cbn -[String.eqb session_key] in E.
    destruct (String.eqb_spec (session_key [u; c]) "diana") as [X|_].
    { change "diana"%string with (session_key ["diana"]) in X. apply key_eq in X; [|auto with gp|apply gp1, good_by; reflexivity]. discriminate. }
    destruct (String.eqb_spec (session_key [u; c]) "diana;;c1") as [X|_].
    { change "diana;;c1"%string with (session_key ["diana"; "c1"]) in X.
      apply key_eq in X; [|auto with gp|apply gp2; apply good_by; reflexivity]. injection X as -> ->.
      eexists. split; [vm_compute; reflexivity|]. left. reflexivity. }
    destruct (String.eqb_spec (session_key [u; c]) sid1) as [X|_]; [|contradiction].
    change sid1 with (session_key ["diana"; "c1"; "g1"]) in X.
    apply key_eq in X; [|auto with gp|apply gp3; apply good_by; reflexivity]. discriminate.
Qed.
Print Assumptions C52_rotation_refuted.
Example C52_ex :
  fst (exchange sid2 hash2 cx1 idt2 true both false 2000 (mt2 "at9") (mt2 "rt9") None (code_request "c1") (w2 ar2)) =
  Ok (AOk [("token_type", VStr "Bearer"); ("scope", vstrs ["openid"; "offline_access"]); ("access_token", VStr "at9");
           ("expires_in", VInt (-2000)); ("refresh_token", VStr "rt9"); ("id_token", VStr "idt:diana;;c1;;g1")] None).
Proof. vm_compute. reflexivity. Qed.

(** When the usage rules give access tokens no lifetime (they then do not expire), expires_in is minus the
    current time, for every code request. *)
Theorem C52_expires_in_refuted :
  forall sid_of cx idt sharing helpers m1 m2 ir rq w args oc w' raw u c g t,
  sids_ok sid_of -> kinds_ok (w_db w) -> linked (w_db w) ->
  dget "grant_type" rq = Some (VStr "authorization_code") ->
  token_process sid_of cx idt sharing helpers m1 m2 ir (PReq rq) w = (Ok (AOk args oc), w') ->
  dget "code" rq = Some (VStr raw) -> names sid_of (w_db w) (blank_to_plus raw) u c g t ->
  dget "access_token" (gr_types (g_rules g)) = None ->
  dget "expires_in" args = Some (VInt (- mt_clock m1)).
Proof.
  intros sid_of cx idt sharing helpers m1 m2 ir rq w args oc w' raw u c g t Hs Hk Hl Eg H Er Hn Hr.
  destruct (C52_code_response sid_of cx idt sharing helpers m1 m2 ir rq w args oc w' Hs Hk Hl Eg H)
    as (raw' & u' & c' & gid & g0 & t0 & at_ & rest & issued & g' & ar & idts & A1 & A2 & A3 & A4 & A5 & A6 & _ & _ & _ & _ & _ & _ & A7 & -> & _).
  assert (raw' = raw) by congruence. subst raw'. destruct Hn as (sid & gid' & N1 & N2 & N3 & _).
  rewrite A5 in N1. injection N1 as <-. rewrite unpack3_good in N2 by assumption. injection N2 as <- <- <-.
  assert (g0 = g) by congruence. subst g0. destruct A7 as (_ & _ & _ & _ & _ & _ & _ & A7). rewrite Hr in A7. rewrite A7. reflexivity.
Qed.
Print Assumptions C52_expires_in_refuted.
