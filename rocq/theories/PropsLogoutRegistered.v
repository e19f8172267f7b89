(** PropsLogoutRegistered.v: the addresses a client registers to return to after logout are the ones the user is sent to (C110). *)
From Verif Require Import PropsTokenEndpoint Base BaseProofs Monad Types SessionKey Grant Database DatabaseSpec DatabaseProofs Manager ManagerProofs ManagerSpec Ctx World Uri PyUrl UriSpec UriProofs ClientAuthn ClientAuthnProofs Registration RegistrationSpec RegistrationProofs
  RegisteredUrisSpec NewClientSpec Logout LogoutSpec LogoutProofs ResponseProofs AuthnBroker PropsUri PropsRegistration PropsRegisteredUris PropsLogout.

Lemma recorded_bases u uris l : Forall2 (post_logout_ok u) (map VStr uris) l -> map base_of l = map (before_query u) uris.
Proof.
  revert l. induction uris as [|x uris IH]; intros l F; inversion F as [|v e vs l' (uri & p & E & Sp & _ & ->) F']; subst; [reflexivity|].
  cbn [map]. rewrite (IH _ F'). f_equal. injection E as <-. unfold before_query. rewrite Sp. reflexivity.
Qed.
Lemma recorded_in u uris l x : Forall2 (post_logout_ok u) (map VStr uris) l -> In x uris ->
  exists p, ul_split u x = Ok p /\ up_fragment p = ""%string /\ In (entry (up_base p) (query_of u p)) l.
Proof.
  revert l. induction uris as [|y uris IH]; intros l F I; [destruct I|]. inversion F as [|v e vs l' (uri & p & E & Sp & Fr & ->) F']; subst.
  destruct I as [->|I]; [|destruct (IH _ F' I) as (q & A & B & C); exists q; split; [exact A|]; split; [exact B|now right]].
  injection E as <-. exists p. split; [exact Sp|]. split; [exact Fr|]. now left.
Qed.
Lemma recorded_from u uris l b q : Forall2 (post_logout_ok u) (map VStr uris) l -> In (entry b q) l ->
  exists x p, In x uris /\ ul_split u x = Ok p /\ up_base p = b /\ query_of u p = q.
Proof.
  revert l. induction uris as [|y uris IH]; intros l F I; inversion F as [|v e vs l' (uri & p & E & Sp & Fr & ->) F']; subst; [destruct I|].
  destruct I as [I|I]; [|destruct (IH _ F' I) as (x & p' & A & B); exists x, p'; split; [now right|exact B]].
  injection E as <-. exists y, p. split; [now left|]. split; [exact Sp|]. unfold entry in I. injection I as I1 I2. split; [exact I1|exact I2].
Qed.
Lemma recorded_proper u uris l : (forall q, proper_query (ul_qs u q)) -> Forall2 (post_logout_ok u) (map VStr uris) l -> Forall proper_entry l.
Proof.
  intros Q. revert l. induction uris as [|y uris IH]; intros l F; inversion F as [|v e vs l' (uri & p & E & Sp & Fr & ->) F']; subst; constructor; [|now apply IH].
  eexists _, _. split; [reflexivity|]. destruct (nonempty (up_query p)); [|now left]. right; right. eexists. split; [reflexivity|apply Q].
Qed.

(** A client can register any addresses to return to that differ before the query part; each of them (if unquoting leaves it alone) is accepted when the user logs
    out from a session with that client, with an ID token of that session as hint, and is where the user is sent in the end, with the state if there is one. *)
Theorem C110_return : forall co d n ss rq s rq' info args uris
    e (cookie : result (option (string * string * string))) decode (request : msg) w v ts ty dd sid u c g gr raw t aud alg url,
  registers co d n ss rq s rq' info args -> dget "post_logout_redirect_uris" rq' = Some (vstrs uris) ->
  NoDup (map (before_query (rc_url co)) uris) -> (forall q, proper_query (ul_qs (rc_url co) q)) ->
  In raw uris -> ul_unquote (rc_url co) raw = raw ->
  lo_url e = rc_url co -> dget c (w_cdb w) = Some info -> c <> ""%string ->
  cookie = Ok (Some (v, ts, ty)) -> decode v = Ok (VDict dd) -> dget "sid" dd = Some (VStr sid) ->
  unpack3 sid = Ok (u, c, g) -> view (w_db w) [u; c; g] = Some (EGrant gr) ->
  dmem "id_token_hint" request = true -> dget (verified "id_token_hint") request = Some (VDict t) ->
  dget "aud" t = Some (VList aud) -> In (VStr c) aud -> dget "sub" t = Some (VStr (g_sub gr)) ->
  dget "client_id" request = None ->
  dget "post_logout_redirect_uri" request = Some (VStr raw) ->
  (forall s, dget "state" request = Some s -> exists st, s = VStr st) ->
  lo_alg e = Some alg -> lo_verify_url e = Some url -> (forall p, exists x, lo_sign e (VStr alg) p (VStr (lo_issuer e)) = Ok x) ->
  exists r uri, end_session e cookie decode request w = (Ok r, w) /\ dget "redirect_uri" (en_payload r) = Some (VStr uri) /\
    ((dget "state" request = None /\ uri = raw) \/
     exists st, dget "state" request = Some (VStr st) /\ uri = (raw ++ "?" ++ ul_encode (lo_url e) [("state"%string, st)])%string).
Proof.
  intros co d n ss rq s rq' info args uris e cookie decode request w v ts ty dd sid u c g gr raw t aud alg url
    H D Nd Q I Uq Eu Dc Nc Ck Dec Sid U V Mh Vh Au Ain Su Cl P St Al Ul Sg.
  destruct (C110_post_logout _ _ _ _ _ _ _ _ _ _ H D) as (l & Dl & F).
  destruct (recorded_in _ _ _ _ F I) as (p & Sp & Fr & Il).
  destruct (C41_works e cookie decode request w v ts ty dd sid u c g gr raw t aud info l alg url) as (r & Run); auto.
  - rewrite Eu. exact Q.
  - exists info. split; [exact Dc|exact Dl].
  - apply (recorded_proper (rc_url co) uris); [exact Q|exact F].
  - rewrite (recorded_bases _ _ _ F). exact Nd.
  - rewrite Eu, Uq. exists p, (query_of (rc_url co) p). split; [exact Sp|]. split; [exact Fr|]. split; [exact Il|]. intros k x. reflexivity.
  - destruct (C41_own_partial _ _ _ _ _ _ _ Cl Run) as (_ & v' & ts' & ty' & d' & sid' & u' & c' & g' & uri & al' & t' & ur' & _ & _ & _ & _ & _ & _ & R & _ & _ & _ & X).
    exists r, uri. split; [exact Run|]. split; [exact R|]. destruct X as [[X _]|(raw' & l' & P' & _ & _ & X)]; [congruence|]. assert (raw' = raw) by congruence. subst raw'. exact X.
Qed.
Print Assumptions C110_return.

(** And no others: an address that is accepted in a logout request (one without client_id) is one of those the client of the session has registered, with the same parameters. *)
Theorem C110_return_only : forall co d n ss rq s rq' info args uris
    e (cookie : result (option (string * string * string))) decode (request : msg) w v ts ty dd sid u c g r w' raw,
  registers co d n ss rq s rq' info args -> dget "post_logout_redirect_uris" rq' = Some (vstrs uris) ->
  lo_url e = rc_url co -> dget c (w_cdb w) = Some info ->
  cookie = Ok (Some (v, ts, ty)) -> decode v = Ok (VDict dd) -> dget "sid" dd = Some (VStr sid) -> unpack3 sid = Ok (u, c, g) ->
  dget "client_id" request = None -> dget "post_logout_redirect_uri" request = Some (VStr raw) ->
  end_session e cookie decode request w = (Ok r, w') ->
  exists uri p q, In uri uris /\ ul_split (rc_url co) (ul_unquote (rc_url co) raw) = Ok p /\ ul_split (rc_url co) uri = Ok q /\
    up_fragment p = ""%string /\ up_base p = up_base q /\ same_params (query_of (rc_url co) p) (query_of (rc_url co) q).
Proof.
  intros co d n ss rq s rq' info args uris e cookie decode request w v ts ty dd sid u c g r w' raw H D Eu Dc Ck Dec Sid U Cl P Run.
  destruct (C110_post_logout _ _ _ _ _ _ _ _ _ _ H D) as (l & Dl & F).
  destruct (C41_own_partial _ _ _ _ _ _ _ Cl Run) as (_ & v' & ts' & ty' & d' & sid' & u' & c' & g' & uri & al' & t' & ur' & Ck' & Dec' & Sid' & U' & _ & _ & _ & _ & _ & _ & X).
  assert (v' = v) by congruence. subst v'. assert (d' = dd) by congruence. subst d'. assert (sid' = sid) by congruence. subst sid'.
  assert (c' = c) by congruence. subst c'.
  destruct X as [[X _]|(raw' & l' & P' & (info' & Di & Dl') & (p & q & Sp & Fr & Il & Sm) & _)]; [congruence|]. assert (raw' = raw) by congruence. subst raw'.
  assert (info' = info) by congruence. subst info'. assert (l' = l) by congruence. subst l'. rewrite Eu in Sp, Sm.
  destruct (recorded_from _ _ _ _ _ F Il) as (x & px & Ix & Sx & Bx & <-). exists x, p, px. repeat (split; [first [assumption|congruence]|]). exact Sm.
Qed.
Print Assumptions C110_return_only.

(** ** Being told *)
Lemma registered_member c d n ss rq s rq' info args k v : registers c d n ss rq s rq' info args -> NoDup (dkeys rq') -> ~ In k special ->
  dget k rq' = Some v -> dget k info = Some v.
Proof.
  intros (s' & i & H & Ef & G & D) N S Dk. destruct (C26_success _ _ _ _ _ _ _ _ H) as (i2 & rq2 & info2 & E2 & G2 & D2 & _ & _ & _ & K).
  assert (rq2 = rq'). { destruct Ef as (v1 & V1 & ->). destruct E2 as (v2 & V2 & ->). assert (v2 = v1) by congruence. now subst v2. } subst rq2.
  assert (i2 = i) by now apply (given_unique n d (rg_cdb s) rq'). subst i2. assert (info2 = info) by congruence. subst info2. rewrite (K N k S), Dk. reflexivity.
Qed.

(** A client that has registered an address to be told at is told there when a user with a session at the client logs out everywhere, and the session ends. *)
Theorem C67_registered : forall co d n ss rq s rq' info args e u c0 g c w frames sent w' ui v,
  registers co d n ss rq s rq' info args -> NoDup (dkeys rq') -> dget "backchannel_logout_uri" rq' = Some v -> dget c (w_cdb w) = Some info ->
  fine (w_db w) -> good u -> good c0 -> good g -> view (w_db w) [u] = Some (EInfo ui) -> Forall good (si_sub ui) -> In c (si_sub ui) ->
  do_verified_logout e (session_key [u; c0; g]) true w = (Ok frames, sent, w') ->
  exists uri t i, v = VStr uri /\ In (uri, ("logout_token=" ++ t)%string) sent /\ logout_message e (w_cdb w) (session_key [u; c]) c uri t /\
    view (w_db w) [u; c] = Some (EInfo i) /\ view (w_db w') [u; c] = Some (EInfo (stopped i)).
Proof.
  intros co d n ss rq s rq' info args e u c0 g c w frames sent w' ui v H N D Dc Fi Hu Hc Hg V Fg I L.
  assert (Di : dget "backchannel_logout_uri" info = Some v) by (apply (registered_member _ _ _ _ _ _ _ _ _ _ _ H N); [cbn; intuition discriminate|exact D]).
  destruct (C67_told_partial e u c0 g w frames sent w' ui Hu Hc Hg V L) as (back & front & Nb & _ & -> & _ & Hb & _ & Tb & _).
  assert (T : told_at "backchannel_logout_uri" (w_cdb w) c) by (exists info, v; split; assumption).
  pose proof (Tb c I T) as K. apply in_map_iff in K. destruct K as ([c' [uri t]] & E & Ib). cbn in E. subst c'.
  destruct (proj1 (Hb c uri t) Ib) as [_ M].
  assert (R : exists nn, logout_all_clients e (session_key [u; c0; g]) w = (Ok nn, w')).
  { unfold do_verified_logout in L. destruct (logout_all_clients e (session_key [u; c0; g]) w) as [[nn|] w1]; [|discriminate]. exists nn.
    destruct (post_all e (no_back nn)) as [sent' r]. congruence. }
  destruct R as (nn & R). destruct (C42_all_partial e u c0 g w nn w' ui Fi Hu Hc Hg V Fg R) as (_ & _ & Lo & _).
  destruct (Lo c) as (i & V1 & V2). { split; [exact I|left; exact T]. }
  exists uri, t, i. split.
  - destruct M as (info' & en & alg & cid & Dc' & Db & _). congruence.
  - split; [|split; [exact M|split; [exact V1|exact V2]]]. apply in_map_iff. exists (c, (uri, t)). split; [reflexivity|exact Ib].
Qed.
Print Assumptions C67_registered.

(** One without a back-channel but with a front-channel: a frame for its address is shown. *)
Theorem C67_registered_front : forall co d n ss rq s rq' info args e u c0 g c w frames sent w' ui v,
  registers co d n ss rq s rq' info args -> NoDup (dkeys rq') -> dget "backchannel_logout_uri" rq' = None -> dget "frontchannel_logout_uri" rq' = Some v ->
  dget c (w_cdb w) = Some info ->
  fine (w_db w) -> good u -> good c0 -> good g -> view (w_db w) [u] = Some (EInfo ui) -> Forall good (si_sub ui) -> In c (si_sub ui) ->
  do_verified_logout e (session_key [u; c0; g]) true w = (Ok frames, sent, w') ->
  exists f i, In f frames /\ dget "frontchannel_logout_uri" info = Some v /\ iframe (lo_url e) info (lo_issuer e) (session_key [u; c]) = Ok (Some f) /\
    view (w_db w) [u; c] = Some (EInfo i) /\ view (w_db w') [u; c] = Some (EInfo (stopped i)).
Proof.
  intros co d n ss rq s rq' info args e u c0 g c w frames sent w' ui v H N Db D Dc Fi Hu Hc Hg V Fg I L.
  assert (Di : dget "frontchannel_logout_uri" info = Some v) by (apply (registered_member _ _ _ _ _ _ _ _ _ _ _ H N); [cbn; intuition discriminate|exact D]).
  assert (Dn : dget "backchannel_logout_uri" info = None).
  { destruct H as (s' & i & H & Ef & G & D'). destruct (C26_success _ _ _ _ _ _ _ _ H) as (i2 & rq2 & info2 & E2 & G2 & D2 & _ & _ & _ & K).
    assert (rq2 = rq'). { destruct Ef as (v1 & V1 & ->). destruct E2 as (v2 & V2 & ->). assert (v2 = v1) by congruence. now subst v2. } subst rq2.
    assert (i2 = i) by now apply (given_unique n d (rg_cdb s) rq'). subst i2. assert (info2 = info) by congruence. subst info2.
    rewrite (K N "backchannel_logout_uri"%string) by (cbn; intuition discriminate). rewrite Db. reflexivity. }
  destruct (C67_told_partial e u c0 g w frames sent w' ui Hu Hc Hg V L) as (back & front & _ & _ & _ & -> & Hb & Hf & _ & Tf).
  assert (T : told_at "frontchannel_logout_uri" (w_cdb w) c) by (exists info, v; split; assumption).
  destruct (Tf c I T) as [K|K]; apply in_map_iff in K.
  { destruct K as ([c' [uri t]] & E & Ib). cbn in E. subst c'. destruct (proj1 (Hb c uri t) Ib) as [_ (info' & en & alg & cid & Dc' & Dd & _)]. congruence. }
  destruct K as ([c' f] & E & If). cbn in E. subst c'. destruct (proj1 (Hf c f) If) as [_ (info' & Dc' & _ & _ & Fr)]. assert (info' = info) by congruence. subst info'.
  assert (R : exists nn, logout_all_clients e (session_key [u; c0; g]) w = (Ok nn, w')).
  { unfold do_verified_logout in L. destruct (logout_all_clients e (session_key [u; c0; g]) w) as [[nn|] w1]; [|discriminate]. exists nn.
    destruct (post_all e (no_back nn)) as [sent' r]. congruence. }
  destruct R as (nn & R). destruct (C42_all_partial e u c0 g w nn w' ui Fi Hu Hc Hg V Fg R) as (_ & _ & Lo & _).
  destruct (Lo c) as (i & V1 & V2). { split; [exact I|right; exact T]. }
  exists f, i. split; [apply in_map_iff; exists (c, f); split; [reflexivity|exact If]|]. repeat (split; [assumption|]). exact V2.
Qed.
Print Assumptions C67_registered_front.

(** ** A case: the client of C110_ex registers, is called new1, and diana logs out from it. *)
Definition rq_ret : msg := dset "post_logout_redirect_uris" (vstrs ["https://rp.example.org/bye?x=1"; "https://rp.example.org/out"]%string) rq110.
Definition reg_ret := Eval vm_compute in client_registration_setup conf110 draw1 true true rq_ret reg0.
Definition info_ret : msg := Eval vm_compute in match dget "new1" (rg_cdb (snd reg_ret)) with Some i => i | None => [] end.
Definition w_ret : world := mkW (store_of ["new1"]%string) (rg_cdb (snd reg_ret)).
Definition hint_ret : msg := [("id_token_hint", VStr "jwt"); (verified "id_token_hint", VDict [("aud", vstrs ["new1"]); ("sub", VStr "sub-new1")])]%string.
Definition decode_ret (v : string) : result val := Ok (VDict [("sid", VStr "diana;;new1;;g-new1")])%string.
Example C110_ex_return_registered : exists args,
  registers conf110 draw1 true true rq_ret reg0 rq_ret info_ret args /\
  dget "post_logout_redirect_uris" rq_ret = Some (vstrs ["https://rp.example.org/bye?x=1"; "https://rp.example.org/out"]%string) /\
  NoDup (map (before_query py_url) ["https://rp.example.org/bye?x=1"; "https://rp.example.org/out"]%string) /\
  (forall uri, In uri ["https://rp.example.org/bye?x=1"; "https://rp.example.org/out"]%string -> ul_unquote py_url uri = uri) /\
  dget "new1" (w_cdb w_ret) = Some info_ret /\ unpack3 "diana;;new1;;g-new1" = Ok ("diana", "new1", "g-new1")%string /\
  exists gr, view (w_db w_ret) ["diana"; "new1"; "g-new1"]%string = Some (EGrant gr) /\ g_sub gr = "sub-new1"%string.
Proof.
  eexists. split.
  - exists (snd reg_ret), "new1"%string. split; [vm_compute; reflexivity|]. split; [exists rq_ret; split; reflexivity|]. split; [|reflexivity].
    exists ["taken"%string], ["new2"%string]. split; [reflexivity|]. split; [reflexivity|]. repeat constructor. discriminate.
  - split; [reflexivity|]. split; [vm_compute; repeat constructor; cbn; intuition discriminate|]. split; [intros uri [<-|[<-|[]]]; vm_compute; reflexivity|].
    split; [reflexivity|]. split; [vm_compute; reflexivity|]. eexists. split; vm_compute; reflexivity.
Qed.
Definition sent_ret (rq : msg) : result (option val) :=
  match end_session (lo10 false) cookie10 decode_ret rq w_ret with (Ok r, _) => Ok (dget "redirect_uri" (en_payload r)) | (Raise x, _) => Raise x end.
Example C110_ex_return :
  sent_ret (("post_logout_redirect_uri", VStr "https://rp.example.org/bye?x=1") :: hint_ret)%string = Ok (Some (VStr "https://rp.example.org/bye?x=1"%string)) /\
  sent_ret (("post_logout_redirect_uri", VStr "https://rp.example.org/out") :: ("state", VStr "st") :: hint_ret)%string =
    Ok (Some (VStr "https://rp.example.org/out?state=st"%string)) /\
  sent_ret (("post_logout_redirect_uri", VStr "https://rp.example.org/bye?x=2") :: hint_ret)%string = Raise EValue /\
  sent_ret (("post_logout_redirect_uri", VStr "https://rp.example.org/bye2") :: hint_ret)%string = Raise ERedirectURI.
Proof. repeat split; vm_compute; reflexivity. Qed.

(** It has registered an address to be told at: it is told there. With an address for a frame only, that is shown. *)
Definition rq_told : msg := rq_ret ++ [("backchannel_logout_uri", VStr "https://rp.example.org/told")]%string.
Definition rq_frame : msg := rq_ret ++ [("frontchannel_logout_uri", VStr "https://rp.example.org/frame")]%string.
Definition told_world (rq : msg) : world := mkW (store_of ["c1"; "new1"]%string) (rg_cdb (snd (client_registration_setup conf110 draw1 true true rq reg0)) ++ clients10).
Example C67_ex_registered :
  (forall rq, In rq [rq_told; rq_frame] -> NoDup (dkeys rq) /\ fine (w_db (told_world rq)) /\
     view (w_db (told_world rq)) ["diana"]%string = Some (EInfo (ui10 ["c1"; "new1"]%string)) /\
     exists info args, registers conf110 draw1 true true rq reg0 rq info args /\ dget "new1" (w_cdb (told_world rq)) = Some info) /\
  fst (do_verified_logout (lo10 false) sid10 true (told_world rq_told)) =
    (Ok [], [("https://rp1.example.org/logout", "logout_token=RS256(<diana;;c1>)c1"); ("https://rp.example.org/told", "logout_token=RS256(<diana;;new1>)new1")]%string) /\
  fst (do_verified_logout (lo10 false) sid10 true (told_world rq_frame)) =
    (Ok ["<iframe src=""https://rp.example.org/frame"">"%string], [("https://rp1.example.org/logout", "logout_token=RS256(<diana;;c1>)c1")]%string).
Proof.
  split.
  - intros rq I. split; [destruct I as [<-|[<-|[]]]; vm_compute; repeat constructor; cbn; intuition discriminate|]. split.
    { apply store_of_fine. repeat (constructor; [split; [good_tac|split; [good_tac|discriminate]]|]). constructor. }
    split; [vm_compute; reflexivity|]. destruct I as [<-|[<-|[]]]; do 2 eexists; (split; [|vm_compute; reflexivity]).
    all: eexists; exists "new1"%string; (split; [vm_compute; reflexivity|]); (split; [eexists; split; reflexivity|]); (split; [|reflexivity]).
    all: exists ["taken"%string], ["new2"%string]; (split; [reflexivity|]); (split; [reflexivity|]); repeat constructor; discriminate.
  - split; vm_compute; reflexivity.
Qed.
