(** PropsAuthzRequest.v: C21 (response types), C29 (pushed requests) and C57 (requests by reference). *)
From Verif Require Import Base BaseProofs Monad Types Ctx Uri PyUrl Registration AuthnBroker ScopesProofs AuthzRequest AuthzRequestSpec AuthzRequestProofs.
Local Open Scope Z_scope.

(** ** C21 *)
(** Over every history of pushed and ordinary requests: a request that is accepted is one whose client may use its
    response type. Condition: fetched request objects name the client with whose keys they were verified. *)
Theorem C21_registered_partial : forall e oidc l,
  faithful e -> listed (re_cdb e) -> Forall own l ->
  Forall (fun r => forall m, r = Ok (Parsed m) -> allowed (re_cdb e) m) (outcomes e oidc l []).
Proof.
  intros e oidc l F L. assert (A : all_allowed e []) by (intros k m H; discriminate).
  revert A. generalize (@nil (string * msg)) as db.
  induction l as [|ev l IH]; intros db A O; cbn [outcomes]; [constructor|]. inversion O as [|? ? O1 O2]; subst.
  destruct (happen e oidc ev db) as [r db'] eqn:H. destruct (happen_sound _ _ _ _ _ _ F L O1 A H) as [A' R].
  constructor; [exact R|]. now apply IH.
Qed.
Print Assumptions C21_registered_partial.

(** Nothing else stands in the way: a request with a response type of its client and a redirect URI that passes is
    accepted as it is, but for the redirect URI. *)
Theorem C21_accepted : forall e c info rt uri rq db,
  dget c (re_cdb e) = Some info -> info <> [] ->
  (forall l v, dget "response_types" info = Some (VList l) -> In v l -> exists s, v = VStr s) ->
  dget "response_type" rq = Some (VList (map VStr rt)) -> may_use (re_cdb e) c rt ->
  truthy_get "request_uri" rq = None ->
  get_uri (re_u e) (re_cdb e) rq "redirect_uri" = Ok uri ->
  parse_authz e (Some c) rq db = (Ok (Parsed (dset "redirect_uri" (VStr uri) rq)), db).
Proof.
  intros e c info rt uri rq db D I W R (info' & D' & M) U G. assert (info' = info) by congruence. subst info'.
  unfold parse_authz, stage, do_request_uri. rewrite U. unfold bind, ret, lift.
  rewrite (post_parse_ok e c info rq uri); [reflexivity| |exact D|exact I| |exact G].
  - intros ->. discriminate.
  - apply (verify_complete _ _ _ R). destruct (dget "response_types" info) as [[| | | |[|x l]|]|]; try exact M. split; [|exact M].
    intros v Hv. eapply W; [reflexivity|exact Hv].
Qed.
Print Assumptions C21_accepted.

(** Refuted where a request object names another client: whatever the client [b] has registered, a request of
    [b] is accepted with a response type of [a]. *)
Theorem C21_object_refuted : forall e a b info rt uri address rq ver db,
  dget a (re_cdb e) = Some info -> info <> [] -> truthy_get "request_uris" info = None ->
  (forall l v, dget "response_types" info = Some (VList l) -> In v l -> exists s, v = VStr s) ->
  may_use (re_cdb e) a rt -> ~ may_use (re_cdb e) b rt ->
  dget "request_uri" rq = Some (VStr address) -> address <> "" -> starts_with "urn:uuid:" address = false ->
  re_fetch e (Some a) address = Ok ver -> NoDup (dkeys ver) ->
  dget "client_id" ver = Some (VStr b) -> dget "response_type" ver = Some (VList (map VStr rt)) ->
  let rq' := dset (verified "request") (VDict ver) (dupdate rq ver) in
  get_uri (re_u e) (re_cdb e) rq' "redirect_uri" = Ok uri ->
  exists m, parse_authz e (Some a) rq db = (Ok (Parsed m), db) /\
    dget "client_id" m = Some (VStr b) /\ dget "response_type" m = Some (VList (map VStr rt)) /\ ~ allowed (re_cdb e) m.
Proof.
  intros e a b info rt uri address rq ver db D I Nr W M Nb U Ne Up F Nd Vc Vr rq' G.
  exists (dset "redirect_uri" (VStr uri) rq').
  assert (Ec : dget "client_id" (dset "redirect_uri" (VStr uri) rq') = Some (VStr b)).
  { unfold rq'. rewrite !dget_dset_neq by discriminate. now rewrite dget_dupdate, (dget_rev _ _ Nd), Vc. }
  assert (Er0 : dget "response_type" rq' = Some (VList (map VStr rt))).
  { unfold rq'. rewrite !dget_dset_neq by discriminate. now rewrite dget_dupdate, (dget_rev _ _ Nd), Vr. }
  assert (Er : dget "response_type" (dset "redirect_uri" (VStr uri) rq') = Some (VList (map VStr rt))).
  { rewrite dget_dset_neq by discriminate. exact Er0. }
  split; [|split; [exact Ec|split; [exact Er|]]].
  - unfold parse_authz, stage, do_request_uri. unfold truthy_get at 1. rewrite U.
    assert (T : truthy (VStr address) = true) by (destruct address; [easy|reflexivity]). rewrite T, Up, andb_false_r.
    unfold fetch_request, client_sub, of_option. rewrite D. cbn [rbind]. rewrite Nr. cbn [rbind]. rewrite F. cbn [rbind].
    unfold bind, lift. fold rq'. rewrite (post_parse_ok e a info rq' uri); [reflexivity| |exact D|exact I| |exact G].
    + intros X. rewrite X in Er0. discriminate.
    + apply (verify_complete _ _ _ Er0). destruct M as (info' & D' & M). assert (info' = info) by congruence. subst info'.
      destruct (dget "response_types" info) as [[| | | |[|x l]|]|]; try exact M. split; [|exact M].
      intros v Hv. eapply W; [reflexivity|exact Hv].
  - intros (c & rt' & E1 & E2 & E3). rewrite Ec in E1. rewrite Er in E2.
    assert (c = b) by congruence. subst c. injection E2 as E2.
    assert (rt' = rt). { clear -E2. revert rt' E2. induction rt as [|x l IH]; intros [|y l'] E; try discriminate; [reflexivity|]. cbn in E. injection E as -> E. f_equal. now apply IH. }
    subst rt'. contradiction.
Qed.
Print Assumptions C21_object_refuted.

(** ** C29 *)
(** If no two pushed requests get the same UUID, each is used at most once, over every history. *)
Theorem C29_once : forall e oidc u l,
  re_par e = true -> NoDup (uuids l) ->
  (times_used u l (outcomes e oidc l []) <= 1)%nat.
Proof.
  intros e oidc u l Pr N. pose proof (used_bound e oidc u l Pr []) as H. destruct (pushes_uuids u l N) as [B _]. cbn in H. lia.
Qed.
Print Assumptions C29_once.

(** Once used it is gone for good: every later request by that reference is turned away and changes nothing. *)
Theorem C29_gone : forall e oidc u t c rq db r db1 later t' c' rq',
  re_par e = true -> names u rq ->
  happen e oidc (Authz t c rq) db = (r, db1) -> went_through r = true ->
  ~ In u (uuids later) -> names u rq' ->
  let db2 := after e oidc later db1 in
  happen e oidc (Authz t' c' rq') db2 = (Raise EValue, db2).
Proof.
  intros e oidc u t c rq db r db1 later t' c' rq' Pr N H W Nu N' db2.
  apply (authz_gone _ _ _ _ _ _ _ Pr N'). unfold db2. destruct (authz_spent _ _ _ _ _ _ _ _ _ Pr N H W) as [G _].
  clear -G Nu. revert db1 G. induction later as [|ev l IH]; intros db1 G; [exact G|]. cbn [after].
  apply IH.
  - destruct ev; cbn in Nu; tauto.
  - destruct (happen e oidc ev db1) as [r db'] eqn:H. cbn [snd]. eapply happen_keeps_gone; [exact G| |exact H].
    intros t c rq E. subst ev. cbn in Nu. tauto.
Qed.
Print Assumptions C29_gone.

(** The same holds for threads that get in each other's way between reading and deleting: a request that was pushed
    once goes to at most one. *)
Theorem C29_threads : forall u l, (times_pushed u l <= 1)%nat -> (times_taken u l [] <= 1)%nat.
Proof. intros u l H. pose proof (taken_bound u l []) as B. cbn in B. lia. Qed.
Print Assumptions C29_threads.

(** Refuted: the reference works for every other client that may use the response type. *)
Theorem C29_client_refuted : forall e oidc t t' u a b rq out m info rt db1,
  re_par e = true -> a <> b ->
  happen e oidc (Push t u b rq) [] = (Ok (Parsed m), db1) ->
  truthy_get "request_uri" m = None ->
  dget "response_type" m = Some (VList (map VStr rt)) -> dget a (re_cdb e) = Some info -> info <> [] ->
  (forall l v, dget "response_types" info = Some (VList l) -> In v l -> exists s, v = VStr s) ->
  may_use (re_cdb e) a rt -> names u out ->
  outcomes e oidc [Push t u b rq; Authz t' a out] [] = [Ok (Parsed m); Ok (Parsed m)].
Proof.
  intros e oidc t t' u a b rq out m info rt db1 Pr _ H U R D I W (info' & D' & M) N. assert (info' = info) by congruence. subst info'.
  cbn [outcomes]. rewrite H.
  rewrite (pushed_used e oidc t t' u a b rq out m info [] db1 Pr H U N D I); [reflexivity|].
  apply (verify_complete _ _ _ R). destruct (dget "response_types" info) as [[| | | |[|x l]|]|]; try exact M. split; [|exact M].
  intros v Hv. eapply W; [reflexivity|exact Hv].
Qed.
Print Assumptions C29_client_refuted.

(** Refuted: the lifetime that was advertised plays no role. *)
Theorem C29_time_refuted : forall e oidc ttl t t' u c rq out m info rt db1,
  re_par e = true -> t + ttl < t' ->
  happen e oidc (Push t u c rq) [] = (Ok (Parsed m), db1) ->
  truthy_get "request_uri" m = None ->
  dget "response_type" m = Some (VList (map VStr rt)) -> dget c (re_cdb e) = Some info -> info <> [] ->
  (forall l v, dget "response_types" info = Some (VList l) -> In v l -> exists s, v = VStr s) ->
  may_use (re_cdb e) c rt -> names u out ->
  outcomes e oidc [Push t u c rq; Authz t' c out] [] = [Ok (Parsed m); Ok (Parsed m)].
Proof.
  intros e oidc ttl t t' u c rq out m info rt db1 Pr _ H U R D I W (info' & D' & M) N. assert (info' = info) by congruence. subst info'.
  cbn [outcomes]. rewrite H.
  rewrite (pushed_used e oidc t t' u c c rq out m info [] db1 Pr H U N D I); [reflexivity|].
  apply (verify_complete _ _ _ R). destruct (dget "response_types" info) as [[| | | |[|x l]|]|]; try exact M. split; [|exact M].
  intros v Hv. eapply W; [reflexivity|exact Hv].
Qed.
Print Assumptions C29_time_refuted.

(** ** C57 *)
(** A client that has registered addresses of request objects: from no other address is one fetched - the request is
    turned away whatever would be found there. *)
Theorem C57_registered_partial : forall e c info l address rq db,
  dget c (re_cdb e) = Some info -> dget "request_uris" info = Some (VList l) -> l <> [] ->
  (forall v, In v l -> exists base frag, v = VList [VStr base; VStr frag]) ->
  dget "request_uri" rq = Some (VStr address) -> address <> "" ->
  (re_par e = false \/ starts_with "urn:uuid:" address = false) ->
  (forall frag, ~ In (VList [VStr (hd "" (split "#" address)); VStr frag]) l) ->
  parse_authz e (Some c) rq db = (Raise EValue, db) /\ parse_authn e (Some c) rq db = (Raise EValue, db).
Proof.
  intros e c info l address rq db D Rl Nl W U Ne Pr Nin.
  assert (S : stage e (Some c) (Parsed rq) db = (Raise EValue, db)).
  { unfold stage, do_request_uri. unfold truthy_get at 1. rewrite U.
    assert (T : truthy (VStr address) = true) by (destruct address; [easy|reflexivity]). rewrite T.
    assert (Pf : re_par e && starts_with "urn:uuid:" address = false) by (destruct Pr as [-> | ->]; [reflexivity|apply andb_false_r]).
    rewrite Pf. unfold bind, lift, fetch_request, client_sub, of_option. rewrite D. cbn [rbind].
    unfold truthy_get. rewrite Rl. assert (Tl : truthy (VList l) = true) by (destruct l; [easy|reflexivity]). rewrite Tl. cbn [iter_val rbind].
    assert (B : exists bs, Registration.rmap first_item l = Ok bs /\ forall x, In x bs -> exists b f, x = VStr b /\ In (VList [VStr b; VStr f]) l).
    { clear -W. induction l as [|v l IH]; [exists []; split; [reflexivity|intros x []]|].
      destruct (W v (or_introl eq_refl)) as (b & f & ->). destruct IH as (bs & E & Hb); [intros v Hv; apply W; now right|].
      exists (VStr b :: bs). cbn [Registration.rmap first_item rbind]. rewrite E. split; [reflexivity|].
      intros x [<-|Hx]; [exists b, f; split; [reflexivity|now left]|]. destruct (Hb x Hx) as (b' & f' & -> & I). exists b', f'. split; [reflexivity|now right]. }
    destruct B as (bs & Eb & Hb). rewrite Eb. cbn [rbind].
    assert (X : existsb (val_eqb (VStr (hd "" (split "#" address)))) bs = false).
    { destruct (existsb _ bs) eqn:E; [|reflexivity]. apply existsb_exists in E. destruct E as (x & Ix & Ex).
      destruct (Hb x Ix) as (b & f & -> & I). apply val_eqb_str in Ex. injection Ex as Ex. subst b. destruct (Nin f I). }
    rewrite X. reflexivity. }
  split; [exact S|]. unfold parse_authn, bind. now rewrite S.
Qed.
Print Assumptions C57_registered_partial.

(** What is registered is fetched, whatever fragment is added to it. *)
Theorem C57_fetched : forall e c info l address rq ver base frag,
  dget c (re_cdb e) = Some info -> dget "request_uris" info = Some (VList l) ->
  (forall v, In v l -> exists base frag, v = VList [VStr base; VStr frag]) ->
  In (VList [VStr base; VStr frag]) l -> hd "" (split "#" address) = base ->
  re_fetch e (Some c) address = Ok ver ->
  fetch_request e (Some c) address rq = Ok (dset (verified "request") (VDict ver) (dupdate rq ver)).
Proof.
  intros e c info l address rq ver base frag D R Sh I1 B F. unfold fetch_request, client_sub, of_option. rewrite D. cbn [rbind].
  unfold truthy_get. rewrite R. assert (T : truthy (VList l) = true) by (destruct l; [destruct I1|reflexivity]). rewrite T. cbn [iter_val rbind].
  assert (X : exists bases, Registration.rmap first_item l = Ok bases /\ existsb (val_eqb (VStr (hd "" (split "#" address)))) bases = true).
  { clear - Sh I1 B. induction l as [|v l IH]; [destruct I1|]. destruct (Sh v (or_introl eq_refl)) as (b & f & ->).
    assert (Sh' : forall v, In v l -> exists base frag, v = VList [VStr base; VStr frag]) by (intros v H; apply Sh; now right).
    destruct I1 as [E|I1].
    - injection E as -> ->. subst base.
      assert (Y : exists bases, Registration.rmap first_item l = Ok bases).
      { clear - Sh'. induction l as [|v l IH]; [eexists; reflexivity|]. destruct (Sh' v (or_introl eq_refl)) as (b & f & ->).
        destruct IH as [bs Eb]; [intros v H; apply Sh'; now right|]. cbn [Registration.rmap first_item rbind]. rewrite Eb. cbn. eauto. }
      destruct Y as [bs Eb]. cbn [Registration.rmap first_item rbind]. rewrite Eb. eexists. split; [reflexivity|]. cbn [existsb]. cbn [val_eqb].
      rewrite String.eqb_refl. reflexivity.
    - destruct (IH Sh' I1) as (bs & Eb & Ex). cbn [Registration.rmap first_item rbind]. rewrite Eb. eexists. split; [reflexivity|].
      cbn [existsb]. rewrite Ex. apply Bool.orb_true_r. }
  destruct X as (bs & -> & Ex). cbn [rbind]. rewrite Ex. cbn [rbind]. now rewrite F.
Qed.
Print Assumptions C57_fetched.
(** Refuted for every client that has registered none: what is found at any address at all takes the place of the
    parameters. *)
Theorem C57_unregistered_refuted : forall e c info address rq ver,
  dget c (re_cdb e) = Some info -> truthy_get "request_uris" info = None ->
  re_fetch e (Some c) address = Ok ver ->
  fetch_request e (Some c) address rq = Ok (dset (verified "request") (VDict ver) (dupdate rq ver)).
Proof.
  intros e c info address rq ver D N F. unfold fetch_request, client_sub, of_option. rewrite D. cbn [rbind]. rewrite N. cbn [rbind]. now rewrite F.
Qed.
Print Assumptions C57_unregistered_refuted.
(** Refuted: that requests by reference are not supported is not acted on. *)
Theorem C57_unsupported_refuted : forall e oidc ev,
  happen (mkRE (re_u e) (re_cdb e) (re_par e) false (re_fetch e)) oidc ev =
  happen (mkRE (re_u e) (re_cdb e) (re_par e) true (re_fetch e)) oidc ev.
Proof. intros e oidc ev. reflexivity. Qed.
Print Assumptions C57_unsupported_refuted.

(** ** Cases *)
Definition ex_uris (base : string) : val := VList [VList [VStr base; VDict []]].
Definition ex_req_cdb : cdb :=
  [("A", [("redirect_uris", ex_uris "https://a.example/cb"); ("response_types", VList [VStr "code"; VStr "code id_token"])]);
   ("B", [("redirect_uris", ex_uris "https://b.example/cb")]);
   ("C", [("redirect_uris", ex_uris "https://c.example/cb"); ("request_uris", VList [VList [VStr "https://c.example/ro"; VStr ""]])])].
Definition ex_object : msg :=
  [("client_id", VStr "B"); ("response_type", vstrs ["id_token"; "code"]); ("redirect_uri", VStr "https://b.example/cb")].
Definition ex_env (ver : msg) : reqenv := mkRE py_url ex_req_cdb true true (fun _ _ => Ok ver).
Definition ex_rq (c uri : string) (rt : list string) : msg :=
  [("client_id", VStr c); ("redirect_uri", VStr uri); ("response_type", vstrs rt); ("state", VStr "s")].
Definition ex_by_ref (c ref : string) : msg := [("client_id", VStr c); ("request_uri", VStr ref)].

Definition ex_own_env : reqenv := mkRE py_url ex_req_cdb true true (fun _ _ => Raise EServiceError).
Definition ex_history : list event :=
  [Push 0 "1" "B" (ex_rq "B" "https://b.example/cb" ["code"]);
   Authz 5 "A" (ex_rq "A" "https://a.example/cb" ["id_token"; "code"]);
   Authz 6 "B" (ex_rq "B" "https://b.example/cb" ["token"]);
   Authz 10000000 "A" (ex_by_ref "A" (urn "1"));
   Authz 10000001 "B" (ex_by_ref "B" (urn "1"))].
Example C21_ex1 : faithful ex_own_env /\ listed (re_cdb ex_own_env) /\ Forall own ex_history /\
  outcomes ex_own_env true ex_history [] =
  [Ok (Parsed (ex_rq "B" "https://b.example/cb" ["code"]));
   Ok (Parsed (ex_rq "A" "https://a.example/cb" ["id_token"; "code"]));
   Ok (Refused "invalid_request");
   Ok (Parsed (ex_rq "B" "https://b.example/cb" ["code"]));
   Raise EValue].
Proof.
  split; [intros c uri m H; discriminate|]. split; [|split; [|vm_compute; reflexivity]].
  - intros c info v H1 H2. cbn in H1. repeat (destruct (String.eqb _ _) in H1; [injection H1 as <-; cbn in H2; (discriminate || (injection H2 as <-; eauto))|]). discriminate.
  - repeat constructor; try (intros v H; vm_compute in H; (discriminate || (injection H as <-; eauto))).
Qed.
Example C29_ex1 : NoDup (uuids ex_history) /\ times_used "1" ex_history (outcomes ex_own_env true ex_history []) = 1%nat.
Proof. split; [repeat constructor; cbn; tauto|vm_compute; reflexivity]. Qed.
Example C29_ex2 :
  times_taken "1" [TPush "1" ex_object; TGet "x" "1"; TGet "y" "1"; TDel "x" "1"; TDel "y" "1"] [] = 1%nat.
Proof. vm_compute. reflexivity. Qed.
(** client A has a request object that names B *)
Example C21_ex2 : exists m,
  parse_authz (ex_env ex_object) (Some "A") (ex_by_ref "A" "https://evil.example/ro") [] = (Ok (Parsed m), []) /\
  dget "client_id" m = Some (VStr "B") /\ dget "response_type" m = Some (vstrs ["id_token"; "code"]) /\
  ~ may_use ex_req_cdb "B" ["id_token"; "code"].
Proof.
  eexists. split; [vm_compute; reflexivity|]. split; [reflexivity|]. split; [reflexivity|].
  intros (info & D & M). vm_compute in D. injection D as <-. cbn in M. specialize (M "id_token"). cbn in M.
  destruct M as [M _]. destruct (M (or_introl eq_refl)) as [X|[]]. discriminate.
Qed.
Example C57_ex1 :
  parse_authn (ex_env ex_object) (Some "C") (ex_by_ref "C" "https://evil.example/ro") [] = (Raise EValue, []).
Proof. vm_compute. reflexivity. Qed.
Example C57_ex2 :
  hd "" (split "#" "https://c.example/ro#1") = "https://c.example/ro" /\
  fetch_request (ex_env ex_object) (Some "C") "https://c.example/ro#1" (ex_by_ref "C" "https://c.example/ro#1") =
    Ok (dset (verified "request") (VDict ex_object) (dupdate (ex_by_ref "C" "https://c.example/ro#1") ex_object)).
Proof. vm_compute. split; reflexivity. Qed.
