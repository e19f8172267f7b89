(** IDTokenProofs.v: lemmas on IDToken.v *)
From Verif Require Import Base BaseProofs Monad MonadProofs Types SessionKey SessionKeyProofs Token Grant Database DatabaseSpec DatabaseProofs
  Manager ManagerProofs Ctx Claims ClaimsSpec ScopesProofs ClaimsProofs UserInfo UserInfoSpec UserInfoProofs RegistrationProofs IDToken IDTokenSpec.
Local Open Scope Z_scope.

Lemma payload_grant ic cx clients s u c gid g alg code access extra : good u -> good c -> good gid ->
  view s [u; c; gid] = Some (EGrant g) ->
  payload ic cx clients s (session_key [u; c; gid]) alg code access extra =
  (let args := ("sub"%string, VStr (g_sub g)) :: event_claims (g_authn g) in
  let* info := id_user_info cx clients u g args in
  let args := dupdate args (fold_left (fun m k => ddel k m) reserved info) in
  let args := match extra with Some x => dupdate args x | None => args end in
  let halg := ("HS" ++ last3 alg)%string in
  let* args := add_hash ic "c_hash" halg code args in
  let* args := add_hash ic "at_hash" halg access args in
  Ok (match g_authreq g with
      | Some ar => match dget "nonce" ar with Some v => dset "nonce" v args | None => args end
      | None => args
      end)).
Proof.
  intros Hu Hc Hg V. unfold payload.
  unfold get_session_info, bind, lift, ret. rewrite unpack3_good by assumption.
  destruct (read_cases [u; c; gid] s) as [(e & Hr & Hv)|(x & Hr & Hv)]; [|rewrite Hv in V; discriminate].
  rewrite Hr. assert (e = EGrant g) by congruence. subst e. reflexivity.
Qed.

(** the claims taken from the user, without protocol claims *)
Lemma reserved_gone (info : msg) k :
  dget k (fold_left (fun m x => ddel x m) reserved info) = if smem k protocol_claims then None else dget k info.
Proof.
  change protocol_claims with reserved. generalize reserved. intros l. revert info. induction l as [|x l IH]; intros info; [reflexivity|].
  cbn [fold_left]. rewrite IH. rewrite dget_ddel. cbn [smem existsb]. unfold smem. destruct (String.eqb_spec k x) as [->|N].
  - cbn [orb]. now destruct (existsb _ l).
  - reflexivity.
Qed.
Lemma reserved_proper (info : msg) : NoDup (dkeys info) -> NoDup (dkeys (fold_left (fun m k => ddel k m) reserved info)).
Proof.
  generalize reserved. intros l. revert info. induction l as [|x l IH]; intros info H; [exact H|]. cbn. apply IH. now apply NoDup_ddel.
Qed.
Lemma In_ddel k (d : msg) kv : In kv (ddel k d) -> In kv d.
Proof.
  induction d as [|[k' v'] d IH]; cbn; [easy|]. destruct (String.eqb k k'); [auto|]. intros [H|H]; auto.
Qed.
Lemma In_deleted (info : msg) kv : In kv (fold_left (fun m k => ddel k m) reserved info) -> In kv info.
Proof.
  generalize reserved. intros l. revert info. induction l as [|x l IH]; intros info H; [exact H|]. cbn in H. apply IH in H. now apply In_ddel in H.
Qed.
Lemma rev_none (d : msg) k : dget k d = None -> dget k (rev d) = None.
Proof.
  intros H. destruct (dget k (rev d)) as [x|] eqn:E; [|reflexivity]. apply dget_In, in_rev in E.
  apply dget_None_key in H. destruct H. unfold dkeys. now apply (in_map fst) in E.
Qed.
Lemma rev_some (d : msg) k x : dget k (rev d) = Some x -> In (k, x) d.
Proof. intros H. now apply dget_In, in_rev in H. Qed.

Lemma add_hash_spec ic name halg x args m : add_hash ic name halg x args = Ok m ->
  (forall k, k <> name -> dget k m = dget k args) /\
  (~ handed x -> m = args) /\
  (forall y, x = Some y -> y <> ""%string -> exists h, ic_hash ic halg y = Ok h /\ dget name m = Some h).
Proof.
  unfold add_hash, handed. intros H. destruct x as [y|].
  2: { assert (m = args) by congruence. subst m. repeat split; intros; congruence. }
  destruct (nonempty y) eqn:E.
  - assert (y <> ""%string) by (intros ->; discriminate). destruct (ic_hash ic halg y) as [h|] eqn:Eh; [|discriminate]. cbn in H.
    assert (m = dset name h args) by congruence. subst m. split; [intros k N; now apply dget_dset_neq|]. split; [intros N; destruct N; eauto|].
    intros y' Ey _. assert (y' = y) by congruence. subst y'. exists h. split; [exact Eh|]. apply dget_dset_eq.
  - assert (y = ""%string) by (destruct y; [reflexivity|discriminate]). subst y. assert (m = args) by congruence. subst m.
    split; [reflexivity|]. split; [reflexivity|]. intros y' Ey N. congruence.
Qed.
Lemma event_acr g : dget "acr" (event_claims (g_authn g)) = acr_of g.
Proof.
  unfold acr_of, event_claims. destruct (g_authn g) as [ae|]; [|reflexivity]. 
  destruct (ae_authn_time ae =? 0); destruct (ae_authn_info ae) as [[|a s]|]; reflexivity.
Qed.
Lemma event_time g : dget "auth_time" (event_claims (g_authn g)) = auth_time_of g.
Proof.
  unfold auth_time_of, event_claims. destruct (g_authn g) as [ae|]; [|reflexivity]. 
  destruct (ae_authn_time ae =? 0); destruct (ae_authn_info ae) as [[|a s]|]; reflexivity.
Qed.
Lemma event_other g k : k <> "acr"%string -> k <> "auth_time"%string -> dget k (event_claims (g_authn g)) = None.
Proof.
  intros N1 N2. apply String.eqb_neq in N1, N2. unfold event_claims. destruct (g_authn g) as [ae|]; [|reflexivity]. 
  destruct (ae_authn_time ae =? 0); destruct (ae_authn_info ae) as [[|a s]|]; unfold nonempty; cbn; rewrite ?N1, ?N2; reflexivity.
Qed.

Lemma id_user_info_ok cx clients u g args info : id_user_info cx clients u g args = Ok info ->
  release (userinfo cx u) (grant_claims clients "id_token" g) = Ok info /\
  forall r spec acr, dget "id_token" (g_claims g) = Some r -> dget "acr" (resolve clients r) = Some spec -> dget "acr" args = Some acr ->
    claims_match (Some acr) spec = Ok true.
Proof.
  unfold id_user_info, grant_claims. destruct (dget "id_token" (g_claims g)) as [r|]; cbn [option_map].
  2: { intros H. split; [exact H|]. intros; discriminate. }
  destruct (resolve clients r) as [|q l] eqn:Er.
  { intros H. split; [exact H|]. intros r' spec acr E1 E2. assert (r' = r) by congruence. subst r'. rewrite Er in E2. discriminate. }
  unfold get_user_claims. destruct (release (userinfo cx u) (q :: l)) as [info'|] eqn:E; [|discriminate].
  cbv beta iota zeta delta [rbind]. intros H. destruct (dget "acr" (q :: l)) as [spec|] eqn:E1.
  2: { split; [congruence|]. intros r' sp a X1 X2. assert (r' = r) by congruence. subst r'. rewrite Er in X2. congruence. }
  destruct (dget "acr" args) as [acr|] eqn:E2.
  2: { split; [congruence|]. intros; discriminate. }
  destruct (claims_match (Some acr) spec) as [[]|] eqn:E3; [|discriminate H..]. split; [congruence|].
  intros r' sp a X1 X2 X3. assert (r' = r) by congruence. subst r'. rewrite Er in X2. congruence.
Qed.

(** What [payload] gives *)
Definition extra_ok (extra : option msg) : Prop := forall x k, extra = Some x -> In k (dkeys x) -> ~ In k protocol_claims.

Lemma payload_inv ic cx clients s u c gid g alg code access extra m : good u -> good c -> good gid ->
  view s [u; c; gid] = Some (EGrant g) -> extra_ok extra ->
  payload ic cx clients s (session_key [u; c; gid]) alg code access extra = Ok m ->
  exists info,
    release (userinfo cx u) (grant_claims clients "id_token" g) = Ok info /\
    id_claims (fun y h => ic_hash ic ("HS" ++ last3 alg)%string y = Ok h) g code access m /\
    (forall r spec a, dget "id_token" (g_claims g) = Some r -> dget "acr" (resolve clients r) = Some spec -> acr_of g = Some a ->
      claims_match (Some a) spec = Ok true) /\
    (forall k, ~ In k protocol_claims -> (forall x, extra = Some x -> ~ In k (dkeys x)) -> (handed code -> k <> "c_hash"%string) -> (handed access -> k <> "at_hash"%string) ->
      dget k m = dget k (rev (fold_left (fun m k => ddel k m) reserved info))).
Proof.
  intros Hu Hc Hg V Hx H. rewrite (payload_grant ic cx clients s u c gid g alg code access extra Hu Hc Hg V) in H. cbv zeta in H.
  destruct (id_user_info cx clients u g _) as [info|] eqn:E1; [|discriminate]. cbn [rbind] in H.
  set (a0 := ("sub"%string, VStr (g_sub g)) :: event_claims (g_authn g)) in *.
  set (inf := fold_left (fun m k => ddel k m) reserved info) in *.
  set (a1 := match extra with Some x => dupdate (dupdate a0 inf) x | None => dupdate a0 inf end) in *.
  assert (K : forall k, (forall x, extra = Some x -> ~ In k (dkeys x)) -> dget k a1 = match dget k (rev inf) with Some v => Some v | None => dget k a0 end).
  { intros k N. unfold a1. destruct extra as [x|]; [|apply dget_dupdate]. rewrite dget_dupdate.
    rewrite rev_none; [apply dget_dupdate|]. apply dget_None_key. now apply N. }
  assert (R : forall k, In k protocol_claims -> dget k (rev inf) = None).
  { intros k Hi. apply rev_none. unfold inf. rewrite reserved_gone. apply smem_In in Hi. now rewrite Hi. }
  destruct (add_hash ic "c_hash" _ code a1) as [a2|] eqn:E2; [|discriminate]. cbn [rbind] in H.
  destruct (add_hash ic "at_hash" _ access a2) as [a3|] eqn:E3; [|discriminate]. cbn [rbind] in H.
  destruct (add_hash_spec _ _ _ _ _ _ E2) as (F1 & F2 & F3). destruct (add_hash_spec _ _ _ _ _ _ E3) as (G1 & G2 & G3).
  assert (M : forall k, k <> "nonce"%string -> dget k m = dget k a3).
  { intros k N. destruct (g_authreq g) as [ar|]; [destruct (dget "nonce" ar) as [v|]|]; [|now assert (m = a3) by congruence; subst m..].
    assert (m = dset "nonce" v a3) by congruence. subst m. now apply dget_dset_neq. }
  assert (P : forall k, k <> "nonce"%string -> k <> "c_hash"%string -> k <> "at_hash"%string -> dget k m = dget k a1).
  { intros k N1 N2 N3. rewrite M by exact N1. rewrite G1 by exact N3. now apply F1. }
  assert (A0 : forall k, k <> "sub"%string -> k <> "acr"%string -> k <> "auth_time"%string -> dget k a0 = None).
  { intros k N1 N2 N3. unfold a0. cbn [dget]. apply String.eqb_neq in N1. rewrite N1. now apply event_other. }
  assert (Q : forall k, In k protocol_claims -> k <> "nonce"%string -> dget k m = dget k a0).
  { intros k Hi N. assert (Hi' := Hi). cbn in Hi'. rewrite P by (intuition (subst; discriminate)).
    rewrite K by (intros x Ex Hk; exact (Hx x k Ex Hk Hi)). now rewrite R. }
  destruct (id_user_info_ok _ _ _ _ _ _ E1) as [B1 B2].
  exists info. split; [exact B1|]. split; [|split].
  - constructor.
    + rewrite Q by (cbn; tauto || discriminate). reflexivity.
    + unfold nonce_of. assert (N3 : dget "nonce" a3 = None).
      { rewrite G1 by discriminate. rewrite F1 by discriminate. rewrite K. 2: { intros x Ex Hk. apply (Hx x _ Ex Hk). cbn. tauto. }
        rewrite R by (cbn; tauto). now apply A0. }
      destruct (g_authreq g) as [ar|]; [destruct (dget "nonce" ar) as [v|]|].
      * assert (m = dset "nonce" v a3) by congruence. subst m. apply dget_dset_eq.
      * assert (m = a3) by congruence. now subst m.
      * assert (m = a3) by congruence. now subst m.
    + rewrite Q by (cbn; tauto || discriminate). apply event_acr.
    + rewrite Q by (cbn; tauto || discriminate). apply event_time.
    + rewrite !Q by (cbn; tauto || discriminate). rewrite !A0 by discriminate. auto.
    + intros y Ey N. destruct (F3 y Ey N) as (h & Eh & D). exists h. split; [exact Eh|]. rewrite M by discriminate. now rewrite G1 by discriminate.
    + intros y Ey N. destruct (G3 y Ey N) as (h & Eh & D). exists h. split; [exact Eh|]. now rewrite M by discriminate.
  - intros r spec a X1 X2 X3. apply (B2 r spec a X1 X2). unfold a0. cbn [dget String.eqb]. now rewrite event_acr.
  - intros k N1 N2 N3 N4.
    assert (D : dget k m = dget k a1).
    { rewrite M by (intros ->; apply N1; cbn; tauto). destruct (String.eqb_spec k "at_hash") as [->|X].
      - assert (NH : ~ handed access) by (intros Y; now apply N4). rewrite (G2 NH). apply F1. discriminate.
      - rewrite G1 by exact X. destruct (String.eqb_spec k "c_hash") as [->|Y]; [|now apply F1].
        assert (NH : ~ handed code) by (intros Y; now apply N3). now rewrite (F2 NH). }
    fold inf. rewrite D, K by exact N2. destruct (dget k (rev inf)); [reflexivity|]. apply A0; intros ->; apply N1; cbn; tauto.
Qed.

Lemma substring_all s n : (String.length s <= n)%nat -> substring 0 n s = s.
Proof.
  revert n. induction s as [|a s IH]; intros [|n] H; cbn in *; try reflexivity; try lia. f_equal. apply IH. lia.
Qed.
Lemma substring_app p d n m : String.length p = n -> String.length d = m -> substring n m (p ++ d) = d.
Proof.
  intros <- <-. induction p as [|a p IH]; cbn; [now apply substring_all|]. exact IH.
Qed.
Lemma length_sapp (p d : string) : String.length (p ++ d) = (String.length p + String.length d)%nat.
Proof. induction p as [|a p IH]; cbn; [reflexivity|]. now rewrite IH. Qed.
Lemma last3_app p d : String.length d = 3%nat -> last3 (p ++ d) = d.
Proof.
  intros H. unfold last3. apply substring_app; [|exact H]. rewrite length_sapp. lia.
Qed.

Lemma fallback_ok default l v : 
  (let* b := val_in (VStr default) (vstrs l) in if b then Ok (VStr default) else first_of (vstrs l)) = Ok v ->
  exists a, v = VStr a /\ fallback default l a.
Proof.
  intros H. unfold vstrs in H. destruct (in_list_cases default (map VStr l)) as [[E I]|[E I]]; rewrite E in H; cbn [rbind] in H.
  - exists default. split; [congruence|]. left. split; [|reflexivity]. apply in_map_iff in I. destruct I as (x & [= ->] & I). exact I.
  - destruct l as [|a l]; [discriminate|]. cbn in H. exists a. split; [congruence|]. right. split; [|eauto].
    intros J. apply I. now apply in_map.
Qed.
Lemma choose_sign_negotiated cx jwx cinfo ptype default alg : dget ptype DEF_SIGN_ALG = Some default ->
  choose_sign cx jwx cinfo ptype = Ok alg -> negotiated (cx_provider_info cx) jwx cinfo ptype default alg.
Proof.
  intros D H. unfold choose_sign in H. unfold negotiated, provider_wide. destruct (dget _ cinfo) as [v|]; [congruence|].
  unfold jwx_get in H. rewrite D in H. cbn [of_option rbind] in H.
  destruct (dget "signing_alg" jwx) as [v|] eqn:E.
  - destruct v as [| | | | |d]; try discriminate. cbn [rbind] in H. exists (dget ptype d). split; [reflexivity|]. destruct (dget ptype d) as [w|]; [congruence|].
    intros l El. unfold dsub in H. rewrite El in H. cbn [rbind of_option] in H. exact (fallback_ok _ _ _ H).
  - exists None. split; [reflexivity|]. cbn [rbind] in H.
    intros l El. unfold dsub in H. rewrite El in H. cbn [rbind of_option] in H. exact (fallback_ok _ _ _ H).
Qed.

(** an ID Token that is made *)
Definition lifetime_of (ic : idconf) : Z := match ic_lifetime ic with Some n => n | None => 300 end.
Lemma make_inv ic cx clients s u c gid code access t : good u -> good c -> good gid ->
  make ic cx clients s (session_key [u; c; gid]) code access = Ok t ->
  include_session_id cx clients c "back" = false /\ include_session_id cx clients c "front" = false /\
  exists cinfo alg m, dget c clients = Some cinfo /\ choose_sign cx (ic_jwx ic) cinfo "id_token" = Ok (VStr alg) /\
    payload ic cx clients s (session_key [u; c; gid]) alg code access (Some []) = Ok m /\
    ic_pack ic (cx_issuer cx) (lifetime_of ic) (mkAlgs (Some (VStr alg)) None) m c = Ok t.
Proof.
  intros Hu Hc Hg H. unfold make in H. rewrite unpack3_good in H by assumption. cbn [rbind] in H.
  destruct (include_session_id cx clients c "back") eqn:E1; [discriminate|]. destruct (include_session_id cx clients c "front") eqn:E2; [discriminate|].
  cbn [orb] in H. split; [reflexivity|]. split; [reflexivity|]. unfold sign_encrypt in H.
  destruct (dget c clients) as [cinfo|]; [|discriminate]. cbn [of_option rbind] in H. unfold get_algorithms in H.
  destruct (choose_sign cx (ic_jwx ic) cinfo "id_token") as [v|] eqn:E3; [|discriminate]. cbn [rbind al_sign] in H.
  destruct v as [| | |alg| |]; try discriminate. cbn [rbind] in H.
  destruct (payload ic cx clients s _ alg code access (Some [])) as [m|] eqn:E4; [|discriminate]. cbn [rbind] in H.
  exists cinfo, alg, m. auto.
Qed.

Lemma include_wants cx clients c w : include_session_id cx clients c w = true <-> wants_logout (cx_provider_info cx) clients c w.
Proof.
  unfold include_session_id, wants_logout. cbv zeta. rewrite !andb_true_iff. split.
  - intros [[A B] C]. split; [|split].
    + destruct (dget _ _) as [v|]; [eauto|discriminate].
    + destruct (dget (w ++ "channel_logout_session_supported") _) as [v|]; [eauto|discriminate].
    + destruct (dget c clients) as [i|]; [eauto|discriminate].
  - intros [(v & -> & A) [(v' & -> & B) (i & -> & C)]]. auto.
Qed.
