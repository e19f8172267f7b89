(** PropsRegistration.v: C26 (registration and other clients), C27 (registered metadata and policy), C28 (reading a
    registration). *)
From Verif Require Import Base BaseProofs Types Monad MonadProofs Ctx ScopesProofs Uri PyUrl UriSpec UriProofs PropsUri
  ClientAuthn ClientAuthnSpec ClientAuthnProofs Registration RegistrationSpec RegistrationProofs.
Local Open Scope Z_scope.

(** ** C26 *)

(** Whatever the request and the outcome: either nothing changes, or nothing but the entries of one client and of the
    registration access token just drawn; and that client did not exist (if a new id was asked for, as the
    endpoint does). *)
Theorem C26_others : forall c d new_id set_secret rq s r s',
  client_registration_setup c d new_id set_secret rq s = (r, s') ->
  s' = s \/
  exists i rq', effective c new_id rq rq' /\ given_id new_id d (rg_cdb s) rq' i /\ only_client i (dr_rat d) s s'.
Proof.
  intros c d n ss rq s r s' H. destruct (setup_cases _ _ _ _ _ _ _ _ H) as [[-> _]|(v & i & rq' & V & M & G & Q & O)]; [auto|].
  right. exists i, rq'. destruct (given_effective c n rq v d _ i rq' V G Q) as [A B]. split; [auto|split; [auto|]].
  destruct O as [(_ & [-> | ->])|(info & args & _ & _ & _ & ->)].
  - apply begun_only.
  - apply loaded_only, begun_only.
  - apply done_only, loaded_only, begun_only.
Qed.
Print Assumptions C26_others.

(** Success: one record under the id given. Its members are those of the request; where the request has
    none, what the server noted. The response shows the record. *)
Theorem C26_success : forall c d new_id set_secret rq s args s',
  client_registration_setup c d new_id set_secret rq s = (Ok args, s') ->
  exists i rq' info, effective c new_id rq rq' /\ given_id new_id d (rg_cdb s) rq' i /\
    dget i (rg_cdb s') = Some info /\ only_client i (dr_rat d) s s' /\
    (rc_read_path c <> None -> dget (dr_rat d) (rg_rat s') = Some i) /\
    (forall k, In k (rc_params c) -> ~ In k ["redirect_uris"; "post_logout_redirect_uris"; "request_uris"]%string ->
       dget k args = dget k info) /\
    (NoDup (dkeys rq') -> forall k, ~ In k special ->
       dget k info = match dget k rq' with Some v => Some v | None => server_value c d new_id set_secret i k end).
Proof.
  intros c d n ss rq s args s' H.
  destruct (setup_cases _ _ _ _ _ _ _ _ H) as [[_ (e & X)]|(v & i & rq' & V & M & G & Q & O)]; [discriminate|].
  destruct O as [((e & X) & _)|(info & args' & I & Sh & [= <-] & ->)]; [discriminate|].
  destruct (given_effective c n rq v d _ i rq' V G Q) as [A B]. exists i, rq', info.
  split; [auto|split; [auto|split; [|split; [|split; [|split]]]]].
  - unfold done, rg_cdb. cbn. apply dget_dset_eq.
  - apply done_only, loaded_only, begun_only.
  - unfold done, loaded, begun. cbn. destruct (rc_read_path c); [|congruence]. intros _. apply dget_dset_eq.
  - intros k P N. eapply shown_get; eauto.
  - intros ND k NS. rewrite (client_info_get _ _ _ _ _ _ ND I NS), take_over_get by exact ND.
    rewrite server_record_get. destruct (dget k rq') as [w|]; [|auto].
    destruct (smem k ignored) eqn:E; [|auto]. apply smem_In in E. exfalso. apply NS. cbn in E |- *. intuition auto.
Qed.
Print Assumptions C26_success.

(** In particular, the secret is the server's if the request has none ... *)
Theorem C26_secret_partial : forall c d new_id rq s args s' i rq' info,
  client_registration_setup c d new_id true rq s = (Ok args, s') ->
  effective c new_id rq rq' -> NoDup (dkeys rq') -> given_id new_id d (rg_cdb s) rq' i -> dget i (rg_cdb s') = Some info ->
  dget "client_secret" rq' = None -> dget "client_secret" info = Some (VStr (dr_secret d)).
Proof.
  intros c d n rq s args s' i rq' info H E ND G I N.
  destruct (C26_success _ _ _ _ _ _ _ _ H) as (i2 & rq2 & info2 & E2 & G2 & I2 & _ & _ & _ & K).
  assert (rq2 = rq') as ->. { destruct E as (v & V & ->), E2 as (v2 & V2 & ->). congruence. }
  assert (i2 = i) as -> by now apply (given_unique n d (rg_cdb s) rq').
  assert (info2 = info) as -> by congruence. rewrite (K ND) by (cbn; intuition discriminate). now rewrite N.
Qed.
Print Assumptions C26_secret_partial.

(** ... but a request may bring its own, and most other members of the record: whatever it holds is what
    is recorded, while the key jar gets the server's secret. *)
Theorem C26_secret_refuted : forall c d new_id set_secret rq s args s',
  client_registration_setup c d new_id set_secret rq s = (Ok args, s') ->
  exists i rq' info, effective c new_id rq rq' /\ given_id new_id d (rg_cdb s) rq' i /\ dget i (rg_cdb s') = Some info /\
    (NoDup (dkeys rq') -> forall k v,
     In k ["client_secret"; "client_secret_expires_at"; "client_salt"; "client_id_issued_at"; "registration_access_token";
           "auth_method"; "allowed_scopes"; "token_usage_rules"; "add_claims"]%string ->
     dget k rq' = Some v -> dget k info = Some v).
Proof.
  intros c d n ss rq s args s' H. destruct (C26_success _ _ _ _ _ _ _ _ H) as (i & rq' & info & E & G & I & _ & _ & _ & K).
  exists i, rq', info. split; [auto|split; [auto|split; [auto|]]]. intros ND k v Hk Hv. rewrite (K ND), Hv; [auto|].
  intros X. cbn in Hk, X.
  repeat (destruct Hk as [<-|Hk]; [repeat (destruct X as [X|X]; [discriminate|]); exact X|]). exact Hk.
Qed.
Print Assumptions C26_secret_refuted.

(** Failure: nothing changes, or the new client remains with the server's own members and no other. *)
Theorem C26_failure_partial : forall c d new_id set_secret rq s e s',
  client_registration_setup c d new_id set_secret rq s = (Raise e, s') ->
  s' = s \/
  exists i rq' info, effective c new_id rq rq' /\ given_id new_id d (rg_cdb s) rq' i /\ only_client i (dr_rat d) s s' /\
    rg_sym s' = rg_sym s /\
    dget i (rg_cdb s') = Some info /\ forall k, dget k info = server_value c d new_id set_secret i k.
Proof.
  intros c d n ss rq s e s' H. destruct (setup_cases _ _ _ _ _ _ _ _ H) as [[-> _]|(v & i & rq' & V & M & G & Q & O)]; [auto|].
  right. exists i, rq', (server_record c d n ss i). destruct (given_effective c n rq v d _ i rq' V G Q) as [A B].
  split; [auto|split; [auto|]]. destruct O as [(_ & O)|(info & args & _ & _ & [=] & _)].
  assert (X : dget i (rg_cdb (begun c d n ss i s)) = Some (server_record c d n ss i)) by apply dget_dset_eq.
  destruct O as [-> | ->].
  - split; [apply begun_only|split; [auto|split; [exact X|intros k; apply server_record_get]]].
  - split; [apply loaded_only, begun_only|split; [auto|split; [exact X|intros k; apply server_record_get]]].
Qed.
Print Assumptions C26_failure_partial.

(** And it does remain: whenever the request passes the first checks and one of its redirect URIs is then refused, the answer
    is an error and a client with a valid secret is left in the database. *)
Theorem C26_atomic_refuted : forall c d rq s v uris uri p before i after,
  rc_verify c rq = Ok v -> match_client_request c (rm_blanks v) = Ok tt ->
  dr_ids d = before ++ i :: after -> dget i (rg_cdb s) = None -> Forall (fun j => dget j (rg_cdb s) <> None) before ->
  dget "redirect_uris" (rm_blanks v) = Some (VList uris) ->
  In (VStr uri) uris -> ul_split (rc_url c) uri = Ok p -> ~ scheme_ok (rm_blanks v) p ->
  exists e s' info, client_registration_setup c d true true rq s = (Raise e, s') /\
    dget i (rg_cdb s) = None /\ dget i (rg_cdb s') = Some info /\ dget "client_secret" info = Some (VStr (dr_secret d)).
Proof.
  intros c d rq s v uris uri p before i after V M L F Fb U Hin Sp NS.
  rewrite setup_eq, V. cbn [rbind]. rewrite M. cbn [rbind].
  assert (Ch : chosen d true (rg_cdb s) (rm_blanks v) = Ok (i, ddel "client_id" (rm_blanks v))).
  { unfold chosen, new_client_id. rewrite L. clear -F Fb. replace (find _ (before ++ i :: after)) with (Some i); [auto|]. symmetry.
    induction Fb as [|y b H Fb IH]; cbn; unfold dmem in *; [now rewrite F|]. destruct (dget y (rg_cdb s)); [exact IH|congruence]. }
  rewrite Ch. cbv zeta.
  destruct (client_info c (ddel "client_id" (rm_blanks v)) ignored (server_record c d true true i)) as [info|e] eqn:CI.
  - exfalso. set (rq' := ddel "client_id" (rm_blanks v)) in *.
    assert (U' : dget "redirect_uris" rq' = Some (VList uris)) by (unfold rq'; now rewrite dget_ddel_neq).
    destruct (client_info_redirects _ _ _ _ _ _ CI U') as (l & Vl & _). apply (redirects_iff _ rq' l uris U') in Vl.
    destruct (in_split _ _ Hin) as (u1 & u2 & ->). apply Forall2_app_inv_l in Vl. destruct Vl as (l1 & l2 & _ & Vl & _).
    inversion Vl as [|? y ? ? Hv _]; subst. apply redirect_iff in Hv. destruct Hv as (uri' & p' & [= <-] & Sp' & Sc & _).
    assert (p' = p) as -> by congruence. apply NS. unfold scheme_ok, app_type, code_only in *. unfold rq' in Sc.
    now rewrite !dget_ddel_neq in Sc by discriminate.
  - exists e, (begun c d true true i s), (server_record c d true true i). split; [reflexivity|]. split; [auto|].
    split; [apply dget_dset_eq|]. now rewrite server_record_get.
Qed.
Print Assumptions C26_atomic_refuted.

(** ** C27 *)

(** For every capability preference in the record of a client just registered: the provider has
    a list of what it supports, and what is preferred is in it (for response types and acr values: up to the order of
    words). *)
Theorem C27_capabilities : forall c d new_id set_secret rq s args s' i rq' info,
  client_registration_setup c d new_id set_secret rq s = (Ok args, s') ->
  effective c new_id rq rq' -> NoDup (dkeys rq') -> given_id new_id d (rg_cdb s) rq' i -> dget i (rg_cdb s') = Some info ->
  policy (rc_provider c) info /\
  forall pref prov, In (pref, prov) capabilities -> dget pref info <> None -> dget prov (rc_provider c) <> None.
Proof.
  intros c d n ss rq s args s' i rq' info H E ND G I.
  assert (Cap : incl capabilities preference2provider).
  { intros x Hx. cbn in Hx. repeat (destruct Hx as [<-|Hx]; [cbn; tauto|]). contradiction. }
  destruct (setup_cases _ _ _ _ _ _ _ _ H) as [[_ (e & X)]|(v & i2 & rq2 & V & M & G2 & Q & O)]; [discriminate|].
  destruct O as [((e & X) & _)|(info2 & args' & CI & Sh & _ & ->)]; [discriminate|].
  assert (rq2 = rq') as ->. { destruct E as (v2 & V2 & ->). assert (v2 = v) by congruence. subst. reflexivity. }
  destruct (given_effective c n rq v d _ i2 rq' V G2 Q) as [_ G2'].
  assert (i2 = i) as -> by now apply (given_unique n d (rg_cdb s) rq').
  assert (info2 = info) as ->. { unfold done, rg_cdb in I. cbn in I. rewrite dget_dset_eq in I. congruence. }
  assert (P : forall pref prov w, In (pref, prov) preference2provider -> dget pref info = Some w -> match_pref (rc_provider c) pref prov w = Ok tt).
  { intros pref prov w Hp Hw.
    assert (Hr : dget pref rq' = Some w).
    { eapply client_info_pref; eauto. rewrite server_record_get. clear -Hp. cbn in Hp.
      repeat (destruct Hp as [Hp|Hp]; [injection Hp as <- <-; reflexivity|]). contradiction. }
    eapply match_prefs_ok; eauto. rewrite Q in Hr. destruct n; [|exact Hr]. rewrite dget_ddel in Hr.
    destruct (String.eqb pref "client_id"); [discriminate|exact Hr]. }
  split.
  - intros pref prov w l Hp Hw Hl. apply Cap in Hp. eapply match_pref_ok; eauto.
  - intros pref prov Hp Hn Hx. apply Cap in Hp. destruct (dget pref info) as [w|] eqn:Ew; [|congruence]. specialize (P _ _ _ Hp Ew).
    unfold match_pref, dsub in P. rewrite Hx in P. discriminate.
Qed.
Print Assumptions C27_capabilities.

(** "In it" is a substring test when the provider's value is a str instead of a list. *)
Theorem C27_substring_refuted : forall provider pref prov a s b,
  In (pref, prov) capabilities -> ~ by_words pref -> dget prov provider = Some (VStr (a ++ s ++ b)) ->
  match_pref provider pref prov (VStr s) = Ok tt.
Proof.
  intros provider pref prov a s b _ N H. unfold match_pref, dsub. rewrite H. cbn [of_option rbind].
  destruct (smem pref _) eqn:E. { apply smem_In in E. exfalso. apply N. destruct E as [<-|[<-|[]]]; [now left|now right]. }
  cbn [val_in]. replace (contains s (a ++ s ++ b)) with true; [reflexivity|]. symmetry. apply contains_spec. eauto.
Qed.
Print Assumptions C27_substring_refuted.

(** The redirect URIs that are accepted, and what is kept of them, exactly. *)
Theorem C27_redirect_uris : forall u rq uris l,
  dget "redirect_uris" rq = Some (VList uris) ->
  (verify_redirect_uris u rq = Ok l <->
   Forall2 (fun v e => exists uri p, v = VStr uri /\ ul_split u uri = Ok p /\ scheme_ok rq p /\
     (is_native rq \/ up_fragment p = ""%string) /\ kept u rq uri p e) uris l).
Proof.
  intros u rq uris l H. rewrite (redirects_iff u rq l uris H). clear H. split; intros F; (induction F as [|a b ? ? X _ IH]; [constructor|constructor; [now apply redirect_iff|exact IH]]).
Qed.
Print Assumptions C27_redirect_uris.

(** They are the ones in the record. *)
Theorem C27_recorded : forall c d new_id set_secret rq s args s' rq' uris,
  client_registration_setup c d new_id set_secret rq s = (Ok args, s') ->
  effective c new_id rq rq' -> dget "redirect_uris" rq' = Some (VList uris) ->
  exists i info l, given_id new_id d (rg_cdb s) rq' i /\ dget i (rg_cdb s') = Some info /\
    verify_redirect_uris (rc_url c) rq' = Ok l /\ dget "redirect_uris" info = Some (VList l).
Proof.
  intros c d n ss rq s args s' rq' uris H E U.
  destruct (setup_cases _ _ _ _ _ _ _ _ H) as [[_ (e & X)]|(v & i & rq2 & V & M & G & Q & O)]; [discriminate|].
  destruct O as [((e & X) & _)|(info & args' & CI & Sh & _ & ->)]; [discriminate|].
  assert (rq2 = rq') as ->. { destruct E as (v2 & V2 & ->). assert (v2 = v) by congruence. subst. reflexivity. }
  destruct (given_effective c n rq v d _ i rq' V G Q) as [_ G'].
  destruct (client_info_redirects _ _ _ _ _ _ CI U) as (l & Vl & Gl).
  exists i, info, l. split; [auto|split; [|auto]]. unfold done, rg_cdb. cbn. apply dget_dset_eq.
Qed.
Print Assumptions C27_recorded.

(** A native client's redirect URIs are never looked at for a fragment; with a scheme of its own the URI
    is kept with it. *)
Theorem C27_native_fragment_refuted : forall u rq uri p,
  is_native rq -> dget "redirect_uris" rq = Some (VList [VStr uri]) -> ul_split u uri = Ok p -> own_scheme p ->
  verify_redirect_uris u rq = Ok [VList [VStr uri; VDict []]].
Proof.
  intros u rq uri p N U Sp O. apply (proj2 (C27_redirect_uris u rq [VStr uri] _ U)). constructor; [|constructor].
  exists uri, p. split; [auto|split; [auto|split; [|split; [auto|]]]].
  - exists (VStr "native"). split; [now left|]. left. auto.
  - left. auto.
Qed.
Print Assumptions C27_native_fragment_refuted.

(** A URI that was registered is accepted at the authorization endpoint, if it needs no unquoting and no other
    registered one has the same base, and unless it has a scheme of its own. *)
Theorem C20_registered_partial : forall c rq uris l db i info uri,
  (forall q, proper_query (ul_qs (rc_url c) q)) ->
  dget "redirect_uris" rq = Some (VList uris) -> verify_redirect_uris (rc_url c) rq = Ok l ->
  i <> ""%string -> dget i db = Some info -> dget "redirect_uris" info = Some (VList l) -> NoDup (map base_of l) ->
  In (VStr uri) uris -> ul_unquote (rc_url c) uri = uri ->
  (forall p, ul_split (rc_url c) uri = Ok p -> ~ own_scheme p /\ up_fragment p = ""%string) ->
  verify_uri (rc_url c) db [("client_id", VStr i); ("redirect_uri", VStr uri)]%string "redirect_uri" None = Ok tt.
Proof.
  intros c rq uris l db i info uri Q U V Ni I L ND Hin Hq Hs.
  apply (C27_redirect_uris _ _ _ _ U) in V.
  assert (F : Forall proper_entry l).
  { clear -V Q. induction V as [|v e vs es (uri & p & _ & _ & _ & _ & K) V IH]; constructor; [|auto].
    destruct K as [(_ & _ & ->)|(_ & q & -> & ->)].
    - eexists _, _. split; [reflexivity|]. right; right. exists []. split; [reflexivity|]. split; [constructor|easy].
    - eexists _, _. split; [reflexivity|]. right; right. destruct (nonempty (up_query p)).
      + destruct (ul_qs (rc_url c) (up_query p)) as [|kv q] eqn:E.
        * exists []. split; [reflexivity|]. split; [constructor|easy].
        * exists (kv :: q). split; [reflexivity|]. rewrite <- E. apply Q.
      + exists []. split; [reflexivity|]. split; [constructor|easy]. }
  apply (C20_exact (rc_url c) db _ "redirect_uri" None i uri l Q); auto.
  - split; [exact Ni|now left].
  - exists info. auto.
  - rewrite Hq. destruct (in_split _ _ Hin) as (u1 & u2 & ->). apply Forall2_app_inv_l in V. destruct V as (l1 & l2 & _ & V & ->).
    inversion V as [|? e ? l3 X _]; subst. destruct X as (uri' & p & Eu & Sp & _ & _ & K).
    injection Eu as <-. destruct (Hs p Sp) as [NO Fr].
    destruct K as [(_ & O & _)|(_ & q & -> & ->)]; [tauto|]. exists p, (if nonempty (up_query p) then match ul_qs (rc_url c) (up_query p) with [] => VDict [] | d => vquery d end else VDict []).
    split; [auto|split; [auto|split; [apply in_or_app; right; now left|]]].
    unfold query_of. destruct (nonempty (up_query p)).
    + destruct (ul_qs (rc_url c) (up_query p)); intros k s; reflexivity.
    + intros k s. split; intros X; exfalso; revert X; now apply no_param_falsy.
Qed.
Print Assumptions C20_registered_partial.

(** ** C28 *)

(** Where only the bearer header counts: a registration is read only with a registration access token, of the
    client the request names, and it is that client's. *)
Theorem C28_bearer_header : forall c o e rq auth s args s',
  ep_methods e <> [] -> (forall m, In m (ep_methods e) -> m = Some MBearerHeader) -> dget "" (rg_cdb s) = None ->
  registration_read c o e [] rq auth s = (Ok args, s') ->
  exists t i info, authz_str auth = Some ("Bearer " ++ t)%string /\ dget t (rg_rat s) = Some i /\
    dget "client_id" rq = Some (VStr i) /\ dget i (rg_cdb s) = Some info /\
    comb_uri (rc_url c) (filter (fun kv => smem (fst kv) (rc_params c)) info) = Ok args /\ s' = s.
Proof.
  intros c o e rq auth s args s' Ne Only E0 H. unfold registration_read in H.
  destruct (parse_auth o e "Message" (client_id_of_rat (rg_rat s)) [] rq auth (rg_ca s)) as [[[rq' x]|err] ca] eqn:PA; [|discriminate].
  unfold parse_auth in PA. apply bind_ok in PA. destruct PA as (r & s1 & CA & K).
  unfold client_authentication in CA. apply bind_ok in CA. destruct CA as (r0 & s0 & VC & CA).
  destruct r0 as [ai|]. 2:{ destruct (is_nil (ep_methods e)) eqn:En; [|discriminate]. destruct (ep_methods e); [congruence|discriminate]. }
  injection CA as <- <-. apply verify_client_ok in VC. destruct VC as (_ & ai0 & s1' & St & D).
  destruct D as [(l1 & m & l2 & Em & Ca & Ve & _)|(In0 & _)]; [|exfalso; specialize (Only _ In0); discriminate].
  assert (m = MBearerHeader) as ->. { assert (X : Some m = Some MBearerHeader); [|congruence]. apply Only. rewrite Em. apply in_or_app; right; now left. }
  apply usable_iff in Ca. cbn [is_usable] in Ca. destruct (authz_str auth) as [a|]; [|discriminate].
  apply starts_drop in Ca. cbn [verify] in Ve. unfold bearer_header_verify, bind, lift, of_option, ret in Ve.
  assert (ai0 = mkAI None (Some (VStr (drop 7 a))) (tag MBearerHeader)) by congruence. assert (s1' = rg_ca s) by congruence. subst ai0 s1'. clear Ve.
  destruct St as (cid & Al & _ & St). cbn [ai_client alias is_nil] in Al. injection Al as <-.
  destruct St as [(? & X & _)|(_ & -> & (t & cl & Tk & Tt & Ft & Cl & _))]; [discriminate|].
  cbn [ai_token] in Tk. destruct ai as [aic ait aim]. cbn [ai_client] in Cl. subst aic. injection K as <- <- <-.
  assert (Tk' : t = VStr (drop 7 a)) by congruence. subst t. clear Tk.
  exists (drop 7 a). change (String.length "Bearer ") with 7%nat in Ca.
  unfold client_id_of_rat in Ft. unfold read_process, dsub in H. rewrite dget_dset_eq in H. cbn [of_option rbind] in H.
  destruct (dget "client_id" rq) as [v|] eqn:Ec.
  - unfold dsub in Ft. destruct (dget (drop 7 a) (rg_rat s)) as [i|] eqn:Er; [|discriminate]. cbn [of_option rbind] in Ft.
    destruct (val_eqb v (VStr i)) eqn:Ev.
    + apply val_eqb_str in Ev. subst v. injection Ft as <-.
      unfold rg_cdb in *. destruct (dget i (ca_cdb (rg_ca s))) as [info|] eqn:Ei; [|discriminate]. cbn [of_option rbind] in H.
      exists i, info. rewrite <- Ca. split; [auto|split; [auto|split; [auto|split; [auto|]]]].
      destruct (comb_uri _ _) as [b|] eqn:Cu; [|discriminate]. injection H as <- <-. split; [auto|]. now destruct s.
    + injection Ft as <-. unfold rg_cdb in E0. rewrite E0 in H. discriminate.
  - injection Ft as <-. unfold rg_cdb in E0. rewrite E0 in H. discriminate.
Qed.
Print Assumptions C28_bearer_header.

(** Over every history: it is a token drawn by a registration that gave this id. *)
Theorem C28_issued : forall h s0 c o e rq auth args s',
  rg_rat s0 = [] -> ep_methods e <> [] -> (forall m, In m (ep_methods e) -> m = Some MBearerHeader) ->
  let s := rrun h s0 in
  dget "" (rg_cdb s) = None -> registration_read c o e [] rq auth s = (Ok args, s') ->
  exists t i, authz_str auth = Some ("Bearer " ++ t)%string /\ dget "client_id" rq = Some (VStr i) /\ issued h s0 t i.
Proof.
  intros h s0 c o e rq auth args s' R0 Ne Only s E0 H.
  destruct (C28_bearer_header c o e rq auth s args s' Ne Only E0 H) as (t & i & info & A & B & C & _).
  exists t, i. split; [auto|split; [auto|]]. now apply rat_issued.
Qed.
Print Assumptions C28_issued.

(** Refuted for bearer_body: any access token opens any registration whose secret is not expired. *)
Theorem C28_bearer_body_refuted : forall c o e rq s i info t,
  ep_named e = true -> ep_methods e = [Some MBearerBody] ->
  dget "access_token" rq = Some (VStr t) -> dget "client_id" rq = Some (VStr i) -> i <> ""%string ->
  dget i (rg_cdb s) = Some info -> not_expired (o_now o) info -> dget "auth_method" info = None ->
  exists s' info', registration_read c o e [] rq NoAuthz s = (comb_uri (rc_url c) (filter (fun kv => smem (fst kv) (rc_params c)) info'), s') /\
    forall k, k <> "auth_method"%string -> dget k info' = dget k info.
Proof.
  intros c o e rq s i info t Hn Hm Et Ec Hi Gi Hx Ha. unfold registration_read, rg_cdb in *.
  set (info' := dset "auth_method" (VDict [("Message"%string, VStr "bearer_body")]) info).
  set (ca' := mkCA (dset i info' (ca_cdb (rg_ca s))) (ca_jti (rg_ca s))).
  assert (PA : parse_auth o e "Message" (client_id_of_rat (rg_rat s)) [] rq NoAuthz (rg_ca s) = (Ok (dset "client_id" (VStr i) rq, VStr i), ca')).
  { unfold parse_auth, client_authentication, bind. rewrite verify_client_eq, Hn, Hm. unfold bind. cbn [try_methods is_usable]. unfold dmem. rewrite Et.
    cbn [verify]. unfold catch, bind, bearer_body_verify. rewrite Et, Ec.
    assert (Tc : truthy (VStr i) = true) by (cbn; now apply nonempty_true). rewrite Tc.
    unfold settle. cbn [ai_client alias is_nil]. unfold bind, lift, ret. cbn [ai_client ai_method ai_token alias is_nil]. rewrite Tc.
    unfold known_client, bind, gets, lift. rewrite Gi. apply valid_iff in Hx. rewrite Hx. cbn [ai_token].
    unfold note_method, truthy_get. rewrite Ha. reflexivity. }
  rewrite PA. exists (mkRG ca' (rg_rat s) (rg_sym s) (rg_jwks s)), info'. split.
  - f_equal. unfold read_process, dsub. rewrite dget_dset_eq. cbn [of_option rbind]. unfold ca'. cbn [ca_cdb]. rewrite dget_dset_eq. reflexivity.
  - intros k N. unfold info'. now rewrite dget_dset_neq.
Qed.
Print Assumptions C28_bearer_body_refuted.

(** Refuted where no method is configured (the class has no default): no token is needed. *)
Theorem C28_unconfigured_refuted : forall c o e rq s i info,
  endpoint_methods None None = Ok (ep_methods e) ->
  dget "client_id" rq = Some (VStr i) -> dget i (rg_cdb s) = Some info ->
  registration_read c o e [] rq NoAuthz s = (comb_uri (rc_url c) (filter (fun kv => smem (fst kv) (rc_params c)) info), s).
Proof.
  intros c o e rq s i info [= Hm] Ec Gi. unfold registration_read, rg_cdb in *.
  assert (PA : parse_auth o e "Message" (client_id_of_rat (rg_rat s)) [] rq NoAuthz (rg_ca s) = (Ok (rq, VStr i), rg_ca s)).
  { unfold parse_auth, client_authentication, bind. rewrite verify_client_eq, <- Hm.
    replace (if ep_named e then [] else []) with (@nil (option cmethod)) by (now destruct (ep_named e)).
    unfold bind. cbn [try_methods]. unfold ret. cbn [existsb]. cbn [is_nil]. now rewrite Ec. }
  rewrite PA. unfold read_process, dsub. rewrite Ec. cbn [of_option rbind]. rewrite Gi. cbn [of_option rbind]. now destruct s.
Qed.
Print Assumptions C28_unconfigured_refuted.

(** ** Examples, with urllib.parse *)

Definition prov1 : msg :=
  [("response_types_supported", vstrs ["code"; "id_token token"; "code id_token"]);
   ("subject_types_supported", vstrs ["public"; "pairwise"]);
   ("id_token_signing_alg_values_supported", vstrs ["RS256"; "ES256"]);
   ("userinfo_signing_alg_values_supported", VStr "RS256 ES256");
   ("grant_types_supported", vstrs ["authorization_code"; "refresh_token"])]%string.
Definition conf1 : rconf :=
  mkRC py_url prov1 (fun m => Ok m) (fun v => Ok (negb (val_eqb v (VStr "ES256")))) (fun _ _ _ => Ok tt)
       (fun _ => Ok (vstrs ["https://rp.example.org/cb"])) (Some "https://op.example.org/reg")%string true 3600
       ["client_id"; "client_secret"; "redirect_uris"; "registration_access_token"; "response_types"; "policy_uri"]%string.
Definition draw1 : draw := mkDraw ["taken"; "new1"; "new2"] "salt" "rat1" "sec1" 1000.
Definition reg0 : rgstate := mkRG (mkCA [("taken", [("client_secret", VStr "x")])]%string []) [("old", "taken")]%string [] [].
Definition reg_rq : msg :=
  [("client_id", VStr "taken"); ("redirect_uris", vstrs ["https://rp.example.org/cb?x=1"; "https://rp.example.org/cb2"]);
   ("response_types", vstrs ["token id_token"; "code"]); ("grant_types", vstrs ["authorization_code"]);
   ("subject_type", VStr "pairwise"); ("id_token_signed_response_alg", VStr "ES256"); ("contacts", VStr "");
   ("policy_uri", VStr "https://rp.example.org/policy")]%string.
Definition after (rq : msg) := client_registration_setup conf1 draw1 true true rq reg0.

Example C26_ex :
  after reg_rq =
  (Ok [("client_id", VStr "new1"); ("registration_access_token", VStr "rat1"); ("client_secret", VStr "sec1");
       ("response_types", vstrs ["token id_token"; "code"]);
       ("redirect_uris", vstrs ["https://rp.example.org/cb?x=1"; "https://rp.example.org/cb2"]);
       ("policy_uri", VStr "https://rp.example.org/policy")]%string,
   mkRG (mkCA [("taken", [("client_secret", VStr "x")]);
               ("new1", [("client_id", VStr "new1"); ("client_salt", VStr "salt"); ("registration_access_token", VStr "rat1");
                         ("registration_client_uri", VStr "https://op.example.org/reg?client_id=new1"); ("client_id_issued_at", VInt 1000);
                         ("client_secret", VStr "sec1"); ("client_secret_expires_at", VInt 4600);
                         ("response_types", vstrs ["token id_token"; "code"]); ("grant_types", vstrs ["authorization_code"]);
                         ("subject_type", VStr "pairwise");
                         ("redirect_uris", VList [entry "https://rp.example.org/cb" (vquery [("x", ["1"])]); entry "https://rp.example.org/cb2" (VDict [])]);
                         ("policy_uri", VStr "https://rp.example.org/policy")])]%string [])
        [("old", "taken"); ("rat1", "new1")]%string [("new1", ["sec1"])]%string [("new1", (VStr "", VNone))]%string).
Proof. vm_compute. reflexivity. Qed.

(** a URI that is not https for a client that is not restricted to the code flow: an error, and a client *)
Example C26_atomic_ex :
  let '(r, s') := after [("redirect_uris", vstrs ["https://rp.example.org/cb"; "http://rp.example.org/cb"])]%string in
  r = Raise EInvalidRedirectURI /\ dkeys (rg_cdb s') = ["taken"; "new1"]%string /\
  secret_is (rg_cdb s') "new1" (VStr "sec1") = Ok true /\ dget "rat1" (rg_rat s') = Some "new1"%string.
Proof. vm_compute. repeat split. Qed.
Example C26_atomic_hyp_ex : ~ scheme_ok [("redirect_uris", vstrs ["https://rp.example.org/cb"; "http://rp.example.org/cb"])]%string
  (urlsplit "http://rp.example.org/cb").
Proof.
  intros (app & A & H). destruct A as [A|[_ ->]]; [discriminate|]. destruct H as [[H _]|[_ [H|[_ [H|H]]]]]; try discriminate. now apply H.
Qed.

(** the secret is the one the request asks for *)
Example C26_secret_ex :
  let '(r, s') := after [("redirect_uris", vstrs ["https://rp.example.org/cb"]); ("client_secret", VStr "123"); ("client_secret_expires_at", VInt 99999)]%string in
  secret_is (rg_cdb s') "new1" (VStr "123") = Ok true /\ secret_is (rg_cdb s') "new1" (VStr "sec1") = Ok false /\
  dget "new1" (rg_sym s') = Some ["sec1"%string] /\
  option_map (dget "client_secret_expires_at") (dget "new1" (rg_cdb s')) = Some (Some (VInt 99999)).
Proof. vm_compute. repeat split. Qed.

Example C27_ex :
  fst (after [("redirect_uris", vstrs ["https://rp.example.org/cb"]); ("response_types", vstrs ["token"])]%string) = Raise ECapabilitiesMisMatch /\
  fst (after [("redirect_uris", vstrs ["https://rp.example.org/cb"]); ("subject_type", VStr "pair")]%string) = Raise ECapabilitiesMisMatch /\
  fst (after [("redirect_uris", vstrs ["https://rp.example.org/cb"]); ("token_endpoint_auth_method", VStr "none")]%string) = Raise EKey /\
  (* the provider's value is a str *)
  (exists a, fst (after [("redirect_uris", vstrs ["https://rp.example.org/cb"]); ("userinfo_signed_response_alg", VStr "6 E")]%string) = Ok a) /\
  (exists a, fst (after [("redirect_uris", vstrs ["http://rp.example.org/cb"]); ("response_types", vstrs ["code"])]%string) = Ok a) /\
  fst (after [("redirect_uris", vstrs ["https://rp.example.org/cb#f"])]%string) = Raise EInvalidRedirectURI.
Proof. vm_compute. repeat split; eexists; reflexivity. Qed.

Definition native (uri : string) : msg := [("application_type", VStr "native"); ("redirect_uris", vstrs [uri])]%string.
Example C27_native_ex :
  verify_redirect_uris py_url (native "app:/cb#frag") = Ok [entry "app:/cb#frag" (VDict [])] /\
  verify_redirect_uris py_url (native "http://localhost:8080/cb#frag") = Ok [entry "http://localhost:8080/cb" (VDict [])] /\
  verify_redirect_uris py_url (native "https://localhost/cb") = Raise EInvalidRedirectURI.
Proof. vm_compute. repeat split. Qed.

(** What a native client registered with a query it cannot use: it is kept unsplit, but compared split. *)
Theorem C20_own_scheme_refuted : exists rq uri args s',
  rq = native uri /\ after rq = (Ok args, s') /\
  verify_uri py_url (rg_cdb s') [("client_id", VStr "new1"); ("redirect_uri", VStr uri)]%string "redirect_uri" None = Raise ERedirectURI.
Proof. exists (native "app:/cb?x=1"), "app:/cb?x=1"%string. do 2 eexists. split; [reflexivity|]. split; vm_compute; reflexivity. Qed.
Print Assumptions C20_own_scheme_refuted.
Example C20_registered_ex :
  let db := rg_cdb (snd (after reg_rq)) in
  verify_uri py_url db [("client_id", VStr "new1"); ("redirect_uri", VStr "https://rp.example.org/cb?x=1")]%string "redirect_uri" None = Ok tt /\
  verify_uri py_url db [("client_id", VStr "new1"); ("redirect_uri", VStr "https://rp.example.org/cb?x=2")]%string "redirect_uri" None = Raise EValue.
Proof. vm_compute. repeat split. Qed.

Definition out0 : outside := mkOut (fun _ => Raise EBinascii) (fun x => x) (fun _ => Raise EValue) (fun _ _ => []) 1500.
Definition rep (l : list (option cmethod)) : ep := mkEp l true ["registration_read"]%string "https://op.example.org"%string.
Definition h0 : list revent := [Reg conf1 draw1 true true reg_rq].
Definition rs0 : rgstate := mkRG (mkCA [] []) [] [] [].
Definition read_with l rq auth := fst (registration_read conf1 out0 (rep l) [] rq auth (rrun h0 rs0)).
Example C28_ex :
  let rq := [("client_id", VStr "taken")]%string in
  (exists a, read_with [Some MBearerHeader] rq (AuthzStr "Bearer rat1") = Ok a /\ dget "client_secret" a = Some (VStr "sec1")) /\
  read_with [Some MBearerHeader] rq (AuthzStr "Bearer rat2") = Raise EValue /\
  read_with [Some MBearerHeader] [("client_id", VStr "x")]%string (AuthzStr "Bearer rat1") = Raise EKey /\
  read_with [Some MBearerHeader] rq NoAuthz = Raise EUnAuthorizedClient /\
  (* without the token *)
  (exists a, read_with [Some MBearerBody] (("access_token", VStr "?") :: rq)%string NoAuthz = Ok a /\ dget "client_secret" a = Some (VStr "sec1")) /\
  (exists a, read_with [None] rq NoAuthz = Ok a /\ dget "client_secret" a = Some (VStr "sec1")) /\
  (exists a, read_with [] rq NoAuthz = Ok a /\ dget "client_secret" a = Some (VStr "sec1")).
Proof. vm_compute. repeat split; eexists; split; reflexivity. Qed.
