(** PropsRegisteredUris.v: C110. The addresses a client registers besides its redirect URIs. *)
From Verif Require Import Base BaseProofs Monad Types Ctx Uri PyUrl ClientAuthn ClientAuthnProofs Registration RegistrationSpec RegistrationProofs PropsRegistration RegisteredUrisSpec SplitProofs.

Lemma registers_info c d n ss rq s rq' info args : registers c d n ss rq s rq' info args ->
  exists i, client_info c rq' ignored (server_record c d n ss i) = Ok info /\ RegistrationProofs.shown c info = Ok args /\ forall k v, dget k rq' = Some v -> truthy v = true.
Proof.
  intros (s' & i & H & (v & Ev & ->) & G & D). destruct (setup_cases _ _ _ _ _ _ _ _ H) as [[_ [e X]]|(v' & i' & rq' & Ev' & _ & G' & -> & C)]; [discriminate|].
  assert (v' = v) by congruence. subst v'. destruct C as [[[e X] _]|(info' & args' & I & Sh & R & ->)]; [discriminate|].
  destruct (given_effective c n rq v d (rg_cdb s) i' _ Ev G' eq_refl) as [_ G2].
  pose proof (given_unique _ _ _ _ _ _ G2 G) as ->. exists i.
  assert (E : dget i (rg_cdb (done d ss i info' (loaded i ((if n then ddel "client_id" else fun m => m) (rm_blanks v)) (begun c d n ss i s)))) = Some info')
    by (unfold done, rg_cdb; cbn; apply dget_dset_eq).
  assert (info' = info) by congruence. subst info'. assert (args' = args) by congruence. subst args'. split; [exact I|]. split; [exact Sh|].
  intros k x Dk. assert (F : In (k, x) (filter (fun kv => truthy (snd kv)) v)).
  { destruct n; [|now apply dget_In]. destruct (String.eqb_spec k "client_id") as [->|Nk]; [now rewrite dget_ddel_eq in Dk|].
    rewrite dget_ddel_neq in Dk by exact Nk. now apply dget_In. }
  apply filter_In in F. apply F.
Qed.

(** what [client_info] does, step by step *)
Lemma info_steps c rq ign ci r : client_info c rq ign ci = Ok r ->
  exists c1 c2 c3 c4 c5 c6 c7,
    when_in "post_logout_redirect_uris" rq (fun v => let* l := iter_val v in let* r := rmap (post_logout_uri (rc_url c)) l in
      Ok (dset "post_logout_redirect_uris" (VList r) (take_over ign rq ci))) (take_over ign rq ci) = Ok c1 /\
    when_in "redirect_uris" rq (fun _ => let* r := verify_redirect_uris (rc_url c) rq in Ok (dset "redirect_uris" (VList r) c1)) c1 = Ok c2 /\
    when_in "request_uris" rq (fun v => let* l := iter_val v in let* r := rmap (request_uri (rc_url c)) l in Ok (dset "request_uris" (VList r) c2)) c2 = Ok c3 /\
    when_in "sector_identifier_uri" rq (fun _ => let* si := verify_sector_identifier c rq in
      Ok (dset "sector_id" (snd si) (dset "si_redirects" (fst si) c3))) c3 = Ok c4 /\
    legal_url (rc_url c) rq "policy_uri" c4 = Ok c5 /\ legal_url (rc_url c) rq "logo_uri" c5 = Ok c6 /\ legal_url (rc_url c) rq "tos_uri" c6 = Ok c7 /\
    forall k, k <> "id_token_signed_response_alg"%string -> k <> "userinfo_signed_response_alg"%string -> dget k r = dget k c7.
Proof.
  intros H. unfold client_info in H. cbv zeta in H.
  step H c1 E1. step H c2 E2. step H c3 E3. step H c4 E4. step H c5 E5. step H c6 E6. step H c7 E7. step H c8 E8.
  exists c1, c2, c3, c4, c5, c6, c7. split; [reflexivity|]. split; [exact E2|]. split; [exact E3|]. split; [exact E4|]. split; [exact E5|]. split; [exact E6|]. split; [exact E7|]. intros k N1 N2.
  destruct (key_for_get _ _ _ _ _ _ H) as [-> | [_ ->]]; [|rewrite dget_ddel_neq by assumption];
    (destruct (key_for_get _ _ _ _ _ _ E8) as [-> | [_ ->]]; [|rewrite dget_ddel_neq by assumption]; reflexivity).
Qed.
Lemma legal_other u rq item a b k : legal_url u rq item a = Ok b -> k <> item -> dget k b = dget k a.
Proof. intros H N. rewrite (legal_url_get _ _ _ _ _ H). destruct (dget item rq); [now rewrite dget_dset_neq|reflexivity]. Qed.
Lemma when_other (f : val -> result msg) k rq a b x : when_in k rq f a = Ok b -> (forall v c, f v = Ok c -> dget x c = dget x a) -> dget x b = dget x a.
Proof. intros H F. destruct (when_in_cases _ _ _ _ _ H) as [[_ ->]|(v & _ & G)]; [reflexivity|exact (F _ _ G)]. Qed.

Lemma verify_url_true u p l : verify_url u p l = Ok true ->
  exists base query q, In (VList [VStr base; query]) l /\ ul_split u base = Ok q /\ up_scheme p = up_scheme q /\ up_netloc p = up_netloc q.
Proof.
  induction l as [|e l IH]; cbn [verify_url]; [discriminate|]. destruct e as [| | | |e|]; try discriminate. destruct e as [|b [|q0 [|? ?]]]; try discriminate.
  destruct b as [| | |b| |]; cbn [as_str rbind]; try discriminate. destruct (ul_split u b) as [q|] eqn:E; cbn [rbind]; [|discriminate].
  destruct (String.eqb (up_scheme p) (up_scheme q) && String.eqb (up_netloc p) (up_netloc q)) eqn:B.
  - intros _. apply andb_true_iff in B. destruct B as [B1 B2]. apply String.eqb_eq in B1, B2. exists b, q0, q. split; [now left|auto].
  - intros H. destruct (IH H) as (b' & q1 & q2 & I & R). exists b', q1, q2. split; [now right|exact R].
Qed.
Lemma legal_checked u rq item a b : legal_url u rq item a = Ok b ->
  dget item rq = None /\ b = a \/
  exists url p l base query q, dget item rq = Some (VStr url) /\ dget item b = Some (VStr url) /\ ul_split u url = Ok p /\
    dget "redirect_uris" a = Some (VList l) /\ In (VList [VStr base; query]) l /\ ul_split u base = Ok q /\ up_scheme p = up_scheme q /\ up_netloc p = up_netloc q.
Proof.
  unfold legal_url. intros H. destruct (when_in_cases _ _ _ _ _ H) as [[E ->]|(v & E & G)]; [now left|]. right.
  destruct v as [| | |url| |]; cbn [as_str rbind] in G; try discriminate.
  step G p Ep. unfold dsub in G. destruct (dget "redirect_uris" a) as [regs|] eqn:Er; cbn [of_option rbind] in G; [|discriminate].
  step G l El. step G ok Eo. destruct ok; [|discriminate]. assert (b = dset item (VStr url) a) by congruence. subst b.
  destruct (verify_url_true _ _ _ Eo) as (base & query & q & I & Eq & S1 & S2).
  assert (regs = VList l).
  { destruct regs as [| | |s|l'|d]; cbn in El; try discriminate; [|congruence|]; exfalso; injection El as <-;
      apply in_map_iff in I; destruct I as (x & X & _); discriminate. }
  subst regs. exists url, p, l, base, query, q. split; [exact E|]. split; [apply dget_dset_eq|]. auto 8.
Qed.

Lemma before_pages c rq ci c1 c2 c3 c4 k : NoDup (dkeys rq) -> In k ["policy_uri"; "logo_uri"; "tos_uri"]%string -> dget k ci = None ->
  when_in "post_logout_redirect_uris" rq (fun v => let* l := iter_val v in let* r := rmap (post_logout_uri (rc_url c)) l in
      Ok (dset "post_logout_redirect_uris" (VList r) (take_over ignored rq ci))) (take_over ignored rq ci) = Ok c1 ->
  when_in "redirect_uris" rq (fun _ => let* r := verify_redirect_uris (rc_url c) rq in Ok (dset "redirect_uris" (VList r) c1)) c1 = Ok c2 ->
  when_in "request_uris" rq (fun v => let* l := iter_val v in let* r := rmap (request_uri (rc_url c)) l in Ok (dset "request_uris" (VList r) c2)) c2 = Ok c3 ->
  when_in "sector_identifier_uri" rq (fun _ => let* si := verify_sector_identifier c rq in
      Ok (dset "sector_id" (snd si) (dset "si_redirects" (fst si) c3))) c3 = Ok c4 -> dget k c4 = None.
Proof.
  intros N I Z E1 E2 E3 E4.
  assert (Nk : k <> "post_logout_redirect_uris"%string /\ k <> "redirect_uris"%string /\ k <> "request_uris"%string /\ k <> "sector_id"%string /\ k <> "si_redirects"%string).
  { cbn in I. destruct I as [<-|[<-|[<-|[]]]]; repeat split; discriminate. }
  destruct Nk as (N1 & N2 & N3 & N4 & N5).
  rewrite (when_other _ _ _ _ _ k E4); [|intros v x G; step G si Es; assert (X : x = dset "sector_id" (snd si) (dset "si_redirects" (fst si) c3)) by congruence; rewrite X, !dget_dset_neq by assumption; reflexivity].
  rewrite (when_other _ _ _ _ _ k E3); [|intros v x G; step G l El; step G r Er; assert (X : x = dset "request_uris" (VList r) c2) by congruence; rewrite X, dget_dset_neq by assumption; reflexivity].
  rewrite (when_other _ _ _ _ _ k E2); [|intros v x G; step G r Er; assert (X : x = dset "redirect_uris" (VList r) c1) by congruence; rewrite X, dget_dset_neq by assumption; reflexivity].
  rewrite (when_other _ _ _ _ _ k E1); [|intros v x G; step G l El; step G r Er; assert (X : x = dset "post_logout_redirect_uris" (VList r) (take_over ignored rq ci)) by congruence; rewrite X, dget_dset_neq by assumption; reflexivity].
  rewrite take_over_get by exact N. assert (S1 : smem k ignored = true) by (cbn in I; destruct I as [<-|[<-|[<-|[]]]]; reflexivity).
  rewrite S1, Z. now destruct (dget k rq).
Qed.

(** The pages about the client that are shown to users are of the site of one of its redirect URIs. *)
Theorem C110_pages : forall c d n ss rq s rq' info args item v,
  registers c d n ss rq s rq' info args -> NoDup (dkeys rq') -> In item ["policy_uri"; "logo_uri"; "tos_uri"]%string -> dget item info = Some v ->
  exists url, v = VStr url /\ dget item rq' = Some (VStr url) /\ of_the_client (rc_url c) info url.
Proof.
  intros c d n ss rq s rq' info args item v H N I D. apply registers_info in H. destruct H as (i & H & _ & _).
  destruct (info_steps _ _ _ _ _ H) as (c1 & c2 & c3 & c4 & c5 & c6 & c7 & E1 & E2 & E3 & E4 & E5 & E6 & E7 & R). clear H.
  assert (Z : dget item (server_record c d n ss i) = None) by (rewrite server_record_get; cbn in I; destruct I as [<-|[<-|[<-|[]]]]; reflexivity).
  pose proof (before_pages _ _ _ _ _ _ _ _ N I Z E1 E2 E3 E4) as B4. clear E1 E2 E3 E4 Z.
  assert (Rr : dget "redirect_uris" info = dget "redirect_uris" c4).
  { rewrite R by discriminate. rewrite (legal_other _ _ _ _ _ _ E7), (legal_other _ _ _ _ _ _ E6), (legal_other _ _ _ _ _ _ E5) by discriminate. reflexivity. }
  assert (X : exists a b, dget "redirect_uris" a = dget "redirect_uris" c4 /\ dget item a = None /\ dget item info = dget item b /\ legal_url (rc_url c) rq' item a = Ok b).
  { cbn in I. destruct I as [<-|[<-|[<-|[]]]].
    - exists c4, c5. split; [reflexivity|]. split; [exact B4|]. split; [|exact E5]. rewrite R by discriminate.
      rewrite (legal_other _ _ _ _ _ _ E7), (legal_other _ _ _ _ _ _ E6) by discriminate. reflexivity.
    - exists c5, c6. rewrite !(legal_other _ _ _ _ _ _ E5) by discriminate. split; [reflexivity|]. split; [exact B4|]. split; [|exact E6]. rewrite R by discriminate.
      rewrite (legal_other _ _ _ _ _ _ E7) by discriminate. reflexivity.
    - exists c6, c7. rewrite !(legal_other _ _ _ _ _ _ E6), !(legal_other _ _ _ _ _ _ E5) by discriminate. split; [reflexivity|]. split; [exact B4|].
      split; [|exact E7]. apply R; discriminate. }
  destruct X as (a & b & Ra & Na & Ib & L). destruct (legal_checked _ _ _ _ _ L) as [[_ ->]|(url & p & l & base & query & q & Dq & Db & Ep & Dr & Il & Eq & S1 & S2)]; [congruence|].
  exists url. split; [congruence|]. split; [exact Dq|]. exists l, base, query. split; [congruence|]. split; [exact Il|]. exists p, q. auto.
Qed.
Print Assumptions C110_pages.

(** No post_logout_redirect_uri has a fragment, and all are recorded. *)
Theorem C110_post_logout : forall c d n ss rq s rq' info args uris,
  registers c d n ss rq s rq' info args -> dget "post_logout_redirect_uris" rq' = Some (VList uris) ->
  exists l, dget "post_logout_redirect_uris" info = Some (VList l) /\ Forall2 (post_logout_ok (rc_url c)) uris l.
Proof.
  intros c d n ss rq s rq' info args uris H D. apply registers_info in H. destruct H as (i & H & _ & _).
  destruct (info_steps _ _ _ _ _ H) as (c1 & c2 & c3 & c4 & c5 & c6 & c7 & E1 & E2 & E3 & E4 & E5 & E6 & E7 & R). clear H.
  destruct (when_in_cases _ _ _ _ _ E1) as [[X _]|(v & Dv & G)]; [congruence|]. assert (v = VList uris) by congruence. subst v. cbn [iter_val rbind] in G.
  step G l El. exists l. split.
  - rewrite R by discriminate. rewrite (legal_other _ _ _ _ _ _ E7), (legal_other _ _ _ _ _ _ E6), (legal_other _ _ _ _ _ _ E5) by discriminate.
    rewrite (when_other _ _ _ _ _ "post_logout_redirect_uris"%string E4); [|intros v x G'; step G' si Es; assert (X : x = dset "sector_id" (snd si) (dset "si_redirects" (fst si) c3)) by congruence; rewrite X, !dget_dset_neq by discriminate; reflexivity].
    rewrite (when_other _ _ _ _ _ "post_logout_redirect_uris"%string E3); [|intros v x G'; step G' l' El'; step G' r Er; assert (X : x = dset "request_uris" (VList r) c2) by congruence; rewrite X, dget_dset_neq by discriminate; reflexivity].
    rewrite (when_other _ _ _ _ _ "post_logout_redirect_uris"%string E2); [|intros v x G'; step G' r Er; assert (X : x = dset "redirect_uris" (VList r) c1) by congruence; rewrite X, dget_dset_neq by discriminate; reflexivity].
    assert (X : c1 = dset "post_logout_redirect_uris" (VList l) (take_over ignored rq' (server_record c d n ss i))) by congruence. rewrite X. apply dget_dset_eq.
  - apply rmap_Forall2 in El. clear - El. induction El as [|v e uris l H F IH]; constructor; [|exact IH].
    unfold post_logout_uri in H. destruct v as [| | |uri| |]; cbn [as_str rbind] in H; try discriminate. step H p Ep.
    destruct (nonempty (up_fragment p)) eqn:Nf; [discriminate|]. unfold split_uri in H. rewrite Ep in H. cbn [rbind fst snd] in H.
    exists uri, p. split; [reflexivity|]. split; [exact Ep|]. split; [destruct (up_fragment p); [reflexivity|discriminate]|]. congruence.
Qed.
Print Assumptions C110_post_logout.

Lemma join_hash s : join "#" (split "#" s) = s.
Proof.
  induction s as [|d s IH]; [reflexivity|]. pose proof (split1_cons "#"%char d s) as Sp. change (ssep "#"%char) with "#"%string in Sp. rewrite Sp. clear Sp. pose proof (split1_nonempty "#"%char s) as Ne. change (ssep "#"%char) with "#"%string in Ne.
  destruct (Ascii.eqb "#" d) eqn:B.
  - apply Ascii.eqb_eq in B. subst d. destruct (split "#" s) as [|x l]; [congruence|].
    change (join "#" (""%string :: x :: l)) with ("" ++ "#" ++ join "#" (x :: l))%string. rewrite IH. reflexivity.
  - destruct (split "#" s) as [|x l]; [congruence|]. cbn [push]. destruct l as [|y l]; cbn [join] in *; [congruence|]. cbn. f_equal. exact IH.
Qed.

(** No request_uri has a query, and the answer shows all as they were given. *)
Theorem C110_request_uris : forall c d n ss rq s rq' info args uris,
  registers c d n ss rq s rq' info args -> dget "request_uris" rq' = Some (VList uris) -> In "request_uris"%string (rc_params c) ->
  exists l, dget "request_uris" args = Some (VList l) /\ Forall2 (request_uri_shown (rc_url c)) uris l.
Proof.
  intros c d n ss rq s rq' info args uris H D P. apply registers_info in H. destruct H as (i & H & Sh & Tr).
  destruct (info_steps _ _ _ _ _ H) as (c1 & c2 & c3 & c4 & c5 & c6 & c7 & E1 & E2 & E3 & E4 & E5 & E6 & E7 & R). clear H.
  destruct (when_in_cases _ _ _ _ _ E3) as [[X _]|(v & Dv & G)]; [congruence|]. assert (v = VList uris) by congruence. subst v. cbn [iter_val rbind] in G.
  step G l El.
  assert (Di : dget "request_uris" info = Some (VList l)).
  { rewrite R by discriminate. rewrite (legal_other _ _ _ _ _ _ E7), (legal_other _ _ _ _ _ _ E6), (legal_other _ _ _ _ _ _ E5) by discriminate.
    rewrite (when_other _ _ _ _ _ "request_uris"%string E4); [|intros v x G'; step G' si Es; assert (X : x = dset "sector_id" (snd si) (dset "si_redirects" (fst si) c3)) by congruence; rewrite X, !dget_dset_neq by discriminate; reflexivity].
    assert (X : c3 = dset "request_uris" (VList l) c2) by congruence. rewrite X. apply dget_dset_eq. }
  unfold RegistrationProofs.shown, comb_uri in Sh. step Sh a1 F1. step Sh a2 F2.
  assert (Da : dget "request_uris" a2 = Some (VList l)).
  { rewrite (comb_pairs_get _ _ _ _ _ F2), (comb_pairs_get _ _ _ _ _ F1) by discriminate. rewrite (dget_filter_key (fun k => smem k (rc_params c))).
    apply smem_In in P. now rewrite P. }
  assert (T : truthy (VList l) = true).
  { pose proof (Tr _ _ D) as T. apply rmap_Forall2 in El. destruct El; [discriminate|reflexivity]. }
  unfold truthy_get in Sh. rewrite Da, T in Sh. cbn [iter_val rbind] in Sh. step Sh r Er. assert (args = dset "request_uris" (VList r) a2) by congruence. subst args.
  exists r. split; [apply dget_dset_eq|]. apply rmap_Forall2 in El, Er. clear - El Er. revert r Er.
  induction El as [|v e uris l H F IH]; intros r Er; inversion Er as [|? x ? r' Hx Fr]; subst; constructor; [|now apply IH].
  unfold request_uri in H. destruct v as [| | |uri| |]; cbn [as_str rbind] in H; try discriminate. step H p Ep.
  destruct (nonempty (up_query p)) eqn:Nq; [discriminate|]. assert (Q : up_query p = ""%string) by (destruct (up_query p); [reflexivity|discriminate]).
  destruct (nonempty (up_fragment p)).
  - assert (e = vstrs (split "#" uri)) by congruence. subst e. pose proof (join_hash uri) as J. unfold vstrs in Hx.
    destruct (split "#" uri) as [|b [|f [|? ?]]]; cbn [map frag_uri] in Hx; try discriminate. cbn [join] in J.
    destruct f as [|ch f]; cbn in Hx.
    + exists uri, p, b. do 3 (split; [auto|]). split; [congruence|]. right. symmetry. exact J.
    + exists uri, p, uri. do 3 (split; [auto|]). split; [|now left]. rewrite <- J. cbn in Hx. cbn. congruence.
  - assert (e = VList [VStr uri; VStr ""]) by congruence. subst e. exists uri, p, uri. do 3 (split; [auto|]). split; [cbn in Hx; congruence|now left].
Qed.
Print Assumptions C110_request_uris.

Lemma strs_of_map l : Types.strs_of (map VStr l) = l.
Proof. induction l as [|x l IH]; [reflexivity|]. cbn. now f_equal. Qed.
Lemma pairs_vquery q : pairs_of (map (fun kv => (fst kv, vstrs (snd kv))) q) = Ok (parameters_of q).
Proof.
  induction q as [|[k l] q IH]; [reflexivity|]. cbn [map pairs_of fst snd]. unfold vstrs at 1. cbn [as_list rbind]. rewrite IH. cbn [rbind].
  rewrite strs_of_map. reflexivity.
Qed.

(** The answer shows every post_logout_redirect_uri with its query. *)
Theorem C110_post_logout_shown : forall c d n ss rq s rq' info args uris,
  registers c d n ss rq s rq' info args -> dget "post_logout_redirect_uris" rq' = Some (VList uris) -> In "post_logout_redirect_uris"%string (rc_params c) ->
  exists l, dget "post_logout_redirect_uris" args = Some (VList l) /\ Forall2 (post_logout_shown (rc_url c)) uris l.
Proof.
  intros c d n ss rq s rq' info args uris H D P. destruct (C110_post_logout _ _ _ _ _ _ _ _ _ _ H D) as (l & Di & F).
  apply registers_info in H. destruct H as (i & _ & Sh & _). unfold RegistrationProofs.shown, comb_uri in Sh. step Sh a1 F1. step Sh a2 F2.
  assert (D1 : dget "post_logout_redirect_uris" a1 = Some (VList l)).
  { rewrite (comb_pairs_get _ _ _ _ _ F1) by discriminate. rewrite (dget_filter_key (fun k => smem k (rc_params c))). apply smem_In in P. now rewrite P. }
  unfold comb_pairs in F2. rewrite D1 in F2. cbn [iter_val rbind] in F2. step F2 r Er. assert (a2 = dset "post_logout_redirect_uris" (VList r) a1) by congruence. subst a2.
  exists r. split.
  - assert (X : dget "post_logout_redirect_uris" args = dget "post_logout_redirect_uris" (dset "post_logout_redirect_uris" (VList r) a1)).
    { destruct (truthy_get "request_uris" (dset "post_logout_redirect_uris" (VList r) a1)) as [v|]; [|congruence]. step Sh l' El. step Sh r' Er'.
      assert (Y : args = dset "request_uris" (VList r') (dset "post_logout_redirect_uris" (VList r) a1)) by congruence. rewrite Y. now rewrite dget_dset_neq by discriminate. }
    rewrite X. apply dget_dset_eq.
  - apply rmap_Forall2 in Er. clear - F Er. revert r Er. induction F as [|v e uris l H F IH]; intros r Er; inversion Er as [|? x ? r' Hx Fr]; subst; constructor; [|now apply IH].
    destruct H as (uri & p & -> & Ep & _ & ->). exists uri, p. split; [reflexivity|]. split; [exact Ep|]. unfold pair_uri, join_query in Hx.
    destruct (nonempty (up_query p)) eqn:Nq; [|cbn in Hx |- *; congruence]. destruct (ul_qs (rc_url c) (up_query p)) as [|kv q] eqn:Q; [cbn in Hx |- *; congruence|].
    cbn [andb is_nil negb]. unfold vquery in Hx. replace (truthy (VDict (map (fun kv => (fst kv, vstrs (snd kv))) (kv :: q)))) with true in Hx by reflexivity.
    cbn [as_dict rbind] in Hx. rewrite pairs_vquery in Hx. cbn [rbind] in Hx. congruence.
Qed.
Print Assumptions C110_post_logout_shown.

(** An algorithm the provider can sign with is recorded, unless there is no key for it; then the member is left out. *)
Theorem C27_key : forall c d n ss rq s rq' info args item prov alg supported has,
  registers c d n ss rq s rq' info args -> NoDup (dkeys rq') -> In (item, prov) signing_algs -> dget item rq' = Some (VStr alg) ->
  dget prov (rc_provider c) = Some (vstrs supported) -> In alg supported -> rc_has_key c (VStr alg) = Ok has ->
  dget item info = if has then Some (VStr alg) else None.
Proof.
  intros c d n ss rq s rq' info args item prov alg supported has H N I D Pv Ia Hk. apply registers_info in H. destruct H as (i & H & _ & _).
  unfold client_info in H. cbv zeta in H. step H c1 E1. step H c2 E2. step H c3 E3. step H c4 E4. step H c5 E5. step H c6 E6. step H c7 E7. step H c8 E8.
  assert (Ni : item <> "post_logout_redirect_uris"%string /\ item <> "redirect_uris"%string /\ item <> "request_uris"%string /\ item <> "sector_id"%string /\ item <> "si_redirects"%string /\
    item <> "policy_uri"%string /\ item <> "logo_uri"%string /\ item <> "tos_uri"%string /\ smem item ignored = false).
  { cbn in I. destruct I as [I|[I|[]]]; injection I as <- <-; repeat (split; [discriminate|]); reflexivity. }
  destruct Ni as (N1 & N2 & N3 & N4 & N5 & N6 & N7 & N8 & N9).
  assert (D7 : dget item c7 = Some (VStr alg)).
  { rewrite (legal_other _ _ _ _ _ _ E7), (legal_other _ _ _ _ _ _ E6), (legal_other _ _ _ _ _ _ E5) by assumption.
    rewrite (when_other _ _ _ _ _ item E4); [|intros v x G; step G si Es; assert (X : x = dset "sector_id" (snd si) (dset "si_redirects" (fst si) c3)) by congruence; rewrite X, !dget_dset_neq by assumption; reflexivity].
    rewrite (when_other _ _ _ _ _ item E3); [|intros v x G; step G l El; step G r Er; assert (X : x = dset "request_uris" (VList r) c2) by congruence; rewrite X, dget_dset_neq by assumption; reflexivity].
    rewrite (when_other _ _ _ _ _ item E2); [|intros v x G; step G r Er; assert (X : x = dset "redirect_uris" (VList r) c1) by congruence; rewrite X, dget_dset_neq by assumption; reflexivity].
    rewrite (when_other _ _ _ _ _ item E1); [|intros v x G; step G l El; step G r Er; assert (X : x = dset "post_logout_redirect_uris" (VList r) (take_over ignored rq' (server_record c d n ss i))) by congruence; rewrite X, dget_dset_neq by assumption; reflexivity].
    rewrite take_over_get by exact N. now rewrite D, N9. }
  assert (K : forall a b, key_for c rq' item prov a = Ok b -> dget item a = Some (VStr alg) -> dget item b = if has then Some (VStr alg) else None).
  { intros a b G Da. unfold key_for in G. destruct (when_in_cases _ _ _ _ _ G) as [[X _]|(v & Dv & G')]; [congruence|]. assert (v = VStr alg) by congruence. subst v.
    unfold dsub in G'; rewrite Pv in G'; cbn [of_option] in G'. cbn [rbind] in G'. assert (V : val_in (VStr alg) (vstrs supported) = Ok true).
    { unfold vstrs. cbn [val_in]. f_equal. apply existsb_exists. exists (VStr alg). split; [now apply in_map|cbn; apply String.eqb_refl]. }
    rewrite V in G'. cbn [rbind] in G'. rewrite Hk in G'. cbn [rbind] in G'. destruct has; injection G' as <-; [exact Da|apply dget_ddel_eq]. }
  cbn in I. destruct I as [I|[I|[]]]; injection I as <- <-.
  - destruct (key_for_get _ _ _ _ _ _ H) as [-> |[_ ->]]; [|rewrite dget_ddel_neq by discriminate]; exact (K _ _ E8 D7).
  - refine (K _ _ H _). destruct (key_for_get _ _ _ _ _ _ E8) as [-> |[_ ->]]; [|rewrite dget_ddel_neq by discriminate]; exact D7.
Qed.
Print Assumptions C27_key.

(** The list at the sector identifier URI names all redirect URIs of the client. *)
Theorem C110_sector : forall c d n ss rq s rq' info args url,
  registers c d n ss rq s rq' info args -> dget "sector_identifier_uri" rq' = Some url ->
  exists listed, rc_fetch c url = Ok listed /\ dget "sector_id" info = Some url /\ dget "si_redirects" info = Some listed /\
    forall uris ls uri, dget "redirect_uris" rq' = Some (VList uris) -> listed = VList ls -> In (VStr uri) uris -> In (VStr uri) ls.
Proof.
  intros c d n ss rq s rq' info args url H D. apply registers_info in H. destruct H as (i & H & _ & _).
  destruct (info_steps _ _ _ _ _ H) as (c1 & c2 & c3 & c4 & c5 & c6 & c7 & E1 & E2 & E3 & E4 & E5 & E6 & E7 & R). clear H.
  destruct (when_in_cases _ _ _ _ _ E4) as [[X _]|(v & Dv & G)]; [congruence|]. assert (v = url) by congruence. subst v.
  step G si Es. assert (X : c4 = dset "sector_id" (snd si) (dset "si_redirects" (fst si) c3)) by congruence. clear G.
  unfold verify_sector_identifier, dsub in Es. rewrite D in Es. cbn [of_option rbind] in Es. step Es listed Ef. exists listed. split; [reflexivity|].
  step Es u Eu. assert (si = (listed, url)) by congruence. subst si. cbn [fst snd] in X.
  split; [|split].
  - rewrite R by discriminate. rewrite (legal_other _ _ _ _ _ _ E7), (legal_other _ _ _ _ _ _ E6), (legal_other _ _ _ _ _ _ E5) by discriminate. rewrite X. apply dget_dset_eq.
  - rewrite R by discriminate. rewrite (legal_other _ _ _ _ _ _ E7), (legal_other _ _ _ _ _ _ E6), (legal_other _ _ _ _ _ _ E5) by discriminate. rewrite X, dget_dset_neq by discriminate. apply dget_dset_eq.
  - intros uris ls uri Du -> I. rewrite Du in Eu. cbn [iter_val rbind] in Eu. step Eu oks Eo. destruct (forallb (fun b => b) oks) eqn:B; [|discriminate].
    apply rmap_Forall2 in Eo. clear - Eo B I. induction Eo as [|v b uris oks H F IH]; [destruct I|]. cbn [forallb] in B. apply andb_true_iff in B. destruct B as [B1 B2].
    destruct I as [->|I]; [|now apply IH]. cbn [val_in] in H. subst b. assert (Ex : existsb (val_eqb (VStr uri)) ls = true) by congruence.
    apply existsb_exists in Ex. destruct Ex as (x & Ix & Ex). destruct x as [| | |t| |]; try discriminate. cbn in Ex. apply String.eqb_eq in Ex. now subst t.
Qed.
Print Assumptions C110_sector.

(** Refuted for a client that gives no sector identifier URI: what it says its sector is, is recorded without any check. *)
Theorem C110_sector_refuted : forall c d n ss rq s rq' info args v,
  registers c d n ss rq s rq' info args -> NoDup (dkeys rq') -> dget "sector_identifier_uri" rq' = None -> dget "sector_id" rq' = Some v ->
  dget "sector_id" info = Some v.
Proof.
  intros c d n ss rq s rq' info args v H N D Ds. apply registers_info in H. destruct H as (i & H & _ & _).
  destruct (info_steps _ _ _ _ _ H) as (c1 & c2 & c3 & c4 & c5 & c6 & c7 & E1 & E2 & E3 & E4 & E5 & E6 & E7 & R). clear H.
  rewrite R by discriminate. rewrite (legal_other _ _ _ _ _ _ E7), (legal_other _ _ _ _ _ _ E6), (legal_other _ _ _ _ _ _ E5) by discriminate.
  destruct (when_in_cases _ _ _ _ _ E4) as [[_ ->]|(x & Dx & _)]; [|congruence].
  rewrite (when_other _ _ _ _ _ "sector_id"%string E3); [|intros w x G'; step G' l' El'; step G' r Er; assert (X : x = dset "request_uris" (VList r) c2) by congruence; rewrite X, dget_dset_neq by discriminate; reflexivity].
  rewrite (when_other _ _ _ _ _ "sector_id"%string E2); [|intros w x G'; step G' r Er; assert (X : x = dset "redirect_uris" (VList r) c1) by congruence; rewrite X, dget_dset_neq by discriminate; reflexivity].
  rewrite (when_other _ _ _ _ _ "sector_id"%string E1); [|intros w x G'; step G' l El; step G' r Er; assert (X : x = dset "post_logout_redirect_uris" (VList r) (take_over ignored rq' (server_record c d n ss i))) by congruence; rewrite X, dget_dset_neq by discriminate; reflexivity].
  rewrite take_over_get by exact N. rewrite Ds. reflexivity.
Qed.
Print Assumptions C110_sector_refuted.

(** ** A case, with urllib.parse *)
Definition conf110 : rconf :=
  mkRC py_url prov1 (fun m => Ok m) (fun v => Ok true) (fun _ _ _ => Ok tt)
       (fun _ => Ok (vstrs ["https://rp.example.org/cb"; "https://rp2.example.org/cb"])) (Some "https://op.example.org/reg")%string true 3600
       ["client_id"; "redirect_uris"; "request_uris"; "tos_uri"]%string.
Definition rq110 : msg :=
  [("redirect_uris", vstrs ["https://rp.example.org/cb"]); ("response_types", vstrs ["code"]);
   ("tos_uri", VStr "https://rp.example.org/tos"); ("post_logout_redirect_uris", vstrs ["https://rp.example.org/bye?x=1"]);
   ("request_uris", vstrs ["https://rp.example.org/ro.jwt#abc"; "https://rp.example.org/ro2.jwt"]);
   ("sector_identifier_uri", VStr "https://rp.example.org/sector.json")]%string.
Example C110_ex : exists info args,
  registers conf110 draw1 true true rq110 reg0 rq110 info args /\ NoDup (dkeys rq110) /\
  dget "tos_uri" info = Some (VStr "https://rp.example.org/tos") /\
  dget "post_logout_redirect_uris" info = Some (VList [VList [VStr "https://rp.example.org/bye"; vquery [("x", ["1"])]]])%string /\
  dget "request_uris" args = Some (vstrs ["https://rp.example.org/ro.jwt#abc"; "https://rp.example.org/ro2.jwt"])%string /\
  dget "sector_id" info = Some (VStr "https://rp.example.org/sector.json").
Proof.
  do 2 eexists. split; [|split; [cbn; repeat constructor; cbn; intuition discriminate|]].
  - eexists. exists "new1"%string. split; [vm_compute; reflexivity|]. split; [exists rq110; split; reflexivity|]. split; [|reflexivity].
    exists ["taken"%string], ["new2"%string]. split; [reflexivity|]. split; [reflexivity|]. repeat constructor. discriminate.
  - do 3 (split; [vm_compute; reflexivity|]). vm_compute. reflexivity.
Qed.
(** Addresses of another site, with fragment or query, and a list without the redirect URI are refused; a sector without any list is not. *)
Example C110_ex_refused :
  (exists s, client_registration_setup conf110 draw1 true true (dset "tos_uri" (VStr "http://rp.example.org/tos") rq110) reg0 = (Raise EOther, s)) /\
  (exists s, client_registration_setup conf110 draw1 true true (dset "post_logout_redirect_uris" (vstrs ["https://rp.example.org/bye#x"]) rq110) reg0 = (Raise EOther, s)) /\
  (exists s, client_registration_setup conf110 draw1 true true (dset "request_uris" (vstrs ["https://rp.example.org/ro.jwt?x=1"]) rq110) reg0 = (Raise EOther, s)) /\
  (exists s, client_registration_setup conf110 draw1 true true (dset "redirect_uris" (vstrs ["https://rp.example.org/cb"; "https://rp.example.org/cb2"]) rq110) reg0 = (Raise EOther, s)) /\
  exists info args, registers conf110 draw1 true true (dset "sector_id" (VStr "bank") (ddel "sector_identifier_uri" rq110)) reg0
      (dset "sector_id" (VStr "bank") (ddel "sector_identifier_uri" rq110)) info args /\ dget "sector_id" info = Some (VStr "bank").
Proof.
  do 4 (split; [eexists; vm_compute; reflexivity|]). do 2 eexists. split.
  - eexists. exists "new1"%string. split; [vm_compute; reflexivity|]. split; [eexists; split; reflexivity|]. split; [|reflexivity].
    exists ["taken"%string], ["new2"%string]. split; [reflexivity|]. split; [reflexivity|]. repeat constructor. discriminate.
  - reflexivity.
Qed.
(** A query is shown, and an algorithm without a key is left out. *)
Definition conf110b : rconf :=
  mkRC py_url prov1 (fun m => Ok m) (fun v => Ok (negb (val_eqb v (VStr "ES256")))) (fun _ _ _ => Ok tt) (rc_fetch conf110) None true 3600
       ["client_id"; "post_logout_redirect_uris"; "id_token_signed_response_alg"]%string.
Example C110_ex_shown : exists info args info' args',
  registers conf110b draw1 true true (dset "id_token_signed_response_alg" (VStr "ES256") rq110) reg0 (dset "id_token_signed_response_alg" (VStr "ES256") rq110) info args /\
  registers conf110b draw1 true true (dset "id_token_signed_response_alg" (VStr "RS256") rq110) reg0 (dset "id_token_signed_response_alg" (VStr "RS256") rq110) info' args' /\
  dget "post_logout_redirect_uris" args = Some (vstrs ["https://rp.example.org/bye?x=1"])%string /\
  dget "id_token_signed_response_alg" info = None /\ dget "id_token_signed_response_alg" info' = Some (VStr "RS256").
Proof.
  do 4 eexists. split; [|split].
  - eexists. exists "new1"%string. split; [vm_compute; reflexivity|]. split; [eexists; split; reflexivity|]. split; [|reflexivity].
    exists ["taken"%string], ["new2"%string]. split; [reflexivity|]. split; [reflexivity|]. repeat constructor. discriminate.
  - eexists. exists "new1"%string. split; [vm_compute; reflexivity|]. split; [eexists; split; reflexivity|]. split; [|reflexivity].
    exists ["taken"%string], ["new2"%string]. split; [reflexivity|]. split; [reflexivity|]. repeat constructor. discriminate.
  - do 2 (split; [vm_compute; reflexivity|]). vm_compute. reflexivity.
Qed.
