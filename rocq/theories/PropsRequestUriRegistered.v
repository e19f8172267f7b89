(** PropsRequestUriRegistered.v: request objects are fetched from the addresses the client registered with (C57). *)
From Verif Require Import Base BaseProofs Monad Types Ctx Uri PyUrl ClientAuthn ClientAuthnProofs Registration RegistrationSpec RegistrationProofs RegisteredUrisSpec SplitProofs
  AuthnBroker AuthzRequest AuthzRequestSpec AuthzRequestProofs PropsAuthzRequest PropsRegistration PropsRegisteredUris.
Local Open Scope Z_scope.

(** the address without the fragment *)
Definition before_mark (uri : string) : string := hd ""%string (split "#" uri).
(** what is recorded *)
Lemma request_uris_recorded c d n ss rq s rq' info args uris : registers c d n ss rq s rq' info args -> dget "request_uris" rq' = Some (vstrs uris) ->
  uris <> [] /\ exists l, dget "request_uris" info = Some (VList l) /\ Forall2 (fun uri e => request_uri (rc_url c) (VStr uri) = Ok e) uris l.
Proof.
  intros H D. apply registers_info in H. destruct H as (i & H & _ & Tr). split; [intros ->; pose proof (Tr _ _ D) as T; discriminate T|].
  destruct (info_steps _ _ _ _ _ H) as (c1 & c2 & c3 & c4 & c5 & c6 & c7 & E1 & E2 & E3 & E4 & E5 & E6 & E7 & R). clear H.
  destruct (when_in_cases _ _ _ _ _ E3) as [[X _]|(v & Dv & G)]; [congruence|]. assert (v = vstrs uris) by congruence. subst v. unfold vstrs in G. cbn [iter_val rbind] in G.
  step G l El. exists l. split.
  - rewrite R by discriminate. rewrite (legal_other _ _ _ _ _ _ E7), (legal_other _ _ _ _ _ _ E6), (legal_other _ _ _ _ _ _ E5) by discriminate.
    rewrite (when_other _ _ _ _ _ "request_uris"%string E4); [|intros v x G'; step G' si Es; assert (X : x = dset "sector_id" (snd si) (dset "si_redirects" (fst si) c3)) by congruence; rewrite X, !dget_dset_neq by discriminate; reflexivity].
    assert (X : c3 = dset "request_uris" (VList l) c2) by congruence. rewrite X. apply dget_dset_eq.
  - apply rmap_Forall2 in El. clear - El. revert l El. induction uris as [|x uris IH]; intros l El; inversion El; subst; constructor; auto.
Qed.
Lemma recorded_request u uri e : request_uri u (VStr uri) = Ok e -> (length (split "#" uri) <= 2)%nat ->
  exists p, ul_split u uri = Ok p /\ up_query p = ""%string /\
    ((up_fragment p = ""%string /\ e = VList [VStr uri; VStr ""]) \/
     (up_fragment p <> ""%string /\ e = vstrs (split "#" uri))).
Proof.
  unfold request_uri. cbn [as_str rbind]. destruct (ul_split u uri) as [p|]; [|discriminate]. cbn [rbind]. intros H L. exists p. split; [reflexivity|].
  destruct (up_query p) as [|ch q] eqn:Q; [|discriminate]. split; [reflexivity|]. change (nonempty "") with false in H. cbv iota in H.
  destruct (up_fragment p) as [|ch f] eqn:F; cbn in H; [left|right]; split; try easy; congruence.
Qed.
Lemma before_mark_again a : before_mark (before_mark a) = before_mark a.
Proof.
  unfold before_mark. pose proof (split1_pieces "#"%char a) as P. change (ssep "#"%char) with "#"%string in P.
  destruct (split "#" a) as [|x l]; [reflexivity|]. cbn [hd]. cbn [forallb] in P. apply andb_true_iff in P. destruct P as [P _].
  pose proof (split1_free "#"%char x P) as S. change (ssep "#"%char) with "#"%string in S. now rewrite S.
Qed.

(** A client registers addresses without a mark in front of a fragment, or with one and a fragment behind it. Each of them can be used as request_uri, with any fragment or
    none: what is found there counts. *)
Theorem C57_used : forall co d n ss rq s rq' info args uris e c uri address request ver,
  registers co d n ss rq s rq' info args -> dget "request_uris" rq' = Some (vstrs uris) ->
  (forall x p, In x uris -> ul_split (rc_url co) x = Ok p -> if nonempty (up_fragment p) then length (split "#" x) = 2%nat else split "#" x = [x]) ->
  dget c (re_cdb e) = Some info -> In uri uris -> before_mark address = before_mark uri -> re_fetch e (Some c) address = Ok ver ->
  fetch_request e (Some c) address request = Ok (dset (verified "request") (VDict ver) (dupdate request ver)).
Proof.
  intros co d n ss rq s rq' info args uris e c uri address request ver H D Sh Dc I B F.
  destruct (request_uris_recorded _ _ _ _ _ _ _ _ _ _ H D) as (_ & l & Dl & Fl).
  assert (P : forall x v, In x uris -> request_uri (rc_url co) (VStr x) = Ok v -> exists frag, v = VList [VStr (before_mark x); VStr frag]).
  { intros x v Ix Rx. destruct (recorded_request (rc_url co) x v Rx) as (p & Sp & _ & C).
    { unfold request_uri in Rx. cbn [as_str rbind] in Rx. destruct (ul_split (rc_url co) x) as [p|] eqn:Sp; [|discriminate].
      specialize (Sh x p Ix Sp). destruct (nonempty (up_fragment p)); rewrite Sh; cbn; auto. }
    specialize (Sh x p Ix Sp). unfold before_mark. destruct C as [[Fr ->]|[Fr ->]].
    - rewrite Fr in Sh. change (nonempty "") with false in Sh. cbv iota in Sh. rewrite Sh. cbn. eauto.
    - destruct (up_fragment p) as [|ch f]; [congruence|]. change (nonempty (String ch f)) with true in Sh. cbv iota in Sh. destruct (split "#" x) as [|a [|b [|]]]; cbn in Sh; try discriminate. exists b. reflexivity. }
  destruct (in_split _ _ I) as (u1 & u2 & ->). destruct (Forall2_app_inv_l _ _ Fl) as (l1 & l2 & F1 & F2 & ->). inversion F2 as [|? v ? l3 Rv F3]; subst.
  destruct (P uri v I Rv) as (frag & ->).
  apply (C57_fetched e c info (l1 ++ VList [VStr (before_mark uri); VStr frag] :: l3) address request ver (before_mark uri) frag); auto.
  - clear - Fl P. intros v Iv. assert (X : exists x, In x (u1 ++ uri :: u2) /\ request_uri (rc_url co) (VStr x) = Ok v).
    { revert Fl Iv. generalize (u1 ++ uri :: u2) as us, (l1 ++ VList [VStr (before_mark uri); VStr frag] :: l3) as ls. intros us ls Fl. induction Fl as [|x y us ls Hx Fl IH]; intros Iv; [destruct Iv|].
      destruct Iv as [<-|Iv]; [exists x; split; [now left|exact Hx]|]. destruct (IH Iv) as (z & Iz & Hz). exists z. split; [now right|exact Hz]. }
    destruct X as (x & Ix & Rx). destruct (P x v Ix Rx) as (f & ->). eauto.
  - apply in_or_app. right. now left.
Qed.
Print Assumptions C57_used.

(** From no other address is an object fetched for that client. *)
Theorem C57_used_only : forall co d n ss rq s rq' info args uris e c address request db,
  registers co d n ss rq s rq' info args -> dget "request_uris" rq' = Some (vstrs uris) ->
  (forall x, In x uris -> (length (split "#" x) <= 2)%nat /\ forall p, ul_split (rc_url co) x = Ok p -> up_fragment p <> ""%string -> length (split "#" x) = 2%nat) ->
  dget c (re_cdb e) = Some info -> dget "request_uri" request = Some (VStr address) -> address <> ""%string ->
  (re_par e = false \/ starts_with "urn:uuid:" address = false) ->
  (forall uri, In uri uris -> before_mark uri <> before_mark address) ->
  parse_authz e (Some c) request db = (Raise EValue, db) /\ parse_authn e (Some c) request db = (Raise EValue, db).
Proof.
  intros co d n ss rq s rq' info args uris e c address request db H D Sh Dc U Ne Pr No.
  destruct (request_uris_recorded _ _ _ _ _ _ _ _ _ _ H D) as (Nu & l & Dl & Fl).
  assert (X : forall v, In v l -> exists x base frag, In x uris /\ v = VList [VStr base; VStr frag] /\ (base = x \/ base = before_mark x)).
  { intros v Iv. assert (X : exists x, In x uris /\ request_uri (rc_url co) (VStr x) = Ok v).
    { clear - Fl Iv. induction Fl as [|x y us ls Hx Fl IH]; [destruct Iv|]. destruct Iv as [<-|Iv]; [exists x; split; [now left|exact Hx]|].
      destruct (IH Iv) as (z & Iz & Hz). exists z. split; [now right|exact Hz]. }
    destruct X as (x & Ix & Rx). destruct (Sh x Ix) as [L2 Le]. destruct (recorded_request (rc_url co) x v Rx L2) as (p & Sp & _ & [[_ ->]|[Fr ->]]).
    - exists x, x, ""%string. auto.
    - specialize (Le p Sp Fr). unfold before_mark. destruct (split "#" x) as [|a [|b [|]]] eqn:E; cbn in Le; try discriminate. exists x, a, b. rewrite E. cbn. auto. }
  apply (C57_registered_partial e c info l address request db); auto.
  - intros ->. inversion Fl. subst. contradiction.
  - intros v Iv. destruct (X v Iv) as (x & b & f & _ & -> & _). eauto.
  - intros f Iv. destruct (X _ Iv) as (x & b & f' & Ix & E & C). assert (b = before_mark address) by (unfold before_mark; congruence). subst b.
    apply (No x Ix). destruct C as [C|C]; [rewrite <- C; apply before_mark_again|now symmetry].
Qed.
Print Assumptions C57_used_only.

(** Refuted for an address that ends in the mark: it is registered and shown, but no request_uri at all is taken for it. *)
Theorem C57_mark_refuted : forall co d n ss rq s rq' info args a p e c address request db,
  registers co d n ss rq s rq' info args -> dget "request_uris" rq' = Some (vstrs [(a ++ "#")%string]) ->
  split "#" (a ++ "#")%string = [a; ""%string] -> ul_split (rc_url co) (a ++ "#") = Ok p -> up_fragment p = ""%string ->
  dget c (re_cdb e) = Some info -> dget "request_uri" request = Some (VStr address) -> address <> ""%string ->
  (re_par e = false \/ starts_with "urn:uuid:" address = false) ->
  parse_authz e (Some c) request db = (Raise EValue, db) /\ parse_authn e (Some c) request db = (Raise EValue, db).
Proof.
  intros co d n ss rq s rq' info args a p e c address request db H D Sa Sp Fr Dc U Ne Pr.
  destruct (request_uris_recorded _ _ _ _ _ _ _ _ _ _ H D) as (_ & l & Dl & Fl). inversion Fl as [|? v ? l' Rv F']; subst. inversion F'; subst. clear Fl F'.
  destruct (recorded_request (rc_url co) _ v Rv) as (p' & Sp' & _ & C); [rewrite Sa; cbn; lia|]. assert (p' = p) by congruence. subst p'.
  destruct C as [[_ ->]|[C _]]; [|congruence].
  apply (C57_registered_partial e c info [VList [VStr (a ++ "#"); VStr ""]] address request db); auto.
  - discriminate.
  - intros v [<-|[]]. eauto.
  - intros f [E|[]]. injection E as E _. pose proof (before_mark_again address) as B. unfold before_mark at 1 in B. unfold before_mark in B. rewrite <- E in B. rewrite Sa in B. cbn [hd] in B.
    assert (L : slen a = slen (a ++ "#")) by now rewrite <- B. rewrite slen_app in L. change (slen "#") with 1%nat in L. lia.
Qed.
Print Assumptions C57_mark_refuted.

(** ** A case: the client of C110_ex *)
Definition reg57 (uris : list string) : cdb := rg_cdb (snd (client_registration_setup conf110 draw1 true true (dset "request_uris" (vstrs uris) rq110) reg0)).
Definition env57 (uris : list string) : reqenv := mkRE py_url (reg57 uris) true true (fun _ _ => Ok ex_object).
Definition uris57 : list string := ["https://rp.example.org/ro.jwt#abc"; "https://rp.example.org/ro2.jwt"]%string.
Definition mark57 : list string := ["https://rp.example.org/ro.jwt#"]%string.
Example C57_ex_used :
  (forall uris, In uris [uris57; mark57] -> exists info args,
     registers conf110 draw1 true true (dset "request_uris" (vstrs uris) rq110) reg0 (dset "request_uris" (vstrs uris) rq110) info args /\ dget "new1" (re_cdb (env57 uris)) = Some info) /\
  (forall x p, In x uris57 -> ul_split py_url x = Ok p -> if nonempty (up_fragment p) then length (split "#" x) = 2%nat else split "#" x = [x]) /\
  (exists m, fetch_request (env57 uris57) (Some "new1"%string) "https://rp.example.org/ro.jwt#new" (ex_by_ref "new1" "https://rp.example.org/ro.jwt#new") = Ok m) /\
  (exists m, fetch_request (env57 uris57) (Some "new1"%string) "https://rp.example.org/ro2.jwt" (ex_by_ref "new1" "https://rp.example.org/ro2.jwt") = Ok m) /\
  parse_authn (env57 uris57) (Some "new1"%string) (ex_by_ref "new1" "https://rp.example.org/ro3.jwt") [] = (Raise EValue, []) /\
  parse_authn (env57 mark57) (Some "new1"%string) (ex_by_ref "new1" "https://rp.example.org/ro.jwt#") [] = (Raise EValue, []) /\
  parse_authn (env57 mark57) (Some "new1"%string) (ex_by_ref "new1" "https://rp.example.org/ro.jwt") [] = (Raise EValue, []).
Proof.
  split; [|split; [|split; [|split]]].
  - intros uris [<-|[<-|[]]]; do 2 eexists; (split; [|vm_compute; reflexivity]).
    all: eexists; exists "new1"%string; (split; [vm_compute; reflexivity|]); (split; [eexists; split; reflexivity|]); (split; [|reflexivity]).
    all: exists ["taken"%string], ["new2"%string]; (split; [reflexivity|]); (split; [reflexivity|]); constructor; [discriminate|constructor].
  - intros x p [<-|[<-|[]]] E; vm_compute in E; injection E as <-; vm_compute; reflexivity.
  - eexists. vm_compute. reflexivity.
  - eexists. vm_compute. reflexivity.
  - repeat split; vm_compute; reflexivity.
Qed.
