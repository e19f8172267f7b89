(** ProviderProofs.v *)
From Verif Require Import Base BaseProofs Types Ctx Response Provider ProviderSpec.
From Verif Require Registration LogoutProofs.
From Coq Require Import Sorted Permutation.

(** ** Dictionaries *)
Lemma dget_rev {A} k (d : dict A) : NoDup (dkeys d) -> dget k (rev d) = dget k d.
Proof.
  intros N. destruct (dget k d) as [v|] eqn:E.
  - apply In_dget; [|now apply in_rev, dget_In; rewrite rev_involutive]. unfold dkeys in *. rewrite map_rev. now apply NoDup_rev.
  - apply dget_None_key. apply dget_None_key in E. intros I. apply E. unfold dkeys in *. rewrite map_rev in I. now apply in_rev.
Qed.
Lemma set_defaults info : forall cap k, dget k (fold_left set_default info cap) = match dget k cap with Some v => Some v | None => dget k info end.
Proof.
  induction info as [|[k' v'] info IH]; intros cap k; cbn [fold_left].
  - now destruct (dget k cap).
  - rewrite IH. unfold set_default. cbn [fst snd dget]. unfold dmem. destruct (dget k' cap) as [w|] eqn:E.
    + destruct (String.eqb_spec k k') as [->|N]; [now rewrite E|reflexivity].
    + rewrite dget_dset. destruct (String.eqb_spec k k') as [->|N]; [now rewrite E|reflexivity].
Qed.
(** The first endpoint, of those that count, that has an entry *)
Fixpoint first_info (k : string) (eps : dict inst) : option val :=
  match eps with
  | [] => None
  | e :: eps' =>
      if smem (fst e) ["webfinger"; "provider_config"] then first_info k eps'
      else match in_info (snd e) with
           | Some info => match dget k info with Some v => Some v | None => first_info k eps' end
           | None => first_info k eps'
           end
  end.
Lemma add_infos eps : forall cap k, dget k (fold_left add_info eps cap) = match dget k cap with Some v => Some v | None => first_info k eps end.
Proof.
  induction eps as [|e eps IH]; intros cap k; cbn [fold_left first_info].
  - now destruct (dget k cap).
  - rewrite IH. unfold add_info. destruct (smem (fst e) ["webfinger"; "provider_config"]); [reflexivity|].
    destruct (in_info (snd e)) as [info|]; [|reflexivity]. rewrite set_defaults. destruct (dget k cap); reflexivity.
Qed.

(** ** Entries of an endpoint *)
Lemma entries_absent al kw d : forall acc info k, info_entries al kw d acc = Ok info -> ~ In k (dkeys d) -> dget k info = dget k acc.
Proof.
  induction d as [|[a dv] d IH]; intros acc info k H N; cbn [info_entries] in H.
  - assert (acc = info) by congruence. now subst.
  - destruct (info_entry al kw a dv) as [e|]; cbn [rbind] in H; [|discriminate].
    rewrite (IH _ _ k H) by (intros I; apply N; now right). destruct e; [|reflexivity].
    apply dget_dset_neq. intros ->. apply N. now left.
Qed.
Lemma entries_present al kw d : NoDup (dkeys d) -> forall acc info k dv, info_entries al kw d acc = Ok info -> In (k, dv) d ->
  exists e, info_entry al kw k dv = Ok e /\ dget k info = match e with Some v => Some v | None => dget k acc end.
Proof.
  induction d as [|[a av] d IH]; intros N acc info k dv H I; [destruct I|]. inversion N as [|? ? N1 N2]; subst. cbn [info_entries] in H.
  destruct (info_entry al kw a av) as [e|] eqn:E; cbn [rbind] in H; [|discriminate]. destruct I as [I|I].
  - injection I as -> ->. exists e. split; [exact E|]. rewrite (entries_absent _ _ _ _ _ k H N1). destruct e; [apply dget_dset_eq|reflexivity].
  - destruct (IH N2 _ _ k dv H I) as (e' & E' & G). exists e'. split; [exact E'|]. rewrite G. destruct e'; [reflexivity|].
    destruct e; [|reflexivity]. apply dget_dset_neq. intros ->. apply N1. change (In a (map fst d)). change a with (fst (a, dv)). now apply in_map.
Qed.
Lemma entries_keys al kw d : forall acc info k, info_entries al kw d acc = Ok info -> In k (dkeys info) -> In k (dkeys d) \/ In k (dkeys acc).
Proof.
  intros acc info k H I. destruct (in_dec string_dec k (dkeys d)) as [J|J]; [now left|right].
  assert (E := entries_absent _ _ _ _ _ k H J). destruct (dget k info) as [v|] eqn:G.
  - symmetry in E. now apply dget_key in E.
  - apply dget_None_key in G. contradiction.
Qed.
Lemma entries_nodup al kw d : forall acc info, info_entries al kw d acc = Ok info -> NoDup (dkeys acc) -> NoDup (dkeys info).
Proof.
  induction d as [|[a dv] d IH]; intros acc info H N; cbn [info_entries] in H.
  - assert (acc = info) by congruence. now subst.
  - destruct (info_entry al kw a dv) as [e|]; cbn [rbind] in H; [|discriminate]. apply (IH _ _ H). destruct e; [now apply NoDup_dset|exact N].
Qed.

(** ** Building the endpoints *)
Lemma make_ok al issuer s i : make_endpoint al issuer s = Ok i ->
  exists c kw info0 info path, es_class s = Ok c /\ es_path s = Some path /\
    ec_pre c issuer (match es_kwargs s with Some k => k | None => [] end) = Ok kw /\
    construct_endpoint_info al (ec_defaults c) kw = Ok info0 /\ ec_post c kw info0 = Ok info /\
    in_class i = c /\ in_path i = path /\ in_full_path i = (base_url issuer ++ "/" ++ path)%string /\
    in_info i = (if nonempty (ec_endpoint_name c)
                 then Some (dset (ec_endpoint_name c) (VStr (base_url issuer ++ "/" ++ path)) (match info with Some i => i | None => [] end)) else info).
Proof.
  unfold make_endpoint. intros H. destruct (es_class s) as [c|]; cbn [rbind] in H; [|discriminate].
  destruct (ec_pre c issuer _) as [kw|] eqn:P; cbn [rbind] in H; [|discriminate].
  destruct (construct_endpoint_info al (ec_defaults c) kw) as [info0|] eqn:C; cbn [rbind] in H; [|discriminate].
  destruct (ec_post c kw info0) as [info|] eqn:Q; cbn [rbind] in H; [|discriminate].
  destruct (es_path s) as [path|]; cbn [of_option rbind] in H; [|discriminate].
  injection H as <-. exists c, kw, info0, info, path. cbn. auto 12.
Qed.
Lemma build_in al issuer : forall specs acc eps, build_endpoints al issuer specs acc = Ok eps ->
  forall n i, In (n, i) eps -> In (n, i) acc \/ exists s, In s specs /\ make_endpoint al issuer s = Ok i /\ n = ec_name (in_class i).
Proof.
  assert (D : forall n (j : inst) m i acc, In (n, j) (dset m i acc) -> In (n, j) acc \/ (n = m /\ j = i)).
  { intros n j m i acc. induction acc as [|[m' i'] acc IHa]; cbn [dset].
    - intros [E|[]]. injection E as <- <-. auto.
    - destruct (String.eqb_spec m m') as [->|N]; intros [E|E].
      + injection E as <- <-. auto.
      + left. now right.
      + left. now left.
      + destruct (IHa E) as [F|F]; [left; now right|now right]. }
  induction specs as [|s specs IH]; intros acc eps H n i I; cbn [build_endpoints] in H.
  - assert (acc = eps) by congruence. subst. now left.
  - destruct (make_endpoint al issuer s) as [j|] eqn:M; cbn [rbind] in H; [|discriminate].
    destruct (IH _ _ H n i I) as [J|(s' & J & K)]; [|right; exists s'; split; [now right|exact K]].
    apply D in J. destruct J as [J|(-> & ->)]; [now left|]. right. exists s. split; [now left|]. auto.
Qed.
Lemma build_made al issuer : forall specs acc eps s, build_endpoints al issuer specs acc = Ok eps -> In s specs -> exists i, make_endpoint al issuer s = Ok i.
Proof.
  induction specs as [|s' specs IH]; intros acc eps s H I; [destruct I|]. cbn [build_endpoints] in H.
  destruct (make_endpoint al issuer s') as [j|] eqn:M; cbn [rbind] in H; [|discriminate]. destruct I as [<-|I]; [eauto|]. exact (IH _ _ _ H I).
Qed.
Definition spec_name (s : espec) : string := match es_class s with Ok c => ec_name c | Raise _ => "" end.
Lemma build_keep al issuer : forall specs acc eps n, build_endpoints al issuer specs acc = Ok eps -> ~ In n (map spec_name specs) -> dget n eps = dget n acc.
Proof.
  induction specs as [|s specs IH]; intros acc eps n H N; cbn [build_endpoints] in H.
  - now assert (acc = eps) as -> by congruence.
  - destruct (make_endpoint al issuer s) as [j|] eqn:M; cbn [rbind] in H; [|discriminate].
    rewrite (IH _ _ n H) by (intros I; apply N; now right). apply dget_dset_neq. intros ->. apply N. left.
    destruct (make_ok _ _ _ _ M) as (c & kw & i0 & i1 & path & E & _ & _ & _ & _ & F & _). unfold spec_name. now rewrite E, F.
Qed.
Lemma build_get al issuer : forall specs acc eps s, NoDup (map spec_name specs) -> build_endpoints al issuer specs acc = Ok eps -> In s specs ->
  exists i, make_endpoint al issuer s = Ok i /\ dget (spec_name s) eps = Some i.
Proof.
  induction specs as [|s' specs IH]; intros acc eps s N H I; [destruct I|]. cbn [build_endpoints] in H.
  destruct (make_endpoint al issuer s') as [j|] eqn:M; cbn [rbind] in H; [|discriminate]. cbn [map] in N. inversion N as [|? ? N1 N2]; subst.
  destruct I as [<-|I]; [|exact (IH _ _ _ N2 H I)]. exists j. split; [exact M|].
  destruct (make_ok _ _ _ _ M) as (c & kw & i0 & i1 & path & E & _ & _ & _ & _ & F & _).
  rewrite (build_keep _ _ _ _ _ _ H N1). unfold spec_name. rewrite E, F. apply dget_dset_eq.
Qed.
Lemma build_nodup al issuer : forall specs acc eps, build_endpoints al issuer specs acc = Ok eps -> NoDup (dkeys acc) -> NoDup (dkeys eps).
Proof.
  induction specs as [|s specs IH]; intros acc eps H N; cbn [build_endpoints] in H.
  - now assert (acc = eps) as <- by congruence.
  - destruct (make_endpoint al issuer s) as [j|]; cbn [rbind] in H; [|discriminate]. apply (IH _ _ H). now apply NoDup_dset.
Qed.

(** ** Addresses *)
Lemma full_address issuer path : address issuer path (base_url issuer ++ "/" ++ path).
Proof.
  unfold base_url. destruct (ends_with "/" issuer) eqn:E.
  - apply LogoutProofs.ends_slash in E. destruct E as (b & ->). left. exists b. split; [reflexivity|].
    assert (S : (slen (b ++ "/") - 1)%nat = slen b). { rewrite slen_app. cbn. lia. } rewrite S, stake_app. reflexivity.
  - right. split; [|reflexivity]. intros b ->. assert (ends_with "/" (b ++ "/") = true) by (apply LogoutProofs.ends_slash; eauto). congruence.
Qed.

(** ** Provider information *)
Lemma pinfo_get cf idt cap k : NoDup (dkeys idt) -> (forall x, In x (dkeys idt) -> In x id_token_names) ->
  dget k (create_providerinfo cf idt cap) =
    match dget k idt with
    | Some v => Some v
    | None =>
        if String.eqb k "jwks_uri" && cf_keys cf then Some (VStr (jwks_uri cf))
        else if String.eqb k "acr_values_supported" && negb (is_nil (cf_acrs cf)) then Some (VList (cf_acrs cf))
        else if String.eqb k "version" then Some (VStr "3.0")
        else if String.eqb k "issuer" then Some (VStr (cf_issuer cf))
        else match dget k cap with
             | Some v => Some v
             | None => if String.eqb k "scopes_supported" then Some (vstrs (dkeys (cf_scope2claims cf)))
                       else if String.eqb k "claims_supported" then Some (vstrs (cf_standard cf)) else None
             end
    end.
Proof.
  intros N I. unfold create_providerinfo. cbv zeta.
  set (p1 := dset "version" _ _).
  set (p2 := if is_nil (cf_acrs cf) then p1 else _). set (p3 := if cf_keys cf then _ else p2). set (p4 := dupdate p3 idt).
  assert (E1 : forall k, dget k p1 = if String.eqb k "version" then Some (VStr "3.0") else if String.eqb k "issuer" then Some (VStr (cf_issuer cf)) else dget k cap).
  { intros x. unfold p1. now rewrite !dget_dset. }
  assert (E2 : forall k, dget k p2 = if String.eqb k "acr_values_supported" && negb (is_nil (cf_acrs cf)) then Some (VList (cf_acrs cf)) else dget k p1).
  { intros x. unfold p2. destruct (is_nil (cf_acrs cf)); [now rewrite andb_false_r|]. rewrite dget_dset, andb_true_r. reflexivity. }
  assert (E3 : forall k, dget k p3 = if String.eqb k "jwks_uri" && cf_keys cf then Some (VStr (jwks_uri cf)) else dget k p2).
  { intros x. unfold p3. destruct (cf_keys cf); [|now rewrite andb_false_r]. rewrite dget_dset, andb_true_r. reflexivity. }
  assert (E4 : forall k, dget k p4 = match dget k idt with Some v => Some v | None => dget k p3 end).
  { intros x. unfold p4. rewrite dget_dupdate, dget_rev by exact N. reflexivity. }
  set (p5 := if dmem "scopes_supported" p4 then p4 else _).
  assert (E5 : forall k, dget k p5 = match dget k p4 with Some v => Some v | None => if String.eqb k "scopes_supported" then Some (vstrs (dkeys (cf_scope2claims cf))) else None end).
  { intros x. unfold p5, dmem. destruct (dget "scopes_supported" p4) eqn:G.
    - destruct (String.eqb_spec x "scopes_supported") as [->|M]; [now rewrite G|now destruct (dget x p4)].
    - rewrite dget_dset. destruct (String.eqb_spec x "scopes_supported") as [->|M]; [now rewrite G|now destruct (dget x p4)]. }
  assert (E6 : dget k (if dmem "claims_supported" p5 then p5 else dset "claims_supported" (vstrs (cf_standard cf)) p5) =
               match dget k p5 with Some v => Some v | None => if String.eqb k "claims_supported" then Some (vstrs (cf_standard cf)) else None end).
  { unfold dmem. destruct (dget "claims_supported" p5) eqn:G.
    - destruct (String.eqb_spec k "claims_supported") as [->|M]; [now rewrite G|now destruct (dget k p5)].
    - rewrite dget_dset. destruct (String.eqb_spec k "claims_supported") as [->|M]; [now rewrite G|now destruct (dget k p5)]. }
  refine (eq_trans E6 _). rewrite E5, E4. destruct (dget k idt) as [v|]; [reflexivity|]. rewrite E3.
  destruct (String.eqb k "jwks_uri" && cf_keys cf); [reflexivity|]. rewrite E2.
  destruct (String.eqb k "acr_values_supported" && negb (is_nil (cf_acrs cf))); [reflexivity|]. rewrite E1.
  destruct (String.eqb k "version"); [reflexivity|]. destruct (String.eqb k "issuer"); [reflexivity|].
  destruct (dget k cap); [reflexivity|]. now destruct (String.eqb k "scopes_supported").
Qed.
(** What a set-up that succeeds consists of *)
Lemma setup_ok al cf pv : provider_setup al cf = Ok pv ->
  exists idt, info_entries al (cf_id_token cf) id_token_capabilities [] = Ok idt /\
    build_endpoints al (cf_issuer cf) (cf_endpoints cf) [] = Ok (pv_endpoints pv) /\
    pv_info pv = create_providerinfo cf idt (fold_left add_info (pv_endpoints pv) (match cf_capabilities cf with Some c => c | None => [] end)) /\
    pv_capabilities pv = (match cf_capabilities cf with Some _ => Some (pv_info pv) | None => None end) /\
    (if dmem "token" (pv_endpoints pv) then rmap Some (allow_refresh_token (cf_refresh cf) (pv_capabilities pv)) else Ok None) = Ok (pv_allow_refresh pv).
Proof.
  unfold provider_setup. intros H. destruct (info_entries al (cf_id_token cf) id_token_capabilities []) as [idt|]; cbn [rbind] in H; [|discriminate].
  destruct (build_endpoints al (cf_issuer cf) (cf_endpoints cf) []) as [eps|]; cbn [rbind] in H; [|discriminate]. cbv zeta in H.
  destruct (if dmem "token" eps then _ else _) as [allow|] eqn:A; cbn [rbind] in H; [|discriminate].
  injection H as <-. exists idt. cbn [pv_endpoints pv_info pv_capabilities pv_allow_refresh]. auto.
Qed.
Lemma idt_names al kw idt : info_entries al kw id_token_capabilities [] = Ok idt -> NoDup (dkeys idt) /\ forall x, In x (dkeys idt) -> In x id_token_names.
Proof.
  intros H. split; [exact (entries_nodup _ _ _ _ _ H (NoDup_nil _))|]. intros x I. destruct (entries_keys _ _ _ _ _ x H I) as [J|[]]. exact J.
Qed.
(** What is published: what the provider says itself, configured capabilities, entries of endpoints *)
Lemma published al cf pv k : provider_setup al cf = Ok pv -> ~ says_itself cf k -> ~ In k ["scopes_supported"; "claims_supported"] ->
  dget k (pv_info pv) = match capable cf k with Some v => Some v | None => first_info k (pv_endpoints pv) end.
Proof.
  intros H N M. destruct (setup_ok _ _ _ H) as (idt & I & B & P & _). destruct (idt_names _ _ _ I) as (D & F). rewrite P, pinfo_get by assumption.
  assert (dget k idt = None) as ->. { apply dget_None_key. intros J. apply N. do 4 right. now apply F. }
  assert (G : dget k (fold_left add_info (pv_endpoints pv) match cf_capabilities cf with Some c => c | None => [] end) =
              match capable cf k with Some v => Some v | None => first_info k (pv_endpoints pv) end).
  { rewrite add_infos. unfold capable. destruct (cf_capabilities cf) as [c|]; reflexivity. }
  rewrite G.
  assert ((String.eqb k "jwks_uri" && cf_keys cf)%bool = false) as ->.
  { destruct (String.eqb_spec k "jwks_uri") as [->|]; [|reflexivity]. destruct (cf_keys cf) eqn:K; [|reflexivity]. elim N. do 3 right. left. auto. }
  assert ((String.eqb k "acr_values_supported" && negb (is_nil (cf_acrs cf)))%bool = false) as ->.
  { destruct (String.eqb_spec k "acr_values_supported") as [->|]; [|reflexivity]. destruct (cf_acrs cf) eqn:K; [reflexivity|]. elim N. do 2 right. left. split; [reflexivity|congruence]. }
  destruct (String.eqb_spec k "version"); [elim N; right; left; assumption|]. destruct (String.eqb_spec k "issuer"); [elim N; left; assumption|].
  destruct (String.eqb_spec k "scopes_supported"); [elim M; left; congruence|]. destruct (String.eqb_spec k "claims_supported"); [elim M; right; left; congruence|].
  destruct (match capable cf k with Some v => Some v | None => first_info k (pv_endpoints pv) end); reflexivity.
Qed.

(** ** Classes of the library *)
Lemma library_cases init c : In c (library init) ->
  c = OAuth2Authorization init \/ c = Authorization init \/ c = TokenEP init \/ c = UserInfoEP init \/ c = SessionEP init \/ c = RegistrationEP init \/
  c = RegistrationReadEP init \/ c = IntrospectionEP init \/ c = PushedEP init \/ c = ProviderConfigEP init \/ c = DiscoveryEP init.
Proof. cbn. intuition. Qed.
Ltac lib := match goal with H : In _ (library _) |- _ => apply library_cases in H; destruct H as [->|[->|[->|[->|[->|[->|[->|[->|[->|[->| ->]]]]]]]]]] end.
Definition defaults (c : eclass) : msg := match ec_defaults c with Some d => d | None => [] end.
Fixpoint nodupb (l : list string) : bool := match l with [] => true | x :: l' => negb (smem x l') && nodupb l' end.
Lemma nodup_dec l : nodupb l = true -> NoDup l.
Proof.
  induction l as [|x l IH]; cbn [nodupb]; intros H; constructor; apply andb_true_iff in H; destruct H as (A & B); [|auto].
  apply smem_false. now destruct (smem x l).
Qed.
Lemma lib_nodup init c : In c (library init) -> NoDup (dkeys (defaults c)).
Proof. intros I. lib; apply nodup_dec; reflexivity. Qed.
Lemma lib_names init c k : In c (library init) -> In k endpoint_names -> ~ In k ("token_endpoint_auth_methods_supported" :: dkeys (defaults c)).
Proof.
  intros I K. apply smem_false.
  assert (A : forallb (fun k => negb (smem k ("token_endpoint_auth_methods_supported" :: dkeys (defaults c)))) endpoint_names = true) by (lib; reflexivity).
  rewrite forallb_forall in A. specialize (A k K). now destruct (smem k _).
Qed.
Lemma lib_algs init c k dv t : In c (library init) -> In (k, dv) (defaults c) -> algs_of k = Some t -> dv = VNone.
Proof.
  intros I K A. assert (B : forallb (fun e => match algs_of (fst e), snd e with Some _, VNone => true | Some _, _ => false | None, _ => true end) (defaults c) = true).
  { lib; vm_compute; reflexivity. }
  rewrite forallb_forall in B. specialize (B _ K). cbn [fst snd] in B. rewrite A in B. destruct dv; try discriminate. reflexivity.
Qed.
Lemma lib_ep init c : In c (library init) -> In (ec_endpoint_name c) (""%string :: endpoint_names).
Proof. intros I. apply smem_In. lib; reflexivity. Qed.
Lemma lib_ep_neq init c k : In c (library init) -> k <> ""%string -> ~ In k endpoint_names -> ec_endpoint_name c <> k.
Proof. intros I N E <-. destruct (lib_ep _ _ I) as [X|X]; [now symmetry in X|contradiction]. Qed.
Lemma lib_post init c kw i0 info k : In c (library init) -> ec_post c kw i0 = Ok info -> k <> "token_endpoint_auth_methods_supported"%string ->
  match info with Some i => dget k i | None => None end = match i0 with Some i => dget k i | None => None end.
Proof.
  intros I P N. lib; try (match goal with |- _ => unfold plain, plain_post in P; cbn in P; injection P as ->; reflexivity end). cbn [TokenEP ec_post] in P. unfold token_post in P.
  destruct (dget "client_authn_method" kw); [|now assert (i0 = info) as -> by congruence].
  destruct i0 as [i|]; [|discriminate]. assert (info = Some (dset "token_endpoint_auth_methods_supported" v i)) as -> by congruence. now apply dget_dset_neq.
Qed.
Definition entry_of (i : inst) (k : string) : option val := match in_info i with Some info => dget k info | None => None end.
Definition given_kwargs (s : espec) : msg := match es_kwargs s with Some k => k | None => [] end.
Lemma lib_make init al issuer s i : make_endpoint al issuer s = Ok i -> In (in_class i) (library init) ->
  es_class s = Ok (in_class i) /\ es_path s = Some (in_path i) /\ in_full_path i = (base_url issuer ++ "/" ++ in_path i)%string /\
  (forall k, In k endpoint_names -> entry_of i k = if String.eqb k (ec_endpoint_name (in_class i)) then Some (VStr (in_full_path i)) else None) /\
  exists kw, ec_pre (in_class i) issuer (given_kwargs s) = Ok kw /\
    forall k, k <> ""%string -> ~ In k endpoint_names -> k <> "token_endpoint_auth_methods_supported"%string ->
      (~ In k (dkeys (defaults (in_class i))) -> entry_of i k = None) /\
      (forall dv, In (k, dv) (defaults (in_class i)) -> info_entry al kw k dv = Ok (entry_of i k)).
Proof.
  intros M L. destruct (make_ok _ _ _ _ M) as (c & kw & i0 & info & path & E & P & Q & C & R & F & G & H & J). rewrite F in *. subst path.
  split; [exact E|]. split; [exact P|]. split; [exact H|].
  assert (D : forall k, k <> "token_endpoint_auth_methods_supported"%string ->
     (~ In k (dkeys (defaults c)) -> match info with Some i => dget k i | None => None end = None) /\
     (forall dv, In (k, dv) (defaults c) -> info_entry al kw k dv = Ok (match info with Some i => dget k i | None => None end))).
  { intros k N. rewrite (lib_post init c kw i0 info k L R N). unfold construct_endpoint_info, defaults in *.
    assert (ND := lib_nodup init c L). unfold defaults in ND. destruct (ec_defaults c) as [d|].
    - destruct (info_entries al kw d []) as [m|] eqn:S; cbn [rmap] in C; [|discriminate]. assert (i0 = Some m) as -> by congruence. split.
      + intros K. now rewrite (entries_absent _ _ _ _ _ k S K).
      + intros dv K. destruct (entries_present _ _ _ ND _ _ _ _ S K) as (e & A & B). rewrite A, B. now destruct e.
    - assert (i0 = None) as -> by congruence. split; [reflexivity|]. intros dv []. }
  split.
  - intros k K. assert (N := lib_names init c k L K). unfold entry_of. rewrite J. destruct (nonempty (ec_endpoint_name c)) eqn:NE.
    + rewrite dget_dset. rewrite H. destruct (String.eqb_spec k (ec_endpoint_name c)) as [->|X]; [reflexivity|].
      assert (Y : match info with Some i => dget k i | None => None end = None) by (apply D; intros Z; apply N; [left; congruence|right; exact Z]).
      now destruct info.
    + assert (ec_endpoint_name c = ""%string) as ->. { destruct (String.eqb_spec (ec_endpoint_name c) ""); [assumption|]. assert (nonempty (ec_endpoint_name c) = true) by now apply nonempty_true. congruence. }
      destruct (String.eqb_spec k "") as [->|]; [cbn in K; intuition discriminate|]. apply D; intros Z; apply N; [left; congruence|right; exact Z].
  - exists kw. split; [exact Q|]. intros k K1 K2 K3. assert (X := lib_ep_neq init c k L K1 K2).
    assert (Y : entry_of i k = match info with Some i => dget k i | None => None end).
    { unfold entry_of. rewrite J. destruct (nonempty (ec_endpoint_name c)); [|reflexivity]. rewrite dget_dset_neq by congruence. now destruct info. }
    rewrite Y. now apply D.
Qed.

Lemma first_info_in k eps v : first_info k eps = Some v -> exists n i, In (n, i) eps /\ ~ In n ["webfinger"; "provider_config"] /\ entry_of i k = Some v.
Proof.
  induction eps as [|[n i] eps IH]; cbn [first_info fst snd]; [discriminate|]. destruct (smem n ["webfinger"; "provider_config"]) eqn:S.
  - intros H. destruct (IH H) as (n' & i' & I & J). exists n', i'. split; [now right|exact J].
  - apply smem_false in S. unfold entry_of. destruct (in_info i) as [info|] eqn:X.
    + destruct (dget k info) as [w|] eqn:W.
      * intros H. exists n, i. rewrite X. split; [now left|]. split; [exact S|congruence].
      * intros H. destruct (IH H) as (n' & i' & I & J). exists n', i'. split; [now right|exact J].
    + intros H. destruct (IH H) as (n' & i' & I & J). exists n', i'. split; [now right|exact J].
Qed.
Lemma first_info_some k eps n i v : In (n, i) eps -> ~ In n ["webfinger"; "provider_config"] -> entry_of i k = Some v ->
  exists w, first_info k eps = Some w.
Proof.
  intros I N E. induction eps as [|[n' i'] eps IH]; [destruct I|]. cbn [first_info fst snd]. destruct I as [I|I].
  - injection I as -> ->. apply smem_false in N. rewrite N. unfold entry_of in E. destruct (in_info i); [|discriminate]. rewrite E. eauto.
  - destruct (IH I) as (w & W). destruct (smem n' _); [eauto|]. destruct (in_info i') as [info|]; [|eauto]. destruct (dget k info); eauto.
Qed.

Lemma lib_in init al cf pv n i : provider_setup al cf = Ok pv -> of_library init cf -> In (n, i) (pv_endpoints pv) ->
  exists s, In s (cf_endpoints cf) /\ make_endpoint al (cf_issuer cf) s = Ok i /\ n = ec_name (in_class i) /\ In (in_class i) (library init).
Proof.
  intros H L I. destruct (setup_ok _ _ _ H) as (idt & _ & B & _). destruct (build_in _ _ _ _ _ B n i I) as [[]|(s & S & M & N)].
  exists s. split; [exact S|]. split; [exact M|]. split; [exact N|]. unfold of_library in L. rewrite Forall_forall in L. destruct (L s S) as (c & E & F).
  destruct (make_ok _ _ _ _ M) as (c' & kw & i0 & i1 & path & E' & _ & _ & _ & _ & G & _). rewrite G. assert (c' = c) by congruence. now subst.
Qed.
Lemma names_not cf k : In k endpoint_names -> ~ says_itself cf k /\ ~ In k ["scopes_supported"; "claims_supported"].
Proof.
  intros K. cbn in K. split.
  - intros [->|[->|[(-> & _)|[(-> & _)|J]]]]; try (cbn in K; intuition discriminate).
    cbn in J. destruct J as [<-|[<-|[<-|[]]]]; cbn in K; intuition discriminate.
  - intros [<-|[<-|[]]]; cbn in K; intuition discriminate.
Qed.

(** ** Algorithms *)
Lemma rank_spec a z : alg_rank a = Some z <-> exists n, rank a n /\ z = Z.of_nat n.
Proof.
  unfold alg_rank, rank, ALG_SORT_ORDER. set (p := stake 2 a). cbn [dget]. split.
  - repeat match goal with |- context [String.eqb p ?s] => destruct (String.eqb_spec p s) as [->|?] end; intros E; try discriminate; injection E as <-.
    + now exists 0.
    + now exists 1.
    + now exists 2.
    + now exists 3.
    + now exists 4.
  - intros (n & N & ->). do 5 (destruct n as [|n]; [injection N as <-; reflexivity|]). destruct n; discriminate.
Qed.
Lemma alg_leb_before a b : alg_leb a b = true -> before a b.
Proof.
  unfold alg_leb. destruct (alg_rank a) as [x|] eqn:A; [|discriminate]. destruct (alg_rank b) as [y|] eqn:B; [|discriminate].
  apply rank_spec in A. apply rank_spec in B. destruct A as (m & A & ->), B as (n & B & ->). intros H. exists m, n. split; [exact A|]. split; [exact B|].
  apply orb_true_iff in H. destruct H as [H|H]; [left; apply Z.ltb_lt in H; lia|right]. apply andb_true_iff in H. destruct H as (H & L). split; [apply Z.eqb_eq in H; lia|exact L].
Qed.
Lemma alg_leb_total a b : alg_rank a <> None -> alg_rank b <> None -> alg_leb a b = false -> alg_leb b a = true.
Proof.
  unfold alg_leb. destruct (alg_rank a) as [x|]; [|congruence]. destruct (alg_rank b) as [y|]; [|congruence]. intros _ _ H.
  apply orb_false_iff in H. destruct H as (H & L). apply Z.ltb_ge in H. apply andb_false_iff in L. apply orb_true_iff. destruct L as [L|L].
  - left. apply Z.ltb_lt. apply Z.eqb_neq in L. lia.
  - destruct (Z.eqb_spec y x) as [E|E]; [right; cbn|left; apply Z.ltb_lt; lia]. destruct (String.leb_total a b) as [T|T]; [congruence|exact T].
Qed.
Lemma insert_perm a l : Permutation (a :: l) (insert_alg a l).
Proof.
  induction l as [|b l IH]; cbn [insert_alg]; [reflexivity|]. destruct (alg_leb a b); [reflexivity|].
  transitivity (b :: a :: l); [constructor|]. now constructor.
Qed.
Lemma insert_sorted a l : alg_rank a <> None -> Forall (fun b => alg_rank b <> None) l -> Sorted before l -> Sorted before (insert_alg a l).
Proof.
  intros A F S. induction S as [|b l S IH H]; cbn [insert_alg]; [repeat constructor|]. inversion F as [|? ? F1 F2]; subst.
  destruct (alg_leb a b) eqn:E.
  - constructor; [now constructor|]. constructor. now apply alg_leb_before.
  - constructor; [now apply IH|]. assert (B := alg_leb_before _ _ (alg_leb_total _ _ A F1 E)). destruct l as [|c l]; cbn [insert_alg]; [now constructor|].
    destruct (alg_leb a c); constructor; [exact B|]. now inversion H.
Qed.
Lemma sort_order l l' : sort_algs l = Ok l' -> in_order l l'.
Proof.
  unfold sort_algs, in_order. destruct l as [|x [|y l]]; intros H.
  - assert (l' = []) as -> by congruence. split; [reflexivity|constructor].
  - assert (l' = [x]) as -> by congruence. split; [reflexivity|repeat constructor].
  - revert H. set (k := x :: y :: l). destruct (forallb _ k) eqn:F; [|discriminate]. intros H. assert (l' = fold_right insert_alg [] k) as -> by congruence. clear H.
    assert (G : Forall (fun b => alg_rank b <> None) k).
    { rewrite forallb_forall in F. apply Forall_forall. intros b B. specialize (F b B). now destruct (alg_rank b). }
    clear F. induction k as [|a k IH]; cbn [fold_right]; [split; [reflexivity|constructor]|]. inversion G as [|? ? G1 G2]; subst. destruct (IH G2) as (P & S). split.
    + transitivity (a :: fold_right insert_alg [] k); [now constructor|apply insert_perm].
    + apply insert_sorted; [exact G1| |exact S]. apply Forall_forall. intros b B. rewrite Forall_forall in G2. apply G2. now apply Permutation_sym in P; apply (Permutation_in _ P).
Qed.
Lemma sort_in l l' x : sort_algs l = Ok l' -> (In x l' <-> In x l).
Proof. intros H. destruct (sort_order _ _ H) as (P & _). split; apply Permutation_in; [now apply Permutation_sym|exact P]. Qed.

Lemma supported_algs al k l : supported al k l <->
  (exists t, algs_of k = Some t /\ l = match t with SigningAlg => al_sign al | EncryptionAlg => al_alg al | EncryptionEnc => al_enc al end).
Proof.
  unfold supported, algs_of. destruct (contains "signing_alg_values_supported" k); [split; [eauto|]; intros (t & E & ->); now injection E as <-|].
  destruct (contains "encryption_alg_values_supported" k); [split; [eauto|]; intros (t & E & ->); now injection E as <-|].
  destruct (contains "encryption_enc_values_supported" k); [split; [intros (_ & ->); eauto|]; intros (t & E & ->); injection E as <-; auto|].
  split; [intros (E & _); discriminate|]. intros (t & E & _). discriminate.
Qed.
Lemma assign_in al k l t l' : supported al k l -> algs_of k = Some t -> assign_algorithms al t = Ok l' -> forall x, In x l' <-> In x l.
Proof.
  intros S T A x. apply supported_algs in S. destruct S as (t' & T' & ->). assert (t' = t) by congruence. subst. destruct t; cbn [assign_algorithms] in A.
  - now apply sort_in.
  - now assert (l' = al_alg al) as -> by congruence.
  - now assert (l' = al_enc al) as -> by congruence.
Qed.
Lemma superset_ok p l : issuperset p (VList l) = Ok true -> forall x, In x l -> exists s, x = VStr s /\ In s p.
Proof.
  unfold issuperset. cbn [Registration.iter_val rbind]. destruct (forallb Registration.hashable l); [|discriminate]. intros H x I. injection H as H.
  rewrite forallb_forall in H. specialize (H x I). destruct x; try discriminate. apply smem_In in H. eauto.
Qed.
(** What one entry offers *)
Lemma entry_algs al kw k l v : supported al k l -> l <> [] -> info_entry al kw k VNone = Ok (Some (VList v)) -> forall x, In x v -> exists s, x = VStr s /\ In s l.
Proof.
  intros S NE E x I. destruct (proj1 (supported_algs _ _ _) S) as (t & T & EL). unfold info_entry in E. rewrite T in E.
  destruct (assign_algorithms al t) as [l'|] eqn:A; [|destruct (dget k kw); discriminate]. assert (M := assign_in _ _ _ _ _ S T A).
  destruct (dget k kw) as [proposal|]; cbn [rmap rbind] in E.
  - destruct l' as [|y l']. { destruct l as [|z l]; [congruence|]. destruct (proj2 (M z)); now left. }
    destruct (issuperset (y :: l') proposal) as [[]|] eqn:X; cbn [rbind] in E; try discriminate. assert (proposal = VList v) by congruence. subst proposal.
    destruct (superset_ok _ _ X x I) as (s & -> & J). exists s. split; [reflexivity|]. now apply M.
  - unfold vstrs in E. injection E as <-. apply in_map_iff in I. destruct I as (s & <- & I). exists s. split; [reflexivity|]. apply M.
    destruct (String.eqb _ _); [now apply In_sremove in I|exact I].
Qed.

Lemma lib_pre init c issuer kw0 kw k : In c (library init) -> ec_pre c issuer kw0 = Ok kw -> k <> "check_session_iframe"%string -> dget k kw = dget k kw0.
Proof.
  intros I P N. assert (Q : forall kw1 n, plain_pre init n issuer kw1 = Ok kw -> kw1 = kw).
  { intros kw1 n X. unfold plain_pre in X. destruct (init n kw1); cbn [rbind] in X; [|discriminate]. congruence. }
  lib; try (cbn [plain ec_pre OAuth2Authorization Authorization TokenEP UserInfoEP RegistrationEP RegistrationReadEP IntrospectionEP PushedEP ProviderConfigEP DiscoveryEP] in P; apply Q in P; now subst).
  cbn [SessionEP ec_pre] in P. destruct (session_pre issuer kw0) as [kw1|] eqn:S; cbn [rbind] in P; [|discriminate]. apply Q in P. subst kw1.
  unfold session_pre in S. destruct (truthy_get "check_session_iframe" kw0) as [[| | |s| |]|]; try discriminate; [|now assert (kw0 = kw) as -> by congruence].
  destruct (starts_with "http" s); [now assert (kw0 = kw) as -> by congruence|].
  assert (kw = dset "check_session_iframe" (VStr (add_path issuer s)) kw0) as -> by congruence. now apply dget_dset_neq.
Qed.
Lemma published_scopes al cf pv : provider_setup al cf = Ok pv ->
  dget "scopes_supported" (pv_info pv) =
    match capable cf "scopes_supported" with
    | Some v => Some v
    | None => match first_info "scopes_supported" (pv_endpoints pv) with Some v => Some v | None => Some (vstrs (dkeys (cf_scope2claims cf))) end
    end.
Proof.
  intros H. destruct (setup_ok _ _ _ H) as (idt & I & B & P & _). destruct (idt_names _ _ _ I) as (D & F). rewrite P, pinfo_get by assumption.
  assert (dget "scopes_supported" idt = None) as ->. { apply dget_None_key. intros J. apply F in J. cbn in J. intuition discriminate. }
  cbn [String.eqb Ascii.eqb Bool.eqb andb]. rewrite add_infos. unfold capable. destruct (cf_capabilities cf) as [c|]; [|reflexivity]. now destruct (dget "scopes_supported" c).
Qed.
Lemma lib_web init c : In c (library init) -> In (ec_endpoint_name c) endpoint_names -> ~ In (ec_name c) ["webfinger"; "provider_config"].
Proof. intros C N. apply smem_false. apply smem_In in N. lib; try reflexivity; discriminate N. Qed.
Lemma lib_inj init c c' : In c (library init) -> In c' (library init) -> In (ec_endpoint_name c) endpoint_names -> ec_endpoint_name c = ec_endpoint_name c' -> ec_name c' = ec_name c.
Proof. intros C C' N Z. apply smem_In in N. lib; lib; reflexivity || discriminate Z || discriminate N. Qed.
Lemma lib_added init c : In c (library init) ->
  smem (ec_name c) ["authorization_endpoint"; "registration_endpoint"; "token_endpoint"; "userinfo_endpoint"; "end_session_endpoint"] = false.
Proof. intros C. lib; reflexivity. Qed.
Lemma sup_name al k l cf : supported al k l -> k <> ""%string /\ ~ In k endpoint_names /\ k <> "token_endpoint_auth_methods_supported"%string /\
  k <> "check_session_iframe"%string /\ ~ In k ["scopes_supported"; "claims_supported"]%string /\ (says_itself cf k -> In k id_token_names).
Proof.
  intros S. destruct (proj1 (supported_algs _ _ _) S) as (t & T & _). assert (X : forall x, algs_of x = None -> k <> x) by congruence.
  split; [now apply X|]. split. { cbn. intros J. repeat (destruct J as [J|J]; [symmetry in J; now apply X in J|]). exact J. }
  split; [now apply X|]. split; [now apply X|]. split. { cbn. intros J. repeat (destruct J as [J|J]; [symmetry in J; now apply X in J|]). exact J. }
  intros [J|[J|[(J & _)|[(J & _)|J]]]]; [..|exact J]; now apply X in J.
Qed.
(** Where the algorithms that are published come from *)
Lemma algs_from init al cf pv k l v : provider_setup al cf = Ok pv -> of_library init cf -> supported al k l -> dget k (pv_info pv) = Some v ->
  (In k id_token_names /\ info_entry al (cf_id_token cf) k VNone = Ok (Some v)) \/
  (~ In k id_token_names /\ capable cf k = Some v) \/
  (~ In k id_token_names /\ capable cf k = None /\
    exists s c kw, In s (cf_endpoints cf) /\ es_class s = Ok c /\ In c (library init) /\ In (k, VNone) (defaults c) /\
    dget k kw = dget k (given_kwargs s) /\ info_entry al kw k VNone = Ok (Some v)).
Proof.
  intros H L S V. destruct (sup_name _ _ _ cf S) as (K1 & K2 & K3 & K4 & K5 & K6). destruct (in_dec string_dec k id_token_names) as [I|I]; [left|right].
  - split; [exact I|]. destruct (setup_ok _ _ _ H) as (idt & J & B & P & _). destruct (idt_names _ _ _ J) as (D & F).
    assert (ND : NoDup (dkeys id_token_capabilities)) by (apply nodup_dec; reflexivity).
    assert (M : In (k, VNone) id_token_capabilities) by (destruct I as [<-|[<-|[<-|[]]]]; cbn; auto).
    destruct (entries_present _ _ _ ND _ _ _ _ J M) as (e & E & G). rewrite E. f_equal.
    destruct (proj1 (supported_algs _ _ _) S) as (t & T & _). destruct e as [w|].
    + rewrite P, pinfo_get in V by assumption. rewrite G in V. exact V.
    + exfalso. unfold info_entry in E. rewrite T in E. destruct (dget k (cf_id_token cf)) as [p|]; cbn [rbind] in E.
      * destruct (assign_algorithms al t) as [[|x m]|]; cbn [rmap rbind] in E; try discriminate. destruct (issuperset (x :: m) p) as [[]|]; discriminate.
      * destruct (assign_algorithms al t); discriminate.
  - assert (N : ~ says_itself cf k) by auto. rewrite (published _ _ _ _ H N K5) in V. destruct (capable cf k) as [w|]; [left; split; [exact I|congruence]|right].
    split; [exact I|]. split; [reflexivity|]. destruct (first_info_in _ _ _ V) as (n & i & A & _ & Q). destruct (lib_in init al cf pv _ _ H L A) as (s & Z & M & _ & C).
    destruct (lib_make init _ _ _ _ M C) as (E & _ & _ & _ & kw & R & U). destruct (U k K1 K2 K3) as (U1 & U2).
    exists s, (in_class i), kw. split; [exact Z|]. split; [exact E|]. split; [exact C|].
    destruct (in_dec string_dec k (dkeys (defaults (in_class i)))) as [J|J]; [|rewrite U1 in Q by exact J; discriminate].
    apply in_map_iff in J. destruct J as ((k' & dv) & <- & J). cbn [fst] in *. destruct (proj1 (supported_algs _ _ _) S) as (t & T & _).
    assert (dv = VNone) by (apply (lib_algs init _ _ _ _ C J T)). subst. split; [exact J|]. split; [now apply (lib_pre init _ _ _ _ _ C R)|].
    rewrite (U2 _ J). now f_equal.
Qed.
(** What an attribute nobody has configured says *)
Lemma entry_default al kw k l v : supported al k l -> dget k kw = None -> info_entry al kw k VNone = Ok (Some v) ->
  exists o, (forall x, In x o <-> In x l) /\ (contains "signing_alg_values_supported" k = true -> in_order l o) /\
    v = vstrs (if String.eqb k "token_endpoint_auth_signing_alg_values_supported" then sremove "none" o else o).
Proof.
  intros S N E. destruct (proj1 (supported_algs _ _ _) S) as (t & T & EL). unfold info_entry in E. rewrite N, T in E.
  destruct (assign_algorithms al t) as [o|] eqn:A; cbn [rbind] in E; [|discriminate]. exists o. split; [apply (assign_in _ _ _ _ _ S T A)|].
  split; [|congruence]. intros G. unfold algs_of in T. rewrite G in T. assert (t = SigningAlg) by congruence. subst. now apply sort_order.
Qed.
